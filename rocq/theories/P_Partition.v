(** Lemmas about splitting a bitmap into fragments. *)
From Coq Require Import Reals Lra Lia.
From Flocq Require Import Core IEEE754.BinarySingleNaN.
From Verif Require Import Prelude P_Prelude M_Double S_Double P_Double M_LayoutData M_Zond M_Generator M_Partition S_Partition.
Local Open Scope Z_scope.

Lemma at2_lt {A} r c (g : list (list A)) i j : grid r c g -> (i < r)%nat -> (j < c)%nat -> exists x, at2 g i j = Some x.
Proof.
  intros (L & F) Hi Hj. unfold at2. destruct (nth_error g i) as [row|] eqn:E.
  - rewrite Forall_forall in F. pose proof (F row (nth_error_In _ _ E)) as Lr.
    destruct (nth_error row j) as [x|] eqn:Ex; [exists x; reflexivity|]. apply nth_error_None in Ex. lia.
  - apply nth_error_None in E. lia.
Qed.

Lemma nth_upd {A} (l : list A) i k x : nth_error (upd l i x) k = if (k =? i)%nat then (if (i <? length l)%nat then Some x else None) else nth_error l k.
Proof.
  revert i k. induction l as [|a l IH]; intros [|i] [|k]; cbn [upd nth_error Nat.eqb length]; try reflexivity.
  - destruct (k =? i)%nat; reflexivity.
  - rewrite IH. reflexivity.
Qed.

(** One assignment to the place (i,j) of a grid. *)
Lemma put2 {A} r c (g : list (list A)) i j x : grid r c g -> (i < r)%nat -> (j < c)%nat -> exists row g',
  at_ g i = Ok row /\ (forall y, at2 g i j = Some y -> at_ row j = Ok y) /\
  (let* row' := put_ row j x in put_ g i row') = Ok g' /\ grid r c g' /\
  forall a b, at2 g' a b = if (a =? i)%nat && (b =? j)%nat then Some x else at2 g a b.
Proof.
  intros (L & F) Hi Hj. destruct (nth_error g i) as [row|] eqn:E; [|apply nth_error_None in E; lia].
  assert (Lr : length row = c) by (rewrite Forall_forall in F; exact (F row (nth_error_In _ _ E))).
  exists row, (upd g i (upd row j x)). unfold at_. rewrite E. split; [reflexivity|].
  split. { intros y. unfold at2. rewrite E. intros ->. reflexivity. }
  split. { unfold put_. rewrite Lr. destruct (Nat.ltb_spec j c) as [_|Q]; [|lia]. cbn [bind]. rewrite L. destruct (Nat.ltb_spec i r) as [_|Q]; [|lia]. reflexivity. }
  split.
  - split; [rewrite upd_length; exact L|]. apply Forall_forall. intros q Iq. apply In_nth_error in Iq. destruct Iq as (k & Ek).
    rewrite nth_upd in Ek. destruct (k =? i)%nat.
    + destruct (i <? length g)%nat; [|discriminate Ek]. injection Ek as <-. rewrite upd_length. exact Lr.
    + rewrite Forall_forall in F. exact (F q (nth_error_In _ _ Ek)).
  - intros a b. unfold at2. rewrite nth_upd. destruct (Nat.eqb_spec a i) as [->|Na]; cbn [andb].
    + rewrite E, L. destruct (Nat.ltb_spec i r) as [_|Q]; [|lia]. rewrite nth_upd, Lr.
      destruct (Nat.ltb_spec j c) as [_|Q]; [|lia]. reflexivity.
    + reflexivity.
Qed.

(** The double loop. *)
Lemma double_loop {A} r c (g : list (list A)) (cols : list (list A) -> res nat) (f : nat -> nat -> A -> res A) (h : nat -> nat -> A -> A) :
  grid r c g -> (forall g', grid r c g' -> (0 < r)%nat -> cols g' = Ok c) ->
  (forall i j x, (i < r)%nat -> (j < c)%nat -> at2 g i j = Some x -> f i j x = Ok (h i j x)) ->
  exists g', for_each (upto 0 r) g (fun g i =>
    let* n := cols g in
    for_each (upto 0 n) g (fun g j =>
      let* row := at_ g i in
      let* x := at_ row j in
      let* x' := f i j x in
      let* row' := put_ row j x' in
      put_ g i row')) = Ok g' /\ grid r c g' /\
    forall i j x, (i < r)%nat -> (j < c)%nat -> at2 g i j = Some x -> at2 g' i j = Some (h i j x).
Proof.
  intros G C F.
  destruct (for_upto_inv (fun k g' => grid r c g' /\ forall i j, (i < r)%nat -> (j < c)%nat ->
      at2 g' i j = if (i <? k)%nat then option_map (h i j) (at2 g i j) else at2 g i j)
    (fun g i => let* n := cols g in
    for_each (upto 0 n) g (fun g j =>
      let* row := at_ g i in
      let* x := at_ row j in
      let* x' := f i j x in
      let* row' := put_ row j x' in
      put_ g i row')) 0 r g) as (g' & E & G' & V); [lia|split; [exact G|reflexivity]| |].
  - intros i g1 Hi (G1 & V1). rewrite (C g1 G1) by lia. cbn [bind].
    destruct (for_upto_inv (fun k g' => grid r c g' /\ forall a b, (a < r)%nat -> (b < c)%nat ->
        at2 g' a b = if (a <? i)%nat || ((a =? i)%nat && (b <? k)%nat) then option_map (h a b) (at2 g a b) else at2 g a b)
      (fun g j =>
        let* row := at_ g i in
        let* x := at_ row j in
        let* x' := f i j x in
        let* row' := put_ row j x' in
        put_ g i row') 0 c g1) as (g2 & E2 & G2 & V2); [lia| | |].
    + split; [exact G1|]. intros a b Ha Hb. rewrite V1 by assumption. rewrite andb_false_r, orb_false_r. reflexivity.
    + intros j g2 Hj (G2 & V2). destruct (at2_lt r c g i j G ltac:(lia) ltac:(lia)) as (x & Ex).
      destruct (put2 r c g2 i j (h i j x) G2 ltac:(lia) ltac:(lia)) as (row & g3 & A1 & A2 & A3 & G3 & V3).
      exists g3. rewrite A1. cbn [bind].
      assert (at2 g2 i j = Some x) as Q. { rewrite V2 by lia. rewrite Nat.ltb_irrefl, Nat.ltb_irrefl, andb_false_r. exact Ex. }
      rewrite (A2 x Q). cbn [bind]. rewrite (F i j x) by (lia || exact Ex). cbn [bind]. split; [exact A3|]. split; [exact G3|].
      intros a b Ha Hb. rewrite V3. destruct (Nat.eqb_spec a i) as [->|Na]; cbn [andb].
      * destruct (Nat.eqb_spec b j) as [->|Nb].
        { rewrite Ex. destruct (Nat.ltb_spec j (j + 1)) as [_|?]; [|lia]. rewrite orb_true_r. reflexivity. }
        rewrite V2 by lia. rewrite Nat.eqb_refl. cbn [andb]. destruct (Nat.ltb_spec b j), (Nat.ltb_spec b (j + 1)); try lia; reflexivity.
      * rewrite V2 by lia. destruct (Nat.eqb_spec a i); [lia|]. reflexivity.
    + exists g2. split; [exact E2|]. split; [exact G2|]. intros a b Ha Hb. rewrite V2 by assumption.
      destruct (Nat.ltb_spec b c) as [_|?]; [|lia]. rewrite andb_true_r.
      destruct (Nat.ltb_spec a i), (Nat.eqb_spec a i), (Nat.ltb_spec a (i + 1)); try lia; reflexivity.
  - exists g'. split; [exact E|]. split; [exact G'|]. intros i j x Hi Hj Ex. rewrite V by assumption.
    destruct (Nat.ltb_spec i r) as [_|?]; [|lia]. rewrite Ex. reflexivity.
Qed.

Lemma ColCount_grid stray r c fs : grid r c fs -> (0 < r)%nat -> ColCount stray fs = Ok (Z.of_nat c).
Proof.
  intros (L & F) H. destruct fs as [|row fs]; [cbn in L; lia|]. inversion F; subst. reflexivity.
Qed.

Lemma over_fragments_ok stray r c fs f h : grid r c fs ->
  (forall i j x, (i < r)%nat -> (j < c)%nat -> at2 fs i j = Some x -> f i j x = Ok (h i j x)) ->
  exists fs', over_fragments stray fs f = Ok fs' /\ grid r c fs' /\
    forall i j x, (i < r)%nat -> (j < c)%nat -> at2 fs i j = Some x -> at2 fs' i j = Some (h i j x).
Proof.
  intros G F. destruct (double_loop r c fs (fun g => let* n := ColCount stray g in Ok (Z.to_nat n)) f h G) as (fs' & E & G' & V).
  - intros g' G' Hr. rewrite (ColCount_grid stray r c g' G' Hr). cbn [bind]. rewrite Nat2Z.id. reflexivity.
  - exact F.
  - exists fs'. split; [|split; assumption]. rewrite <- E. unfold over_fragments. destruct G as (-> & _).
    apply for_each_ext. intros g i _. destruct (ColCount stray g); reflexivity.
Qed.

(** ** Indices *)
Lemma indices_ok stray rows cols r c fs : grid r c fs -> (0 < r)%nat -> (0 < c)%nat -> Z.of_nat rows < 2 ^ 63 -> Z.of_nat cols < 2 ^ 63 ->
  exists fs', InitFragmentsIndicies stray rows cols fs = Ok fs' /\ grid r c fs' /\
    forall i j, (i < r)%nat -> (j < c)%nat -> exists f, at2 fs' i j = Some f /\
      let u := Z.of_nat rows / Z.of_nat r in let v := Z.of_nat cols / Z.of_nat c in
      f_boundIndicies f = mkind (Z.of_nat i * u) (to_size ((Z.of_nat i + 1) * u - 1)) (Z.of_nat j * v) (to_size ((Z.of_nat j + 1) * v - 1)).
Proof.
  intros G Hr Hc HR HC. unfold InitFragmentsIndicies. rewrite (proj1 G), (ColCount_grid stray r c fs G Hr).
  destruct (Z.eqb_spec (Z.of_nat r) 0) as [Q|_]; [lia|]. cbn [bind]. destruct (Z.eqb_spec (Z.of_nat c) 0) as [Q|_]; [lia|].
  set (u := Z.of_nat rows / Z.of_nat r). set (v := Z.of_nat cols / Z.of_nat c).
  assert (Hu : 0 <= u /\ Z.of_nat r * u <= Z.of_nat rows) by (unfold u; split; [apply Z.div_pos; lia|apply Z.mul_div_le; lia]).
  assert (Hv : 0 <= v /\ Z.of_nat c * v <= Z.of_nat cols) by (unfold v; split; [apply Z.div_pos; lia|apply Z.mul_div_le; lia]).
  destruct (over_fragments_ok stray r c fs _ (fun i j f =>
    F_SetIndicies f (to_size (Z.of_nat i * u)) (to_size (Z.of_nat j * v)) (to_size (to_size ((Z.of_nat i + 1) * u) - 1)) (to_size (to_size ((Z.of_nat j + 1) * v) - 1))) G
    (fun i j x _ _ _ => eq_refl)) as (fs' & E & G' & V).
  exists fs'. split; [exact E|]. split; [exact G'|]. intros i j Hi Hj. destruct (at2_lt r c fs i j G Hi Hj) as (x & Ex).
  eexists. split; [apply (V i j x Hi Hj Ex)|]. cbv zeta. cbn [F_SetIndicies f_boundIndicies].
  assert (B1 : 0 <= (Z.of_nat i + 1) * u < 2 ^ 63) by nia. assert (B2 : 0 <= (Z.of_nat j + 1) * v < 2 ^ 63) by nia.
  assert (B3 : 0 <= Z.of_nat i * u < 2 ^ 63) by nia. assert (B4 : 0 <= Z.of_nat j * v < 2 ^ 63) by nia.
  unfold to_size. rewrite (Z.mod_small (Z.of_nat i * u)), (Z.mod_small (Z.of_nat j * v)), (Z.mod_small ((Z.of_nat i + 1) * u)), (Z.mod_small ((Z.of_nat j + 1) * v)) by lia.
  reflexivity.
Qed.

(** ** Handing out *)
Lemma concat_nth {A} (g : list (list A)) : map (fun o => o) (map Some (concat g)) = concat (map (fun row => map Some row) g).
Proof. rewrite map_id. induction g as [|row g IH]; [reflexivity|]. cbn [concat map]. rewrite map_app, IH. reflexivity. Qed.

(** A counting double loop. *)
Lemma count_row {A} (P : A -> bool) row c n0 : length row = c ->
  for_each (upto 0 c) n0 (fun n j => let* x := at_ row j in Ok (if P x then (n + 1) mod 2 ^ 32 else n)) =
  Ok (fold_left (fun n x => if P x then (n + 1) mod 2 ^ 32 else n) row n0).
Proof.
  intros L. destruct (for_upto_inv (fun k n => n = fold_left (fun n x => if P x then (n + 1) mod 2 ^ 32 else n) (firstn k row) n0)
    (fun n j => let* x := at_ row j in Ok (if P x then (n + 1) mod 2 ^ 32 else n)) 0 c n0) as (n & E & I); [lia|reflexivity| |].
  - intros k n Hk ->. unfold at_. destruct (nth_error row k) as [x|] eqn:Ex; [|apply nth_error_None in Ex; lia]. cbn [bind].
    eexists. split; [reflexivity|].
    assert (firstn (k + 1) row = firstn k row ++ [x]) as ->; [|rewrite fold_left_app; reflexivity].
    clear - Ex. revert k Ex. induction row as [|a row IH]; intros [|k] Ex; cbn in Ex; try discriminate.
    + injection Ex as ->. reflexivity.
    + cbn [firstn app Nat.add]. f_equal. apply IH, Ex.
  - rewrite E, I. rewrite firstn_all2 by lia. reflexivity.
Qed.

Lemma fold_count {A} (P : A -> bool) l n0 : 0 <= n0 -> n0 + Z.of_nat (length l) < 2 ^ 32 ->
  fold_left (fun n x => if P x then (n + 1) mod 2 ^ 32 else n) l n0 = n0 + Z.of_nat (length (filter P l)).
Proof.
  revert n0. induction l as [|a l IH]; intros n0 H0 H; [cbn; lia|]. cbn [length] in H. cbn [fold_left filter].
  destruct (P a); [rewrite Z.mod_small by lia; rewrite IH by lia; cbn [length]; lia|rewrite IH by lia; lia].
Qed.

Lemma count_grid stray r c fs g : grid r c fs -> Z.of_nat r * Z.of_nat c < 2 ^ 32 ->
  GetFragmentIntersectionCnt stray fs (Some g) = Ok (Z.of_nat (count (fun f => Intersects (f_angleCoords f) (Some g)) fs)).
Proof.
  intros G B. unfold GetFragmentIntersectionCnt. set (P := fun f => Intersects (f_angleCoords f) (Some g)).
  destruct (for_upto_inv (fun k n => n = fold_left (fun n x => if P x then (n + 1) mod 2 ^ 32 else n) (concat (firstn k fs)) 0)
    (fun n i => let* c := ColCount stray fs in for_each (upto 0 (Z.to_nat c)) n (fun n j => let* row := at_ fs i in let* f := at_ row j in
       Ok (if Intersects (f_angleCoords f) (Some g) then (n + 1) mod 2 ^ 32 else n))) 0 (length fs) 0) as (n & E & I); [lia|reflexivity| |].
  - intros k n Hk ->. rewrite (ColCount_grid stray r c fs G) by (destruct G; lia). cbn [bind]. rewrite Nat2Z.id.
    destruct (nth_error fs k) as [row|] eqn:Er; [|apply nth_error_None in Er; lia]. unfold at_ at 1. rewrite Er. cbn [bind].
    rewrite (count_row P row c) by (destruct G as (_ & F); rewrite Forall_forall in F; exact (F row (nth_error_In _ _ Er))).
    eexists. split; [reflexivity|].
    assert (firstn (k + 1) fs = firstn k fs ++ [row]) as ->; [|rewrite concat_app, fold_left_app; cbn [concat]; rewrite app_nil_r; reflexivity].
    clear - Er. revert k Er. induction fs as [|a fs IH]; intros [|k] Ex; cbn in Ex; try discriminate.
    + injection Ex as ->. reflexivity.
    + cbn [firstn app Nat.add]. f_equal. apply IH, Ex.
  - rewrite E, I. rewrite firstn_all2 by lia. rewrite fold_count; [reflexivity|lia|].
    assert (length (concat fs) = (r * c)%nat) as ->; [|lia]. clear - G. destruct G as (<- & F). induction F as [|row fs Lr F IH]; [reflexivity|].
    cbn [concat length]. rewrite app_length, IH, Lr. lia.
Qed.

Lemma push_ok stray box r c fs g p : grid r c fs -> grid r c p -> exists p', push_everywhere stray box fs g p = Ok p' /\ grid r c p' /\
  forall i j l, at2 p i j = Some l -> at2 p' i j = Some (l ++ if Intersects box (Some g) then [g] else []).
Proof.
  intros G P. assert (Inside : forall i j (l : list geom), at2 p i j = Some l -> (i < r)%nat /\ (j < c)%nat).
  { intros i j l A. unfold at2 in A. destruct (nth_error p i) as [row|] eqn:Er; [|discriminate A]. destruct P as (L & F).
    split; [rewrite <- L; apply nth_error_Some; congruence|]. rewrite Forall_forall in F. rewrite <- (F row (nth_error_In _ _ Er)). apply nth_error_Some. congruence. }
  unfold push_everywhere. rewrite (proj1 G). destruct (Intersects box (Some g)) eqn:M.
  - destruct (double_loop r c p (fun _ => let* n := ColCount stray fs in Ok (Z.to_nat n)) (fun _ _ l => Ok (l ++ [g])) (fun _ _ l => l ++ [g]) P) as (p' & E & G' & V).
    + intros _ _ Hr. rewrite (ColCount_grid stray r c fs G Hr). cbn [bind]. rewrite Nat2Z.id. reflexivity.
    + reflexivity.
    + exists p'. split; [|split; [exact G'|intros i j l A; destruct (Inside i j l A); apply V; assumption]].
      rewrite <- E. apply for_each_ext. intros q i _. destruct (ColCount stray fs); [|reflexivity|reflexivity]. cbn [bind]. reflexivity.
  - exists p. split; [|split; [exact P|intros i j l A; rewrite app_nil_r; exact A]].
    destruct (for_upto_inv (fun (_ : nat) q => q = p) (fun pushed i => let* c0 := ColCount stray fs in for_each (upto 0 (Z.to_nat c0)) pushed (fun pushed j => Ok pushed)) 0 r p) as (q & E & ->);
      [lia|reflexivity| |exact E].
    intros k q Hk ->. rewrite (ColCount_grid stray r c fs G) by lia. cbn [bind]. exists p. split; [|reflexivity].
    generalize (upto 0 (Z.to_nat (Z.of_nat c))). intros l. induction l as [|x l IH]; [reflexivity|exact IH].
Qed.

Lemma distribute_walk stray box r c fs : grid r c fs -> Z.of_nat r * Z.of_nat c < 2 ^ 32 ->
  forall after left out ok, walk (handed fs) after left out ok -> forall before p, grid r c p ->
  if ok then exists p', distribute stray box fs before after p = Ok (before ++ left, p') /\ grid r c p' /\
      forall i j l, at2 p i j = Some l -> at2 p' i j = Some (l ++ filter (fun g => Intersects box (Some g)) out)
  else distribute stray box fs before after p = UB OobIndex.
Proof.
  intros G B. assert (Cnt : forall g, exists n, GetFragmentIntersectionCnt stray fs (Some g) = Ok n /\ (2 <? n) = negb (handed fs g)).
  { intros g. eexists. split; [apply (count_grid stray r c fs g G B)|]. unfold handed.
    destruct (Z.ltb_spec 2 (Z.of_nat (count (fun f => Intersects (f_angleCoords f) (Some g)) fs))) as [Q|Q];
      destruct (Nat.leb_spec (count (fun f => Intersects (f_angleCoords f) (Some g)) fs) 2) as [Q'|Q']; first [reflexivity|lia]. }
  intros after left out ok W. induction W as [|x l left out ok H W IH|x y l left out ok H W IH|x H]; intros before p P.
  - exists p. split; [cbn [distribute]; rewrite app_nil_r; reflexivity|]. split; [exact P|]. intros i j l A. cbn [filter]. rewrite app_nil_r. exact A.
  - destruct (Cnt x) as (n & E & E2). cbn [distribute]. rewrite E. cbn [bind]. rewrite E2, H. cbn [negb].
    specialize (IH (before ++ [x]) p P). destruct ok; [|exact IH]. destruct IH as (p' & D & P' & V). exists p'. rewrite D, <- app_assoc. split; [reflexivity|]. split; assumption.
  - destruct (Cnt x) as (n & E & E2). cbn [distribute]. rewrite E. cbn [bind]. rewrite E2, H. cbn [negb].
    destruct (push_ok stray box r c fs x p G P) as (p1 & E1 & P1 & V1). rewrite E1. cbn [bind].
    specialize (IH (before ++ [y]) p1 P1). destruct ok; [|exact IH]. destruct IH as (p' & D & P' & V). exists p'. rewrite D, <- app_assoc. split; [reflexivity|]. split; [exact P'|].
    intros i j l0 A. rewrite (V i j _ (V1 i j l0 A)), <- app_assoc. cbn [filter]. destruct (Intersects box (Some x)); reflexivity.
  - destruct (Cnt x) as (n & E & E2). cbn [distribute]. rewrite E. cbn [bind]. rewrite E2, H. cbn [negb].
    destruct (push_ok stray box r c fs x p G P) as (p1 & E1 & P1 & V1). rewrite E1. reflexivity.
Qed.

Lemma walk_total {A} (h : A -> bool) l : exists left out ok, walk h l left out ok.
Proof.
  assert (Q : forall n l, (length l <= n)%nat -> exists left out ok, walk h l left out ok).
  { induction n as [|n IH]; intros [|x l'] Hl; cbn [length] in Hl; try lia; try (exists [], [], true; constructor).
    destruct (h x) eqn:E.
    - destruct l' as [|y l']; [exists [], [x], false; constructor; exact E|]. cbn [length] in Hl. destruct (IH l' ltac:(lia)) as (a & b & c & W).
      exists (y :: a), (x :: b), c. constructor; assumption.
    - destruct (IH l' ltac:(lia)) as (a & b & c & W). exists (x :: a), b, c. constructor; assumption. }
  exact (Q (length l) l (le_n _)).
Qed.

Lemma walk_all {A} (h : A -> bool) l : (forall x, In x l -> h x = true) ->
  if Nat.even (length l) then walk h l (seconds l) (firsts l) true else exists left out, walk h l left out false.
Proof.
  assert (Q : forall n l, (length l <= n)%nat -> (forall x, In x l -> h x = true) ->
    if Nat.even (length l) then walk h l (seconds l) (firsts l) true else exists left out, walk h l left out false).
  { induction n as [|n IH]; intros [|x [|y l']] Hl H; cbn [length] in Hl; try lia; cbn [length Nat.even seconds firsts]; try constructor.
    - exists [], [x]. constructor. apply H. left. reflexivity.
    - specialize (IH l' ltac:(lia) (fun z I => H z (or_intror (or_intror I)))). destruct (Nat.even (length l')).
      + constructor; [apply H; left; reflexivity|exact IH].
      + destruct IH as (a & b & W). exists (y :: a), (x :: b). constructor; [apply H; left; reflexivity|exact W]. }
  exact (Q (length l) l (le_n _)).
Qed.
