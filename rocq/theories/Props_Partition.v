(** C95, C96, C97: splitting a bitmap and its box into fragments, and handing out the objects. *)
From Coq Require Import Reals Lra Lia.
From Flocq Require Import Core IEEE754.BinarySingleNaN.
From Verif Require Import Prelude P_Prelude M_Double S_Double P_Double M_LayoutData M_Zond M_Generator P_Converter P_Zond M_Partition S_Partition P_Partition P_PartEdge.
Local Open Scope Z_scope.

(** ** C95 *)
(** r x c fragments of a bitmap that has at least that many rows and columns: a cell in the
    first r*(rows/r) rows and c*(cols/c) columns has exactly one fragment in charge; the other
    cells have none. *)
Theorem C95_indices : forall stray rows cols r c fs, grid r c fs -> (0 < r <= rows)%nat -> (0 < c <= cols)%nat ->
  Z.of_nat rows < 2 ^ 63 -> Z.of_nat cols < 2 ^ 63 ->
  exists fs', InitFragmentsIndicies stray rows cols fs = Ok fs' /\ grid r c fs' /\
    forall a b, 0 <= a < Z.of_nat rows -> 0 <= b < Z.of_nat cols ->
      (a < Z.of_nat r * (Z.of_nat rows / Z.of_nat r) -> b < Z.of_nat c * (Z.of_nat cols / Z.of_nat c) ->
        exists i j f, at2 fs' i j = Some f /\ in_charge f a b /\
          forall i' j' f', at2 fs' i' j' = Some f' -> in_charge f' a b -> i' = i /\ j' = j) /\
      (Z.of_nat r * (Z.of_nat rows / Z.of_nat r) <= a \/ Z.of_nat c * (Z.of_nat cols / Z.of_nat c) <= b ->
        forall i j f, at2 fs' i j = Some f -> ~ in_charge f a b).
Proof.
  intros stray rows cols r c fs G Hr Hc HR HC.
  destruct (indices_ok stray rows cols r c fs G ltac:(lia) ltac:(lia) HR HC) as (fs' & E & G' & V). exists fs'. split; [exact E|]. split; [exact G'|].
  assert (Inside : forall i j f, at2 fs' i j = Some f -> (i < r)%nat /\ (j < c)%nat).
  { intros i j f A. unfold at2 in A. destruct (nth_error fs' i) as [row|] eqn:Er; [|discriminate A]. destruct G' as (L & F).
    split; [rewrite <- L; apply nth_error_Some; congruence|]. rewrite Forall_forall in F. rewrite <- (F row (nth_error_In _ _ Er)). apply nth_error_Some. congruence. }
  set (u := Z.of_nat rows / Z.of_nat r) in *. set (v := Z.of_nat cols / Z.of_nat c) in *.
  assert (Hu : 1 <= u /\ Z.of_nat r * u <= Z.of_nat rows). { unfold u. split; [apply Z.div_le_lower_bound; lia|apply Z.mul_div_le; lia]. }
  assert (Hv : 1 <= v /\ Z.of_nat c * v <= Z.of_nat cols). { unfold v. split; [apply Z.div_le_lower_bound; lia|apply Z.mul_div_le; lia]. }
  assert (Charge : forall i j f a b, (i < r)%nat -> (j < c)%nat -> at2 fs' i j = Some f ->
     (in_charge f a b <-> Z.of_nat i * u <= a < (Z.of_nat i + 1) * u /\ Z.of_nat j * v <= b < (Z.of_nat j + 1) * v)).
  { intros i j f a b Hi Hj A. destruct (V i j Hi Hj) as (f0 & A0 & Ind). rewrite A in A0. injection A0 as <-. unfold in_charge. cbv zeta in Ind |- *. rewrite Ind.
    cbn [iBegin iEnd jBegin jEnd]. unfold to_size. rewrite !Z.mod_small by nia. lia. }
  intros a b Ha Hb. split.
  - intros La Lb. exists (Z.to_nat (a / u)), (Z.to_nat (b / v)).
    assert (Ia : 0 <= a / u < Z.of_nat r) by (split; [apply Z.div_pos; lia|apply Z.div_lt_upper_bound; lia]).
    assert (Ib : 0 <= b / v < Z.of_nat c) by (split; [apply Z.div_pos; lia|apply Z.div_lt_upper_bound; lia]).
    destruct (at2_lt r c fs' (Z.to_nat (a / u)) (Z.to_nat (b / v)) G' ltac:(lia) ltac:(lia)) as (f & A). exists f. split; [exact A|].
    pose proof (Z.div_mod a u ltac:(lia)). pose proof (Z.mod_pos_bound a u ltac:(lia)). pose proof (Z.div_mod b v ltac:(lia)). pose proof (Z.mod_pos_bound b v ltac:(lia)).
    split. { apply (Charge (Z.to_nat (a / u)) (Z.to_nat (b / v)) f a b ltac:(lia) ltac:(lia) A). rewrite !Z2Nat.id by lia. rewrite !Z.mul_add_distr_r, !Z.mul_1_l, (Z.mul_comm (a / u)), (Z.mul_comm (b / v)). lia. }
    intros i' j' f' A' C'. destruct (Inside i' j' f' A') as (Hi & Hj). apply (Charge i' j' f' a b Hi Hj A') in C'.
    assert (a / u = Z.of_nat i') by (symmetry; apply Z.div_unique with (a - Z.of_nat i' * u); [left; nia|nia]).
    assert (b / v = Z.of_nat j') by (symmetry; apply Z.div_unique with (b - Z.of_nat j' * v); [left; nia|nia]). lia.
  - intros Out i j f A C'. destruct (Inside i j f A) as (Hi & Hj). apply (Charge i j f a b Hi Hj A) in C'. nia.
Qed.

(** So all cells are covered exactly when the numbers divide. *)
Corollary C95_all_covered : forall stray rows cols r c fs fs', grid r c fs -> (0 < r <= rows)%nat -> (0 < c <= cols)%nat ->
  Z.of_nat rows < 2 ^ 63 -> Z.of_nat cols < 2 ^ 63 -> InitFragmentsIndicies stray rows cols fs = Ok fs' ->
  ((forall a b, 0 <= a < Z.of_nat rows -> 0 <= b < Z.of_nat cols -> exists i j f, at2 fs' i j = Some f /\ in_charge f a b) <->
   (Z.of_nat r | Z.of_nat rows) /\ (Z.of_nat c | Z.of_nat cols)).
Proof.
  intros stray rows cols r c fs fs' G Hr Hc HR HC E. destruct (C95_indices stray rows cols r c fs G Hr Hc HR HC) as (fs2 & E2 & G2 & V).
  rewrite E in E2. injection E2 as <-. split.
  - intros A. destruct (V (Z.of_nat rows - 1) (Z.of_nat cols - 1) ltac:(lia) ltac:(lia)) as (_ & N).
    destruct (A (Z.of_nat rows - 1) (Z.of_nat cols - 1) ltac:(lia) ltac:(lia)) as (i & j & f & F1 & F2).
    assert (P1 : Z.of_nat rows - 1 < Z.of_nat r * (Z.of_nat rows / Z.of_nat r)) by (apply Z.nle_gt; intros Q; exact (N (or_introl Q) i j f F1 F2)).
    assert (P2 : Z.of_nat cols - 1 < Z.of_nat c * (Z.of_nat cols / Z.of_nat c)) by (apply Z.nle_gt; intros Q; exact (N (or_intror Q) i j f F1 F2)).
    pose proof (Z.mul_div_le (Z.of_nat rows) (Z.of_nat r) ltac:(lia)). pose proof (Z.mul_div_le (Z.of_nat cols) (Z.of_nat c) ltac:(lia)).
    split; [exists (Z.of_nat rows / Z.of_nat r)|exists (Z.of_nat cols / Z.of_nat c)]; lia.
  - intros ((x & X) & (y & Y)) a b Ha Hb. destruct (V a b Ha Hb) as (P & _).
    assert (Z.of_nat r * (Z.of_nat rows / Z.of_nat r) = Z.of_nat rows) as Q1 by (rewrite X, Z.div_mul by lia; lia).
    assert (Z.of_nat c * (Z.of_nat cols / Z.of_nat c) = Z.of_nat cols) as Q2 by (rewrite Y, Z.div_mul by lia; lia).
    destruct P as (i & j & f & F1 & F2 & _); [lia|lia|]. exists i, j, f. split; assumption.
Qed.

(** Without fragments, or with rows of no fragments, there is a division by zero. *)
Theorem C95_no_fragments : forall stray rows cols,
  InitFragmentsIndicies stray rows cols [] = UB DivByZero /\
  (forall r fs, grid r 0 fs -> (0 < r)%nat -> InitFragmentsIndicies stray rows cols fs = UB DivByZero).
Proof.
  intros stray rows cols. split; [reflexivity|]. intros r fs G Hr. unfold InitFragmentsIndicies. rewrite (ColCount_grid stray r 0 fs G Hr), (proj1 G).
  destruct (Z.eqb_spec (Z.of_nat r) 0); [lia|]. reflexivity.
Qed.

(** More fragments than rows: every fragment gets the empty range of rows that begins at 0 and
    ends at the largest number there is, so all of them are in charge of every row. *)
Theorem C95_too_many_refuted : forall stray rows cols r c fs, grid r c fs -> (rows < r)%nat -> (0 < c <= cols)%nat ->
  Z.of_nat rows < 2 ^ 63 -> Z.of_nat cols < 2 ^ 63 ->
  exists fs', InitFragmentsIndicies stray rows cols fs = Ok fs' /\
    forall i j f, at2 fs' i j = Some f -> iBegin (f_boundIndicies f) = 0 /\ iEnd (f_boundIndicies f) = 2 ^ 64 - 1.
Proof.
  intros stray rows cols r c fs G Hr Hc HR HC. destruct (indices_ok stray rows cols r c fs G ltac:(lia) ltac:(lia) HR HC) as (fs' & E & G' & V).
  exists fs'. split; [exact E|]. intros i j f A.
  assert (Hij : (i < r)%nat /\ (j < c)%nat).
  { unfold at2 in A. destruct (nth_error fs' i) as [row|] eqn:Er; [|discriminate A]. destruct G' as (L & F).
    split; [rewrite <- L; apply nth_error_Some; congruence|]. rewrite Forall_forall in F. rewrite <- (F row (nth_error_In _ _ Er)). apply nth_error_Some. congruence. }
  destruct (V i j (proj1 Hij) (proj2 Hij)) as (f0 & A0 & Ind). rewrite A in A0. injection A0 as <-. cbv zeta in Ind. rewrite Ind.
  cbn [iBegin iEnd]. rewrite (Z.div_small (Z.of_nat rows)) by lia. rewrite !Z.mul_0_r. split; reflexivity.
Qed.

(** ** C96 *)
(** The workspaces of the fragments: neighbours share their edges, the edges go from left to
    right and from top to bottom, each is less than 1 + 2^-19 away from where it should be; the
    first edges are those of the box, the last ones are at most 1 away from them. *)
Theorem C96_workspaces : forall stray box r c fs x y, grid r c fs -> (0 < r)%nat -> (0 < c)%nat -> Z.of_nat r < 2 ^ 31 -> Z.of_nat c < 2 ^ 31 ->
  let '(L, T, Rt, B) := (cx (leftTop box), cy (leftTop box), cx (rightBot box), cy (rightBot box)) in
  int32 L -> int32 T -> int32 Rt -> int32 B -> 0 <= Rt - L < 2 ^ 31 -> 0 <= T - B < 2 ^ 31 ->
  nearest x (IZR (Rt - L) / IZR (Z.of_nat c)) -> nearest y (IZR (T - B) / IZR (Z.of_nat r)) ->
  exists fs' X Y, InitFragmentsWorkspaces stray box x y fs = Ok fs' /\ grid r c fs' /\
    (forall i j, (i < r)%nat -> (j < c)%nat -> exists f, at2 fs' i j = Some f /\ f_layoutMatrix f = true /\
      f_angleCoords f = mkws (mkcoord (X j) (Y i)) (mkcoord (X (S j)) (Y (S i)))) /\
    X 0%nat = L /\ Y 0%nat = T /\ (forall k, X k <= X (S k)) /\ (forall k, Y (S k) <= Y k) /\
    Z.abs (X c - Rt) <= 1 /\ Z.abs (Y r - B) <= 1 /\
    (forall k, (k <= c)%nat -> (Rabs (IZR (X k) - (IZR L + IZR (Z.of_nat k) * IZR (Rt - L) / IZR (Z.of_nat c))) < 1 + / IZR (2 ^ 19))%R) /\
    (forall k, (k <= r)%nat -> (Rabs (IZR (Y k) - (IZR T - IZR (Z.of_nat k) * IZR (T - B) / IZR (Z.of_nat r))) < 1 + / IZR (2 ^ 19))%R).
Proof.
  intros stray box r c fs x y G Hr Hc Br Bc HL HT HR HB HW HH Nx Ny. unfold int32 in *.
  set (L := cx (leftTop box)) in *. set (T := cy (leftTop box)) in *. set (Rt := cx (rightBot box)) in *. set (B := cy (rightBot box)) in *.
  set (d := rnd (IZR (Rt - L) / IZR (Z.of_nat c))). set (e := rnd (IZR (T - B) / IZR (Z.of_nat r))).
  assert (Rx : real x d) by (apply nearest_real; exact Nx). assert (Ry : real y e) by (apply nearest_real; exact Ny).
  set (X := fun k => edge L d k). set (Y := fun k => - edge (- T) e k).
  assert (EX : forall k, (k <= c)%nat -> cast_int32 (dadd (dz L) (dmul (dz (Z.of_nat k)) x)) = Ok (X k)).
  { intros k Hk. apply (edge_x L (Rt - L) (Z.of_nat c)); (lia || reflexivity || exact Rx). }
  assert (EY : forall k, (k <= r)%nat -> cast_int32 (dsub (dz T) (dmul (dz (Z.of_nat k)) y)) = Ok (Y k)).
  { intros k Hk. apply (edge_y T (T - B) (Z.of_nat r)); (lia || reflexivity || exact Ry). }
  assert (D0 : (0 <= d)%R) by (apply (edge_close L (Rt - L) (Z.of_nat c) 0 d); (lia || reflexivity)).
  assert (E0 : (0 <= e)%R) by (apply (edge_close (- T) (T - B) (Z.of_nat r) 0 e); (lia || reflexivity)).
  assert (MX : forall k, X k <= X (S k)) by (intros k; apply edge_mono; exact D0).
  assert (MY : forall k, Y (S k) <= Y k) by (intros k; unfold Y; pose proof (edge_mono (- T) e k E0); lia).
  destruct (over_fragments_ok stray r c fs (fun i j f =>
    let X (k : nat) := cast_int32 (dadd (dz (cx (leftTop box))) (dmul (dz (Z.of_nat k)) x)) in
    let Y (k : nat) := cast_int32 (dsub (dz (cy (leftTop box))) (dmul (dz (Z.of_nat k)) y)) in
    let* x1 := X j in let* y1 := Y i in let* x2 := X (S j) in let* y2 := Y (S i) in
    let tmp := fst (SetAngleCoords ws_init (mkcoord x1 y1) (mkcoord x2 y2)) in
    F_SetMatrix (F_SetWorkspaceCoords f tmp) true)
   (fun i j f => let w := mkws (mkcoord (X j) (Y i)) (mkcoord (X (S j)) (Y (S i))) in
     mkfragment w (f_boundIndicies f) true (f_dx f) (f_dy f) (SetWorkspaceCoord (f_zond f) w)) G) as (fs' & E & G' & V).
  { intros i j f Hi Hj _. cbv beta zeta. fold L T. rewrite (EX j), (EY i), (EX (S j)), (EY (S i)) by lia. cbn [bind]. unfold SetAngleCoords. cbn [cx cy].
    specialize (MX j). specialize (MY i). destruct (Z.ltb_spec (X (S j)) (X j)) as [Q|_]; [lia|]. destruct (Z.ltb_spec (Y i) (Y (S i))) as [Q|_]; [lia|]. reflexivity. }
  exists fs', X, Y. split; [exact E|]. split; [exact G'|].
  split. { intros i j Hi Hj. destruct (at2_lt r c fs i j G Hi Hj) as (f & A). eexists. split; [apply (V i j f Hi Hj A)|]. split; reflexivity. }
  split; [apply edge_zero; lia|]. split; [unfold Y; rewrite edge_zero; lia|]. split; [exact MX|]. split; [exact MY|].
  split. { pose proof (edge_last L (Rt - L) (Z.of_nat c) d c ltac:(lia) HW ltac:(lia) eq_refl eq_refl). unfold X. lia. }
  split. { pose proof (edge_last (- T) (T - B) (Z.of_nat r) e r ltac:(lia) HH ltac:(lia) eq_refl eq_refl). unfold Y. lia. }
  split.
  - intros k Hk. apply (edge_near L (Rt - L) (Z.of_nat c) d k); (lia || reflexivity).
  - intros k Hk. pose proof (edge_near (- T) (T - B) (Z.of_nat r) e k ltac:(lia) HH ltac:(lia) ltac:(lia) eq_refl) as Q.
    unfold Y. rewrite opp_IZR in Q |- *. rewrite <- Rabs_Ropp. replace (- (- IZR (edge (- T) e k) - (IZR T - IZR (Z.of_nat k) * IZR (T - B) / IZR (Z.of_nat r))))%R
      with (IZR (edge (- T) e k) - (- IZR T + IZR (Z.of_nat k) * IZR (T - B) / IZR (Z.of_nat r)))%R by ring. exact Q.
Qed.

(** The fragments need not reach the right edge of the box: a box one unit wide in 49 columns. *)
Theorem C96_last_edge_refuted : exists x, nearest x (IZR 1 / IZR 49) /\
  cast_int32 (dadd (dz 0) (dmul (dz 49) x)) = Ok 0.
Proof.
  exists (ddiv (dz 1) (dz 49)). split.
  - apply ddiv_ok; [apply dz_exact; lia|apply dz_exact; lia|apply IZR_neq; discriminate|].
    rewrite Rabs_pos_eq by lra. assert (1 <= IZR (2 ^ 64))%R by (apply IZR_le; discriminate). lra.
  - vm_compute. reflexivity.
Qed.

(** ** C97 *)
(** The outcome of handing out, by the walk over the two lists. *)
Theorem C97_handing_out : forall stray box r c fs l1 l2 p1 p2 left1 out1 ok1 left2 out2 ok2,
  grid r c fs -> Z.of_nat r * Z.of_nat c < 2 ^ 32 -> grid r c p1 -> grid r c p2 ->
  walk (handed fs) l1 left1 out1 ok1 -> walk (handed fs) l2 left2 out2 ok2 ->
  if ok1 && ok2 then exists p1' p2', DistributeGeometries stray box fs l1 l2 p1 p2 = Ok (left1, left2, p1', p2') /\
      grid r c p1' /\ grid r c p2' /\ received box out1 p1 p1' /\ received box out2 p2 p2'
  else DistributeGeometries stray box fs l1 l2 p1 p2 = UB OobIndex.
Proof.
  intros stray box r c fs l1 l2 p1 p2 left1 out1 ok1 left2 out2 ok2 G B P1 P2 W1 W2.
  pose proof (distribute_walk stray box r c fs G B _ _ _ _ W1 [] p1 P1) as D1. pose proof (distribute_walk stray box r c fs G B _ _ _ _ W2 [] p2 P2) as D2.
  unfold DistributeGeometries. destruct ok1; [|rewrite D1; reflexivity]. destruct D1 as (p1' & -> & G1 & V1). cbn [bind].
  destruct ok2; [|rewrite D2; reflexivity]. destruct D2 as (p2' & -> & G2 & V2). cbn [bind andb app fst snd].
  exists p1', p2'. split; [reflexivity|]. split; [exact G1|]. split; [exact G2|]. split; assumption.
Qed.

(** There is always such a walk. *)
Theorem C97_walks : forall fs l, exists left out ok, walk (handed fs) l left out ok.
Proof. intros fs l. apply walk_total. Qed.

(** When every object of a list meets at most two fragments (as when there are at most two), half
    of the list stays where it is, and a list of odd length is undefined behaviour. *)
Theorem C97_every_second : forall stray box r c fs l p,
  grid r c fs -> Z.of_nat r * Z.of_nat c < 2 ^ 32 -> grid r c p -> (forall g, In g l -> handed fs g = true) ->
  (Nat.Even (length l) -> exists p1 p2, DistributeGeometries stray box fs l [] p p = Ok (seconds l, [], p1, p2) /\ received box (firsts l) p p1) /\
  (Nat.Odd (length l) -> DistributeGeometries stray box fs l [] p p = UB OobIndex).
Proof.
  intros stray box r c fs l p G B P H. pose proof (walk_all (handed fs) l H) as W. split; intros N.
  - apply Nat.even_spec in N. rewrite N in W.
    destruct (C97_handing_out stray box r c fs l [] p p _ _ _ [] [] true G B P P W (walk_end _)) as (p1 & p2 & E & _ & _ & R & _).
    exists p1, p2. split; assumption.
  - apply Nat.odd_spec in N. rewrite <- Nat.negb_even in N. apply negb_true_iff in N. rewrite N in W. destruct W as (left & out & W).
    exact (C97_handing_out stray box r c fs l [] p p _ _ _ [] [] true G B P P W (walk_end _)).
Qed.

Corollary C97_at_most_two_fragments : forall r c fs g, grid r c fs -> (r * c <= 2)%nat -> handed fs g = true.
Proof.
  intros r c fs g G H. unfold handed, count. apply Nat.leb_le.
  assert (FL : forall (P : fragment -> bool) l, (length (filter P l) <= length l)%nat).
  { intros P l. induction l as [|x l IH]; [reflexivity|]. cbn [filter length]. destruct (P x); cbn [length]; lia. } eapply Nat.le_trans; [apply FL|].
  assert (length (concat fs) = (r * c)%nat) as ->; [|exact H]. clear - G. destruct G as (<- & F). induction F as [|row fs Lr F IH]; [reflexivity|].
  cbn [concat length]. rewrite app_length, IH, Lr. reflexivity.
Qed.

(** The number that decides is the number of fragments whose workspaces the object meets. *)
Theorem C97_count : forall stray r c fs g, grid r c fs -> Z.of_nat r * Z.of_nat c < 2 ^ 32 ->
  GetFragmentIntersectionCnt stray fs None = Ok 0 /\
  GetFragmentIntersectionCnt stray fs (Some g) = Ok (Z.of_nat (count (fun f => Intersects (f_angleCoords f) (Some g)) fs)).
Proof. intros stray r c fs g G B. split; [reflexivity|apply (count_grid stray r c fs g G B)]. Qed.

(** ** C98 *)
(** A rectangle inside the box, cells with whole sides: the answer of the overload for shared
    pointers is whether its two corners lie in the same cell; the other overload says no. *)
Theorem C98_one_fragment : forall stray box r c fs g p0 p1 p2 rest D E,
  let '(L, T, Rt, B) := (cx (leftTop box), cy (leftTop box), cx (rightBot box), cy (rightBot box)) in
  grid r c fs -> (0 < r)%nat -> g_coords g = p0 :: p1 :: p2 :: rest ->
  1 <= D < 2 ^ 31 -> 1 <= E < 2 ^ 31 -> Rt - L < 2 ^ 31 -> T - B < 2 ^ 31 ->
  L <= cx p0 <= cx p2 -> cx p2 < Rt -> cy p2 <= cy p0 <= T -> B < cy p2 < T ->
  pushRectangle stray true box (dz D) (dz E) fs g = Ok (((T - cy p0) / E =? (T - cy p2) / E) && ((cx p0 - L) / D =? (cx p2 - L) / D)) /\
  pushRectangle stray false box (dz D) (dz E) fs g = Ok false.
Proof.
  intros stray box r c fs g p0 p1 p2 rest D E G Hr Gc HD HE HW HH X1 X2 Y1 Y2.
  set (L := cx (leftTop box)) in *. set (T := cy (leftTop box)) in *. set (Rt := cx (rightBot box)) in *. set (B := cy (rightBot box)) in *.
  assert (K : forall decides, pushRectangle stray decides box (dz D) (dz E) fs g = Ok (decides && ((T - cy p0) / E =? (T - cy p2) / E) && ((cx p0 - L) / D =? (cx p2 - L) / D))).
  { intros decides. unfold pushRectangle. rewrite Gc. cbn [at_ nth_error bind]. rewrite (ColCount_grid stray r c fs G Hr). cbn [bind].
    fold L T Rt B. rewrite (sub32_ok (cx p0) L), (sub32_ok (cx p2) L) by (unfold int32; lia). cbn [bind].
    assert (QX : (if 0 <? cx p0 - L then cast_size (ddiv (dz (cx p0 - L)) (dz D)) else Ok 0) = Ok ((cx p0 - L) / D)).
    { destruct (Z.ltb_spec 0 (cx p0 - L)); [apply quotient_ok; lia|]. assert (cx p0 - L = 0) as -> by lia. reflexivity. }
    rewrite QX. cbn [bind]. destruct (Z.leb_spec 0 (cx p2 - L)) as [_|Q]; [|lia]. rewrite (sub32_ok Rt L) by (unfold int32; lia). cbn [bind andb].
    destruct (Z.ltb_spec (cx p2 - L) (Rt - L)) as [_|Q]; [|lia]. rewrite (quotient_ok (cx p2 - L) D) by lia. cbn [bind].
    rewrite (sub32_ok T (cy p0)), (sub32_ok T (cy p2)) by (unfold int32; lia). cbn [bind].
    assert (QY : (if 0 <? T - cy p0 then cast_size (ddiv (dz (T - cy p0)) (dz E)) else Ok 0) = Ok ((T - cy p0) / E)).
    { destruct (Z.ltb_spec 0 (T - cy p0)); [apply quotient_ok; lia|]. assert (T - cy p0 = 0) as -> by lia. reflexivity. }
    rewrite QY. cbn [bind]. destruct (Z.ltb_spec 0 (T - cy p2)) as [_|Q]; [|lia]. rewrite (sub32_ok T B) by (unfold int32; lia). cbn [bind andb].
    destruct (Z.ltb_spec (T - cy p2) (T - B)) as [_|Q]; [|lia]. rewrite (quotient_ok (T - cy p2) E) by lia. reflexivity. }
  split; [exact (K true)|exact (K false)].
Qed.

(** A rectangle that reaches the right edge of the box is taken to end in the last column, also
    when it lies to the left of the box altogether. *)
Theorem C98_left_of_the_box_refuted : exists stray box fs g, grid 1 2 fs /\
  Intersects box (Some g) = false /\ pushRectangle stray true box (dz 10) (dz 10) fs g = Ok false /\
  exists g', Intersects box (Some g') = false /\ pushRectangle stray true box (dz 20) (dz 10) [[fragment_new]] g' = Ok true.
Proof.
  exists None, (mkws (mkcoord 0 10) (mkcoord 20 0)), [[fragment_new; fragment_new]],
    (mkgeom GTrectangle 1 [mkcoord (-9) 8; mkcoord (-3) 8; mkcoord (-3) 2; mkcoord (-9) 2; mkcoord (-9) 8] (mkcoord (-9) 2) (mkcoord (-3) 8) (CRectangle 0)).
  split; [split; [reflexivity|repeat constructor]|]. split; [reflexivity|]. split; [vm_compute; reflexivity|].
  exists (mkgeom GTrectangle 1 [mkcoord (-9) 8; mkcoord (-3) 8; mkcoord (-3) 2; mkcoord (-9) 2; mkcoord (-9) 8] (mkcoord (-9) 2) (mkcoord (-3) 8) (CRectangle 0)).
  split; [reflexivity|vm_compute; reflexivity].
Qed.

(** ** The hypotheses can be met *)
Definition ex_grid : list (list fragment) := [[fragment_new; fragment_new; fragment_new]; [fragment_new; fragment_new; fragment_new]].
Definition ex_box : workspace := mkws (mkcoord (-5) 20) (mkcoord 25 0).
Definition ex_geom (x y : Z) : geom :=
  mkgeom GTrectangle 1 [mkcoord x (y + 2); mkcoord (x + 2) (y + 2); mkcoord (x + 2) y; mkcoord x y; mkcoord x (y + 2)] (mkcoord x y) (mkcoord (x + 2) (y + 2)) (CRectangle 0).

Example C95_hypotheses_met : grid 2 3 ex_grid /\
  ((let* fs' := InitFragmentsIndicies None 7 9 ex_grid in Ok (map (map (fun f => (iBegin (f_boundIndicies f), iEnd (f_boundIndicies f), jBegin (f_boundIndicies f), jEnd (f_boundIndicies f)))) fs')) =
     Ok [[(0, 2, 0, 2); (0, 2, 3, 5); (0, 2, 6, 8)]; [(3, 5, 0, 2); (3, 5, 3, 5); (3, 5, 6, 8)]]) /\ ~ (Z.of_nat 2 | Z.of_nat 7).
Proof.
  split; [split; [reflexivity|repeat constructor]|]. split; [vm_compute; reflexivity|].
  intros (k & Q). lia.
Qed.

Example C96_hypotheses_met : exists x y, nearest x (IZR (25 - (-5)) / IZR (Z.of_nat 3)) /\ nearest y (IZR (20 - 0) / IZR (Z.of_nat 2)) /\
  (let* fs' := InitFragmentsWorkspaces None ex_box x y ex_grid in Ok (map (map f_angleCoords) fs')) =
    Ok [[mkws (mkcoord (-5) 20) (mkcoord 5 10); mkws (mkcoord 5 20) (mkcoord 15 10); mkws (mkcoord 15 20) (mkcoord 25 10)];
     [mkws (mkcoord (-5) 10) (mkcoord 5 0); mkws (mkcoord 5 10) (mkcoord 15 0); mkws (mkcoord 15 10) (mkcoord 25 0)]].
Proof.
  assert (R : forall a b, 0 <= a <= 2 ^ 53 -> 0 < b <= 2 ^ 53 -> nearest (ddiv (dz a) (dz b)) (IZR a / IZR b)) by (intros a b Ha Hb; exact (dlit_ok a b Ha Hb)).
  exists (ddiv (dz 30) (dz 3)), (ddiv (dz 20) (dz 2)). split; [apply (R 30 3); lia|]. split; [apply (R 20 2); lia|].
  vm_compute. reflexivity.
Qed.

Definition ex_parts : list (list fragment) := [[F_SetWorkspaceCoords fragment_new (mkws (mkcoord 0 10) (mkcoord 10 0)); F_SetWorkspaceCoords fragment_new (mkws (mkcoord 10 10) (mkcoord 20 0));
  F_SetWorkspaceCoords fragment_new (mkws (mkcoord 20 10) (mkcoord 30 0))]].

Example C97_hypotheses_met : grid 1 3 ex_parts /\ map (handed ex_parts) [ex_geom 1 1; ex_geom 9 1; ex_geom 2 2; ex_geom 3 3] = [true; true; true; true] /\
  handed ex_parts (mkgeom GTrectangle 1 [] (mkcoord 5 5) (mkcoord 25 6) (CRectangle 0)) = false /\
  let box := mkws (mkcoord 0 10) (mkcoord 30 0) in
  DistributeGeometries None box ex_parts [ex_geom 1 1; ex_geom 9 1] [] [[[]; []; []]] [[[]; []; []]] =
    Ok ([ex_geom 9 1], [], [[[ex_geom 1 1]; [ex_geom 1 1]; [ex_geom 1 1]]], [[[]; []; []]]) /\
  DistributeGeometries None box ex_parts [ex_geom 1 1] [] [[[]; []; []]] [[[]; []; []]] = UB OobIndex.
Proof.
  split; [split; [reflexivity|repeat constructor]|]. split; [vm_compute; reflexivity|]. split; [vm_compute; reflexivity|]. cbv zeta. split; vm_compute; reflexivity.
Qed.

(** The natural claim, that an object goes to the fragments it meets, is false: it goes to all of
    them. *)
Theorem C97_own_fragments_only_refuted : exists stray box fs g g' p', grid 1 3 fs /\
  DistributeGeometries stray box fs [g; g'] [] [[[]; []; []]] [[[]; []; []]] = Ok ([g'], [], p', [[[]; []; []]]) /\
  (exists f, at2 fs 0 2 = Some f /\ Intersects (f_angleCoords f) (Some g) = false) /\ at2 p' 0 2 = Some [g].
Proof.
  exists None, (mkws (mkcoord 0 10) (mkcoord 30 0)), ex_parts, (ex_geom 1 1), (ex_geom 9 1). eexists.
  split; [split; [reflexivity|repeat constructor]|]. split; [vm_compute; reflexivity|]. split; [|reflexivity].
  eexists. split; [reflexivity|vm_compute; reflexivity].
Qed.

Example C98_hypotheses_met :
  pushRectangle None true ex_box (dz 10) (dz 10) ex_grid (ex_geom 6 3) = Ok true /\ pushRectangle None true ex_box (dz 10) (dz 10) ex_grid (ex_geom 4 3) = Ok false /\
  pushRectangle None true ex_box (dz 10) (dz 10) ex_grid (ex_geom 6 9) = Ok false.
Proof.
  repeat split; vm_compute; reflexivity.
Qed.

Print Assumptions C95_indices.
Print Assumptions C95_all_covered.
Print Assumptions C95_no_fragments.
Print Assumptions C95_too_many_refuted.
Print Assumptions C96_workspaces.
Print Assumptions C96_last_edge_refuted.
Print Assumptions C97_handing_out.
Print Assumptions C97_walks.
Print Assumptions C97_every_second.
Print Assumptions C97_at_most_two_fragments.
Print Assumptions C97_count.
Print Assumptions C97_own_fragments_only_refuted.
Print Assumptions C98_one_fragment.
Print Assumptions C98_left_of_the_box_refuted.
