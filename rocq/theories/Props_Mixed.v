(** C139: a library with bitmaps of several sizes and a program that searches it.  Specification: S_Mixed, S_Damage. *)
From Coq Require Import Reals Lra Lia.
From Flocq Require Import Core.
From Verif Require Import Prelude P_Prelude M_Double S_Double P_Double M_LayoutData M_Converter M_Vector2D M_BitMatrix S_Matrix
  P_BitMatrix P_Cells S_Ratio M_Ratio P_Ratio Props_Ratio S_Crc32 S_Flips Props_Flips M_Hash S_Hash P_Hash Props_Hash P_Rank Props_Rank
  M_Zond S_Zond M_Generator S_Generator P_Generator Props_Generator S_EndToEnd P_EndToEnd Props_EndToEnd S_Identify P_Identify
  S_Degrade P_Degrade Props_Degrade S_Exact S_Wobble Props_Wobble Props_Noise S_Library Props_Library S_Damage Props_Damage S_Mixed Props_Stored.
Local Open Scope nat_scope.

Lemma same_size_dec Q A : {same_size Q A} + {~ same_size Q A}.
Proof. unfold same_size. destruct (Nat.eq_dec (arows Q) (arows A)), (Nat.eq_dec (acols Q) (acols A)); [left|right|right|right]; tauto. Qed.

(** The number of differing cells; one more than there can be when the sizes differ. *)
Definition cost (Q A : amat) : nat := if same_size_dec Q A then differences Q A else S (cell_number Q).
Lemma cost_same Q A : same_size Q A -> cost Q A = differences Q A.
Proof. intros S. unfold cost. destruct (same_size_dec Q A); [reflexivity|contradiction]. Qed.
Lemma cost_other Q A : ~ same_size Q A -> cost Q A = S (cell_number Q).
Proof. intros S. unfold cost. destruct (same_size_dec Q A); [contradiction|reflexivity]. Qed.
Lemma cost_small Q A : same_size Q A <-> cost Q A <= cell_number Q.
Proof.
  unfold cost. destruct (same_size_dec Q A) as [S|S].
  - pose proof (differences_le Q A). tauto.
  - split; [tauto|lia].
Qed.
Lemma cost_shown m Q A A' : shows m A -> shows m A' -> cost Q A = cost Q A'.
Proof.
  intros S S'. destruct (shows_elim _ _ S) as (_ & a1 & a2 & _). destruct (shows_elim _ _ S') as (_ & b1 & b2 & _).
  unfold cost, same_size. destruct (same_size_dec Q A) as [(E1 & E2)|E], (same_size_dec Q A') as [(F1 & F2)|F]; unfold same_size in *.
  - now apply (shown_alike_differ m).
  - destruct F. split; congruence.
  - destruct E. split; congruence.
  - reflexivity.
Qed.

Lemma score_other al q k Q A : shows q Q -> shows k A -> ~ same_size Q A -> Compare al q k = Ok (dz (-1)).
Proof.
  intros Sq Sk N. destruct (shows_elim _ _ Sq) as (_ & a1 & a2 & _). destruct (shows_elim _ _ Sk) as (_ & b1 & b2 & _).
  apply Compare_bad. unfold same_size in N. destruct (Nat.eq_dec (Isize q) (Isize k)); [|now left]. right. left. intros E. apply N. split; congruence.
Qed.
Lemma Ok_inj {T} (a b : T) : Ok a = Ok b -> a = b.
Proof. intros E. injection E as E. exact E. Qed.
Lemma minus_one : real (dz (-1)) (-1).
Proof. apply (dz_exact (-1)). lia. Qed.
Lemma score_same al q k Q A : shows q Q -> shows k A -> same_size Q A -> nonempty Q -> ~ out_of_memory al (arows Q) (acols Q) ->
  (Z.of_nat (cell_number Q) < 2 ^ 51)%Z -> exists x r, Compare al q k = Ok x /\ real x r /\ (0 <= r)%R.
Proof.
  intros Sq Sk (E1 & E2) N M H. destruct (C12_score al q k Q A Sq Sk E1 E2 N M ltac:(lia)) as (x & r & Ex & Rx & B & _).
  exists x, r. split; [exact Ex|]. split; [exact Rx|]. lra.
Qed.

Lemma scores_by_cost al q a b Q A B : shows q Q -> shows a A -> shows b B ->
  nonempty Q -> ~ out_of_memory al (arows Q) (acols Q) -> (Z.of_nat (cell_number Q) < 2 ^ 51)%Z ->
  exists x y, Compare al q a = Ok x /\ Compare al q b = Ok y /\ (dgt x y = true <-> cost Q A < cost Q B).
Proof.
  intros Sq Sa Sb N M H. destruct (same_size_dec Q A) as [EA|EA], (same_size_dec Q B) as [EB|EB].
  - destruct EA as (E1 & E2). destruct EB as (E3 & E4).
    destruct (C107_greater_score_fewer_differences al q a b Q A B Sq Sa Sb E1 E2 E3 E4 N M H) as (x & y & Ex & Ey & G & _).
    exists x, y. rewrite !cost_same by (split; assumption). repeat split; try assumption; apply G.
  - destruct (score_same al q a Q A Sq Sa EA N M H) as (x & r & Ex & Rx & P). exists x, (dz (-1)).
    split; [exact Ex|]. split; [exact (score_other al q b Q B Sq Sb EB)|].
    rewrite (dgt_ok _ _ _ _ Rx minus_one), Rlt_bool_true by lra. apply cost_small in EA. rewrite (cost_other Q B EB). split; [lia|reflexivity].
  - destruct (score_same al q b Q B Sq Sb EB N M H) as (y & r & Ey & Ry & P). exists (dz (-1)), y.
    split; [exact (score_other al q a Q A Sq Sa EA)|]. split; [exact Ey|].
    rewrite (dgt_ok _ _ _ _ minus_one Ry), Rlt_bool_false by lra. apply cost_small in EB. rewrite (cost_other Q A EA). split; [discriminate|lia].
  - exists (dz (-1)), (dz (-1)). split; [exact (score_other al q a Q A Sq Sa EA)|]. split; [exact (score_other al q b Q B Sq Sb EB)|].
    rewrite (dgt_ok _ _ _ _ minus_one minus_one), Rlt_bool_false by lra. rewrite !cost_other by assumption. split; [discriminate|lia].
Qed.

Definition best_so_far (al2 : allocator) (l : list (list byte * bm)) (d d' : disk) (q : bm) (Q : amat) (names : list (list byte))
  (best : option (list byte * double)) : Prop :=
  match best with
  | None => forall f, In f names -> hit d d' f
  | Some (f, s) => In f names /\ intact d d' f /\
      (exists k, Compare al2 q k = Ok s /\ forall m A, latest l f m -> shows m A -> shows k A) /\
      forall m A, latest l f m -> shows m A -> forall g n N, In g names -> intact d d' g -> latest l g n -> shows n N -> cost Q A <= cost Q N
  end.

Lemma search_by_cost al al2 l d d' q Q names : shows q Q -> nonempty Q -> ~ out_of_memory al2 (arows Q) (acols Q) ->
  (Z.of_nat (cell_number Q) < 2 ^ 51)%Z ->
  (forall f m, latest l f m -> (intact d d' f -> reads_as al d' f m) /\ (hit d d' f -> refused al d' f)) ->
  (forall f, In f names -> In f (map fst l) /\ (intact d d' f \/ hit d d' f)) ->
  forall before object best, best_so_far al2 l d d' q Q before best ->
  (forall f, In f before -> In f (map fst l)) ->
  exists o best', search al al2 d' q object names best = Ok (o, best') /\ best_so_far al2 l d d' q Q (before ++ names) best'.
Proof.
  intros Sq Nq Mq Cq H. induction names as [|f names IH]; intros Hn before object best B Hb.
  - exists object, best. rewrite app_nil_r. split; [reflexivity|exact B].
  - destruct (Hn f ltac:(now left)) as (If & D). destruct (stored_last l f If) as (m & Lm). destruct (H f m Lm) as (HI & HH).
    assert (Hb' : forall g, In g (before ++ [f]) -> In g (map fst l)).
    { intros g G. apply in_app_or in G as [G|[<-|[]]]; [apply Hb, G|exact If]. }
    assert (Hn' : forall g, In g names -> In g (map fst l) /\ (intact d d' g \/ hit d d' g)) by (intros g G; apply Hn; now right).
    cbn [search]. replace (before ++ f :: names) with ((before ++ [f]) ++ names) by (rewrite <- app_assoc; reflexivity).
    destruct D as [D|D].
    + destruct (HI D object) as (k & Ek & A & SA & SkA). rewrite Ek.
      assert (Sk : forall m' A', latest l f m' -> shows m' A' -> shows k A').
      { intros m' A' L' S'. destruct (proj1 (H f m' L') D object) as (k' & Ek' & A2 & S2 & Sk2). rewrite Ek in Ek'. injection Ek' as <-.
        exact (shown_alike m' k A2 A' S2 S' Sk2). }
      destruct best as [(b & sb)|].
      * destruct B as (Ib & Db & (kb & Eb & Skb) & Best). destruct (stored_last l b (Hb b Ib)) as (mb & Lb).
        destruct (proj1 (H b mb Lb) Db object) as (_ & _ & Ab & Sb & _).
        destruct (scores_by_cost al2 q k kb Q A Ab Sq SkA (Skb mb Ab Lb Sb) Nq Mq Cq) as (x & y & Ex & Ey & Hgt).
        rewrite Eb in Ey. injection Ey as <-. rewrite Ex.
        apply IH; [exact Hn'| |exact Hb'].
        destruct (dgt x sb) eqn:G.
        -- split; [apply in_or_app; right; now left|]. split; [exact D|]. split; [exists k; split; [exact Ex|exact Sk]|].
           intros m' A' L' S' g n N Ig Dg Lg Sn. rewrite (cost_shown k Q A' A (Sk m' A' L' S') SkA).
           apply in_app_or in Ig as [Ig|[<-|[]]].
           ++ pose proof (Best mb Ab Lb Sb g n N Ig Dg Lg Sn) as K. pose proof (proj1 Hgt eq_refl) as K2. lia.
           ++ rewrite (cost_shown k Q A N SkA (Sk n N Lg Sn)). lia.
        -- split; [apply in_or_app; left; exact Ib|]. split; [exact Db|]. split; [exists kb; split; [exact Eb|exact Skb]|].
           intros m' A' L' S' g n N Ig Dg Lg Sn. apply in_app_or in Ig as [Ig|[<-|[]]].
           ++ exact (Best m' A' L' S' g n N Ig Dg Lg Sn).
           ++ rewrite <- (cost_shown k Q A N SkA (Sk n N Lg Sn)), (cost_shown kb Q A' Ab (Skb m' A' L' S') (Skb mb Ab Lb Sb)).
              assert (~ cost Q A < cost Q Ab) by (intros C; apply Hgt in C; congruence). lia.
      * destruct (scores_by_cost al2 q k k Q A A Sq SkA SkA Nq Mq Cq) as (x & y & Ex & _ & _). rewrite Ex.
        apply IH; [exact Hn'| |exact Hb'].
        split; [apply in_or_app; right; now left|]. split; [exact D|]. split; [exists k; split; [exact Ex|exact Sk]|].
        intros m' A' L' S' g n N Ig Dg Lg Sn. apply in_app_or in Ig as [Ig|[<-|[]]].
        -- exfalso. destruct (H g n Lg) as (HI2 & HH2). exact (not_both _ _ _ _ (HI2 Dg) (HH2 (B g Ig))).
        -- rewrite (cost_shown k Q A' N (Sk m' A' L' S') (Sk n N Lg Sn)). lia.
    + destruct (HH D object) as (r & Er & Hr). rewrite Er.
      assert (B' : best_so_far al2 l d d' q Q (before ++ [f]) best).
      { destruct best as [(b & sb)|].
        - destruct B as (Ib & Db & X & Best). split; [apply in_or_app; left; exact Ib|]. split; [exact Db|]. split; [exact X|].
          intros m' A' L' S' g n N Ig Dg Lg Sn. apply in_app_or in Ig as [Ig|[<-|[]]]; [exact (Best m' A' L' S' g n N Ig Dg Lg Sn)|].
          exfalso. destruct (H f n Lg) as (HI2 & HH2). exact (not_both _ _ _ _ (HI2 Dg) (HH2 D)).
        - intros g G. apply in_app_or in G as [G|[<-|[]]]; [exact (B g G)|exact D]. }
      destruct Hr as [->|(e & ->)]; apply IH; assumption.
Qed.

(** The program never fails, whatever the sizes of the references.  It finds nothing only if every file is gone or damaged.  It
    reports the score -1 exactly if none of the intact bitmaps has the query's size; otherwise it finds an intact bitmap of the
    query's size, no other intact bitmap of that size differs from the query in fewer cells, and the score is 1 exactly if the cells are
    the same. *)
Theorem C139_the_search : forall al al2 can_write accepted l d states d' q Q names object,
  Forall (entry al can_write accepted) l -> stores al can_write accepted d l states ->
  shows q Q -> nonempty Q -> ~ out_of_memory al2 (arows Q) (acols Q) -> (Z.of_nat (cell_number Q) < 2 ^ 51)%Z ->
  (forall f, In f names -> In f (map fst l) /\ (intact (last states d) d' f \/ hit (last states d) d' f)) ->
  exists o best, search al al2 d' q object names None = Ok (o, best) /\
  match best with
  | None => forall f, In f names -> hit (last states d) d' f
  | Some (f, s) => In f names /\ intact (last states d) d' f /\
      (s = dz (-1) <-> forall N, present l (last states d) d' names N -> ~ same_size Q N) /\
      forall m A, latest l f m -> shows m A ->
        (deq s (dz 1) = true <-> asame Q A) /\
        forall N, present l (last states d) d' names N -> same_size Q N -> same_size Q A /\ differences Q A <= differences Q N
  end.
Proof.
  intros al al2 cw acc l d states d' q Q names object Fl St Sq Nq Mq Cq Hn.
  destruct (search_by_cost al al2 l (last states d) d' q Q names Sq Nq Mq Cq) with (before := @nil (list byte)) (object := object) (best := @None (list byte * double))
    as (o & best & E & B); try assumption.
  - intros f m L. exact (C137_damage_is_noticed al cw acc l d states d' Fl St f m L).
  - intros f [].
  - intros f [].
  - exists o, best. split; [exact E|]. cbn [app] in B. destruct best as [(f & s)|]; [|exact B].
    destruct B as (I & D & (k & Ek & Sk) & Best). split; [exact I|]. split; [exact D|].
    assert (Nearest : forall m A, latest l f m -> shows m A -> forall N, present l (last states d) d' names N -> same_size Q N ->
      same_size Q A /\ differences Q A <= differences Q N).
    { intros m A L S N (g & n & Ig & Dg & Lg & Sn) SN. pose proof (Best m A L S g n N Ig Dg Lg Sn) as C.
      assert (SA : same_size Q A). { apply cost_small. apply cost_small in SN. lia. }
      rewrite !cost_same in C by assumption. split; assumption. }
    split.
    + destruct (Hn f I) as (If & _). destruct (stored_last l f If) as (m & Lm).
      destruct (C137_damage_is_noticed al cw acc l d states d' Fl St f m Lm) as (R & _). destruct (R D object) as (k' & Ek' & A & SA & SkA).
      split.
      * intros -> N HN SN. destruct (Nearest m A Lm SA N HN SN) as (S2 & _).
        destruct (score_same al2 q k Q A Sq (Sk m A Lm SA) S2 Nq Mq Cq) as (x & r & Ex & (_ & Rx) & P).
        rewrite Ek in Ex. apply Ok_inj in Ex. destruct minus_one as (_ & M1). rewrite Ex, Rx in M1. lra.
      * intros None_. assert (N : ~ same_size Q A) by (apply None_; exists f, m; repeat (split; [assumption|]); exact SA).
        rewrite (score_other al2 q k Q A Sq (Sk m A Lm SA) N) in Ek. apply Ok_inj in Ek. symmetry. exact Ek.
    + intros m A L S. split; [|exact (Nearest m A L S)].
      destruct (same_size_dec Q A) as [SA|SA].
      * destruct SA as (Z1 & Z2). destruct (C107_one_means_identical al2 q k Q A Sq (Sk m A L S) Z1 Z2 Nq Mq Cq) as (x & Ex & X). rewrite Ek in Ex. injection Ex as <-. exact X.
      * rewrite (score_other al2 q k Q A Sq (Sk m A L S) SA) in Ek. apply Ok_inj in Ek. subst s.
        split; [|intros (E1 & E2 & _); destruct SA; split; assumption].
        intros Eq. rewrite (deq_ok _ _ _ _ minus_one (dz_exact 1 ltac:(lia))) in Eq. rewrite Req_bool_false in Eq by lra. discriminate Eq.
Qed.

(** An intact bitmap of the query's size that is nearer to the query than all other intact bitmaps of that size is found, whatever
    other sizes there are in the library and whatever happened to the rest of the files. *)
Theorem C139_the_nearest_is_found : forall al al2 can_write accepted l d states d' q Q names object f m A,
  Forall (entry al can_write accepted) l -> stores al can_write accepted d l states ->
  shows q Q -> nonempty Q -> ~ out_of_memory al2 (arows Q) (acols Q) -> (Z.of_nat (cell_number Q) < 2 ^ 51)%Z ->
  (forall f, In f names -> In f (map fst l) /\ (intact (last states d) d' f \/ hit (last states d) d' f)) ->
  In f names -> intact (last states d) d' f -> latest l f m -> shows m A -> same_size Q A ->
  (forall g n N, In g names -> g <> f -> intact (last states d) d' g -> latest l g n -> shows n N -> same_size Q N ->
     differences Q A < differences Q N) ->
  exists o s, search al al2 d' q object names None = Ok (o, Some (f, s)).
Proof.
  intros al al2 cw acc l d states d' q Q names object f m A Fl St Sq Nq Mq Cq Hn If Df Lf Sf SA Near.
  destruct (C139_the_search al al2 cw acc l d states d' q Q names object Fl St Sq Nq Mq Cq Hn) as (o & best & E & B).
  assert (Pf : present l (last states d) d' names A) by (exists f, m; repeat (split; [assumption|]); exact Sf).
  destruct best as [(g & s)|].
  - destruct B as (Ig & Dg & _ & X). destruct (list_eq_dec Byte.byte_eq_dec g f) as [->|Ne]; [exists o, s; exact E|]. exfalso.
    destruct (Hn g Ig) as (Il & _). destruct (stored_last l g Il) as (n & Lg).
    destruct (proj1 (C137_damage_is_noticed al cw acc l d states d' Fl St g n Lg) Dg object) as (_ & _ & N & SN & _).
    destruct (X n N Lg SN) as (_ & Y). destruct (Y A Pf SA) as (S2 & K). pose proof (Near g n N Ig Ne Dg Lg SN S2). lia.
  - exfalso. destruct (C137_damage_is_noticed al cw acc l d states d' Fl St f m Lf) as (R & F).
    exact (not_both _ _ _ _ (R Df) (F (B f If))).
Qed.

(** A drawing with small errors finds the reference made from the same layout in a library with bitmaps of all sizes, other files
    being damaged: the other intact references of that size must differ from it in more than twice the cells the errors reach. *)
Theorem C139_a_drawing_is_recognised :
  forall d M M' calls calls' g g' heap heap' libs libs' L L' mn mx mn' mx' v v' al al' al2 stack stack' r c items items' pairs,
  history M gen_new calls = Some g -> history M' gen_new calls' = Some g' ->
  in_force calls (Live (mklayout heap libs) L mn mx) -> in_force calls' (Live (mklayout heap' libs') L' mn' mx') ->
  candidates L libs items -> candidates L' libs' items' -> memory_ok al r c -> memory_ok al' r c -> memory_ok al2 r c -> fine_box mn mx r c -> fine_box mn' mx' r c ->
  (Z.of_nat r * Z.of_nat c < 2 ^ 51)%Z ->
  (forall item, In (Some item) items -> overlaps (box_workspace mn mx) item -> collectable heap stack item) ->
  (forall item, In (Some item) items' -> overlaps (box_workspace mn' mx') item -> collectable heap' stack' item) ->
  drawable heap mn mx r c items -> drawable heap' mn' mx' r c items' ->
  (0 <= d)%R -> drawn_alike d heap heap' mn mx mn' mx' r c items items' pairs ->
  exists m m', result (Process (Some v) al stack g r c) = (m, Ok true) /\ result (Process (Some v') al' stack' g' r c) = (m', Ok true) /\
    forall al3 can_write accepted l dsk states dsk' names object f,
    Forall (entry al3 can_write accepted) l -> stores al3 can_write accepted dsk l states -> latest l f m ->
    (forall f', In f' names -> In f' (map fst l) /\ (intact (last states dsk) dsk' f' \/ hit (last states dsk) dsk' f')) ->
    In f names -> intact (last states dsk) dsk' f ->
    (forall f' n A N, In f' names -> f' <> f -> intact (last states dsk) dsk' f' -> latest l f' n -> shows m A -> shows n N -> arows N = r -> acols N = c ->
       (2 * total (map (fun p => seam d mn mx r c (fst p)) pairs) < INR (differences A N))%R) ->
    exists o s, search al3 al2 dsk' m' object names None = Ok (o, Some (f, s)).
Proof.
  intros d M M' calls calls' g g' heap heap' libs libs' L L' mn mx mn' mx' v v' al al' al2 stack stack' r c items items' pairs
    H H' F F' Hi Hi' Hm Hm' Hm2 FB FB' Sz HC HC' HD HD' D P.
  destruct (noise d M M' calls calls' g g' heap heap' libs libs' L L' mn mx mn' mx' v v' al al' stack stack' r c items items' pairs
    H H' F F' Hi Hi' Hm Hm' FB FB' HC HC' HD HD' D P) as (m & m' & B & E & E' & SB & Br & Bc & (A & SA) & W).
  exists m, m'. split; [exact E|]. split; [exact E'|]. intros al3 cw acc l dsk states dsk' names object f Fl St Lf Hn If Df Far.
  destruct (W A SA) as (Ar & Ac & Q). pose proof FB as (_ & _ & _ & _ & Hr & Hc).
  apply (C139_the_nearest_is_found al3 al2 cw acc l dsk states dsk' m' B names object f m A); try assumption.
  - split; lia.
  - rewrite Br, Bc. now apply plenty.
  - unfold cell_number. rewrite Br, Bc. lia.
  - split; congruence.
  - intros f' n N I1 N1 D1 L1 S1 (Nr & Nc). pose proof (Far f' n A N I1 N1 D1 L1 SA S1 ltac:(congruence) ltac:(congruence)) as G.
    pose proof (differences_triangle A B N ltac:(congruence) ltac:(congruence)) as T. rewrite (differences_sym A B) in T by congruence.
    apply le_INR in T. rewrite plus_INR in T. apply INR_lt. lra.
Qed.

(** Example data: a bitmap of two columns and one of three. *)
Definition ex_wide : bm := mkbm [[xc0]] 1 2.
Lemma ex_wide_shown : shows ex_wide (mkamat 1 2 (fun _ _ => true)).
Proof.
  apply shows_intro; [split; [reflexivity|]; repeat constructor|reflexivity|reflexivity|].
  intros i j I J. assert (i = 0) by lia. subst i. destruct j as [|[|j]]; try lia; reflexivity.
Qed.
Lemma ex_wide_entry f : f <> [] -> entry infinite_memory (fun _ => true) 1000 (f, ex_wide).
Proof.
  intros Nf. split; [exact Nf|]. split; [reflexivity|].
  destruct (EncodeHash infinite_memory ex_wide) as [h| |] eqn:E; [|vm_compute in E; discriminate E..].
  eexists _, h. split; [exact ex_wide_shown|]. cbn [arows acols].
  split; [split; cbn; lia|]. split; [reflexivity|]. split; [cbn; lia|]. split; [cbn; lia|].
  split; [apply small_sizes_survive; cbn; lia|]. split; [exact E|].
  vm_compute in E; injection E as <-; cbn [length]; lia.
Qed.
Definition ex_mixed : list (list byte * bm) := [(lit "w", ex_wide); (lit "b", ex_ref xc0)].
Lemma ex_mixed_entries : Forall (entry infinite_memory (fun _ => true) 1000) ex_mixed.
Proof. apply Forall_cons; [apply ex_wide_entry; discriminate|]. apply Forall_cons; [apply ex_entry; [discriminate|auto]|apply Forall_nil]. Qed.
Lemma ex_mixed_latest f m : latest ex_mixed f m -> f = lit "w" /\ m = ex_wide \/ f = lit "b" /\ m = ex_ref xc0.
Proof.
  intros (b & a & E & _). unfold ex_mixed in E. destruct b as [|e [|e' b]]; cbn [app] in E.
  - injection E as <- <- _. left. split; reflexivity.
  - injection E as _ <- <- _. right. split; reflexivity.
  - destruct b; discriminate E.
Qed.

(** A match that is found need not have the size of the query: an intact bitmap of another size is found, with the score -1, when
    there is no other; a program must look at the score. *)
Theorem C139_right_size_refuted :
  ~ (forall al al2 can_write accepted l d states q Q names object o f s m A,
       Forall (entry al can_write accepted) l -> stores al can_write accepted d l states -> shows q Q -> nonempty Q ->
       search al al2 (last states d) q object names None = Ok (o, Some (f, s)) -> latest l f m -> shows m A -> same_size Q A).
Proof.
  intros H.
  destruct (C126_the_library_reads_back infinite_memory (fun _ => true) 1000 ex_mixed (fun _ => None) ex_mixed_entries) as (states & St & _).
  pose proof (ex_shown x20 (or_intror eq_refl)) as SQ.
  assert (Lw : latest ex_mixed (lit "w") ex_wide) by (exists [], [(lit "b", ex_ref xc0)]; split; [reflexivity|intros [Q|[]]; discriminate Q]).
  destruct (C139_the_search infinite_memory infinite_memory (fun _ => true) 1000 ex_mixed (fun _ => None) states (last states (fun _ => None)) (ex_ref x20) _
    [lit "w"] bm_empty ex_mixed_entries St SQ) as (o & best & E & B).
  - split; cbn; lia.
  - intros [O|(i & _ & O)]; discriminate O.
  - cbn. lia.
  - intros f [<-|[]]. split; [cbn; tauto|left; reflexivity].
  - destruct best as [(f & s)|].
    + destruct B as ([<-|[]] & _).
      destruct (H infinite_memory infinite_memory (fun _ => true) 1000 ex_mixed (fun _ => None) states (ex_ref x20) _ [lit "w"] bm_empty o (lit "w") s
        ex_wide _ ex_mixed_entries St SQ ltac:(split; cbn; lia) E Lw ex_wide_shown) as (_ & X). cbn in X. discriminate X.
    + destruct (C137_damage_is_noticed infinite_memory (fun _ => true) 1000 ex_mixed (fun _ => None) states (last states (fun _ => None)) ex_mixed_entries St _ _ Lw) as (R & F).
      exact (not_both _ _ _ _ (R eq_refl) (F (B (lit "w") ltac:(cbn; tauto)))).
Qed.

(** The hypotheses hold for the example, with references of two sizes, and the one of the query's size is found. *)
Example C139_hypotheses_met :
  exists states Q, stores infinite_memory (fun _ => true) 1000 (fun _ => None) ex_mixed states /\
    let dl := last states (fun _ => None) in
    Forall (entry infinite_memory (fun _ => true) 1000) ex_mixed /\
    shows (ex_ref x20) Q /\ nonempty Q /\ ~ out_of_memory infinite_memory (arows Q) (acols Q) /\ (Z.of_nat (cell_number Q) < 2 ^ 51)%Z /\
    (forall f, In f [lit "w"; lit "b"] -> In f (map fst ex_mixed) /\ (intact dl dl f \/ hit dl dl f)) /\
    (exists N, present ex_mixed dl dl [lit "w"; lit "b"] N /\ ~ same_size Q N) /\
    (exists N, present ex_mixed dl dl [lit "w"; lit "b"] N /\ same_size Q N) /\
    exists o s, search infinite_memory infinite_memory dl (ex_ref x20) bm_empty [lit "w"; lit "b"] None = Ok (o, Some (lit "b", s)).
Proof.
  destruct (C126_the_library_reads_back infinite_memory (fun _ => true) 1000 ex_mixed (fun _ => None) ex_mixed_entries) as (states & St & _).
  pose proof (ex_shown x20 (or_intror eq_refl)) as SQ. pose proof (ex_shown xc0 (or_introl eq_refl)) as SB.
  assert (Lw : latest ex_mixed (lit "w") ex_wide) by (exists [], [(lit "b", ex_ref xc0)]; split; [reflexivity|intros [Q|[]]; discriminate Q]).
  assert (Lb : latest ex_mixed (lit "b") (ex_ref xc0)) by (exists [(lit "w", ex_wide)], []; split; [reflexivity|intros []]).
  exists states. eexists. split; [exact St|]. cbv zeta. set (dl := last states (fun _ => None)).
  assert (Hn : forall f, In f [lit "w"; lit "b"] -> In f (map fst ex_mixed) /\ (intact dl dl f \/ hit dl dl f)).
  { intros f [<-|[<-|[]]]; (split; [cbn; tauto|left; reflexivity]). }
  split; [exact ex_mixed_entries|]. split; [exact SQ|]. split; [split; cbn; lia|]. split; [intros [O|(i & _ & O)]; discriminate O|]. split; [cbn; lia|].
  split; [exact Hn|].
  split; [eexists; split; [exists (lit "w"), ex_wide; split; [cbn; tauto|]; split; [reflexivity|]; split; [exact Lw|exact ex_wide_shown]|intros (_ & X); discriminate X]|].
  split; [eexists; split; [exists (lit "b"), (ex_ref xc0); split; [cbn; tauto|]; split; [reflexivity|]; split; [exact Lb|exact SB]|split; reflexivity]|].
  eapply (C139_the_nearest_is_found infinite_memory infinite_memory (fun _ => true) 1000 ex_mixed (fun _ => None) states dl (ex_ref x20) _ _ bm_empty
    (lit "b") (ex_ref xc0) _ ex_mixed_entries St SQ); try exact Lb; try exact SB; try exact Hn; try reflexivity.
  - split; cbn; lia.
  - intros [O|(i & _ & O)]; discriminate O.
  - cbn. tauto.
  - split; reflexivity.
  - intros g n N [<-|[<-|[]]] Ng Dg Lg Sn SN; [|contradiction]. exfalso.
    destruct (ex_mixed_latest _ _ Lg) as [(_ & ->)|(G & _)]; [|discriminate G].
    destruct (shows_elim _ _ Sn) as (_ & _ & n2 & _). destruct SN as (_ & SN). cbn in *. congruence.
Qed.

Print Assumptions C139_the_search.
Print Assumptions C139_the_nearest_is_found.
Print Assumptions C139_a_drawing_is_recognised.
Print Assumptions C139_right_size_refuted.
