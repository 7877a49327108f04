(** C122: the algebra of ^ and of the scores.
    Specifications: S_Matrix ([shows], [asame], [axor]), S_Ratio ([differences]), S_Metric ([opposite], [chain]). *)
From Coq Require Import Reals Lra.
From Flocq Require Import Core IEEE754.BinarySingleNaN.
From Verif Require Import Prelude P_Prelude M_Double S_Double P_Double M_ByteHandler M_Vector2D M_BitMatrix S_Matrix
  P_BitMatrix P_Cells P_Serial P_Vector2D M_LayoutCore M_Rle S_Rle P_Rle S_Ratio M_Ratio P_Ratio P_EndToEnd P_Rank S_Metric Props_BitMatrix Props_Ratio Props_Rank.
Local Open Scope nat_scope.

Lemma one_array m A B : shows m A -> shows m B -> asame A B.
Proof.
  intros (_ & R1 & C1 & G1) (_ & R2 & C2 & G2). repeat split; [congruence|congruence|].
  intros i j Hi Hj. pose proof (G1 i j Hi Hj) as Q1. rewrite G2 in Q1 by congruence. congruence.
Qed.

(** ** C122 *)
(** ^ is commutative, associative, undoes itself, and a matrix with itself gives zeros. *)
Theorem C122_xor_algebra : forall al a b c A B C, shows a A -> shows b B -> shows c C ->
  arows A = arows B -> acols A = acols B -> arows A = arows C -> acols A = acols C ->
  nonempty A -> memory_ok al (arows A) (acols A) ->
  exists ab ba bc ab_c a_bc ab_b aa,
    bm_xor al a b = Ok ab /\ bm_xor al b a = Ok ba /\ bm_xor al b c = Ok bc /\
    bm_xor al ab c = Ok ab_c /\ bm_xor al a bc = Ok a_bc /\ bm_xor al ab b = Ok ab_b /\ bm_xor al a a = Ok aa /\
    (forall D, shows ab D <-> shows ba D) /\
    (forall D, shows ab_c D <-> shows a_bc D) /\
    shows ab_b A /\
    shows aa (azero (arows A) (acols A)).
Proof.
  intros al a b c A B C Sa Sb Sc E1 E2 E3 E4 N M.
  assert (NB : nonempty B) by (unfold nonempty in *; lia).
  assert (MB : memory_ok al (arows B) (acols B)) by (rewrite <- E1, <- E2; exact M).
  destruct (C10_xor al a b A B Sa Sb E1 E2 N M) as (ab & Eab & Sab).
  destruct (C10_xor al b a B A Sb Sa ltac:(congruence) ltac:(congruence) NB MB) as (ba & Eba & Sba).
  destruct (C10_xor al b c B C Sb Sc ltac:(congruence) ltac:(congruence) NB MB) as (bc & Ebc & Sbc).
  destruct (C10_xor al ab c (axor A B) C Sab Sc E3 E4 N M) as (ab_c & Eabc & Sabc).
  destruct (C10_xor al a bc A (axor B C) Sa Sbc E1 E2 N M) as (a_bc & Eabc' & Sabc').
  destruct (C10_xor al ab b (axor A B) B Sab Sb E1 E2 N M) as (ab_b & Eabb & Sabb).
  destruct (C10_xor al a a A A Sa Sa eq_refl eq_refl N M) as (aa & Eaa & Saa).
  exists ab, ba, bc, ab_c, a_bc, ab_b, aa. do 7 (split; [assumption|]).
  assert (Q1 : asame (axor A B) (axor B A)).
  { repeat split; cbn [axor arows acols acell]; try assumption. intros. apply xorb_comm. }
  assert (Q2 : asame (axor (axor A B) C) (axor A (axor B C))).
  { repeat split; cbn [axor arows acols acell]. intros. apply xorb_assoc_reverse. }
  assert (Sym : forall X Y, asame X Y -> asame Y X).
  { intros X Y (F1 & F2 & F3). repeat split; [congruence|congruence|]. intros. symmetry. apply F3; congruence. }
  assert (Both : forall x y X Y, shows x X -> shows y Y -> asame X Y -> forall D, shows x D <-> shows y D).
  { intros x y X Y Sx Sy Q D. split; intros SD.
    - eapply shows_asame; [exact Sy|]. apply (one_array x); [|exact SD]. eapply shows_asame; [exact Sx|exact Q].
    - eapply shows_asame; [exact Sx|]. apply (one_array y); [|exact SD]. eapply shows_asame; [exact Sy|apply Sym; exact Q]. }
  split; [exact (Both _ _ _ _ Sab Sba Q1)|]. split; [exact (Both _ _ _ _ Sabc Sabc' Q2)|]. split.
  - eapply shows_asame; [exact Sabb|]. repeat split; cbn [axor arows acols acell]. intros.
    rewrite xorb_assoc_reverse, xorb_nilpotent, xorb_false_r. reflexivity.
  - eapply shows_asame; [exact Saa|]. repeat split; cbn [axor azero arows acols acell]. intros. apply xorb_nilpotent.
Qed.

Lemma compare_xor al a b a' b' A B A' B' : shows a A -> shows b B -> shows a' A' -> shows b' B' ->
  arows A = arows B -> acols A = acols B -> arows A' = arows B' -> acols A' = acols B' ->
  nonempty A -> memory_ok al (arows A) (acols A) -> asame (axor A B) (axor A' B') ->
  Compare al a b = Compare al a' b'.
Proof.
  intros Sa Sb Sa' Sb' E1 E2 E3 E4 N M Q. pose proof Q as (Q1 & Q2 & _). cbn [axor arows acols] in Q1, Q2.
  destruct (C10_xor al a b A B Sa Sb E1 E2 N M) as (x & Ex & Sx).
  destruct (C10_xor al a' b' A' B' Sa' Sb' E3 E4) as (y & Ey & Sy).
  { unfold nonempty in *. lia. }
  { rewrite <- Q1, <- Q2. exact M. }
  unfold Compare. rewrite Ex, Ey. cbn [bind]. unfold OneRatio.
  rewrite (CalcRatio_bits x y _ _ true Sx Sy Q). reflexivity.
Qed.

(** Changing the same cells in both matrices changes no score: the scores are the same doubles. *)
Theorem C122_common_changes_do_not_matter : forall al a b c A B C, shows a A -> shows b B -> shows c C ->
  arows A = arows B -> acols A = acols B -> arows A = arows C -> acols A = acols C ->
  nonempty A -> memory_ok al (arows A) (acols A) ->
  exists ac bc, bm_xor al a c = Ok ac /\ bm_xor al b c = Ok bc /\
    Compare al ac bc = Compare al a b /\ bm_eq al ac bc = bm_eq al a b /\ bm_ne al ac bc = bm_ne al a b.
Proof.
  intros al a b c A B C Sa Sb Sc E1 E2 E3 E4 N M.
  destruct (C10_xor al a c A C Sa Sc E3 E4 N M) as (ac & Eac & Sac).
  destruct (C10_xor al b c B C Sb Sc ltac:(congruence) ltac:(congruence)) as (bc & Ebc & Sbc).
  { unfold nonempty in *. lia. }
  { rewrite <- E1, <- E2. exact M. }
  exists ac, bc. split; [assumption|]. split; [assumption|].
  assert (Q : Compare al ac bc = Compare al a b).
  { apply (compare_xor al ac bc a b (axor A C) (axor B C) A B Sac Sbc Sa Sb E1 E2 E1 E2 N M).
    repeat split; cbn [axor arows acols acell]. intros i j _ _.
    destruct (acell A i j), (acell B i j), (acell C i j); reflexivity. }
  split; [exact Q|]. unfold bm_eq, bm_ne. rewrite Q. split; reflexivity.
Qed.

(** The score of two matrices is the score of their difference and the blank matrix. *)
Theorem C122_score_of_the_difference : forall al a b z A B, shows a A -> shows b B -> shows z (azero (arows A) (acols A)) ->
  arows A = arows B -> acols A = acols B -> nonempty A -> memory_ok al (arows A) (acols A) ->
  exists x, bm_xor al a b = Ok x /\ Compare al x z = Compare al a b.
Proof.
  intros al a b z A B Sa Sb Sz E1 E2 N M.
  destruct (C10_xor al a b A B Sa Sb E1 E2 N M) as (x & Ex & Sx).
  exists x. split; [exact Ex|].
  apply (compare_xor al x z a b (axor A B) (azero (arows A) (acols A)) A B Sx Sz Sa Sb eq_refl eq_refl E1 E2 N M).
  repeat split; cbn [axor azero arows acols acell]. intros. apply xorb_false_r.
Qed.

Lemma differences_opposite Q A : arows Q = arows A -> acols Q = acols A ->
  differences Q A + differences Q (opposite A) = cell_number Q.
Proof.
  intros E1 E2. unfold differences, cell_number. cbn [opposite acell].
  rewrite <- (seq_length (arows Q) 0) at 3. generalize (seq 0 (arows Q)). intros l. induction l as [|i l IH]; [reflexivity|].
  cbn [flat_map length]. unfold count in *. rewrite !filter_app, !app_length.
  assert (H : forall k s,
    length (filter (Bool.eqb true) (map (fun j => negb (Bool.eqb (acell Q i j) (acell A i j))) (seq s k))) +
    length (filter (Bool.eqb true) (map (fun j => negb (Bool.eqb (acell Q i j) (negb (acell A i j)))) (seq s k))) = k).
  { induction k as [|k IHk]; intros s; [reflexivity|]. cbn [seq map]. specialize (IHk (S s)).
    destruct (acell Q i s), (acell A i s); cbn [Bool.eqb negb filter length]; lia. }
  specialize (H (acols Q) 0). lia.
Qed.

(** ^ with a matrix of ones gives the opposite. *)
Theorem C122_opposite_by_xor : forall al a o A, shows a A -> shows o (afill A true) -> nonempty A -> memory_ok al (arows A) (acols A) ->
  exists x, bm_xor al a o = Ok x /\ shows x (opposite A).
Proof.
  intros al a o A Sa So N M. destruct (C10_xor al a o A (afill A true) Sa So eq_refl eq_refl N M) as (x & Ex & Sx).
  exists x. split; [exact Ex|]. eapply shows_asame; [exact Sx|].
  repeat split.
Qed.

(** A matrix and its opposite: what a third one scores with the two adds up to 1, up to rounding. *)
Theorem C122_opposites : forall al q a b Q A, shows q Q -> shows a A -> shows b (opposite A) ->
  arows Q = arows A -> acols Q = acols A -> nonempty Q -> ~ out_of_memory al (arows Q) (acols Q) ->
  (Z.of_nat (cell_number Q) <= 2 ^ 53)%Z ->
  exists x r y s, Compare al q a = Ok x /\ real x r /\ Compare al q b = Ok y /\ real y s /\
    (Rabs (r + s - 1) <= / IZR (2 ^ 51))%R.
Proof.
  intros al q a b Q A Sq Sa Sb E1 E2 N M H.
  destruct (Compare_ok al q a Q A Sq Sa E1 E2 N M H) as (x & Ex & Rx).
  destruct (Compare_ok al q b Q (opposite A) Sq Sb E1 E2 N M H) as (y & Ey & Ry).
  pose proof (differences_opposite Q A E1 E2) as D.
  assert (Hn : (0 < Z.of_nat (cell_number Q))%Z) by (unfold nonempty in N; unfold cell_number; nia).
  do 4 eexists. split; [exact Ex|]. split; [exact Rx|]. split; [exact Ey|]. split; [exact Ry|].
  pose proof (score_error (Z.of_nat (differences Q A)) (Z.of_nat (cell_number Q)) ltac:(lia) Hn) as R1.
  pose proof (score_error (Z.of_nat (differences Q (opposite A))) (Z.of_nat (cell_number Q)) ltac:(lia) Hn) as R2.
  apply abs_le in R1. apply abs_le in R2.
  assert (F : (IZR (Z.of_nat (differences Q A)) / IZR (Z.of_nat (cell_number Q)) +
               IZR (Z.of_nat (differences Q (opposite A))) / IZR (Z.of_nat (cell_number Q)) = 1)%R).
  { rewrite <- D. rewrite Nat2Z.inj_add, plus_IZR.
    assert (0 < IZR (Z.of_nat (differences Q A)) + IZR (Z.of_nat (differences Q (opposite A))))%R.
    { rewrite <- plus_IZR. apply IZR_lt. lia. }
    field. lra. }
  assert (U : (/ IZR (2 ^ 51) = / IZR (2 ^ 52) + / IZR (2 ^ 52))%R).
  { change (2 ^ 52)%Z with (2 * 2 ^ 51)%Z. rewrite mult_IZR. field. apply Rgt_not_eq, IZR_lt. lia. }
  rewrite U. apply Rabs_le. lra.
Qed.

(** Two matrices that are both like a third are like each other: the shortfalls from 1 add up at most, up to
    rounding. *)
Theorem C122_triangle : forall al a b c A B C, shows a A -> shows b B -> shows c C ->
  arows A = arows B -> acols A = acols B -> arows A = arows C -> acols A = acols C ->
  nonempty A -> ~ out_of_memory al (arows A) (acols A) -> (Z.of_nat (cell_number A) <= 2 ^ 53)%Z ->
  exists x r y s z t, Compare al a b = Ok x /\ real x r /\ Compare al b c = Ok y /\ real y s /\
    Compare al a c = Ok z /\ real z t /\
    (1 - t <= (1 - r) + (1 - s) + 3 * / IZR (2 ^ 52))%R.
Proof.
  intros al a b c A B C Sa Sb Sc E1 E2 E3 E4 N M H.
  assert (CN : cell_number B = cell_number A) by (unfold cell_number; congruence).
  destruct (Compare_ok al a b A B Sa Sb E1 E2 N M H) as (x & Ex & Rx).
  destruct (Compare_ok al b c B C Sb Sc ltac:(congruence) ltac:(congruence)) as (y & Ey & Ry).
  { unfold nonempty in *. lia. }
  { rewrite <- E1, <- E2. exact M. }
  { rewrite CN. exact H. }
  destruct (Compare_ok al a c A C Sa Sc E3 E4 N M H) as (z & Ez & Rz).
  do 6 eexists. split; [exact Ex|]. split; [exact Rx|]. split; [exact Ey|]. split; [exact Ry|].
  split; [exact Ez|]. split; [exact Rz|]. rewrite CN.
  pose proof (differences_triangle A B C E1 E2) as T.
  assert (Hn : (0 < Z.of_nat (cell_number A))%Z) by (unfold nonempty in N; unfold cell_number; nia).
  pose proof (differences_le A B) as D1. pose proof (differences_le B C) as D2. pose proof (differences_le A C) as D3. rewrite CN in D2.
  pose proof (score_error (Z.of_nat (differences A B)) (Z.of_nat (cell_number A)) ltac:(lia) Hn) as R1.
  pose proof (score_error (Z.of_nat (differences B C)) (Z.of_nat (cell_number A)) ltac:(lia) Hn) as R2.
  pose proof (score_error (Z.of_nat (differences A C)) (Z.of_nat (cell_number A)) ltac:(lia) Hn) as R3.
  apply abs_le in R1. apply abs_le in R2. apply abs_le in R3.
  assert (P : (IZR (Z.of_nat (differences A C)) / IZR (Z.of_nat (cell_number A)) <=
               IZR (Z.of_nat (differences A B)) / IZR (Z.of_nat (cell_number A)) +
               IZR (Z.of_nat (differences B C)) / IZR (Z.of_nat (cell_number A)))%R).
  { assert (0 < IZR (Z.of_nat (cell_number A)))%R by (apply IZR_lt; exact Hn).
    rewrite <- Rdiv_plus_distr. apply Rmult_le_compat_r; [apply Rlt_le, Rinv_0_lt_compat; assumption|].
    rewrite <- plus_IZR. apply IZR_le. lia. }
  lra.
Qed.

(** Along a chain of k matrices, each == to the one before, at most k * 0.01% of the cells change; and nothing
    better can be said (C11: == is not transitive). *)
Theorem C122_chains_of_equal_matrices : forall al a A l, shows a A -> nonempty A -> ~ out_of_memory al (arows A) (acols A) ->
  (Z.of_nat (cell_number A) <= 2 ^ 38)%Z ->
  Forall (fun p => shows (fst p) (snd p) /\ arows (snd p) = arows A /\ acols (snd p) = acols A) l ->
  chain (fun p q => bm_eq al (fst p) (fst q) = Ok true) (a, A) l ->
  (10000 * Z.of_nat (differences A (snd (last l (a, A)))) <= Z.of_nat (length l) * Z.of_nat (cell_number A))%Z.
Proof.
  intros al a A l Sa N M H F.
  assert (G : forall p, shows (fst p) (snd p) -> arows (snd p) = arows A -> acols (snd p) = acols A ->
    chain (fun p q => bm_eq al (fst p) (fst q) = Ok true) p l ->
    (10000 * Z.of_nat (differences (snd p) (snd (last l p))) <= Z.of_nat (length l) * Z.of_nat (cell_number A))%Z).
  2:{ exact (G (a, A) Sa eq_refl eq_refl). }
  induction F as [|q l (Sq & Q1 & Q2) F IH]; intros p Sp P1 P2 Ch.
  - cbn [last length]. rewrite differences_self. lia.
  - destruct Ch as (E & Ch). specialize (IH q Sq Q1 Q2 Ch).
    assert (CP : cell_number (snd p) = cell_number A) by (unfold cell_number; congruence).
    destruct (C11_equality al (fst p) (fst q) (snd p) (snd q) Sp Sq ltac:(congruence) ltac:(congruence)) as (e & n & E1 & _ & E2 & _).
    { unfold nonempty in *. rewrite P1, P2. exact N. }
    { rewrite P1, P2. exact M. }
    { rewrite CP. exact H. }
    rewrite E1 in E. assert (e = true) by congruence. apply E2 in H0. rewrite CP in H0.
    assert (L : last (q :: l) p = last l q).
    { clear. destruct l as [|y l]; [reflexivity|]. change (last (q :: y :: l) p) with (last (y :: l) p).
      revert y. induction l as [|z l IH]; intros y; [reflexivity|]. exact (IH z). }
    rewrite L.
    pose proof (differences_triangle (snd p) (snd q) (snd (last l q)) ltac:(congruence) ltac:(congruence)) as T.
    cbn [length]. lia.
Qed.

(** Two matrices of 2 x 3 cells and a mask. *)
Definition ex_a : bm := BM_ctor infinite_memory 2 3.
Example C122_example : exists a b c x ac bc,
  Set_ ex_a 0 1 true = Ok a /\ Set_ ex_a 1 2 true = Ok b /\ Set_ b 0 1 true = Ok c /\
  bm_xor infinite_memory a b = Ok x /\ bm_xor infinite_memory a c = Ok ac /\ bm_xor infinite_memory b c = Ok bc /\
  (Get x 0 1 = Ok true /\ Get x 1 2 = Ok true /\ Get x 0 0 = Ok false) /\
  (Get ac 0 1 = Ok false /\ Get ac 1 2 = Ok true) /\ (Get bc 0 1 = Ok true /\ Get bc 1 2 = Ok false).
Proof.
  do 6 eexists.
  do 6 (split; [vm_compute; reflexivity|]).
  repeat split; vm_compute; reflexivity.
Qed.

(** An opposite: all ones against all zeros. *)
Example C122_example_opposite : exists o, Ones ex_a = Ok o /\ shows ex_a (azero 2 3) /\ shows o (opposite (azero 2 3)) /\
  nonempty (azero 2 3).
Proof.
  assert (S0 : shows ex_a (azero 2 3)) by (apply C04_constructor_zero; reflexivity).
  destruct (C09_ones ex_a _ S0 ltac:(split; cbn; lia) eq_refl eq_refl) as (o & Eo & So).
  exists o. split; [exact Eo|]. split; [exact S0|]. split; [|split; cbn; lia].
  eapply shows_asame; [exact So|]. repeat split.
Qed.

(** A chain: no bit, one bit, two bits of 10000; the ends differ in two cells, and 2 * 10000 <= 2 * 10000. *)
Example C122_example_chain : exists z a b A B, shows z (azero 100 100) /\
  Forall (fun p => shows (fst p) (snd p) /\ arows (snd p) = 100 /\ acols (snd p) = 100) [(a, A); (b, B)] /\
  chain (fun p q => bm_eq infinite_memory (fst p) (fst q) = Ok true) (z, azero 100 100) [(a, A); (b, B)].
Proof.
  destruct C11_example as (z & a & b & Ez & Ea & Eb & E1 & _ & E2 & _).
  pose proof (C04_constructor_zero infinite_memory 100 100 eq_refl) as Sz. rewrite <- Ez in Sz.
  destruct (C05_set _ _ 0 0 true Sz ltac:(cbn; lia) ltac:(cbn; lia)) as (a' & Ea' & Sa).
  rewrite Ea in Ea'. injection Ea' as <-.
  destruct (C05_set _ _ 7 99 true Sa ltac:(cbn; lia) ltac:(cbn; lia)) as (b' & Eb' & Sb).
  rewrite Eb in Eb'. injection Eb' as <-.
  exists z, a, b. do 2 eexists. split; [exact Sz|]. split.
  - constructor; [split; [exact Sa|split; reflexivity]|]. constructor; [split; [exact Sb|split; reflexivity]|constructor].
  - cbn [chain fst]. auto.
Qed.

Print Assumptions C122_xor_algebra.
Print Assumptions C122_common_changes_do_not_matter.
Print Assumptions C122_score_of_the_difference.
Print Assumptions C122_opposite_by_xor.
Print Assumptions C122_opposites.
Print Assumptions C122_triangle.
Print Assumptions C122_chains_of_equal_matrices.
