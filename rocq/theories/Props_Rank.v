(** C107, C108: what scores of several references say.
    Specifications: S_Matrix ([shows]), S_Ratio (counting), S_Double ([real]). *)
From Coq Require Import Reals Lra Lia.
From Flocq Require Import Core IEEE754.BinarySingleNaN.
From Verif Require Import Prelude P_Prelude M_Double S_Double P_Double M_Vector2D M_BitMatrix S_Matrix
  P_BitMatrix P_Cells S_Ratio M_Ratio P_Ratio Props_BitMatrix M_Zond P_Zond Props_Ratio P_EndToEnd P_Rank.
Local Open Scope nat_scope.

(** ** C107 *)
(** The score is the share of equal cells, up to 2^-52. *)
Theorem C107_score_is_the_share_of_equal_cells : forall al a b A B, shows a A -> shows b B ->
  arows A = arows B -> acols A = acols B -> nonempty A -> ~ out_of_memory al (arows A) (acols A) ->
  (Z.of_nat (cell_number A) <= 2 ^ 53)%Z ->
  exists x r, Compare al a b = Ok x /\ real x r /\
    (Rabs (r - INR (cell_number A - differences A B) / INR (cell_number A)) <= / IZR (2 ^ 52))%R.
Proof.
  intros al a b A B Sa Sb E1 E2 N M H.
  destruct (Compare_ok al a b A B Sa Sb E1 E2 N M H) as (x & E & R). pose proof (differences_le A B) as D.
  assert (Hn : (0 < Z.of_nat (cell_number A))%Z) by (unfold nonempty in N; unfold cell_number; nia).
  exists x, (score (Z.of_nat (differences A B)) (Z.of_nat (cell_number A))). split; [exact E|]. split; [exact R|].
  pose proof (score_error (Z.of_nat (differences A B)) (Z.of_nat (cell_number A)) ltac:(lia) Hn) as Q.
  rewrite minus_INR by exact D. rewrite !INR_IZR_INZ.
  replace ((IZR (Z.of_nat (cell_number A)) - IZR (Z.of_nat (differences A B))) / IZR (Z.of_nat (cell_number A)))%R
    with (1 - IZR (Z.of_nat (differences A B)) / IZR (Z.of_nat (cell_number A)))%R; [exact Q|].
  field. apply not_0_IZR. lia.
Qed.

(** Of two references the one with the greater score is the one that differs in fewer cells; equal scores mean
    equally many. *)
Theorem C107_greater_score_fewer_differences : forall al q a b Q A B, shows q Q -> shows a A -> shows b B ->
  arows Q = arows A -> acols Q = acols A -> arows Q = arows B -> acols Q = acols B ->
  nonempty Q -> ~ out_of_memory al (arows Q) (acols Q) -> (Z.of_nat (cell_number Q) < 2 ^ 51)%Z ->
  exists x y, Compare al q a = Ok x /\ Compare al q b = Ok y /\
    (dgt x y = true <-> differences Q A < differences Q B) /\
    (deq x y = true <-> differences Q A = differences Q B).
Proof.
  intros al q a b Q A B Sq Sa Sb E1 E2 E3 E4 N M H.
  destruct (Compare_ok al q a Q A Sq Sa E1 E2 N M ltac:(lia)) as (x & Ex & Rx).
  destruct (Compare_ok al q b Q B Sq Sb E3 E4 N M ltac:(lia)) as (y & Ey & Ry).
  exists x, y. split; [exact Ex|]. split; [exact Ey|]. rewrite (dgt_ok _ _ _ _ Rx Ry), (deq_ok _ _ _ _ Rx Ry).
  pose proof (differences_le Q A) as DA. pose proof (differences_le Q B) as DB.
  set (n := Z.of_nat (cell_number Q)) in *. 
  pose proof (score_strict (Z.of_nat (differences Q A)) (Z.of_nat (differences Q B)) n ltac:(lia)) as L1.
  pose proof (score_strict (Z.of_nat (differences Q B)) (Z.of_nat (differences Q A)) n ltac:(lia)) as L2.
  destruct (Nat.lt_trichotomy (differences Q A) (differences Q B)) as [C|[C|C]].
  - specialize (L1 ltac:(lia) ltac:(lia) ltac:(lia)). rewrite Rlt_bool_true by exact L1. rewrite Req_bool_false by lra.
    split; (split; [intros; try discriminate; assumption|intros; try reflexivity; exfalso; lia]).
  - rewrite C. rewrite Rlt_bool_false by lra. rewrite Req_bool_true by reflexivity. split; split; intros; try reflexivity; try discriminate; lia.
  - specialize (L2 ltac:(lia) ltac:(lia) ltac:(lia)). rewrite Rlt_bool_false by lra. rewrite Req_bool_false by lra.
    split; (split; [intros; discriminate|intros; exfalso; lia]).
Qed.

(** A score of exactly 1 means the same cells. *)
Theorem C107_one_means_identical : forall al a b A B, shows a A -> shows b B ->
  arows A = arows B -> acols A = acols B -> nonempty A -> ~ out_of_memory al (arows A) (acols A) ->
  (Z.of_nat (cell_number A) < 2 ^ 51)%Z ->
  exists x, Compare al a b = Ok x /\ (deq x (dz 1) = true <-> asame A B).
Proof.
  intros al a b A B Sa Sb E1 E2 N M H.
  destruct (C107_greater_score_fewer_differences al a b a A B A Sa Sb Sa E1 E2 eq_refl eq_refl N M H) as (x & y & Ex & Ey & _ & Q).
  destruct (C12_score al a a A A Sa Sa eq_refl eq_refl N M ltac:(lia)) as (y' & r & Ey' & Ry & _ & _ & R1).
  rewrite Ey in Ey'. injection Ey' as <-.
  destruct (C12_score al a b A B Sa Sb E1 E2 N M ltac:(lia)) as (x' & r' & Ex' & Rx & _).
  rewrite Ex in Ex'. injection Ex' as <-.
  assert (r = 1%R) by (apply R1; repeat split). subst r.
  exists x. split; [exact Ex|]. rewrite <- (differences_zero A B E1 E2), <- (differences_self A), <- Q.
  rewrite (deq_ok _ _ _ _ Rx Ry), (deq_ok _ _ _ _ Rx (dz_exact 1 ltac:(lia))). reflexivity.
Qed.

(** ** C108 *)
(** Dissimilarity obeys the triangle inequality, up to 3 * 2^-52. *)
Theorem C108_triangle : forall al a b c A B C, shows a A -> shows b B -> shows c C ->
  arows A = arows B -> acols A = acols B -> arows B = arows C -> acols B = acols C ->
  nonempty A -> ~ out_of_memory al (arows A) (acols A) -> (Z.of_nat (cell_number A) <= 2 ^ 53)%Z ->
  exists x y z rx ry rz, Compare al a b = Ok x /\ Compare al b c = Ok y /\ Compare al a c = Ok z /\
    real x rx /\ real y ry /\ real z rz /\
    (1 - rz <= (1 - rx) + (1 - ry) + 3 / IZR (2 ^ 52))%R.
Proof.
  intros al a b c A B C Sa Sb Sc E1 E2 E3 E4 N M H.
  assert (NB : nonempty B) by (unfold nonempty in *; rewrite <- E1, <- E2; exact N).
  assert (CB : cell_number B = cell_number A) by (unfold cell_number; now rewrite E1, E2).
  assert (MB : ~ out_of_memory al (arows B) (acols B)) by (rewrite <- E1, <- E2; exact M).
  destruct (Compare_ok al a b A B Sa Sb E1 E2 N M ltac:(lia)) as (x & Ex & Rx).
  destruct (Compare_ok al b c B C Sb Sc E3 E4 NB MB ltac:(lia)) as (y & Ey & Ry).
  destruct (Compare_ok al a c A C Sa Sc ltac:(congruence) ltac:(congruence) N M ltac:(lia)) as (z & Ez & Rz).
  exists x, y, z. do 3 eexists. split; [exact Ex|]. split; [exact Ey|]. split; [exact Ez|]. split; [exact Rx|]. split; [exact Ry|]. split; [exact Rz|].
  rewrite CB. pose proof (differences_triangle A B C E1 E2) as T.
  pose proof (differences_le A B) as D1. pose proof (differences_le B C) as D2. pose proof (differences_le A C) as D3. rewrite CB in D2.
  assert (Hn : (0 < Z.of_nat (cell_number A))%Z) by (unfold nonempty in N; unfold cell_number; nia).
  set (n := Z.of_nat (cell_number A)) in *.
  pose proof (score_error (Z.of_nat (differences A B)) n ltac:(lia) Hn) as Q1.
  pose proof (score_error (Z.of_nat (differences B C)) n ltac:(lia) Hn) as Q2.
  pose proof (score_error (Z.of_nat (differences A C)) n ltac:(lia) Hn) as Q3.
  assert (TT : (IZR (Z.of_nat (differences A C)) / IZR n <= IZR (Z.of_nat (differences A B)) / IZR n + IZR (Z.of_nat (differences B C)) / IZR n)%R).
  { replace (IZR (Z.of_nat (differences A B)) / IZR n + IZR (Z.of_nat (differences B C)) / IZR n)%R
      with (IZR (Z.of_nat (differences A B) + Z.of_nat (differences B C)) / IZR n)%R by (rewrite plus_IZR; field; apply not_0_IZR; lia).
    apply frac_le; [lia|lia|]. nia. }
  apply abs_le in Q1. apply abs_le in Q2. apply abs_le in Q3.
  unfold Rdiv in *. lra.
Qed.

(** A bitmap that is == to two references: these differ in at most one cell in 5000.  So references that differ
    in more cells are never confused. *)
Theorem C108_no_confusion : forall al q a b Q A B, shows q Q -> shows a A -> shows b B ->
  arows Q = arows A -> acols Q = acols A -> arows Q = arows B -> acols Q = acols B ->
  nonempty Q -> ~ out_of_memory al (arows Q) (acols Q) -> (Z.of_nat (cell_number Q) <= 2 ^ 38)%Z ->
  bm_eq al q a = Ok true -> bm_eq al q b = Ok true ->
  (5000 * Z.of_nat (differences A B) <= Z.of_nat (cell_number Q))%Z.
Proof.
  intros al q a b Q A B Sq Sa Sb E1 E2 E3 E4 N M H Qa Qb.
  destruct (C11_equality al q a Q A Sq Sa E1 E2 N M H) as (e & n & Ea & _ & Ia & _).
  destruct (C11_equality al q b Q B Sq Sb E3 E4 N M H) as (e' & n' & Eb & _ & Ib & _).
  assert (e = true) by congruence. assert (e' = true) by congruence. apply Ia in H0. apply Ib in H1.
  pose proof (differences_triangle A Q B (eq_sym E1) (eq_sym E2)) as T.
  rewrite (differences_sym A Q) in T by congruence. lia.
Qed.

(** Two bitmaps that are both == to a third: a score of at least 0.9998. *)
Theorem C108_almost_transitive : forall al a b c A B C, shows a A -> shows b B -> shows c C ->
  arows A = arows B -> acols A = acols B -> arows B = arows C -> acols B = acols C ->
  nonempty A -> ~ out_of_memory al (arows A) (acols A) -> (Z.of_nat (cell_number A) <= 2 ^ 38)%Z ->
  bm_eq al a b = Ok true -> bm_eq al b c = Ok true ->
  exists x, Compare al a c = Ok x /\ dge x (dlit 9998 10000) = true.
Proof.
  intros al a b c A B C Sa Sb Sc E1 E2 E3 E4 N M H Qa Qb.
  assert (NB : nonempty B) by (unfold nonempty in *; rewrite <- E1, <- E2; exact N).
  assert (CB : cell_number B = cell_number A) by (unfold cell_number; now rewrite E1, E2).
  assert (MB : ~ out_of_memory al (arows B) (acols B)) by (rewrite <- E1, <- E2; exact M).
  assert (D : (5000 * Z.of_nat (differences A C) <= Z.of_nat (cell_number B))%Z).
  { apply (C108_no_confusion al b a c B A C); try assumption; try congruence.
    destruct (C11_equality al a b A B Sa Sb E1 E2 N M H) as (e & n & Ea & _). unfold bm_eq in *. rewrite (C12_symmetric al b a B A Sb Sa). exact Qa. }
  destruct (Compare_ok al a c A C Sa Sc ltac:(congruence) ltac:(congruence) N M ltac:(lia)) as (x & Ex & Rx).
  exists x. split; [exact Ex|]. rewrite (dge_ok _ _ _ _ Rx (nearest_real _ _ (dlit_ok 9998 10000 ltac:(lia) ltac:(lia)))).
  apply Rle_bool_true. rewrite CB in D.
  assert (Hn : (0 < Z.of_nat (cell_number A))%Z) by (unfold nonempty in N; unfold cell_number; nia).
  apply Rle_trans with (score 1 5000); [|apply score_anti; lia].
  pose proof (dge_ok _ _ _ _ (score_real 1 5000 ltac:(lia) ltac:(lia)) (nearest_real _ _ (dlit_ok 9998 10000 ltac:(lia) ltac:(lia)))) as E.
  assert (V : dge (dsub (dz 1) (dlit 1 5000)) (dlit 9998 10000) = true) by (vm_compute; reflexivity).
  rewrite V in E. symmetry in E. match type of E with Rle_bool ?u ?v = true => destruct (Rle_bool_spec u v); [assumption|discriminate] end.
Qed.

(** ** Concrete cases *)
(** 100 x 100 cells: nothing set, one cell set, two cells set. *)
Definition ex_rank (k : nat) : bm :=
  let z := BM_ctor infinite_memory 100 100 in
  match k with
  | 0 => z
  | 1 => match Set_ z 0 0 true with Ok a => a | _ => z end
  | _ => match (let* a := Set_ z 0 0 true in Set_ a 7 99 true) with Ok b => b | _ => z end
  end.
Definition ex_picture (k : nat) : amat := mkamat 100 100 (fun i j => match k with
  | 0 => false | 1 => (i =? 0) && (j =? 0) | _ => ((i =? 0) && (j =? 0)) || ((i =? 7) && (j =? 99)) end).

Example C107_C108_hypotheses_met :
  (forall k, shows (ex_rank k) (ex_picture k)) /\ nonempty (ex_picture 0) /\
  differences (ex_picture 0) (ex_picture 1) = 1 /\ differences (ex_picture 0) (ex_picture 2) = 2 /\
  differences (ex_picture 1) (ex_picture 2) = 1 /\
  bm_eq infinite_memory (ex_rank 1) (ex_rank 0) = Ok true /\ bm_eq infinite_memory (ex_rank 1) (ex_rank 2) = Ok true /\
  bm_eq infinite_memory (ex_rank 0) (ex_rank 2) = Ok false /\
  match Compare infinite_memory (ex_rank 0) (ex_rank 1), Compare infinite_memory (ex_rank 0) (ex_rank 2) with
  | Ok x, Ok y => dgt x y = true | _, _ => False end.
Proof.
  assert (S0 : shows (ex_rank 0) (azero 100 100)) by exact (shows_new 100 100).
  split.
  { intros k. destruct k as [|[|k]].
    - eapply shows_ext; [exact S0|]. repeat split.
    - destruct (C05_set _ _ 0 0 true S0) as (a & Ea & Sa); [cbn; lia|cbn; lia|]. unfold ex_rank. change (BM_ctor infinite_memory 100 100) with (ex_rank 0).
      rewrite Ea. eapply shows_ext; [exact Sa|]. split; [reflexivity|]. split; [reflexivity|]. intros i j _ _. cbn [acell aset azero ex_picture].
      destruct (i =? 0), (j =? 0); reflexivity.
    - destruct (C05_set _ _ 0 0 true S0) as (a & Ea & Sa); [cbn; lia|cbn; lia|].
      destruct (C05_set _ _ 7 99 true Sa) as (b & Eb & Sb); [cbn; lia|cbn; lia|]. unfold ex_rank. change (BM_ctor infinite_memory 100 100) with (ex_rank 0).
      rewrite Ea. cbn [bind]. rewrite Eb. eapply shows_ext; [exact Sb|]. split; [reflexivity|]. split; [reflexivity|]. intros i j _ _. cbn [acell aset azero ex_picture].
      destruct (i =? 0), (j =? 0), (i =? 7), (j =? 99); reflexivity. }
  split; [split; cbn; lia|]. split; [vm_compute; reflexivity|]. split; [vm_compute; reflexivity|]. split; [vm_compute; reflexivity|].
  split; [vm_compute; reflexivity|]. split; [vm_compute; reflexivity|]. split; vm_compute; reflexivity.
Qed.

Print Assumptions C107_score_is_the_share_of_equal_cells.
Print Assumptions C107_greater_score_fewer_differences.
Print Assumptions C107_one_means_identical.
Print Assumptions C108_triangle.
Print Assumptions C108_no_confusion.
Print Assumptions C108_almost_transitive.
