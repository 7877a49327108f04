(** Proofs for C107, C108: scores as distances. *)
From Coq Require Import Reals Lra Lia.
From Flocq Require Import Core.
From Verif Require Import Prelude P_Prelude M_Double S_Double P_Double M_BitMatrix S_Matrix P_BitMatrix P_Cells S_Ratio M_Ratio P_Ratio P_EndToEnd P_PartEdge.
Local Open Scope R_scope.

Lemma score_error d n : (0 <= d <= n)%Z -> (0 < n)%Z -> Rabs (score d n - (1 - IZR d / IZR n)) <= / IZR (2 ^ 52).
Proof.
  intros H Hn. pose proof (frac_01 d n H Hn) as F. pose proof (rnd_frac_01 d n H Hn) as G.
  pose proof (rnd_abs (IZR d / IZR n) 0 ltac:(lia)) as E1. pose proof (rnd_abs (1 - rnd (IZR d / IZR n)) 0 ltac:(lia)) as E2.
  change (IZR (2 ^ 0)) with 1 in E1, E2. specialize (E1 ltac:(apply Rabs_le; lra)). specialize (E2 ltac:(apply Rabs_le; lra)).
  unfold u53 in E1, E2. unfold score. apply abs_le in E1. apply abs_le in E2.
  assert (U : / IZR (2 ^ 52) = 2 * / IZR (2 ^ 53)). { change (2 ^ 53)%Z with (2 * 2 ^ 52)%Z. rewrite mult_IZR. field. apply not_0_IZR. discriminate. }
  rewrite U. apply Rabs_le. lra.
Qed.

Lemma score_strict d d' n : (0 <= d)%Z -> (d < d')%Z -> (d' <= n)%Z -> (n < 2 ^ 51)%Z -> score d' n < score d n.
Proof.
  intros H L U Hn. pose proof (score_error d n ltac:(lia) ltac:(lia)) as E. pose proof (score_error d' n ltac:(lia) ltac:(lia)) as E'.
  apply abs_le in E. apply abs_le in E'.
  assert (N : 0 < IZR n) by (apply IZR_lt; lia).
  assert (S1 : / IZR (2 ^ 51) < / IZR n). { apply Rinv_lt_contravar; [apply Rmult_lt_0_compat; [exact N|apply IZR_lt; reflexivity]|apply IZR_lt; exact Hn]. }
  assert (D : IZR d / IZR n + / IZR n <= IZR d' / IZR n).
  { replace (IZR d / IZR n + / IZR n) with (IZR (d + 1) / IZR n) by (rewrite plus_IZR; field; lra). apply frac_le; [lia|lia|]. nia. }
  assert (V : / IZR (2 ^ 51) = 2 * / IZR (2 ^ 52)). { change (2 ^ 52)%Z with (2 * 2 ^ 51)%Z. rewrite mult_IZR. field. apply not_0_IZR. discriminate. }
  lra.
Qed.

(** Counting differences cell by cell. *)
Lemma count_triangle (f g h : nat -> nat -> bool) cs rs :
  (count true (flat_map (fun i => map (fun j => negb (Bool.eqb (f i j) (h i j))) cs) rs) <=
   count true (flat_map (fun i => map (fun j => negb (Bool.eqb (f i j) (g i j))) cs) rs) +
   count true (flat_map (fun i => map (fun j => negb (Bool.eqb (g i j) (h i j))) cs) rs))%nat.
Proof.
  assert (A : forall l l', count true (l ++ l') = (count true l + count true l')%nat).
  { intros l l'. unfold count. now rewrite filter_app, app_length. }
  induction rs as [|i rs IH]; [cbn; lia|]. cbn [flat_map]. rewrite !A.
  assert (R : forall ds, (count true (map (fun j => negb (Bool.eqb (f i j) (h i j))) ds) <=
    count true (map (fun j => negb (Bool.eqb (f i j) (g i j))) ds) + count true (map (fun j => negb (Bool.eqb (g i j) (h i j))) ds))%nat).
  { induction ds as [|j ds IHd]; [cbn; lia|]. cbn [map]. rewrite !count_cons.
    destruct (f i j), (g i j), (h i j); cbn [Bool.eqb negb]; lia. }
  specialize (R cs). lia.
Qed.

Lemma differences_triangle A B C : arows A = arows B -> acols A = acols B ->
  (differences A C <= differences A B + differences B C)%nat.
Proof. intros E1 E2. unfold differences. rewrite E1, E2. apply count_triangle. Qed.

Lemma differences_self A : differences A A = 0%nat.
Proof.
  unfold differences. generalize (seq 0 (arows A)). induction l as [|i l IH]; [reflexivity|]. cbn [flat_map].
  unfold count in *. rewrite filter_app, app_length, IH. generalize (seq 0 (acols A)).
  induction l0 as [|j l0 IH0]; [reflexivity|]. cbn [map filter]. rewrite Bool.eqb_reflx. cbn [negb Bool.eqb]. exact IH0.
Qed.

Lemma no_true l : count true l = 0%nat -> forall b, In b l -> b = false.
Proof.
  induction l as [|x l IH]; intros H b I; [destruct I|]. rewrite count_cons in H. destruct x; cbn [Bool.eqb] in H; [lia|].
  destruct I as [<-|I]; [reflexivity|]. apply IH; [lia|exact I].
Qed.

Lemma differences_zero A B : arows A = arows B -> acols A = acols B -> (differences A B = 0%nat <-> asame A B).
Proof.
  intros E1 E2. split.
  - intros H. split; [exact E1|]. split; [exact E2|]. intros i j Hi Hj.
    unfold differences in H. pose proof (no_true _ H (negb (Bool.eqb (acell A i j) (acell B i j)))) as Q.
    apply Bool.eqb_prop. apply Bool.negb_false_iff. apply Q. apply in_flat_map. exists i. split; [apply in_seq; lia|].
    apply (in_map (fun j => negb (Bool.eqb (acell A i j) (acell B i j)))). apply in_seq. lia.
  - intros (_ & _ & Q). rewrite <- (differences_self A). unfold differences. f_equal.
    rewrite !flat_map_concat_map. f_equal. apply map_ext_in. intros i Hi. apply map_ext_in. intros j Hj.
    apply in_seq in Hi. apply in_seq in Hj. rewrite (Q i j ltac:(lia) ltac:(lia)). reflexivity.
Qed.
