(** Lemmas about ratios and comparison. *)
From Coq Require Import Reals Lra.
From Flocq Require Import Core IEEE754.BinarySingleNaN.
From Verif Require Import Prelude P_Prelude M_Double S_Double P_Double M_ByteHandler P_ByteHandler M_Vector2D M_BitMatrix S_Matrix
  P_BitMatrix P_Cells P_Serial P_Vector2D S_Ratio M_Ratio.
Local Open Scope nat_scope.

Lemma count_le v l : count v l <= length l.
Proof. unfold count. induction l as [|b l IH]; cbn [filter length]; [lia|]. destruct (Bool.eqb v b); cbn [length]; lia. Qed.

Lemma count_cons v b l : count v (b :: l) = (if Bool.eqb v b then 1 else 0) + count v l.
Proof. unfold count. cbn [filter]. destruct (Bool.eqb v b); reflexivity. Qed.

Lemma count_both l : count true l + count false l = length l.
Proof. induction l as [|b l IH]; [reflexivity|]. rewrite !count_cons. destruct b; cbn [Bool.eqb length]; lia. Qed.

Lemma count_loop v l : forall k x, (Z.of_nat (k + length l) <= 2 ^ 53)%Z -> real x (IZR (Z.of_nat k)) ->
  exists y, for_each l x (fun u b => Ok (if Bool.eqb b v then dadd u (dz 1) else u)) = Ok y /\
    real y (IZR (Z.of_nat (k + count v l))).
Proof.
  induction l as [|b l IH]; intros k x H R.
  - exists x. split; [reflexivity|]. unfold count. cbn [filter length]. now rewrite Nat.add_0_r.
  - cbn [for_each]. rewrite count_cons. cbn [length] in H.
    replace (Bool.eqb v b) with (Bool.eqb b v) by (destruct b, v; reflexivity).
    destruct (Bool.eqb b v).
    + destruct (IH (k + 1) (dadd x (dz 1))) as (y & E & Ry).
      * lia.
      * assert (S : (Z.of_nat (k + 1) <= 2 ^ 53)%Z) by lia.
        destruct (dadd_ok x (dz 1) (IZR (Z.of_nat k)) 1 R (dz_exact 1 ltac:(lia))) as (F & Q).
        -- rewrite <- plus_IZR, <- abs_IZR. apply IZR_le. lia.
        -- rewrite <- plus_IZR in Q. replace (Z.of_nat k + 1)%Z with (Z.of_nat (k + 1)) in Q by lia.
           split; [exact F|]. rewrite Q. apply rnd_exact, int_format. lia.
      * exists y. split; [exact E|]. replace (k + (1 + count v l)) with (k + 1 + count v l) by lia. exact Ry.
    + destruct (IH k x) as (y & E & Ry); [lia|exact R|]. exists y. split; [exact E|]. exact Ry.
Qed.


Lemma empty_abits A : ~ nonempty A -> abits A = [].
Proof. intros N. apply length_zero_iff_nil. rewrite abits_length. unfold nonempty in N. nia. Qed.

Lemma CalcRatio_loop m A v : shows m A -> (Z.of_nat (cell_number A) <= 2 ^ 53)%Z ->
  exists y, CalcRatio m v = Ok (ddiv y (dz (Z.of_nat (cell_number A)))) /\
    real y (IZR (Z.of_nat (cells_equal_to v A))).
Proof.
  intros S H. unfold CalcRatio.
  pose proof S as S'. apply shows_elim in S' as (_ & E1 & E2 & _). rewrite E1, E2.
  rewrite (for2_bits (fun u i j => let* b := UnsafeGet m i j in Ok (if Bool.eqb b v then dadd u (dz 1) else u))
             (fun u b => Ok (if Bool.eqb b v then dadd u (dz 1) else u)) A).
  - destruct (count_loop v (abits A) 0 (dz 0)) as (y & E & R).
    + rewrite abits_length. exact H.
    + apply (dz_exact 0). lia.
    + rewrite E. exists y. split; [|exact R].
      rewrite <- Nat2Z.inj_mul. rewrite Z.mod_small; [reflexivity|]. unfold cell_number in H. lia.
  - intros u i j Hi Hj. rewrite (shows_UnsafeGet m A i j S Hi Hj). reflexivity.
Qed.

Lemma CalcRatio_ok m A v : shows m A -> nonempty A -> (Z.of_nat (cell_number A) <= 2 ^ 53)%Z ->
  exists x, CalcRatio m v = Ok x /\
    nearest x (IZR (Z.of_nat (cells_equal_to v A)) / IZR (Z.of_nat (cell_number A))).
Proof.
  intros S N H. destruct (CalcRatio_loop m A v S H) as (y & E & R).
  eexists. split; [exact E|].
  assert (Hn : (0 < Z.of_nat (cell_number A))%Z) by (unfold nonempty in N; unfold cell_number; nia).
  apply ddiv_ok.
  - exact R.
  - apply dz_exact. lia.
  - apply not_0_IZR. lia.
  - assert (K : (Z.of_nat (cells_equal_to v A) <= Z.of_nat (cell_number A))%Z).
    { pose proof (count_le v (abits A)) as C. rewrite abits_length in C. unfold cells_equal_to, cell_number. lia. }
    apply IZR_lt in Hn. apply IZR_le in K.
    assert (P : (0 <= IZR (Z.of_nat (cells_equal_to v A)))%R) by (apply IZR_le; lia).
    rewrite Rabs_pos_eq.
    + apply Rle_trans with 1%R; [|apply (IZR_le 1); lia].
      apply Rmult_le_reg_r with (IZR (Z.of_nat (cell_number A))); [exact Hn|].
      unfold Rdiv. rewrite Rmult_assoc, Rinv_l, Rmult_1_r, Rmult_1_l by lra. exact K.
    + apply Rmult_le_pos; [exact P|]. left. now apply Rinv_0_lt_compat.
Qed.

(** 0/0 *)
Lemma CalcRatio_empty m A v : shows m A -> ~ nonempty A -> CalcRatio m v = Ok B754_nan.
Proof.
  intros S N. assert (C : cell_number A = 0) by (unfold nonempty in N; unfold cell_number; nia).
  unfold CalcRatio. pose proof S as S'. apply shows_elim in S' as (_ & E1 & E2 & _). rewrite E1, E2.
  rewrite (for2_bits (fun u i j => let* b := UnsafeGet m i j in Ok (if Bool.eqb b v then dadd u (dz 1) else u))
             (fun u b => Ok (if Bool.eqb b v then dadd u (dz 1) else u)) A).
  - rewrite (empty_abits A N). cbn [for_each]. rewrite <- Nat2Z.inj_mul. unfold cell_number in C. rewrite C. reflexivity.
  - intros u i j Hi Hj. rewrite (shows_UnsafeGet m A i j S Hi Hj). reflexivity.
Qed.

Lemma xor_differences A B : cells_equal_to true (axor A B) = differences A B.
Proof.
  unfold cells_equal_to, differences, abits. cbn [arows acols acell axor]. f_equal.
  apply flat_map_ext. intros i. apply map_ext. intros j.
  destruct (acell A i j), (acell B i j); reflexivity.
Qed.

Lemma differences_sym A B : arows A = arows B -> acols A = acols B -> differences A B = differences B A.
Proof.
  intros E1 E2. unfold differences. rewrite E1, E2. f_equal.
  apply flat_map_ext. intros i. apply map_ext. intros j.
  destruct (acell A i j), (acell B i j); reflexivity.
Qed.

Lemma differences_le A B : differences A B <= cell_number A.
Proof.
  rewrite <- xor_differences. unfold cells_equal_to.
  pose proof (count_le true (abits (axor A B))) as C. rewrite abits_length in C. exact C.
Qed.

(** the similarity score of two arrays of n cells that differ in d of them *)
Definition score (d n : Z) : R := rnd (1 - rnd (IZR d / IZR n)).

Section Frac.
Local Open Scope R_scope.
Lemma frac_le a b c d : (0 < b)%Z -> (0 < d)%Z -> (a * d <= c * b)%Z -> IZR a / IZR b <= IZR c / IZR d.
Proof.
  intros Hb Hd H. apply IZR_lt in Hb. apply IZR_lt in Hd. apply IZR_le in H. rewrite !mult_IZR in H.
  apply Rmult_le_reg_r with (IZR b); [exact Hb|]. apply Rmult_le_reg_r with (IZR d); [exact Hd|].
  replace (IZR a / IZR b * IZR b * IZR d) with (IZR a * IZR d) by (field; lra).
  replace (IZR c / IZR d * IZR b * IZR d) with (IZR c * IZR b) by (field; lra). exact H.
Qed.

Lemma frac_01 d n : (0 <= d <= n)%Z -> (0 < n)%Z -> 0 <= IZR d / IZR n <= 1.
Proof.
  intros H Hn. split.
  - apply Rle_trans with (IZR 0 / IZR 1); [right; field|]. apply frac_le; lia.
  - apply Rle_trans with (IZR 1 / IZR 1); [|right; field]. apply frac_le; lia.
Qed.

Lemma rnd_1 : rnd 1 = 1.
Proof. apply rnd_exact. apply (int_format 1). lia. Qed.

Lemma rnd_frac_01 d n : (0 <= d <= n)%Z -> (0 < n)%Z -> 0 <= rnd (IZR d / IZR n) <= 1.
Proof.
  intros H Hn. destruct (frac_01 d n H Hn) as (A & B). split.
  - rewrite <- rnd_0. now apply rnd_le.
  - rewrite <- rnd_1. now apply rnd_le.
Qed.

Lemma score_01 d n : (0 <= d <= n)%Z -> (0 < n)%Z -> 0 <= score d n <= 1.
Proof.
  intros H Hn. destruct (rnd_frac_01 d n H Hn). unfold score. split.
  - rewrite <- rnd_0. apply rnd_le. lra.
  - apply Rle_trans with (rnd 1); [apply rnd_le; lra|rewrite rnd_1; lra].
Qed.

Lemma score_anti d n d' n' : (0 < n)%Z -> (0 < n')%Z -> (d * n' <= d' * n)%Z -> score d' n' <= score d n.
Proof.
  intros Hn Hn' H. unfold score. apply rnd_le.
  assert (rnd (IZR d / IZR n) <= rnd (IZR d' / IZR n')); [|lra].
  apply rnd_le. apply frac_le; assumption.
Qed.

Lemma score_real p q : (0 <= p <= q)%Z -> (0 < q <= 2 ^ 53)%Z -> real (dsub (dz 1) (dlit p q)) (score p q).
Proof.
  intros Hp Hq. apply dsub_ok.
  - apply (dz_exact 1). lia.
  - apply nearest_real, dlit_ok; lia.
  - destruct (rnd_frac_01 p q ltac:(lia) ltac:(lia)). apply Rle_trans with 1.
    + apply Rabs_le. lra.
    + apply (IZR_le 1). lia.
Qed.

Definition T : R := rnd (9999 / 10000).
Lemma T_real : real (dlit 9999 10000) T.
Proof. apply (dlit_ok 9999 10000); lia. Qed.

Lemma score_mid : score 1 10000 = T.
Proof.
  pose proof (deq_ok _ _ _ _ (score_real 1 10000 ltac:(lia) ltac:(lia)) T_real) as E.
  assert (V : deq (dsub (dz 1) (dlit 1 10000)) (dlit 9999 10000) = true) by (vm_compute; reflexivity).
  rewrite V in E. symmetry in E. destruct (Req_bool_spec (score 1 10000) T); [assumption|discriminate].
Qed.

Lemma score_above : score (2 ^ 38 + 1) (10000 * 2 ^ 38) < T.
Proof.
  pose proof (dlt_ok _ _ _ _ (score_real (2 ^ 38 + 1) (10000 * 2 ^ 38) ltac:(lia) ltac:(lia)) T_real) as E.
  assert (V : dlt (dsub (dz 1) (dlit (2 ^ 38 + 1) (10000 * 2 ^ 38))) (dlit 9999 10000) = true) by (vm_compute; reflexivity).
  rewrite V in E. symmetry in E. destruct (Rlt_bool_spec (score (2 ^ 38 + 1) (10000 * 2 ^ 38)) T); [assumption|discriminate].
Qed.

Lemma score_below : T < score (2 ^ 38 - 1) (10000 * 2 ^ 38).
Proof.
  pose proof (dlt_ok _ _ _ _ T_real (score_real (2 ^ 38 - 1) (10000 * 2 ^ 38) ltac:(lia) ltac:(lia))) as E.
  assert (V : dlt (dlit 9999 10000) (dsub (dz 1) (dlit (2 ^ 38 - 1) (10000 * 2 ^ 38))) = true) by (vm_compute; reflexivity).
  rewrite V in E. symmetry in E. destruct (Rlt_bool_spec T (score (2 ^ 38 - 1) (10000 * 2 ^ 38))); [assumption|discriminate].
Qed.

Lemma score_ge d n : (0 < n <= 2 ^ 38)%Z -> (0 <= d <= n)%Z -> (T <= score d n <-> (10000 * d <= n)%Z).
Proof.
  intros Hn Hd. split.
  - intros H. apply Znot_gt_le. intros G.
    pose proof (score_anti (2 ^ 38 + 1) (10000 * 2 ^ 38) d n ltac:(lia) ltac:(lia) ltac:(nia)).
    pose proof score_above. lra.
  - intros H. rewrite <- score_mid. apply score_anti; lia.
Qed.

Lemma score_le d n : (0 < n <= 2 ^ 38)%Z -> (0 <= d <= n)%Z -> (score d n <= T <-> (n <= 10000 * d)%Z).
Proof.
  intros Hn Hd. split.
  - intros H. apply Znot_gt_le. intros G.
    pose proof (score_anti d n (2 ^ 38 - 1) (10000 * 2 ^ 38) ltac:(lia) ltac:(lia) ltac:(nia)).
    pose proof score_below. lra.
  - intros H. rewrite <- score_mid. apply score_anti; lia.
Qed.
End Frac.

Lemma alloc_oom al r c : alloc_fails al r c -> out_of_memory al r c.
Proof.
  intros (e & F). unfold out_of_memory. unfold V_Resize in F.
  destruct (al r (cdiv8 c)) as [| |i]; cbn [snd] in F; [discriminate|now left|right].
  exists i. destruct (Nat.ltb_spec i r); [split; [assumption|reflexivity]|discriminate].
Qed.

Lemma Compare_ok al a b A B : shows a A -> shows b B -> arows A = arows B -> acols A = acols B ->
  nonempty A -> ~ out_of_memory al (arows A) (acols A) -> (Z.of_nat (cell_number A) <= 2 ^ 53)%Z ->
  exists x, Compare al a b = Ok x /\ real x (score (Z.of_nat (differences A B)) (Z.of_nat (cell_number A))).
Proof.
  intros Sa Sb E1 E2 N M H. unfold Compare.
  destruct (shows_xor al a b A B Sa Sb E1 E2 N) as (m' & E & S').
  { intros F. apply M, alloc_oom, F. }
  rewrite E. cbn [bind]. unfold OneRatio.
  destruct (CalcRatio_ok m' (axor A B) true S' N H) as (x & Ex & Nx).
  rewrite Ex. rewrite xor_differences in Nx. change (cell_number (axor A B)) with (cell_number A) in Nx.
  pose proof (differences_le A B) as D.
  assert (Hn : (0 < Z.of_nat (cell_number A))%Z) by (unfold nonempty in N; unfold cell_number; nia).
  destruct (rnd_frac_01 (Z.of_nat (differences A B)) (Z.of_nat (cell_number A)) ltac:(lia) Hn) as (R0 & R1).
  apply nearest_real in Nx.
  rewrite (deq_ok x (dz (-1)) _ _ Nx (dz_exact (-1) ltac:(lia))).
  rewrite Req_bool_false by lra.
  eexists. split; [reflexivity|]. apply dsub_ok.
  - apply (dz_exact 1). lia.
  - exact Nx.
  - apply Rle_trans with 1%R; [apply Rabs_le; lra|apply (IZR_le 1); lia].
Qed.

Lemma Compare_bad al a b : Isize a <> Isize b \/ Jsize a <> Jsize b \/ Isize a = 0 \/ Jsize a = 0 \/
  alloc_fails al (Isize a) (Jsize a) -> Compare al a b = Ok (dz (-1)).
Proof.
  intros H. unfold Compare.
  destruct (Nat.eq_dec (Isize a) (Isize b)) as [E1|N1].
  - destruct (Nat.eq_dec (Jsize a) (Jsize b)) as [E2|N2].
    + rewrite (xor_noresult al a b E1 E2); [reflexivity|]. tauto.
    + rewrite (xor_mismatch al a b); [reflexivity|]. now right.
  - rewrite (xor_mismatch al a b); [reflexivity|]. now left.
Qed.

Lemma CalcRatio_bits m m' A B v : shows m A -> shows m' B -> asame A B -> CalcRatio m v = CalcRatio m' v.
Proof.
  intros S S' (E1 & E2 & E3). unfold CalcRatio.
  pose proof S as Q. apply shows_elim in Q as (_ & Q1 & Q2 & _).
  pose proof S' as Q'. apply shows_elim in Q' as (_ & Q1' & Q2' & _).
  rewrite Q1, Q2, Q1', Q2'.
  rewrite (for2_bits (fun u i j => let* b := UnsafeGet m i j in Ok (if Bool.eqb b v then dadd u (dz 1) else u))
             (fun u b => Ok (if Bool.eqb b v then dadd u (dz 1) else u)) A).
  2:{ intros u i j Hi Hj. rewrite (shows_UnsafeGet m A i j S Hi Hj). reflexivity. }
  rewrite (for2_bits (fun u i j => let* b := UnsafeGet m' i j in Ok (if Bool.eqb b v then dadd u (dz 1) else u))
             (fun u b => Ok (if Bool.eqb b v then dadd u (dz 1) else u)) B).
  2:{ intros u i j Hi Hj. rewrite (shows_UnsafeGet m' B i j S' Hi Hj). reflexivity. }
  rewrite (same_abits A B) by (repeat split; assumption). rewrite E1, E2. reflexivity.
Qed.

Lemma alloc_dec al r c : alloc_fails al r c \/ ~ alloc_fails al r c.
Proof.
  destruct (BM_ctor_cases al r c) as [(_ & F)|(_ & F)]; tauto.
Qed.

Lemma Compare_sym al a b A B : shows a A -> shows b B -> Compare al a b = Compare al b a.
Proof.
  intros Sa Sb.
  pose proof Sa as Qa. apply shows_elim in Qa as (_ & A1 & A2 & _).
  pose proof Sb as Qb. apply shows_elim in Qb as (_ & B1 & B2 & _).
  destruct (Nat.eq_dec (arows A) (arows B)) as [E1|N1].
  2:{ rewrite !Compare_bad by (left; congruence). reflexivity. }
  destruct (Nat.eq_dec (acols A) (acols B)) as [E2|N2].
  2:{ rewrite !Compare_bad by (right; left; congruence). reflexivity. }
  destruct (Nat.eq_dec (arows A) 0) as [Z1|NZ1].
  { rewrite !Compare_bad by (right; right; left; congruence). reflexivity. }
  destruct (Nat.eq_dec (acols A) 0) as [Z2|NZ2].
  { rewrite !Compare_bad by (right; right; right; left; congruence). reflexivity. }
  destruct (alloc_dec al (arows A) (acols A)) as [F|F].
  { rewrite (Compare_bad al a b), (Compare_bad al b a); [reflexivity| |];
      right; right; right; right; congruence. }
  destruct (shows_xor al a b A B Sa Sb E1 E2) as (x & Ex & Sx); [split; lia|exact F|].
  destruct (shows_xor al b a B A Sb Sa (eq_sym E1) (eq_sym E2)) as (y & Ey & Sy); [split; lia|congruence|].
  unfold Compare. rewrite Ex, Ey. cbn [bind]. unfold OneRatio.
  rewrite (CalcRatio_bits x y (axor A B) (axor B A) true Sx Sy); [reflexivity|].
  repeat split; cbn [arows acols axor acell]; try assumption. intros i j Hi Hj. apply xorb_comm.
Qed.
