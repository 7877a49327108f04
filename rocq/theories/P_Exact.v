(** Lemmas: the cells a rectangle marks, exactly. *)
From Coq Require Import Reals Lra Lia.
From Flocq Require Import Core IEEE754.BinarySingleNaN Relative.
From Verif Require Import Prelude P_Prelude M_Double S_Double P_Double M_LayoutData M_Vector2D
  M_BitMatrix S_Matrix P_BitMatrix M_Zond S_Zond P_Zond P_Round P_ZondReal P_ZondCells M_Generator P_Uniform S_Generator P_Generator
  Props_Zond S_EndToEnd P_EndToEnd S_Exact.
Local Open Scope R_scope.

(** * One axis, computed positions *)
(** b is a centre or farther than 2t from the centre k *)
Definition off (b t : R) (k : Z) : Prop := b = IZR k + 1 / 2 \/ 2 * t < Rabs (b - (IZR k + 1 / 2)).

Definition zmarked (n : Z) (b e : R) (k : Z) : Prop :=
  b <= IZR k + 1 / 2 /\ (IZR k + 1 / 2 <= e \/ overshot b e n k).

Lemma axis_exact b e t n k : 0 <= b -> b <= e -> 0 <= t <= 1 / 4 -> (0 <= k < n)%Z -> off b t k -> off e t k ->
  (axis (norm_spec b e t 0 (n - 1)) n k = true <-> zmarked n b e k).
Proof.
  intros B0 BE T K OB OE. unfold zmarked. destruct (Rle_or_lt b (IZR k + 1 / 2)) as [C|C].
  - destruct (Rle_or_lt (IZR k + 1 / 2) e) as [D|D].
    + split; [intros _; auto|intros _]. apply axis_centre; first [assumption|lra].
    + assert (e + 2 * t < IZR k + 1 / 2).
      { destruct OE as [OE|OE]; [lra|]. rewrite Rabs_left1 in OE by lra. lra. }
      rewrite (axis_overshoot b e t n k B0 BE T K C H). unfold overshot. split; [intros Q; auto|].
      intros (_ & [Q|Q]); [lra|exact Q].
  - split; [|intros (Q & _); lra]. intros A. exfalso.
    apply axis_near in A; try assumption; [|lia]. destruct A as (_ & A & _).
    destruct OB as [OB|OB]; [lra|]. rewrite Rabs_pos_eq in OB by lra. lra.
Qed.

(** * Two positions that lie alike *)
Definition alike (b b' : R) : Prop := forall k : Z, (b <= IZR k / 2 <-> b' <= IZR k / 2) /\ (IZR k / 2 <= b <-> IZR k / 2 <= b').
Definition agree (n : Z) (b b' : R) : Prop := alike b b' \/ (IZR n <= b /\ IZR n - 1 / 4 <= b').

Lemma half_of k : IZR k + 1 / 2 = IZR (2 * k + 1) / 2.
Proof. rewrite plus_IZR, mult_IZR. lra. Qed.
Lemma int_of k : IZR k = IZR (2 * k) / 2.
Proof. rewrite mult_IZR. lra. Qed.

Lemma alike_floor b b' : alike b b' -> Zfloor b = Zfloor b'.
Proof.
  intros A. symmetry. apply Zfloor_imp. pose proof (Zfloor_lb b). pose proof (Zfloor_ub b). split.
  - rewrite int_of. apply A. rewrite <- int_of. assumption.
  - rewrite int_of. apply Rnot_le_lt. intros Q. apply A in Q. rewrite <- int_of, plus_IZR in Q. lra.
Qed.

Lemma alike_overshot n k b b' e e' : alike b b' -> alike e e' -> (overshot b e n k <-> overshot b' e' n k).
Proof.
  intros A B. unfold overshot. rewrite (alike_floor b b' A), (alike_floor e e' B).
  assert (X : 1 / 2 <= e - IZR (Zfloor e') <-> 1 / 2 <= e' - IZR (Zfloor e')).
  { destruct (B (2 * Zfloor e' + 1)%Z) as (_ & Q). rewrite <- half_of in Q. split; intros Y.
    - assert (IZR (Zfloor e') + 1 / 2 <= e') by (apply Q; lra). lra.
    - assert (IZR (Zfloor e') + 1 / 2 <= e) by (apply Q; lra). lra. }
  assert (X2 : IZR (n - 1) <= e <-> IZR (n - 1) <= e').
  { destruct (B (2 * (n - 1))%Z) as (_ & Q). rewrite <- int_of in Q. exact Q. }
  tauto.
Qed.

Lemma marked_beyond n b e k : (0 <= k < n)%Z -> IZR n - 1 / 4 <= e -> (zmarked n b e k <-> b <= IZR k + 1 / 2).
Proof.
  intros K E. unfold zmarked. split; [tauto|]. intros Q. split; [exact Q|]. left.
  assert (IZR k + 1 <= IZR n) by (apply IZR_lt_1; lia). lra.
Qed.

Lemma marked_agree n b b' e e' k : (0 <= k < n)%Z -> agree n b b' -> agree n e e' -> (zmarked n b e k <-> zmarked n b' e' k).
Proof.
  intros K [A|(A & A')] B.
  - assert (P1 : b <= IZR k + 1 / 2 <-> b' <= IZR k + 1 / 2) by (rewrite half_of; apply A).
    destruct B as [B|(B & B')].
    + assert (P2 : IZR k + 1 / 2 <= e <-> IZR k + 1 / 2 <= e') by (rewrite half_of; apply B).
      pose proof (alike_overshot n k b b' e e' A B). unfold zmarked. tauto.
    + rewrite (marked_beyond n b e k K), (marked_beyond n b' e' k K) by lra. exact P1.
  - assert (IZR k + 1 <= IZR n) by (apply IZR_lt_1; lia). unfold zmarked. split; intros (Q & _); lra.
Qed.

(** * True and computed position of a sharp edge *)
Lemma alike_close p p' s : (forall k : Z, p = IZR k / 2 \/ s < Rabs (p - IZR k / 2)) -> Rabs (p' - p) <= s ->
  (forall k : Z, p = IZR k / 2 -> p' = p) -> alike p p'.
Proof.
  intros S C X k. apply abs_le in C. destruct (S k) as [Q|Q].
  - rewrite (X k Q). tauto.
  - destruct (Rle_or_lt p (IZR k / 2)) as [L|L].
    + rewrite Rabs_left1 in Q by lra. split; split; intros; lra.
    + rewrite Rabs_pos_eq in Q by lra. split; split; intros; lra.
Qed.

Lemma half_gap p t (k : Z) : clear_of_halves p -> Rabs t <= margin / 2 -> / IZR (2 ^ 11) < Rabs (p + t - IZR k / 2).
Proof.
  intros C T. specialize (C k). pose proof (Rabs_triang (p + t - IZR k / 2) (- t)) as Q. rewrite Rabs_Ropp in Q.
  replace (p + t - IZR k / 2 + - t) with (p - IZR k / 2) in Q by ring.
  replace (2 ^ 11)%Z with (2 ^ 10 * 2)%Z by reflexivity. rewrite mult_IZR, Rinv_mult.
  pose proof margin_small. assert (1 / 1024 <= / IZR (2 ^ 10)) by (change (2 ^ 10)%Z with 1024%Z; lra). lra.
Qed.

Lemma pow10 : / IZR (2 ^ 10) = 1 / 1024. Proof. change (2 ^ 10)%Z with 1024%Z. field. Qed.
Lemma pow11 : / IZR (2 ^ 11) = 1 / 2048. Proof. change (2 ^ 11)%Z with 2048%Z. field. Qed.
Lemma pow12 : / IZR (2 ^ 12) = 1 / 4096. Proof. change (2 ^ 12)%Z with 4096%Z. field. Qed.
Lemma pow20 : margin = 1 / 1048576. Proof. unfold margin. change (2 ^ 20)%Z with 1048576%Z. field. Qed.

Lemma whole_frac D q k : (1 <= q)%Z -> IZR D / IZR q = IZR k / 2 \/ / (2 * IZR q) <= Rabs (IZR D / IZR q - IZR k / 2).
Proof.
  intros Q. assert (P : 0 < IZR q) by (apply IZR_lt; lia).
  destruct (Z.eq_dec (2 * D) (k * q)) as [E|E].
  - left. apply (f_equal IZR) in E. rewrite !mult_IZR in E. apply Rmult_eq_reg_r with (2 * IZR q); [|lra].
    replace (IZR D / IZR q * (2 * IZR q)) with (2 * IZR D) by (field; lra).
    replace (IZR k / 2 * (2 * IZR q)) with (IZR k * IZR q) by field. exact E.
  - right. replace (IZR D / IZR q - IZR k / 2) with (IZR (2 * D - k * q) * / (2 * IZR q)) by (rewrite minus_IZR, !mult_IZR; field; lra).
    rewrite Rabs_mult, (Rabs_pos_eq (/ _)) by (left; apply Rinv_0_lt_compat; lra).
    rewrite <- (Rmult_1_l (/ (2 * IZR q))) at 1. apply Rmult_le_compat_r; [left; apply Rinv_0_lt_compat; lra|].
    rewrite <- abs_IZR. apply (IZR_le 1). lia.
Qed.

Lemma cell_side_le W n : (1 <= W < 2 ^ 31)%Z -> (1 <= n <= 2 ^ 30)%Z -> 0 < rnd (IZR W / IZR n) <= IZR (2 ^ 31).
Proof.
  intros HW Hn. destruct (box_cell W n HW Hn) as ((_ & L & _) & _). pose proof tiny_pos. split; [lra|].
  apply rnd_le_f; [apply int_format; lia|].
  assert (1 <= IZR n) by (apply (IZR_le 1); lia). assert (0 < IZR W) by (apply (IZR_lt 0); lia).
  apply Rle_trans with (IZR W); [|apply IZR_le; lia].
  apply Rmult_le_reg_r with (IZR n); [lra|]. replace (IZR W / IZR n * IZR n) with (IZR W) by (field; lra). nra.
Qed.

Lemma tol_small W n e : (1 <= W < 2 ^ 31)%Z -> (1 <= n <= 2 ^ 30)%Z -> 0 <= e <= / IZR (2 ^ 43) ->
  0 <= rnd (e * rnd (IZR W / IZR n)) <= / IZR (2 ^ 12).
Proof.
  intros HW Hn He. destruct (cell_side_le W n HW Hn) as (Q1 & Q2). split.
  - rewrite <- rnd_0. apply rnd_le. nra.
  - apply rnd_le_f.
    + apply generic_format_FLT. exists (Float radix2 1 (-12)); [|cbn; lia|cbn; lia].
      unfold F2R. cbn [Fnum Fexp]. change (bpow radix2 (-12)) with (/ IZR (2 ^ 12)). ring.
    + replace (/ IZR (2 ^ 12)) with (/ IZR (2 ^ 43) * IZR (2 ^ 31)).
      * apply Rmult_le_compat; lra.
      * replace (2 ^ 43)%Z with (2 ^ 12 * 2 ^ 31)%Z by reflexivity. rewrite mult_IZR. field. split; apply not_0_IZR; lia.
Qed.

Lemma tol_whole q e : (1 <= q <= 2 ^ 18)%Z -> 0 <= e <= / IZR (2 ^ 43) -> 0 <= rnd (e * IZR q) <= / IZR (2 ^ 25).
Proof.
  intros Hq He. assert (1 <= IZR q) by (apply (IZR_le 1); lia). assert (IZR q <= IZR (2 ^ 18)) by (apply IZR_le; lia). split.
  - rewrite <- rnd_0. apply rnd_le. nra.
  - apply rnd_le_f.
    + apply generic_format_FLT. exists (Float radix2 1 (-25)); [|cbn; lia|cbn; lia].
      unfold F2R. cbn [Fnum Fexp]. change (bpow radix2 (-25)) with (/ IZR (2 ^ 25)). ring.
    + replace (/ IZR (2 ^ 25)) with (/ IZR (2 ^ 43) * IZR (2 ^ 18)).
      * apply Rmult_le_compat; lra.
      * replace (2 ^ 43)%Z with (2 ^ 25 * 2 ^ 18)%Z by reflexivity. rewrite mult_IZR. field. split; apply not_0_IZR; lia.
Qed.

Lemma part_mono' D D' V n : (D <= D')%Z -> (1 <= V)%Z -> (0 <= n)%Z -> part D V n <= part D' V n.
Proof.
  intros HD HV Hn. unfold part. apply Rmult_le_compat_r; [left; apply Rinv_0_lt_compat, IZR_lt; lia|].
  apply Rmult_le_compat_r; apply IZR_le; lia.
Qed.

(** whole cells: the side and every position that is a multiple of 1/2 are exact *)
Lemma whole_side W n q : W = (q * n)%Z -> (1 <= q <= 2 ^ 18)%Z -> (1 <= n)%Z -> rnd (IZR W / IZR n) = IZR q.
Proof.
  intros -> Hq Hn. replace (IZR (q * n) / IZR n) with (IZR q) by (rewrite mult_IZR; field; apply not_0_IZR; lia).
  apply rnd_exact, int_format. lia.
Qed.

Lemma part_pos D V n : (0 <= D)%Z -> (1 <= V)%Z -> (0 <= n)%Z -> 0 <= part D V n.
Proof.
  intros HD HV Hn. unfold part. apply Rmult_le_pos; [apply Rmult_le_pos; apply IZR_le; lia|].
  left. apply Rinv_0_lt_compat, IZR_lt. lia.
Qed.

Lemma sharp_edge W n D e : (1 <= W < 2 ^ 31)%Z -> (1 <= Z.of_nat n <= 2 ^ 30)%Z -> (0 <= D < 2 ^ 32)%Z -> 0 <= e <= / IZR (2 ^ 43) ->
  part D W (Z.of_nat n) <= IZR (2 ^ 30) -> sharp W n D ->
  let q := rnd (IZR W / IZR (Z.of_nat n)) in
  agree (Z.of_nat n) (part D W (Z.of_nat n)) (position D q) /\
  forall k, (0 <= k < Z.of_nat n)%Z -> off (position D q) (rnd (e * q)) k.
Proof.
  intros HW Hn HD He HP S q. pose proof (part_pos D W (Z.of_nat n) ltac:(lia) ltac:(lia) ltac:(lia)) as P0.
  pose proof (position_close D W (Z.of_nat n) HW Hn ltac:(lia) ltac:(rewrite Rabs_pos_eq; assumption)) as CL. fold q in CL.
  pose proof (tol_small W (Z.of_nat n) e HW Hn He) as T. fold q in T.
  rewrite pow12 in T. pose proof pow20 as M20.
  assert (Pn : 1 <= IZR (Z.of_nat n)) by (apply (IZR_le 1); lia). assert (PW : 0 < IZR W) by (apply (IZR_lt 0); lia).
  destruct S as [(q0 & Eq & Hq)|[->|[B|C]]].
  - assert (Q : q = IZR q0) by (unfold q; apply whole_side; [exact Eq|exact Hq|lia]).
    assert (PP : part D W (Z.of_nat n) = IZR D / IZR q0).
    { unfold part. rewrite Eq, mult_IZR. field. split; apply not_0_IZR; lia. }
    rewrite PP in *. pose proof (tol_whole q0 e Hq He) as T'. rewrite <- Q in T'.
    assert (G : / IZR (2 ^ 19) <= / (2 * IZR q0)).
    { apply Rinv_le; [assert (1 <= IZR q0) by (apply (IZR_le 1); lia); lra|]. rewrite <- mult_IZR. apply IZR_le. lia. }
    change (2 ^ 25)%Z with 33554432%Z in T'. change (2 ^ 19)%Z with 524288%Z in G.
    assert (EX : forall k, IZR D / IZR q0 = IZR k / 2 -> position D q = IZR k / 2).
    { intros k Ek. unfold position. rewrite Q, Ek. apply rnd_exact, half_format.
      rewrite Ek in HP. assert (IZR k <= IZR (2 ^ 31)). { replace (2 ^ 31)%Z with (2 ^ 30 * 2)%Z by reflexivity. rewrite mult_IZR. lra. }
      apply le_IZR in H. rewrite Ek in P0. assert (0 <= IZR k) by lra. apply (le_IZR 0) in H0. lia. }
    assert (FR : forall k, IZR D / IZR q0 = IZR k / 2 \/ 1 / 524288 <= Rabs (IZR D / IZR q0 - IZR k / 2)).
    { intros k. destruct (whole_frac D q0 k ltac:(lia)); [auto|right; lra]. }
    split.
    + left. apply alike_close with (margin / 2); [|exact CL|].
      * intros k. destruct (FR k); [auto|right; lra].
      * intros k Ek. rewrite Ek. apply EX, Ek.
    + intros k _. unfold off. rewrite half_of. destruct (FR (2 * k + 1)%Z) as [E|E]; [left; apply EX, E|right].
      pose proof (Rabs_triang (position D q - IZR (2 * k + 1) / 2) (IZR D / IZR q0 - position D q)) as Tr.
      replace (position D q - IZR (2 * k + 1) / 2 + (IZR D / IZR q0 - position D q)) with (IZR D / IZR q0 - IZR (2 * k + 1) / 2) in Tr by ring.
      rewrite <- (Rabs_Ropp (IZR D / IZR q0 - position D q)) in Tr. rewrite Ropp_minus_distr in Tr. lra.
  - assert (E0 : position 0 q = 0). { unfold position. replace (0 / q) with 0 by (unfold Rdiv; ring). apply rnd_0. }
    assert (E1 : part 0 W (Z.of_nat n) = 0) by (unfold part, Rdiv; ring). rewrite E0, E1. split; [left; intros k; tauto|].
    intros k K. right. assert (0 <= IZR k) by (apply (IZR_le 0); lia). rewrite Rabs_left1 by lra. lra.
  - assert (B' : IZR (Z.of_nat n) <= part D W (Z.of_nat n)).
    { unfold part. apply Rmult_le_reg_r with (IZR W); [exact PW|].
      replace (IZR D * IZR (Z.of_nat n) / IZR W * IZR W) with (IZR D * IZR (Z.of_nat n)) by (field; lra).
      apply IZR_le in B. nra. }
    apply abs_le in CL. split; [right; split; lra|]. intros k K. right.
    assert (IZR k + 1 <= IZR (Z.of_nat n)) by (apply IZR_lt_1; lia). rewrite Rabs_pos_eq by lra. lra.
  - rewrite INR_IZR_INZ in C. change (clear_of_halves (part D W (Z.of_nat n))) in C. split.
    + left. apply alike_close with (margin / 2); [|exact CL|].
      * intros k. right. specialize (C k). rewrite pow10 in C. lra.
      * intros k Ek. exfalso. specialize (C k). rewrite Ek, Rminus_diag_eq, Rabs_R0, pow10 in C by reflexivity. lra.
    + intros k _. right. rewrite half_of.
      pose proof (half_gap (part D W (Z.of_nat n)) (position D q - part D W (Z.of_nat n)) (2 * k + 1) C CL) as G.
      replace (part D W (Z.of_nat n) + (position D q - part D W (Z.of_nat n)) - IZR (2 * k + 1) / 2) with (position D q - IZR (2 * k + 1) / 2) in G by ring.
      rewrite pow11 in G. lra.
Qed.

(** * The test for rectangles that cover the box *)
Lemma twelfth_format c : int32 c -> format (IZR c - 1 / 4096) /\ format (IZR c + 1 / 4096).
Proof.
  intros H. unfold int32 in H. split.
  - apply generic_format_FLT. exists (Float radix2 (c * 4096 - 1) (-12)); [|cbn [Fnum]; change (radix2 ^ 53)%Z with 9007199254740992%Z; lia|cbn; lia].
    unfold F2R. cbn [Fnum Fexp]. change (bpow radix2 (-12)) with (/ 4096). rewrite minus_IZR, mult_IZR. field.
  - apply generic_format_FLT. exists (Float radix2 (c * 4096 + 1) (-12)); [|cbn [Fnum]; change (radix2 ^ 53)%Z with 9007199254740992%Z; lia|cbn; lia].
    unfold F2R. cbn [Fnum Fexp]. change (bpow radix2 (-12)) with (/ 4096). rewrite plus_IZR, mult_IZR. field.
Qed.

Lemma le_up_no' c a x q e : int32 c -> cell_size x q -> 0 <= e <= 1 / 8 -> IZR a + q / 2 <= IZR c - 1 / 4096 ->
  ~ le_up (IZR c) (IZR a) q (rnd (q * e)).
Proof.
  intros Hc Hq He H. unfold le_up. rewrite (half_exact x q Hq).
  destruct (tol_le x q e Hq He) as (T1 & T2). destruct (twelfth_format c Hc) as (F & _).
  assert (U : rnd (IZR a + q / 2) <= IZR c - 1 / 4096) by (apply rnd_le_f; [exact F|lra]).
  assert (V : rnd (rnd (IZR a + q / 2) - rnd (q * e)) <= IZR c - 1 / 4096) by (apply rnd_le_f; [exact F|lra]). lra.
Qed.

Lemma ge_down_no' c a x q e : int32 c -> cell_size x q -> 0 <= e <= 1 / 8 -> IZR c + 1 / 4096 <= IZR a - q / 2 ->
  ~ ge_down (IZR c) (IZR a) q (rnd (q * e)).
Proof.
  intros Hc Hq He H. unfold ge_down. rewrite (half_exact x q Hq).
  destruct (tol_le x q e Hq He) as (T1 & T2). destruct (twelfth_format c Hc) as (_ & F).
  assert (U : IZR c + 1 / 4096 <= rnd (IZR a - q / 2)) by (apply rnd_ge; [exact F|lra]).
  assert (V : IZR c + 1 / 4096 <= rnd (rnd (IZR a - q / 2) + rnd (q * e))) by (apply rnd_ge; [exact F|lra]). lra.
Qed.

(** an edge past the first centre is past it by at least 1/4096 of a unit *)
Lemma edge_gap W n D : (1 <= W < 2 ^ 31)%Z -> (1 <= Z.of_nat n <= 2 ^ 30)%Z ->
  whole_cells W n \/ (W <= D)%Z \/ clear_of_halves (IZR D * INR n / IZR W) ->
  1 / 2 < part D W (Z.of_nat n) -> rnd (IZR W / IZR (Z.of_nat n)) / 2 + 1 / 4096 <= IZR D.
Proof.
  intros HW Hn S P. destruct (cell_mul W (Z.of_nat n) HW Hn) as (d & Ed & Bd). apply abs_le in Bd. pose proof u53_num as UN.
  assert (Pn : 1 <= IZR (Z.of_nat n)) by (apply (IZR_le 1); lia). assert (PW : 1 <= IZR W) by (apply (IZR_le 1); lia).
  set (s := IZR W / IZR (Z.of_nat n)) in *.
  assert (S0 : 0 < s) by (unfold s; apply Rdiv_lt_0_compat; lra).
  assert (PD : IZR D = part D W (Z.of_nat n) * s) by (unfold part, s; field; lra).
  assert (D1 : (1 <= D)%Z). { assert (0 < IZR D) by (rewrite PD; nra). apply lt_IZR in H. lia. }
  apply IZR_le in D1 as D1'.
  destruct (Rle_or_lt s 1) as [L|L].
  - assert (rnd s <= 1) by (apply rnd_le_f; [apply (int_format 1); lia|exact L]). lra.
  - destruct S as [(q & E & Hq)|[B|C]].
    + assert (Es : s = IZR q) by (unfold s; rewrite E, mult_IZR; field; lra).
      assert (rnd s = IZR q) by (rewrite Es; apply rnd_exact, int_format; lia). rewrite H.
      assert (G : (q < 2 * D)%Z). { apply lt_IZR. rewrite mult_IZR. rewrite PD, Es. rewrite Es in *. nra. }
      assert (IZR q + 1 <= 2 * IZR D) by (rewrite <- mult_IZR; apply IZR_lt_1; lia). lra.
    + apply IZR_le in B. assert (W1 : IZR W = s * IZR (Z.of_nat n)) by (unfold s; field; lra). rewrite Ed. nra.
    + rewrite INR_IZR_INZ in C. change (clear_of_halves (part D W (Z.of_nat n))) in C. specialize (C 1%Z). rewrite pow10 in C.
      rewrite Rabs_pos_eq in C by lra. rewrite Ed, PD. nra.
Qed.

Lemma part_flip D W n : (1 <= W)%Z -> part (W - D) W n = IZR n - part D W n.
Proof. intros H. unfold part. rewrite minus_IZR. field. apply not_0_IZR. lia. Qed.

Lemma clear_flip D W n : (1 <= W)%Z -> clear_of_halves (IZR D * INR n / IZR W) -> clear_of_halves (IZR (W - D) * INR n / IZR W).
Proof.
  intros HW C k. specialize (C (2 * Z.of_nat n - k)%Z).
  replace (IZR (W - D) * INR n / IZR W - IZR k / 2) with (- (IZR D * INR n / IZR W - IZR (2 * Z.of_nat n - k) / 2)).
  - rewrite Rabs_Ropp. exact C.
  - rewrite !minus_IZR, mult_IZR, INR_IZR_INZ. field. apply not_0_IZR. lia.
Qed.

(** an edge before the last centre *)
Lemma edge_gap' W n D : (1 <= W < 2 ^ 31)%Z -> (1 <= Z.of_nat n <= 2 ^ 30)%Z -> sharp W n D ->
  part D W (Z.of_nat n) < IZR (Z.of_nat n) - 1 / 2 -> IZR D + 1 / 4096 <= IZR W - rnd (IZR W / IZR (Z.of_nat n)) / 2.
Proof.
  intros HW Hn S P. pose proof (part_flip D W (Z.of_nat n) ltac:(lia)) as F.
  assert (Pn : 1 <= IZR (Z.of_nat n)) by (apply (IZR_le 1); lia).
  pose proof (edge_gap W n (W - D) HW Hn) as G. rewrite F, minus_IZR in G.
  assert (K : whole_cells W n \/ (W <= W - D)%Z \/ clear_of_halves ((IZR W - IZR D) * INR n / IZR W)).
  { destruct S as [Q|[->|[Q|Q]]].
    - auto.
    - right. left. lia.
    - exfalso. assert (B' : IZR (Z.of_nat n) <= part D W (Z.of_nat n)); [|lra].
      assert (PW : 0 < IZR W) by (apply (IZR_lt 0); lia). unfold part. apply Rmult_le_reg_r with (IZR W); [exact PW|].
      replace (IZR D * IZR (Z.of_nat n) / IZR W * IZR W) with (IZR D * IZR (Z.of_nat n)) by (field; lra).
      apply IZR_le in Q. nra.
    - right. right. rewrite <- minus_IZR. apply clear_flip; [lia|exact Q]. }
  specialize (G K ltac:(lra)). lra.
Qed.

(** * A rectangle that begins inside the box *)
Section Box.
Variables (mn mx : coord) (r c : nat).
Hypothesis FB : fine_box mn mx r c.
Let w := box_workspace mn mx.
Let W := (cx mx - cx mn)%Z.
Let H := (cy mx - cy mn)%Z.
Let qx := rnd (IZR W / IZR (Z.of_nat c)).
Let qy := rnd (IZR H / IZR (Z.of_nat r)).

Lemma sharp_covers z lt rb e : tuned z qx qy e -> angleCoords z = w -> coord32 lt -> coord32 rb -> sharp_edges mn mx r c lt rb ->
  covers_test z lt rb = true ->
  columns mn mx c (cx lt) <= 1 / 2 /\ IZR (Z.of_nat c) - 1 / 2 <= columns mn mx c (cx rb) /\
  rows mn mx r (cy lt) <= 1 / 2 /\ IZR (Z.of_nat r) - 1 / 2 <= rows mn mx r (cy rb).
Proof.
  intros (X & Y & E & Ee & Ex & Ey) HA L R (S1 & S2 & S3 & S4) T. pose proof FB as (Hmn & Hmx & HW & HH & Hr & Hc).
  fold W in HW, S1, S2. fold H in HH, S3, S4.
  pose proof (cell_size_pos _ _ X) as (RX & QX). pose proof (cell_size_pos _ _ Y) as (RY & QY).
  pose proof (ws32_box mn mx r c FB) as WS.
  apply (covers_test_ok z lt rb qx qy e) in T; try assumption; try lra; [|rewrite HA; exact WS].
  rewrite HA in T. subst w. cbn [box_workspace leftTop rightBot cx cy] in T. destruct T as (T1 & T2 & T3 & T4).
  destruct L as (L1 & L2), R as (R1 & R2).
  rewrite !(columns_part mn mx c), !(rows_part mn mx r).
  split; [|split; [|split]]; apply Rnot_lt_le; intros Q.
  - assert (K : whole_cells W c \/ (W <= cx lt - cx mn)%Z \/ clear_of_halves (IZR (cx lt - cx mn) * INR c / IZR W)).
    { destruct S1 as [S|[S|S]]; auto. exfalso. rewrite S in Q. unfold part, Rdiv in Q. lra. }
    pose proof (edge_gap W c (cx lt - cx mn) HW Hc K Q) as G. fold qx in G. rewrite minus_IZR in G.
    apply (le_up_no' _ _ (dx z) _ _ L1 X Ee) in T1; [exact T1|lra].
  - pose proof (edge_gap' W c (cx rb - cx mn) HW Hc S2 Q) as G. fold qx in G. unfold W in G. rewrite !minus_IZR in G.
    apply (ge_down_no' _ _ (dx z) _ _ R1 X Ee) in T2; [exact T2|]. lra.
  - assert (K : whole_cells H r \/ (H <= cy mx - cy lt)%Z \/ clear_of_halves (IZR (cy mx - cy lt) * INR r / IZR H)).
    { destruct S3 as [S|[S|S]]; auto. exfalso. rewrite S in Q. unfold part, Rdiv in Q. lra. }
    pose proof (edge_gap H r (cy mx - cy lt) HH Hr K Q) as G. fold qy in G. rewrite minus_IZR in G.
    apply (ge_down_no' _ _ (dy z) _ _ L2 Y Ee) in T3; [exact T3|lra].
  - pose proof (edge_gap' H r (cy mx - cy rb) HH Hr S4 Q) as G. fold qy in G. unfold H in G. rewrite !minus_IZR in G.
    apply (le_up_no' _ _ (dy z) _ _ R2 Y Ee) in T4; [exact T4|]. lra.
Qed.

Lemma marked_z n b e k : marked n b e k <-> zmarked (Z.of_nat n) b e (Z.of_nat k).
Proof. unfold marked, zmarked. rewrite INR_IZR_INZ. tauto. Qed.

Lemma rect_exact z g lt rb e m : tuned z qx qy e -> 0 <= e <= / IZR (2 ^ 43) ->
  boundIndicies z = full_bounds (Z.of_nat r) (Z.of_nat c) -> angleCoords z = w ->
  corners g lt rb -> manageable mn mx r c lt rb -> starts_inside mn mx lt -> sharp_edges mn mx r c lt rb -> shows m (azero r c) ->
  exists m' B, ZondRectangle z g m = (m', Ok tt) /\ shows m' B /\ arows B = r /\ acols B = c /\
    forall i j, (i < r)%nat -> (j < c)%nat -> (acell B i j = true <-> marks mn mx r c lt rb i j).
Proof.
  intros T He HB HA G M (SI1 & SI2) SE S.
  pose proof (manageable_fits mn mx r c FB lt rb M) as (PF1 & PF2).
  destruct M as (L32 & R32 & OX & OY & DF & PC & PR).
  pose proof FB as (Hmn & Hmx & HW & HH & Hr & Hc).
  pose proof (ws32_box mn mx r c FB) as WS.
  assert (DF' := DF). destruct DF' as (D1 & D2 & D3 & D4). cbn [box_workspace leftTop rightBot cx cy] in D1, D2, D3, D4. unfold int32 in D1, D2, D3, D4.
  assert (CL : columns mn mx c (cx lt) <= columns mn mx c (cx rb)).
  { rewrite !(columns_part mn mx c). apply part_mono'; lia. }
  assert (RL : rows mn mx r (cy lt) <= rows mn mx r (cy rb)).
  { rewrite !(rows_part mn mx r). apply part_mono'; lia. }
  destruct (covers_test z lt rb) eqn:CT.
  - destruct (sharp_covers z lt rb e T HA L32 R32 SE CT) as (K1 & K2 & K3 & K4).
    destruct G as (G1 & G2). unfold ZondRectangle, at_. rewrite G1, G2, CT. cbv zeta.
    rewrite HB. cbn [iBegin iEnd jBegin jEnd full_bounds].
    destruct (for32_block (azero r c) 0 (Z.of_nat r - 1) 0 (Z.of_nat c - 1)
      (fun i => to_size i <=? Z.of_nat r - 1)%Z (fun j => to_size j <=? Z.of_nat c - 1)%Z m) as (m' & E1 & E2); try lia;
      try (intros i Hii); try (rewrite to_size_small by lia; lia); [exact S|].
    exists m'. eexists. split; [exact E1|]. split; [exact E2|]. split; [reflexivity|]. split; [reflexivity|].
    intros i j Hi Hj. split.
    + intros _. assert (0 <= INR i) by apply pos_INR. assert (0 <= INR j) by apply pos_INR.
      assert (INR i + 1 <= INR r) by (rewrite <- S_INR; apply le_INR; lia).
      assert (INR j + 1 <= INR c) by (rewrite <- S_INR; apply le_INR; lia).
      rewrite <- INR_IZR_INZ in K2, K4. unfold marks, marked. split; (split; [lra|left; lra]).
    + intros _. cbn [adraw azero acell orb]. unfold block. lia.
  - destruct (rect_cells z g m (azero r c) lt rb qx qy e (Z.of_nat r) (Z.of_nat c)) as (m2 & E2 & S2); try assumption; try lia;
      try (rewrite HA; assumption); try (rewrite HA; cbn [w box_workspace leftTop rightBot cx cy]; lia).
    exists m2. eexists. split; [exact E2|]. split; [exact S2|]. split; [reflexivity|]. split; [reflexivity|].
    intros i j Hi Hj. cbn [adraw azero acell orb]. rewrite andb_true_iff, HA.
    unfold col_from, col_to, row_from, row_to. subst w. cbn [box_workspace leftTop rightBot cx cy].
    destruct SE as (S1 & S2' & S3 & S4). fold W in HW, S1, S2'. fold H in HH, S3, S4.
    rewrite !(columns_part mn mx c) in *. rewrite !(rows_part mn mx r) in *. fold W in PC, CL. fold H in PR, RL.
    destruct (sharp_edge W c (cx lt - cx mn) e HW Hc ltac:(lia) He ltac:(lra) S1) as (A1 & O1).
    destruct (sharp_edge W c (cx rb - cx mn) e HW Hc ltac:(lia) He ltac:(lra) S2') as (A2 & O2).
    destruct (sharp_edge H r (cy mx - cy lt) e HH Hr ltac:(lia) He ltac:(lra) S3) as (A3 & O3).
    destruct (sharp_edge H r (cy mx - cy rb) e HH Hr ltac:(lia) He ltac:(lra) S4) as (A4 & O4).
    fold qx in A1, A2, O1, O2. fold qy in A3, A4, O3, O4.
    destruct T as (X & Y & Ee & Er & Ex & Ey).
    pose proof (cell_size_pos _ _ X) as (RX & QX). pose proof (cell_size_pos _ _ Y) as (RY & QY).
    destruct (tol_real _ _ _ _ RX QX Ee Er Ex) as (_ & TX). destruct (tol_real _ _ _ _ RY QY Ee Er Ey) as (_ & TY).
    pose proof (position_sign (cx lt - cx mn) qx ltac:(lra) ltac:(lia)).
    pose proof (position_sign (cy mx - cy lt) qy ltac:(lra) ltac:(lia)).
    pose proof (position_mono (cx lt - cx mn) (cx rb - cx mn) qx ltac:(lra) ltac:(lia)).
    pose proof (position_mono (cy mx - cy lt) (cy mx - cy rb) qy ltac:(lra) ltac:(lia)).
    unfold marks. rewrite !marked_z, !(columns_part mn mx c), !(rows_part mn mx r). fold W H.
    rewrite (axis_exact (position (cy mx - cy lt) qy) (position (cy mx - cy rb) qy) (rnd (e * qy)) (Z.of_nat r) (Z.of_nat i)) by
      (first [assumption|lia|apply O3; lia|apply O4; lia]).
    rewrite (axis_exact (position (cx lt - cx mn) qx) (position (cx rb - cx mn) qx) (rnd (e * qx)) (Z.of_nat c) (Z.of_nat j)) by
      (first [assumption|lia|apply O1; lia|apply O2; lia]).
    assert (Ki : (0 <= Z.of_nat i < Z.of_nat r)%Z) by lia. assert (Kj : (0 <= Z.of_nat j < Z.of_nat c)%Z) by lia.
    pose proof (marked_agree _ _ _ _ _ _ Ki A3 A4). pose proof (marked_agree _ _ _ _ _ _ Kj A1 A2). tauto.
Qed.
End Box.
