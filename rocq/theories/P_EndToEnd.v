(** Lemmas: positions computed by the code against positions in the plane. *)
From Coq Require Import Reals Lra Lia.
From Flocq Require Import Core IEEE754.BinarySingleNaN Relative.
From Verif Require Import Prelude P_Prelude M_Double S_Double P_Double M_LayoutData M_Converter S_Converter P_Converter P_Split M_Vector2D
  M_BitMatrix S_Matrix P_BitMatrix M_Zond S_Zond P_Zond P_Round P_ZondReal P_ZondCells M_Generator P_Uniform S_Generator P_Generator
  Props_Zond S_EndToEnd.
Local Open Scope R_scope.

Definition u53 : R := / IZR (2 ^ 53).
Lemma u53_pos : 0 < u53.
Proof. apply Rinv_0_lt_compat, IZR_lt. reflexivity. Qed.

Lemma rnd_rel x : / IZR (2 ^ 100) <= Rabs x -> Rabs (rnd x - x) <= u53 * Rabs x.
Proof.
  intros H. unfold rnd.
  pose proof (relative_error_N_FLT radix2 (-1074) 53 ltac:(lia) (fun x => negb (Z.even x)) x) as R.
  assert (E : / 2 * bpow radix2 (- (53) + 1) = u53).
  { change (bpow radix2 (- (53) + 1)) with (/ IZR (2 ^ 52)). unfold u53.
    replace (2 ^ 53)%Z with (2 * 2 ^ 52)%Z by reflexivity. rewrite mult_IZR. 
    rewrite Rinv_mult. reflexivity. }
  rewrite E in R. unfold ZnearestE. apply R.
  apply Rle_trans with (2 := H).
  replace (bpow radix2 (-1074 + 53 - 1)) with (/ bpow radix2 1022) by (rewrite <- bpow_opp; reflexivity).
  apply Rinv_le; [apply IZR_lt; reflexivity|].
  change (IZR (2 ^ 100)) with (bpow radix2 100). apply bpow_le. lia.
Qed.

Lemma rel_mul x y : Rabs (y - x) <= u53 * Rabs x -> exists d, y = x * (1 + d) /\ Rabs d <= u53.
Proof.
  intros H. destruct (Req_dec x 0) as [Z|N].
  - exists 0. subst x. rewrite Rabs_R0 in H. rewrite Rmult_0_r in H.
    assert (y - 0 = 0). { destruct (Req_dec (y - 0) 0) as [E|E]; [exact E|]. apply Rabs_pos_lt in E. lra. }
    rewrite Rabs_R0. pose proof u53_pos. split; lra.
  - exists ((y - x) / x). split; [field; exact N|]. unfold Rdiv. rewrite Rabs_mult, Rabs_inv.
    apply Rmult_le_reg_r with (Rabs x); [apply Rabs_pos_lt, N|].
    rewrite Rmult_assoc, Rinv_l by (apply Rabs_no_R0, N). lra.
Qed.

Lemma rnd_mul x : / IZR (2 ^ 100) <= Rabs x -> exists d, rnd x = x * (1 + d) /\ Rabs d <= u53.
Proof. intros H. apply rel_mul, rnd_rel, H. Qed.

(** positions in the plane: D of n parts of an interval of length W *)
Definition part (D W n : Z) : R := IZR D * IZR n / IZR W.

Lemma abs_le x a : Rabs x <= a -> - a <= x <= a.
Proof. intros H. unfold Rabs in H. destruct (Rcase_abs x); lra. Qed.

Lemma quotient_size D W : (1 <= D < 2 ^ 32)%Z -> (1 <= W < 2 ^ 32)%Z -> / IZR (2 ^ 32) <= IZR D / IZR W <= IZR (2 ^ 32).
Proof.
  intros HD HW. assert (0 < IZR W) by (apply IZR_lt; lia). split.
  - apply Rmult_le_reg_r with (IZR W); [lra|]. unfold Rdiv. rewrite Rmult_assoc, Rinv_l, Rmult_1_r by lra.
    apply Rle_trans with 1; [|apply IZR_le; lia].
    rewrite <- (Rinv_l (IZR (2 ^ 32))) by (apply not_0_IZR; lia). apply Rmult_le_compat_l; [left; apply tiny_pos|apply IZR_le; lia].
  - apply Rmult_le_reg_r with (IZR W); [lra|]. unfold Rdiv. rewrite Rmult_assoc, Rinv_l, Rmult_1_r by lra.
    rewrite <- mult_IZR. apply IZR_le. nia.
Qed.

Lemma pos32_100 : / IZR (2 ^ 100) <= / IZR (2 ^ 32).
Proof. apply Rinv_le; [apply IZR_lt; reflexivity|apply IZR_le; discriminate]. Qed.

(** the width of a cell *)
Lemma cell_mul W n : (1 <= W < 2 ^ 31)%Z -> (1 <= n <= 2 ^ 30)%Z ->
  exists d, rnd (IZR W / IZR n) = IZR W / IZR n * (1 + d) /\ Rabs d <= u53.
Proof.
  intros HW Hn. apply rnd_mul. destruct (quotient_size W n ltac:(lia) ltac:(lia)) as (L & U).
  pose proof tiny_pos. pose proof pos32_100. rewrite Rabs_pos_eq; lra.
Qed.

Lemma u53_small : u53 <= / IZR (2 ^ 52) / 2.
Proof.
  unfold u53. replace (2 ^ 53)%Z with (2 ^ 52 * 2)%Z by reflexivity. rewrite mult_IZR, Rinv_mult. unfold Rdiv. lra.
Qed.

Lemma u53_num : u53 <= 1 / 1000000000000.
Proof.
  unfold u53, Rdiv. rewrite Rmult_1_l. apply Rinv_le; [lra|]. apply (IZR_le 1000000000000). lia.
Qed.

(** computed and true position differ by a factor close to 1 *)
Lemma position_part D W n : (1 <= W < 2 ^ 31)%Z -> (1 <= n <= 2 ^ 30)%Z -> (Z.abs D < 2 ^ 32)%Z ->
  exists d, position D (rnd (IZR W / IZR n)) = part D W n * (1 + d) /\ Rabs d <= 3 * u53.
Proof.
  intros HW Hn HD. destruct (cell_mul W n HW Hn) as (d1 & E1 & B1). unfold position, part.
  destruct (Z.eq_dec D 0) as [->|ND].
  { exists 0. replace (0 / rnd (IZR W / IZR n)) with 0 by (unfold Rdiv; ring). rewrite rnd_0, Rabs_R0.
    pose proof u53_pos. split; [unfold Rdiv; ring|lra]. }
  rewrite E1. pose proof u53_num as UN. pose proof u53_pos as UP. apply abs_le in B1.
  assert (0 < IZR W) by (apply IZR_lt; lia). assert (0 < IZR n) by (apply IZR_lt; lia).
  set (x := IZR D / (IZR W / IZR n * (1 + d1))).
  assert (X : x = IZR D * IZR n / IZR W * / (1 + d1)) by (unfold x; field; lra).
  assert (I1 : / 2 <= / (1 + d1)) by (apply Rinv_le; lra).
  destruct (rnd_mul x) as (d2 & E2 & B2).
  { rewrite X. rewrite Rabs_mult. rewrite (Rabs_pos_eq (/ (1 + d1))) by lra.
    unfold Rdiv. rewrite !Rabs_mult. rewrite <- !abs_IZR, Rabs_inv, <- abs_IZR.
    assert (A1 : 1 <= IZR (Z.abs D)) by (apply IZR_le; lia).
    assert (A2 : 1 <= IZR (Z.abs n)) by (apply IZR_le; lia).
    assert (A3 : / IZR (2 ^ 31) <= / IZR (Z.abs W)) by (apply Rinv_le; [apply IZR_lt; lia|apply IZR_le; lia]).
    assert (A0 : 0 < / IZR (2 ^ 31)) by (apply Rinv_0_lt_compat, IZR_lt; reflexivity).
    apply Rle_trans with (1 * 1 * / IZR (2 ^ 31) * / 2).
    - rewrite !Rmult_1_l. rewrite <- Rinv_mult, <- mult_IZR. apply Rinv_le; [apply IZR_lt; reflexivity|apply IZR_le; discriminate].
    - apply Rmult_le_compat; [nra|lra| |lra]. apply Rmult_le_compat; [lra|lra| |lra]. apply Rmult_le_compat; lra. }
  exists ((1 + d2) * / (1 + d1) - 1). rewrite E2, X. split; [ring|].
  apply abs_le in B2.
  assert (Q : (1 + d2) * / (1 + d1) - 1 = (d2 - d1) * / (1 + d1)) by (field; lra).
  rewrite Q, Rabs_mult, (Rabs_pos_eq (/ (1 + d1))) by lra.
  assert (J : / (1 + d1) <= 3 / 2). { apply Rmult_le_reg_l with (1 + d1); [lra|]. rewrite Rinv_r by lra. nra. }
  assert (K : Rabs (d2 - d1) <= 2 * u53) by (apply Rabs_le; lra).
  apply Rle_trans with (2 * u53 * (3 / 2)); [|lra]. apply Rmult_le_compat; [apply Rabs_pos|lra|exact K|exact J].
Qed.

Lemma margin_u53 : IZR (2 ^ 30) * (3 * u53) <= margin / 2.
Proof.
  unfold u53, margin. replace (2 ^ 53)%Z with (2 ^ 30 * 2 ^ 23)%Z by reflexivity. rewrite mult_IZR, Rinv_mult.
  replace (IZR (2 ^ 30) * (3 * (/ IZR (2 ^ 30) * / IZR (2 ^ 23)))) with (3 * / IZR (2 ^ 23)) by (field; split; apply not_0_IZR; lia).
  replace (2 ^ 23)%Z with (2 ^ 20 * 8)%Z by reflexivity. rewrite mult_IZR, Rinv_mult.
  assert (0 < / IZR (2 ^ 20)) by (apply Rinv_0_lt_compat, IZR_lt; reflexivity). lra.
Qed.

Lemma margin_small : 0 < margin <= 1 / 1000000.
Proof.
  unfold margin. split; [apply Rinv_0_lt_compat, IZR_lt; reflexivity|].
  unfold Rdiv. rewrite Rmult_1_l. apply Rinv_le; [lra|]. apply (IZR_le 1000000). lia.
Qed.

Lemma position_close D W n : (1 <= W < 2 ^ 31)%Z -> (1 <= n <= 2 ^ 30)%Z -> (Z.abs D < 2 ^ 32)%Z ->
  Rabs (part D W n) <= IZR (2 ^ 30) ->
  Rabs (position D (rnd (IZR W / IZR n)) - part D W n) <= margin / 2.
Proof.
  intros HW Hn HD HP. destruct (position_part D W n HW Hn HD) as (d & E & B). rewrite E.
  replace (part D W n * (1 + d) - part D W n) with (part D W n * d) by ring. rewrite Rabs_mult.
  apply Rle_trans with (2 := margin_u53). apply Rmult_le_compat; [apply Rabs_pos|apply Rabs_pos|exact HP|exact B].
Qed.

(** the cell size of a box *)
Lemma box_cell W n : (1 <= W < 2 ^ 31)%Z -> (1 <= n <= 2 ^ 30)%Z ->
  cell_size (ddiv (dz (Z.abs (- W))) (dz (n mod 2 ^ 32))) (rnd (IZR W / IZR n)) /\
  cell_size (ddiv (dz (Z.abs W)) (dz (n mod 2 ^ 32))) (rnd (IZR W / IZR n)) /\
  rnd (IZR W / IZR n) <= IZR (2 ^ 32).
Proof.
  intros HW Hn. rewrite Z.mod_small by lia. rewrite Z.abs_opp, Z.abs_eq by lia.
  destruct (quotient_size W n ltac:(lia) ltac:(lia)) as (L & U).
  assert (F32 : format (/ IZR (2 ^ 32))).
  { apply generic_format_FLT. exists (Float radix2 1 (-32)); [|cbn; lia|cbn; lia].
    unfold F2R. cbn [Fnum Fexp]. change (bpow radix2 (-32)) with (/ IZR (2 ^ 32)). ring. }
  assert (G : rnd (IZR W / IZR n) <= IZR (2 ^ 32)) by (apply rnd_le_f; [apply int_format; lia|exact U]).
  assert (C : cell_size (ddiv (dz W) (dz n)) (rnd (IZR W / IZR n))).
  { split.
    - apply nearest_real, ddiv_ok; [apply dz_exact; lia|apply dz_exact; lia|apply not_0_IZR; lia|].
      pose proof tiny_pos. rewrite Rabs_pos_eq by lra. apply Rle_trans with (1 := U). apply IZR_le. lia.
    - split; [apply rnd_ge; assumption|]. apply Rle_trans with (1 := G). apply IZR_le. lia. }
  split; [exact C|]. split; [exact C|exact G].
Qed.

Section Box.
Variables (mn mx : coord) (r c : nat).
Hypothesis FB : fine_box mn mx r c.
Let w := box_workspace mn mx.
Let W := (cx mx - cx mn)%Z.
Let H := (cy mx - cy mn)%Z.
Let qx := rnd (IZR W / IZR (Z.of_nat c)).
Let qy := rnd (IZR H / IZR (Z.of_nat r)).

Lemma prepared_ok : exists z e, prepared w (dlit 1 (10 ^ 13)) r c = Ok z /\ tuned z qx qy e /\
  boundIndicies z = full_bounds (Z.of_nat r) (Z.of_nat c) /\ angleCoords z = w.
Proof.
  destruct FB as (Hmn & Hmx & HW & HH & Hr & Hc). fold W in HW. fold H in HH.
  destruct (box_cell W (Z.of_nat c) HW Hc) as (CX1 & CX & CXu). destruct (box_cell H (Z.of_nat r) HH Hr) as (CY & CY1 & CYu).
  fold qx in CX, CXu. fold qy in CY, CYu.
  destruct generator_eps as (e & Re & Be).
  unfold prepared. subst w. cbn [box_workspace leftTop rightBot cx cy].
  unfold CalcDelta. rewrite !sub32_ok by (unfold int32; lia). cbn [bind].
  replace (cy mn - cy mx)%Z with (- H)%Z by (unfold H; lia). fold W.
  pose proof (cell_size_pos _ _ CX) as (RX & QX). pose proof (cell_size_pos _ _ CY) as (RY & QY).
  assert (R0 : real (dz 0) 0) by (apply dz_exact; lia).
  rewrite (dgt_ok _ _ _ _ R0 RX), (dgt_ok _ _ _ _ R0 RY). rewrite !Rlt_bool_false by lra. cbn [orb].
  assert (B43 : / IZR (2 ^ 43) <= / IZR (2 ^ 32) / 4).
  { replace (2 ^ 43)%Z with (2 ^ 32 * 2048)%Z by reflexivity. rewrite mult_IZR, Rinv_mult.
    assert (0 < / IZR (2 ^ 32)) by (apply Rinv_0_lt_compat, IZR_lt; reflexivity). unfold Rdiv. nra. }
  assert (I32 : / IZR (2 ^ 32) * IZR (2 ^ 32) = 1) by (apply Rinv_l, not_0_IZR; lia).
  assert (I32' : 0 < / IZR (2 ^ 32) <= 1 / 4).
  { split; [apply Rinv_0_lt_compat, IZR_lt; reflexivity|]. unfold Rdiv. rewrite Rmult_1_l. apply Rinv_le; [lra|apply (IZR_le 4); lia]. }
  do 2 eexists. split; [reflexivity|].
  split; [|split; reflexivity]. split; [exact CX|]. split; [exact CY|]. split; [exact Re|].
  split; [lra|]. split; nra.
Qed.

Lemma ws32_box : ws32 w.
Proof. destruct FB as ((A & B) & (C & D) & _). split; split; assumption. Qed.

Lemma columns_part x : columns mn mx c x = part (x - cx mn) W (Z.of_nat c).
Proof. unfold columns, part. rewrite INR_IZR_INZ. reflexivity. Qed.
Lemma rows_part y : rows mn mx r y = part (cy mx - y) H (Z.of_nat r).
Proof. unfold rows, part. rewrite INR_IZR_INZ. reflexivity. Qed.

Lemma part_nonneg D V n : (0 <= D)%Z -> (1 <= V)%Z -> (0 <= n)%Z -> 0 <= part D V n.
Proof.
  intros HD HV Hn. unfold part. apply Rmult_le_pos; [apply Rmult_le_pos; apply IZR_le; lia|].
  left. apply Rinv_0_lt_compat, IZR_lt. lia.
Qed.

Lemma part_mono D D' V n : (D <= D')%Z -> (1 <= V)%Z -> (0 <= n)%Z -> part D V n <= part D' V n.
Proof.
  intros HD HV Hn. unfold part. apply Rmult_le_compat_r; [left; apply Rinv_0_lt_compat, IZR_lt; lia|].
  apply Rmult_le_compat_r; apply IZR_le; lia.
Qed.

(** the four positions of a manageable rectangle *)
Lemma close_col x : (0 <= x - cx mn < 2 ^ 32)%Z -> columns mn mx c x <= IZR (2 ^ 30) ->
  Rabs (position (x - cx mn) qx - columns mn mx c x) <= margin / 2.
Proof.
  intros Hx Hp. destruct FB as (Hmn & Hmx & HW & HH & Hr & Hc). fold W in HW. rewrite columns_part in *.
  apply position_close; [exact HW|exact Hc|lia|]. rewrite Rabs_pos_eq; [exact Hp|]. apply part_nonneg; lia.
Qed.
Lemma close_row y : (0 <= cy mx - y < 2 ^ 32)%Z -> rows mn mx r y <= IZR (2 ^ 30) ->
  Rabs (position (cy mx - y) qy - rows mn mx r y) <= margin / 2.
Proof.
  intros Hx Hp. destruct FB as (Hmn & Hmx & HW & HH & Hr & Hc). fold H in HH. rewrite rows_part in *.
  apply position_close; [exact HH|exact Hr|lia|]. rewrite Rabs_pos_eq; [exact Hp|]. apply part_nonneg; lia.
Qed.

(** positions that are bounded above fit *)
Lemma fits_of_close p t : Rabs (p - t) <= margin / 2 -> t <= IZR (2 ^ 30) -> position_fits p.
Proof.
  intros A B. apply abs_le in A. unfold position_fits. pose proof margin_small.
  assert (IZR (2 ^ 30) + 1 <= IZR (2 ^ 31 - 1)) by (rewrite <- plus_IZR; apply IZR_le; lia). lra.
Qed.

(** also when the coordinate lies outside *)
Lemma position_fits_any D V n : (1 <= V < 2 ^ 31)%Z -> (1 <= n <= 2 ^ 30)%Z -> (Z.abs D < 2 ^ 32)%Z ->
  part D V n <= IZR (2 ^ 30) -> position_fits (position D (rnd (IZR V / IZR n))).
Proof.
  intros HV Hn HD HP. destruct (Z.le_gt_cases 0 D) as [N|N].
  - apply fits_of_close with (part D V n); [|exact HP]. apply position_close; try assumption.
    rewrite Rabs_pos_eq; [exact HP|]. apply part_nonneg; lia.
  - unfold position_fits. apply Rle_lt_trans with 0; [|apply (IZR_lt 0); lia].
    unfold position. rewrite <- rnd_0. apply rnd_le.
    destruct (box_cell V n HV Hn) as ((_ & L & _) & _). pose proof tiny_pos.
    assert (IZR D < 0) by (apply (IZR_lt _ 0); lia).
    assert (0 < / rnd (IZR V / IZR n)) by (apply Rinv_0_lt_compat; lra). unfold Rdiv. nra.
Qed.

Lemma manageable_fits lt rb : manageable mn mx r c lt rb ->
  position_fits (col_to rb w qx) /\ position_fits (row_to rb w qy).
Proof.
  intros (_ & _ & _ & _ & (D1 & D2 & D3 & D4) & PC & PR). destruct FB as (Hmn & Hmx & HW & HH & Hr & Hc).
  unfold int32 in *. cbn [box_workspace leftTop rightBot cx cy] in *.
  rewrite columns_part in PC. rewrite rows_part in PR.
  unfold col_to, row_to. subst w. cbn [box_workspace leftTop rightBot cx cy].
  split; apply position_fits_any; first [assumption|lia].
Qed.

(** a rectangle that starts inside: drawn, its covered centres set, nothing far away set *)
Lemma rect_inside z g lt rb e m : tuned z qx qy e -> boundIndicies z = full_bounds (Z.of_nat r) (Z.of_nat c) -> angleCoords z = w ->
  corners g lt rb -> manageable mn mx r c lt rb -> starts_inside mn mx lt -> shows m (azero r c) ->
  exists m' B, ZondRectangle z g m = (m', Ok tt) /\ shows m' B /\
    forall i j, (i < r)%nat -> (j < c)%nat ->
      (covers_centre mn mx r c lt rb i j -> acell B i j = true) /\
      (acell B i j = true -> near_centre mn mx r c lt rb i j).
Proof.
  intros T HB HA G M (SI1 & SI2) S.
  pose proof (manageable_fits lt rb M) as (PF1 & PF2).
  destruct M as (L32 & R32 & OX & OY & DF & PC & PR).
  pose proof FB as (Hmn & Hmx & HW & HH & Hr & Hc).
  pose proof ws32_box as WS. rewrite <- HA in WS.
  assert (DF' := DF). destruct DF' as (D1 & D2 & D3 & D4). cbn [box_workspace leftTop rightBot cx cy] in D1, D2, D3, D4. unfold int32 in D1, D2, D3, D4.
  assert (CL : columns mn mx c (cx lt) <= columns mn mx c (cx rb)).
  { rewrite !columns_part. apply part_mono; unfold W in *; lia. }
  assert (RL : rows mn mx r (cy lt) <= rows mn mx r (cy rb)).
  { rewrite !rows_part. apply part_mono; unfold H in *; lia. }
  pose proof (close_col (cx lt) ltac:(lia) ltac:(lra)) as C1. pose proof (close_col (cx rb) ltac:(lia) ltac:(lra)) as C2.
  pose proof (close_row (cy lt) ltac:(lia) ltac:(lra)) as C3. pose proof (close_row (cy rb) ltac:(lia) ltac:(lra)) as C4.
  apply abs_le in C1, C2, C3, C4. pose proof margin_small as MS.
  destruct (C46_covered_centres_are_set z g m (azero r c) lt rb qx qy e (Z.of_nat r) (Z.of_nat c))
    as (m1 & B1 & E1 & S1 & Cov); try assumption; try lia; try (rewrite HA; assumption);
    try (rewrite HA; cbn [w box_workspace leftTop rightBot cx cy]; lia).
  exists m1, B1. split; [exact E1|]. split; [exact S1|].
  intros i j Hi Hj. split.
  - intros ((K1 & K2) & (K3 & K4)). apply Cov; cbn [azero arows acols]; try lia;
      rewrite HA; unfold row_from, row_to, col_from, col_to; cbn [w box_workspace leftTop rightBot cx cy]; lra.
  - intros HBij. destruct (covers_test z lt rb) eqn:CT.
    + assert (NS : ~ one_cell_short lt rb w qx qy).
      { intros SH. rewrite (short_test z lt rb qx qy e) in CT; [discriminate|assumption|assumption|assumption|..];
          destruct T as (T1 & T2 & T3 & T4 & T5 & T6); try assumption. rewrite HA. exact SH. }
      assert (N1 : IZR (cx lt) < IZR (cx mn) + qx /\ IZR (cx mx) - qx < IZR (cx rb) /\
                   IZR (cy mx) - qy < IZR (cy lt) /\ IZR (cy rb) < IZR (cy mn) + qy).
      { unfold one_cell_short in NS. cbn [w box_workspace leftTop rightBot cx cy] in NS.
        repeat split; apply Rnot_le_lt; intros Q; apply NS; auto. }
      destruct N1 as (N1 & N2 & N3 & N4).
      destruct (cell_mul W (Z.of_nat c) HW Hc) as (dx0 & EX & BX). fold qx in EX.
      destruct (cell_mul H (Z.of_nat r) HH Hr) as (dy0 & EY & BY). fold qy in EY.
      apply abs_le in BX, BY. pose proof u53_num as UN. pose proof u53_pos as UP.
      assert (PW : 0 < IZR W) by (apply IZR_lt; unfold W; lia). assert (PH : 0 < IZR H) by (apply IZR_lt; unfold H; lia).
      assert (Pc : 1 <= INR c) by (rewrite INR_IZR_INZ; apply IZR_le; lia).
      assert (Pr : 1 <= INR r) by (rewrite INR_IZR_INZ; apply IZR_le; lia).
      assert (A1 : columns mn mx c (cx lt) <= 1 + u53).
      { unfold columns. fold W. apply Rmult_le_reg_r with (IZR W / INR c). { apply Rdiv_lt_0_compat; lra. }
        replace (IZR (cx lt - cx mn) * INR c / IZR W * (IZR W / INR c)) with (IZR (cx lt - cx mn)) by (field; lra).
        rewrite minus_IZR. rewrite <- INR_IZR_INZ in EX. assert (0 < IZR W / INR c) by (apply Rdiv_lt_0_compat; lra). nra. }
      assert (A2 : INR c - 1 - u53 <= columns mn mx c (cx rb)).
      { unfold columns. fold W. apply Rmult_le_reg_r with (IZR W / INR c). { apply Rdiv_lt_0_compat; lra. }
        replace (IZR (cx rb - cx mn) * INR c / IZR W * (IZR W / INR c)) with (IZR (cx rb - cx mn)) by (field; lra).
        replace ((INR c - 1 - u53) * (IZR W / INR c)) with (IZR W - (1 + u53) * (IZR W / INR c)) by (field; lra).
        rewrite minus_IZR. rewrite <- INR_IZR_INZ in EX. assert (0 < IZR W / INR c) by (apply Rdiv_lt_0_compat; lra).
        assert (IZR W = IZR (cx mx) - IZR (cx mn)) by (unfold W; apply minus_IZR). nra. }
      assert (A3 : rows mn mx r (cy lt) <= 1 + u53).
      { unfold rows. fold H. apply Rmult_le_reg_r with (IZR H / INR r). { apply Rdiv_lt_0_compat; lra. }
        replace (IZR (cy mx - cy lt) * INR r / IZR H * (IZR H / INR r)) with (IZR (cy mx - cy lt)) by (field; lra).
        rewrite minus_IZR. rewrite <- INR_IZR_INZ in EY. assert (0 < IZR H / INR r) by (apply Rdiv_lt_0_compat; lra). nra. }
      assert (A4 : INR r - 1 - u53 <= rows mn mx r (cy rb)).
      { unfold rows. fold H. apply Rmult_le_reg_r with (IZR H / INR r). { apply Rdiv_lt_0_compat; lra. }
        replace (IZR (cy mx - cy rb) * INR r / IZR H * (IZR H / INR r)) with (IZR (cy mx - cy rb)) by (field; lra).
        replace ((INR r - 1 - u53) * (IZR H / INR r)) with (IZR H - (1 + u53) * (IZR H / INR r)) by (field; lra).
        rewrite minus_IZR. rewrite <- INR_IZR_INZ in EY. assert (0 < IZR H / INR r) by (apply Rdiv_lt_0_compat; lra).
        assert (IZR H = IZR (cy mx) - IZR (cy mn)) by (unfold H; apply minus_IZR). nra. }
      assert (UM : u53 <= margin).
      { unfold u53, margin. apply Rinv_le; [apply IZR_lt; reflexivity|apply IZR_le; discriminate]. }
      assert (I0 : 0 <= INR i <= INR r - 1). { split; [apply pos_INR|]. assert (INR (i + 1) <= INR r) by (apply le_INR; lia). rewrite plus_INR in *. cbn in *. lra. }
      assert (J0 : 0 <= INR j <= INR c - 1). { split; [apply pos_INR|]. assert (INR (j + 1) <= INR c) by (apply le_INR; lia). rewrite plus_INR in *. cbn in *. lra. }
      unfold near_centre. lra.
    + destruct (rect_cells z g m (azero r c) lt rb qx qy e (Z.of_nat r) (Z.of_nat c)) as (m2 & E2 & S2); try assumption; try lia;
        try (rewrite HA; assumption); try (rewrite HA; cbn [w box_workspace leftTop rightBot cx cy]; lia).
      rewrite E1 in E2. injection E2 as <-.
      assert (Q : acell B1 i j = acell (adraw (azero r c) (fun i0 j0 : Z =>
        axis (norm_spec (row_from lt (angleCoords z) qy) (row_to rb (angleCoords z) qy) (rnd (e * qy)) 0 (Z.of_nat r - 1)) (Z.of_nat r) i0
        && axis (norm_spec (col_from lt (angleCoords z) qx) (col_to rb (angleCoords z) qx) (rnd (e * qx)) 0 (Z.of_nat c - 1)) (Z.of_nat c) j0)) i j).
      { destruct (shows_elim _ _ S1) as (_ & Q1 & Q2 & Q3). destruct (shows_elim _ _ S2) as (_ & Q4 & Q5 & Q6).
        cbn [adraw azero arows acols] in Q4, Q5, Q6. rewrite <- Q3, <- Q6 by lia. reflexivity. }
      rewrite Q in HBij. cbn [adraw azero acell orb] in HBij. apply andb_true_iff in HBij as (Q1 & Q2). rewrite HA in Q1, Q2.
      destruct T as (X & Y & Ee & Er & Ex & Ey).
      pose proof (cell_size_pos _ _ X) as (RX & QX). pose proof (cell_size_pos _ _ Y) as (RY & QY).
      destruct (tol_real _ _ _ _ RX QX Ee Er Ex) as (_ & TX). destruct (tol_real _ _ _ _ RY QY Ee Er Ey) as (_ & TY).
      unfold col_from, col_to, row_from, row_to in *. cbn [w box_workspace leftTop rightBot cx cy] in *.
      pose proof (position_sign (cx lt - cx mn) qx ltac:(lra) ltac:(lia)).
      pose proof (position_sign (cy mx - cy lt) qy ltac:(lra) ltac:(lia)).
      pose proof (position_mono (cx lt - cx mn) (cx rb - cx mn) qx ltac:(lra) ltac:(lia)).
      pose proof (position_mono (cy mx - cy lt) (cy mx - cy rb) qy ltac:(lra) ltac:(lia)).
      apply axis_near in Q1; try assumption; try lia. apply axis_near in Q2; try assumption; try lia.
      unfold near_centre. rewrite !INR_IZR_INZ. lra.
Qed.

(** any manageable rectangle: drawn or rejected *)
Lemma rect_outside z g lt rb e m : tuned z qx qy e -> boundIndicies z = full_bounds (Z.of_nat r) (Z.of_nat c) -> angleCoords z = w ->
  corners g lt rb -> manageable mn mx r c lt rb -> ~ starts_inside mn mx lt ->
  covers_test z lt rb = false -> ZondRectangle z g m = (m, Throw InvalidArgument).
Proof.
  intros (X & Y & E & Ee & Ex & Ey) HB HA (G1 & G2) M NI CT.
  pose proof (manageable_fits lt rb M) as (PF1 & PF2).
  destruct M as (L32 & R32 & OX & OY & (D1 & D2 & D3 & D4) & PC & PR).
  pose proof FB as (Hmn & Hmx & HW & HH & Hr & Hc).
  pose proof (cell_size_pos _ _ X) as (RX & QX). pose proof (cell_size_pos _ _ Y) as (RY & QY).
  unfold ZondRectangle, at_. rewrite G1, G2, CT. cbv zeta.
  assert (T : rect_indices z lt rb = Throw InvalidArgument); [|now rewrite T].
  unfold rect_indices. rewrite HA. cbv zeta. rewrite !sub32_ok by assumption. cbn [bind].
  unfold NormIndicies. cbv zeta.
  pose proof (position_any _ _ _ X D1) as J1. pose proof (position_any _ _ _ X D2) as J2.
  pose proof (position_any _ _ _ Y D3) as I1. pose proof (position_any _ _ _ Y D4) as I2.
  unfold starts_inside in NI. subst w. cbn [box_workspace leftTop rightBot cx cy] in *.
  destruct (Z.lt_ge_cases (cy mx) (cy lt)) as [AB|AB].
  - rewrite (NormPair_neg _ _ _ _ _ _ _ _ I1 I2); [reflexivity|]. left. apply position_neg; [lra|lra|lia].
  - assert (LE : (cx lt < cx mn)%Z) by lia.
    unfold row_to, position_fits in *. cbn [box_workspace leftTop rightBot cx cy] in *.
    pose proof (position_sign (cy mx - cy lt) qy ltac:(lra) ltac:(lia)) as I0.
    pose proof (position_mono (cy mx - cy lt) (cy mx - cy rb) qy ltac:(lra) ltac:(lia)) as I12.
    destruct (tol_real _ _ _ _ RY QY E Ee Ey) as (TY & TY').
    assert (LL : (IZR (2 ^ 31 - 1) < IZR (2 ^ 31))%R) by (apply IZR_lt; lia).
    rewrite HB. cbn [iBegin iEnd jBegin jEnd full_bounds].
    rewrite (NormPair_ok _ _ _ _ _ _ _ _ 0 (Z.of_nat r - 1) I1 I2 RY TY) by (try lia; lra).
    cbn [bind].
    rewrite (NormPair_neg _ _ _ _ _ _ _ _ J1 J2); [reflexivity|]. left. apply position_neg; [lra|lra|lia].
Qed.

Lemma leaves_short lt rb : leaves_a_cell mn mx r c lt rb -> one_cell_short lt rb w qx qy.
Proof.
  intros L. pose proof FB as (Hmn & Hmx & HW & HH & Hr & Hc).
  destruct (cell_mul W (Z.of_nat c) HW Hc) as (dx0 & EX & BX). fold qx in EX.
  destruct (cell_mul H (Z.of_nat r) HH Hr) as (dy0 & EY & BY). fold qy in EY.
  apply abs_le in BX, BY. pose proof u53_num as UN. pose proof u53_pos as UP. pose proof margin_small as MS.
  assert (PW : 0 < IZR W) by (apply IZR_lt; unfold W; lia). assert (PH : 0 < IZR H) by (apply IZR_lt; unfold H; lia).
  assert (Pc : 1 <= INR c) by (rewrite INR_IZR_INZ; apply IZR_le; lia).
  assert (Pr : 1 <= INR r) by (rewrite INR_IZR_INZ; apply IZR_le; lia).
  assert (UM : u53 <= margin).
  { unfold u53, margin. apply Rinv_le; [apply IZR_lt; reflexivity|apply IZR_le; discriminate]. }
  assert (C0 : 0 < IZR W / INR c) by (apply Rdiv_lt_0_compat; lra).
  assert (R0 : 0 < IZR H / INR r) by (apply Rdiv_lt_0_compat; lra).
  rewrite <- INR_IZR_INZ in EX, EY.
  unfold one_cell_short. subst w. cbn [box_workspace leftTop rightBot cx cy].
  destruct L as [L|[L|[L|L]]].
  - left. unfold columns in L. fold W in L. apply Rmult_le_compat_r with (r := IZR W / INR c) in L; [|lra].
    replace (IZR (cx lt - cx mn) * INR c / IZR W * (IZR W / INR c)) with (IZR (cx lt - cx mn)) in L by (field; lra).
    rewrite minus_IZR in L. nra.
  - right. left. unfold columns in L. fold W in L. apply Rmult_le_compat_r with (r := IZR W / INR c) in L; [|lra].
    replace (IZR (cx rb - cx mn) * INR c / IZR W * (IZR W / INR c)) with (IZR (cx rb - cx mn)) in L by (field; lra).
    replace ((INR c - 1 - margin) * (IZR W / INR c)) with (IZR W - (1 + margin) * (IZR W / INR c)) in L by (field; lra).
    rewrite minus_IZR in L. assert (IZR W = IZR (cx mx) - IZR (cx mn)) by (unfold W; apply minus_IZR). nra.
  - right. right. left. unfold rows in L. fold H in L. apply Rmult_le_compat_r with (r := IZR H / INR r) in L; [|lra].
    replace (IZR (cy mx - cy lt) * INR r / IZR H * (IZR H / INR r)) with (IZR (cy mx - cy lt)) in L by (field; lra).
    rewrite minus_IZR in L. nra.
  - right. right. right. unfold rows in L. fold H in L. apply Rmult_le_compat_r with (r := IZR H / INR r) in L; [|lra].
    replace (IZR (cy mx - cy rb) * INR r / IZR H * (IZR H / INR r)) with (IZR (cy mx - cy rb)) in L by (field; lra).
    replace ((INR r - 1 - margin) * (IZR H / INR r)) with (IZR H - (1 + margin) * (IZR H / INR r)) in L by (field; lra).
    rewrite minus_IZR in L. assert (IZR H = IZR (cy mx) - IZR (cy mn)) by (unfold H; apply minus_IZR). nra.
Qed.

Lemma rect_any z g lt rb e m : tuned z qx qy e -> boundIndicies z = full_bounds (Z.of_nat r) (Z.of_nat c) -> angleCoords z = w ->
  corners g lt rb -> manageable mn mx r c lt rb -> shows m (azero r c) ->
  (exists m', ZondRectangle z g m = (m', Ok tt)) \/ ZondRectangle z g m = (m, Throw InvalidArgument).
Proof.
  intros T HB HA G M S.
  destruct (Z.le_gt_cases (cx mn) (cx lt)) as [A1|A1]; [destruct (Z.le_gt_cases (cy lt) (cy mx)) as [A2|A2]|].
  - left. destruct (rect_inside z g lt rb e m T HB HA G M (conj A1 A2) S) as (m' & _ & E & _). eauto.
  - destruct (covers_test z lt rb) eqn:CT; [left|right].
    2:{ apply (rect_outside z g lt rb e m T HB HA G M); [intros (_ & Q); lia|exact CT]. }
    destruct G as (G1 & G2). pose proof FB as (_ & _ & _ & _ & Hr & Hc). unfold ZondRectangle, at_. rewrite G1, G2, CT. cbv zeta.
    rewrite HB. cbn [iBegin iEnd jBegin jEnd full_bounds].
    destruct (for32_block (azero r c) 0 (Z.of_nat r - 1) 0 (Z.of_nat c - 1)
      (fun i => to_size i <=? Z.of_nat r - 1)%Z (fun j => to_size j <=? Z.of_nat c - 1)%Z m) as (m' & E1 & E2); try lia;
      try (intros i Hii); try (rewrite to_size_small by lia; lia); [exact S|eauto].
  - destruct (covers_test z lt rb) eqn:CT; [left|right].
    2:{ apply (rect_outside z g lt rb e m T HB HA G M); [intros (Q & _); lia|exact CT]. }
    destruct G as (G1 & G2). pose proof FB as (_ & _ & _ & _ & Hr & Hc). unfold ZondRectangle, at_. rewrite G1, G2, CT. cbv zeta.
    rewrite HB. cbn [iBegin iEnd jBegin jEnd full_bounds].
    destruct (for32_block (azero r c) 0 (Z.of_nat r - 1) 0 (Z.of_nat c - 1)
      (fun i => to_size i <=? Z.of_nat r - 1)%Z (fun j => to_size j <=? Z.of_nat c - 1)%Z m) as (m' & E1 & E2); try lia;
      try (intros i Hii); try (rewrite to_size_small by lia; lia); [exact S|eauto].
Qed.
End Box.

(** * Drawn shapes *)
Lemma to_draw_types heap w item s : to_draw heap w item s -> g_type s = GTrectangle \/ g_type s = GTpolygon.
Proof.
  intros (_ & _ & [(Q & ->)|[(wd & _ & _ & P)|(_ & k & _ & O)]]).
  - tauto.
  - left. apply P.
  - destruct O as [(g & d & _ & P & ->)|(g & d & wd & _ & _ & _ & P)].
    + destruct P as [(P & _)|(P & _)]; cbn [shift g_type]; tauto.
    + left. apply P.
Qed.

Lemma collectable_contrib heap stack w g : collectable heap stack g -> exists l1 l2, contrib heap stack w (Some g) = Ok (l1, l2).
Proof.
  intros C. unfold contrib. destruct (Intersects w (Some g)); [|eauto]. unfold collectable in C.
  destruct (g_type g) eqn:T; try (do 2 eexists; reflexivity).
  - destruct C as (wd & (_ & dt & pt & E) & Hn & Hf). unfold PathToRectList, InGetType. rewrite T, E. cbn [gt_eqb negb].
    destruct (path_boxes_spec (g_coords g) (Z.quot wd 2) (g_layer g)) as [(Z & _)|[(_ & _ & ->)|(_ & Z & _)]]; [contradiction| |contradiction].
    cbn [bind]. eauto.
  - destruct C as (l & ->). cbn [bind]. eauto.
Qed.

Lemma gather_ok heap stack w items : (forall g, In (Some g) items -> overlaps w g -> collectable heap stack g) ->
  exists l1 l2, gather heap stack w items = Ok (l1, l2).
Proof.
  induction items as [|i t IH]; intros Hc; cbn [gather]; [eauto|].
  assert (E : exists a b, contrib heap stack w i = Ok (a, b)).
  { destruct i as [g|]; [|exists [], []; reflexivity].
    destruct (Intersects w (Some g)) eqn:I.
    - apply collectable_contrib, Hc; [left; reflexivity|]. apply Intersects_overlaps, I.
    - exists [], []. unfold contrib. rewrite I. reflexivity. }
  destruct E as (a & b & ->). cbn [bind].
  destruct IH as (x & y & ->). { intros g Hg. apply Hc. right. exact Hg. }
  cbn [bind fst snd]. eauto.
Qed.

Lemma adds_outcome act sel o m A m' o' : adds act sel o -> shows m A -> act m = (m', o') -> o' = o /\ shows m' (adraw A sel).
Proof.
  intros Ha S E. destruct (Ha m A S) as (m2 & E2 & S2). rewrite E in E2. injection E2 as <- <-. auto.
Qed.

Lemma all_add_intro z gs : (forall g, In g gs -> exists sel, adds (ZondGeometry z (Some g)) sel (Ok tt)) -> exists ss, all_add z gs ss.
Proof.
  induction gs as [|g t IH]; intros Hg; [exists []; constructor|].
  destruct (Hg g (or_introl eq_refl)) as (sel & Hs). destruct IH as (ss & Hss). { intros h Hh. apply Hg. right. exact Hh. }
  exists (sel :: ss). constructor; assumption.
Qed.
