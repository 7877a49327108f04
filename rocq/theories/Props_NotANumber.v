(** C140: a zond whose accuracy or deltas are not numbers, or whose deltas are infinite.  Specification: S_Zond, S_NotANumber. *)
From Coq Require Import Reals Lra Lia.
From Flocq Require Import Core IEEE754.BinarySingleNaN.
From Verif Require Import Prelude P_Prelude M_Double S_Double P_Double P_Round M_LayoutData M_Loop P_Loop M_Vector2D M_BitMatrix S_Matrix P_BitMatrix
  M_Zond S_Zond P_Zond P_ZondReal P_ZondCells Props_Zond S_ZondUse Props_ZondUse S_NotANumber.
Local Open Scope Z_scope.

Lemma mul_nan x : dmul x nan = nan. Proof. destruct x; reflexivity. Qed.
Lemma nan_mul x : dmul nan x = nan. Proof. destruct x; reflexivity. Qed.
Lemma div_nan x : ddiv x nan = nan. Proof. destruct x; reflexivity. Qed.
Lemma nan_div x : ddiv nan x = nan. Proof. destruct x; reflexivity. Qed.
Lemma add_nan x : dadd x nan = nan. Proof. destruct x; reflexivity. Qed.
Lemma nan_add x : dadd nan x = nan. Proof. destruct x; reflexivity. Qed.
Lemma sub_nan x : dsub x nan = nan. Proof. destruct x; reflexivity. Qed.
Lemma nan_sub x : dsub nan x = nan. Proof. destruct x; reflexivity. Qed.
Lemma le_nan x : dle x nan = false. Proof. destruct x; reflexivity. Qed.
Lemma nan_le x : dle nan x = false. Proof. destruct x; reflexivity. Qed.
Lemma ge_nan x : dge x nan = false. Proof. destruct x; reflexivity. Qed.
Lemma nan_ge x : dge nan x = false. Proof. destruct x; reflexivity. Qed.
Lemma lt_nan x : dlt x nan = false. Proof. destruct x; reflexivity. Qed.
Lemma gt_nan x : dgt x nan = false. Proof. destruct x; reflexivity. Qed.

(** The covering test fails. *)
Lemma nan_accuracy_covers z lt rb : eps z = nan -> covers_test z lt rb = false.
Proof. intros E. unfold covers_test. rewrite E. cbv zeta. rewrite !mul_nan, !sub_nan, !le_nan. reflexivity. Qed.
Lemma nan_dx_covers z lt rb : dx z = nan -> covers_test z lt rb = false.
Proof. intros E. unfold covers_test. rewrite E. cbv zeta. rewrite nan_mul, !sub_nan, !le_nan. reflexivity. Qed.
Lemma nan_dy_covers z lt rb : dy z = nan -> covers_test z lt rb = false.
Proof. intros E. unfold covers_test. rewrite E. cbv zeta. rewrite nan_mul, !sub_nan, !add_nan, !le_nan, !ge_nan, !andb_false_r. reflexivity. Qed.

(** What NormPair computes. *)
Definition sure_range (b e : R) (bf bs : Z) : Z * Z :=
  if Zfloor e - Zfloor b =? 0 then (1, 0)
  else (if Rle_bool b (IZR bf) then bf else Zfloor b + 1, if Rle_bool (IZR bs) e then bs else Zfloor e - 1).

Lemma NormPair_nan B E D b e d bf bs : real B b -> real E e -> real D d -> (0 <= b)%R -> (b <= e)%R -> (e < IZR (2 ^ 31))%R -> (0 < d)%R ->
  0 <= bf <= 2 ^ 53 -> 0 <= bs <= 2 ^ 53 -> NormPair B E D nan bf bs = Ok (sure_range b e bf bs).
Proof.
  intros HB HE HD B0 BE E1 D0 Hbf Hbs. unfold NormPair.
  rewrite (dgt_ok _ _ _ _ d0_real HB), (dgt_ok _ _ _ _ d0_real HE), (dlt_ok _ _ _ _ HE HB), (dge_ok _ _ _ _ d0_real HD).
  rewrite !Rlt_bool_false by lra. rewrite Rle_bool_false by lra. cbn [orb]. cbv zeta.
  rewrite nan_mul, add_nan, sub_nan, !ge_nan, !le_nan, !nan_ge, !nan_le. cbn [andb orb].
  pose proof (floor_nonneg b B0) as KB0. pose proof (floor_nonneg e ltac:(lra)) as KE0.
  pose proof (floor_lt e _ E1) as KE1. pose proof (floor_lt b _ (Rle_lt_trans _ _ _ BE E1)) as KB1.
  pose proof (Zfloor_le b e BE) as KBE.
  unfold cast_int32. rewrite (dcast_ok _ _ _ _ HE), (dcast_ok _ _ _ _ HB). rewrite !Ztrunc_floor_pos by lra.
  replace ((_ <=? Zfloor e) && _) with true by lia. replace ((_ <=? Zfloor b) && _) with true by lia.
  cbn [bind]. rewrite sub32_ok by (unfold int32; lia). cbn [bind].
  unfold cast_size. rewrite (dcast_ok _ _ _ _ HB), (dcast_ok _ _ _ _ HE). rewrite (Ztrunc_floor_pos b B0), (Ztrunc_floor_pos e) by lra.
  replace ((_ <=? Zfloor e) && _) with true by lia. replace ((_ <=? Zfloor b) && _) with true by lia. cbn [bind].
  rewrite (dle_ok _ _ _ _ HB (dz_exact bf ltac:(lia))), (dge_ok _ _ _ _ HE (dz_exact bs ltac:(lia))).
  unfold sure_range. destruct (Zfloor e - Zfloor b =? 0) eqn:K; [reflexivity|]. rewrite !to_size_small by lia.
  destruct (Rle_bool b (IZR bf)), (Rle_bool (IZR bs) e); reflexivity.
Qed.

Lemma sure_bounds b e n : (0 <= b)%R -> (b <= e)%R -> (e < IZR (2 ^ 31 - 1))%R -> 1 <= n < 2 ^ 31 ->
  0 <= fst (sure_range b e 0 (n - 1)) < 2 ^ 31 /\ 0 <= snd (sure_range b e 0 (n - 1)) < 2 ^ 31.
Proof.
  intros B0 BE E1 Hn. unfold sure_range. pose proof (floor_nonneg b B0). pose proof (floor_nonneg e ltac:(lra)).
  pose proof (floor_lt e _ E1). pose proof (Zfloor_le b e BE). destruct (Zfloor e - Zfloor b =? 0) eqn:K; cbn [fst snd]; [lia|].
  destruct (Rle_bool b (IZR 0)), (Rle_bool (IZR (n - 1)) e); lia.
Qed.

Lemma sure_axis b e n k : (0 <= b)%R -> (b <= e)%R -> 1 <= n < 2 ^ 31 -> 0 <= k ->
  axis (sure_range b e 0 (n - 1)) n k = true <-> surely b e n k.
Proof.
  intros B0 BE Hn Hk. unfold axis, sure_range, surely.
  assert (F1 : (b < IZR k)%R <-> Zfloor b < k).
  { split; intros H; [apply floor_lt, H|]. apply Rlt_le_trans with (IZR (Zfloor b) + 1)%R; [apply Zfloor_ub|].
    rewrite <- (plus_IZR (Zfloor b) 1). apply IZR_le. lia. }
  assert (F2 : (IZR k + 1 <= e)%R <-> k + 1 <= Zfloor e).
  { rewrite <- (plus_IZR k 1). split; intros H; [apply Zfloor_lub, H|]. apply Rle_trans with (IZR (Zfloor e)); [apply IZR_le, H|apply Zfloor_lb]. }
  destruct (Z.eqb_spec (Zfloor e - Zfloor b) 0) as [K|K]; cbn [fst snd].
  - split; [lia|]. intros (_ & H & _). lia.
  - case Rle_bool_spec; intros H1; case Rle_bool_spec; intros H2; split.
    + intros Q. split; [lia|]. split; [lia|]. split; [right; lra|right; exact H2].
    + intros (Q1 & _ & Q2 & Q3). lia.
    + intros Q. split; [lia|]. split; [lia|]. split; [right; lra|left; apply F2; lia].
    + intros (Q1 & _ & Q2 & [Q3|Q3]); [apply F2 in Q3; lia|lra].
    + intros Q. split; [lia|]. split; [lia|]. split; [left; apply F1; lia|right; exact H2].
    + intros (Q1 & _ & [Q2|Q2] & Q3); [apply F1 in Q2; lia|lra].
    + intros Q. split; [lia|]. split; [lia|]. split; [left; apply F1; lia|left; apply F2; lia].
    + intros (Q1 & _ & [Q2|Q2] & [Q3|Q3]); try lra. apply F1 in Q2. apply F2 in Q3. lia.
Qed.

(** With an accuracy that is not a number, a rectangle that begins in the workspace sets exactly the cells that are surely in it. *)
Theorem C140_without_accuracy : forall z g m A lt rb qx qy r c,
  shows m A -> corners g lt rb -> boundIndicies z = full_bounds r c -> 1 <= r < 2 ^ 31 -> 1 <= c < 2 ^ 31 ->
  cell_size (dx z) qx -> cell_size (dy z) qy -> eps z = nan ->
  let w := angleCoords z in
  differences_fit lt rb w -> cx (leftTop w) <= cx lt <= cx rb -> cy rb <= cy lt <= cy (leftTop w) ->
  position_fits (col_to rb w qx) -> position_fits (row_to rb w qy) ->
  exists m' B, ZondRectangle z g m = (m', Ok tt) /\ shows m' B /\
    drawn A B (fun i j => surely (row_from lt w qy) (row_to rb w qy) r i /\ surely (col_from lt w qx) (col_to rb w qx) c j).
Proof.
  intros z g m A lt rb qx qy r c S (G1 & G2) HB Hr Hc X Y E w (D1 & D2 & D3 & D4) HX HY PX PY.
  pose proof (cell_size_pos _ _ X) as (RX & QX). pose proof (cell_size_pos _ _ Y) as (RY & QY).
  unfold ZondRectangle, at_. rewrite G1, G2, (nan_accuracy_covers z lt rb E). unfold rect_indices. fold w. cbv zeta.
  rewrite !sub32_ok by assumption. cbn [bind].
  assert (PX' : position_fits (col_from lt w qx)).
  { unfold position_fits in *. apply Rle_lt_trans with (2 := PX). apply position_mono; [lra|lia]. }
  assert (PY' : position_fits (row_from lt w qy)).
  { unfold position_fits in *. apply Rle_lt_trans with (2 := PY). apply position_mono; [lra|lia]. }
  unfold col_from, col_to, row_from, row_to in *.
  destruct (position_ok (cx lt - cx (leftTop w)) _ _ X ltac:(lia) D1 PX') as (J1 & J1').
  destruct (position_ok (cx rb - cx (leftTop w)) _ _ X ltac:(lia) D2 PX) as (J2 & J2').
  destruct (position_ok (cy (leftTop w) - cy lt) _ _ Y ltac:(lia) D3 PY') as (I1 & I1').
  destruct (position_ok (cy (leftTop w) - cy rb) _ _ Y ltac:(lia) D4 PY) as (I2 & I2').
  pose proof (position_mono (cx lt - cx (leftTop w)) (cx rb - cx (leftTop w)) qx ltac:(lra) ltac:(lia)) as J12.
  pose proof (position_mono (cy (leftTop w) - cy lt) (cy (leftTop w) - cy rb) qy ltac:(lra) ltac:(lia)) as I12.
  set (jb := position (cx lt - cx (leftTop w)) qx) in *. set (je := position (cx rb - cx (leftTop w)) qx) in *.
  set (ib := position (cy (leftTop w) - cy lt) qy) in *. set (ie := position (cy (leftTop w) - cy rb) qy) in *.
  unfold position_fits in *.
  assert (LL : (IZR (2 ^ 31 - 1) < IZR (2 ^ 31))%R) by (apply IZR_lt; lia).
  unfold NormIndicies. cbv zeta. rewrite HB, E. cbn [iBegin iEnd jBegin jEnd full_bounds].
  rewrite (NormPair_nan _ _ _ ib ie qy 0 (r - 1) I1 I2 RY) by (try lia; lra). cbn [bind].
  rewrite (NormPair_nan _ _ _ jb je qx 0 (c - 1) J1 J2 RX) by (try lia; lra). cbn [bind].
  destruct (sure_bounds ib ie r) as (NI1 & NI2); [lra|lra|lra|lia|].
  destruct (sure_bounds jb je c) as (NJ1 & NJ2); [lra|lra|lra|lia|].
  assert (AX : forall i j, 0 <= i -> 0 <= j -> (axis (sure_range ib ie 0 (r - 1)) r i && axis (sure_range jb je 0 (c - 1)) c j = true <->
    surely ib ie r i /\ surely jb je c j)).
  { intros i j Hi Hj. rewrite andb_true_iff, !sure_axis by (lia || lra). reflexivity. }
  set (ni := sure_range ib ie 0 (r - 1)) in *. set (nj := sure_range jb je 0 (c - 1)) in *.
  cbn [iBegin iEnd jBegin jEnd]. rewrite !Z.add_0_r.
  rewrite (to_size_small (fst ni)), (to_size_small (snd ni)), (to_size_small (fst nj)), (to_size_small (snd nj)) by lia.
  edestruct (for32_block A (fst ni) (Z.max (fst ni - 1) (Z.min (snd ni) (r - 1))) (fst nj) (Z.max (fst nj - 1) (Z.min (snd nj) (c - 1)))
    (fun i => (to_size i <=? snd ni) && (0 <=? to_size i) && (to_size i <=? r - 1))
    (fun j => (to_size j <=? snd nj) && (0 <=? to_size j) && (to_size j <=? c - 1)) m) as (m' & E1 & E2).
  - lia.
  - lia.
  - lia.
  - lia.
  - intros i Hi. rewrite to_size_small by lia. lia.
  - rewrite to_size_small by lia. lia.
  - intros i Hi. rewrite to_size_small by lia. lia.
  - rewrite to_size_small by lia. lia.
  - exact S.
  - exists m'. eexists. split; [exact E1|]. split; [exact E2|]. split; [reflexivity|]. split; [reflexivity|].
    cbn [arows acols acell adraw]. intros i j Hi Hj. rewrite orb_true_iff. rewrite <- AX by lia.
    unfold block, axis. split; (intros [Q|Q]; [left; exact Q|right; lia]).
Qed.

(** A rectangle that begins above the workspace throws, even one that contains the workspace. *)
Theorem C140_above_throws : forall z g m lt rb qy,
  corners g lt rb -> cell_size (dy z) qy -> eps z = nan -> differences_fit lt rb (angleCoords z) ->
  cy (leftTop (angleCoords z)) < cy lt -> ZondRectangle z g m = (m, Throw InvalidArgument).
Proof.
  intros z g m lt rb qy (G1 & G2) Y E (D1 & D2 & D3 & D4) H. pose proof (cell_size_pos _ _ Y) as (RY & QY).
  unfold ZondRectangle, at_. rewrite G1, G2, (nan_accuracy_covers z lt rb E). cbv zeta. unfold rect_indices.
  rewrite (sub32_ok _ _ D1), (sub32_ok _ _ D2), (sub32_ok _ _ D3), (sub32_ok _ _ D4). cbn [bind]. unfold NormIndicies. cbv zeta.
  rewrite (NormPair_neg _ _ _ _ _ _ _ _ (position_any _ _ _ Y D3) (position_any _ _ _ Y D4)); [reflexivity|].
  left. apply position_neg; [lra|lra|lia].
Qed.

(** So does one that begins left of the workspace. *)
Theorem C140_left_throws : forall z g m lt rb qx qy r c,
  corners g lt rb -> boundIndicies z = full_bounds r c -> 1 <= r < 2 ^ 31 -> cell_size (dx z) qx -> cell_size (dy z) qy -> eps z = nan ->
  let w := angleCoords z in
  differences_fit lt rb w -> cy rb <= cy lt <= cy (leftTop w) -> position_fits (row_to rb w qy) ->
  cx lt < cx (leftTop w) -> ZondRectangle z g m = (m, Throw InvalidArgument).
Proof.
  intros z g m lt rb qx qy r c (G1 & G2) HB Hr X Y E w (D1 & D2 & D3 & D4) HY PY H.
  pose proof (cell_size_pos _ _ X) as (RX & QX). pose proof (cell_size_pos _ _ Y) as (RY & QY).
  unfold ZondRectangle, at_. rewrite G1, G2, (nan_accuracy_covers z lt rb E). cbv zeta. unfold rect_indices. fold w. cbv zeta.
  rewrite (sub32_ok _ _ D1), (sub32_ok _ _ D2), (sub32_ok _ _ D3), (sub32_ok _ _ D4). cbn [bind]. unfold NormIndicies. cbv zeta.
  assert (PY' : position_fits (row_from lt w qy)).
  { unfold position_fits in *. apply Rle_lt_trans with (2 := PY). apply position_mono; [lra|lia]. }
  unfold row_from, row_to in *.
  destruct (position_ok (cy (leftTop w) - cy lt) _ _ Y ltac:(lia) D3 PY') as (I1 & I1').
  destruct (position_ok (cy (leftTop w) - cy rb) _ _ Y ltac:(lia) D4 PY) as (I2 & I2').
  pose proof (position_mono (cy (leftTop w) - cy lt) (cy (leftTop w) - cy rb) qy ltac:(lra) ltac:(lia)) as I12.
  unfold position_fits in *. assert (LL : (IZR (2 ^ 31 - 1) < IZR (2 ^ 31))%R) by (apply IZR_lt; lia).
  rewrite E, HB. cbn [iBegin iEnd jBegin jEnd full_bounds].
  rewrite (NormPair_nan _ _ _ _ _ qy 0 (r - 1) I1 I2 RY) by (try lia; lra). cbn [bind].
  rewrite (NormPair_neg _ _ _ _ _ _ _ _ (position_any _ _ _ X D1) (position_any _ _ _ X D2)); [reflexivity|].
  left. apply position_neg; [lra|lra|lia].
Qed.

(** With a delta dy that is not a number every rectangle is undefined behaviour; with such a dx none is drawn. *)
Theorem C140_without_cell_height : forall z g m lt rb, corners g lt rb -> differences_fit lt rb (angleCoords z) -> dy z = nan ->
  ZondRectangle z g m = (m, UB BadCast).
Proof.
  intros z g m lt rb (G1 & G2) (D1 & D2 & D3 & D4) E. unfold ZondRectangle, at_. rewrite G1, G2, (nan_dy_covers z lt rb E). cbv zeta. unfold rect_indices.
  rewrite (sub32_ok _ _ D1), (sub32_ok _ _ D2), (sub32_ok _ _ D3), (sub32_ok _ _ D4). cbn [bind]. unfold NormIndicies. cbv zeta. rewrite E, !div_nan.
  unfold NormPair. rewrite gt_nan, lt_nan, ge_nan. reflexivity.
Qed.
Theorem C140_without_cell_width : forall z g m lt rb, corners g lt rb -> dx z = nan -> exists o, ZondRectangle z g m = (m, o) /\ o <> Ok tt.
Proof.
  intros z g m lt rb (G1 & G2) E. unfold ZondRectangle, at_. rewrite G1, G2, (nan_dx_covers z lt rb E). cbv zeta. unfold rect_indices.
  assert (N : forall B1 E1 t bf bs, NormPair (ddiv B1 nan) (ddiv E1 nan) nan t bf bs = UB BadCast).
  { intros. rewrite !div_nan. unfold NormPair. rewrite gt_nan, lt_nan, ge_nan. reflexivity. }
  destruct (sub32 (cx lt) _) as [d1| |]; cbn [bind]; [|eexists; split; [reflexivity|discriminate]..].
  destruct (sub32 (cx rb) _) as [d2| |]; cbn [bind]; [|eexists; split; [reflexivity|discriminate]..].
  destruct (sub32 _ (cy lt)) as [d3| |]; cbn [bind]; [|eexists; split; [reflexivity|discriminate]..].
  destruct (sub32 _ (cy rb)) as [d4| |]; cbn [bind]; [|eexists; split; [reflexivity|discriminate]..].
  unfold NormIndicies. cbv zeta. destruct (NormPair (ddiv (dz d3) _) _ _ _ _ _) as [p| |]; cbn [bind]; [|eexists; split; [reflexivity|discriminate]..].
  rewrite E, N. cbn [bind]. eexists. split; [reflexivity|discriminate].
Qed.

(** ** Infinite deltas *)
Lemma div_inf x r : real x r -> real (ddiv x infinity) 0.
Proof. intros (F & _). destruct x; try discriminate F; (split; [reflexivity|reflexivity]). Qed.
Lemma inf_half : ddiv infinity (dz 2) = infinity.
Proof. reflexivity. Qed.
Lemma real_add_inf x r : real x r -> dadd x infinity = infinity.
Proof. intros (F & _). destruct x; try discriminate F; reflexivity. Qed.
Lemma mul_inf x e : real x e -> (0 <= e)%R -> dmul infinity x = dmul x infinity /\ ((0 < e)%R -> dmul x infinity = infinity) /\ (e = 0%R -> dmul x infinity = nan).
Proof.
  intros (F & V) H. destruct x as [s|s| |s m k b]; try discriminate F.
  - cbn [B2R] in V. subst e. split; [reflexivity|]. split; [intros; lra|reflexivity].
  - destruct s.
    + exfalso. cbn [B2R] in V. assert (N : (B2R (B754_finite true m k b : double) < 0)%R).
      { cbn [B2R]. apply F2R_lt_0. cbn [cond_Zopp Fnum]. lia. }
      cbn [B2R] in N. cbn [cond_Zopp] in *. lra.
    + assert (P : (0 < e)%R). { rewrite <- V. cbn [B2R]. apply F2R_gt_0. cbn [cond_Zopp Fnum]. lia. }
      split; [reflexivity|]. split; [reflexivity|intros; lra].
Qed.
Lemma inf_covers z lt rb e : coord32 (leftTop (angleCoords z)) -> dx z = infinity -> real (eps z) e -> (0 <= e)%R -> covers_test z lt rb = false.
Proof.
  intros (W & _) X E H. unfold covers_test. cbv zeta. rewrite X, inf_half, (real_add_inf _ _ (real_int _ W)).
  destruct (mul_inf _ _ E H) as (C & P & N). rewrite C.
  assert (K : dsub infinity (dmul (eps z) infinity) = nan).
  { destruct (Rle_lt_or_eq_dec _ _ H) as [L|L]; [rewrite P by exact L; reflexivity|rewrite N by (symmetry; exact L); reflexivity]. }
  rewrite K, le_nan. reflexivity.
Qed.
Lemma NormPair_inf B E Ep e bf bs : real B 0 -> real E 0 -> real Ep e -> (0 <= e)%R ->
  NormPair B E infinity Ep bf bs = Ok (if Rlt_bool 0 e then (0, 0) else (1, 0)).
Proof.
  intros HB HE HT H. unfold NormPair.
  rewrite (dgt_ok _ _ _ _ d0_real HB), (dgt_ok _ _ _ _ d0_real HE), (dlt_ok _ _ _ _ HE HB). rewrite !Rlt_bool_false by lra. cbn [orb].
  replace (dge (dz 0) infinity) with false by reflexivity. cbv zeta.
  destruct (mul_inf _ _ HT H) as (C & P & N).
  assert (FB : real (dsub B (dtrunc B)) (0 - IZR (Zfloor 0))) by (apply frac_real; [exact HB|lra|apply (IZR_lt 0); lia]).
  assert (FE : real (dsub E (dtrunc E)) (0 - IZR (Zfloor 0))) by (apply frac_real; [exact HE|lra|apply (IZR_lt 0); lia]).
  assert (G0 : forall x r, real x r -> dge x (dsub (dlit 1 2) infinity) = true /\ dle x (dadd (dlit 1 2) infinity) = true).
  { intros x r (F & _). destruct x as [s|s| |s m k b]; try discriminate F; (split; [reflexivity|reflexivity]). }
  unfold cast_int32, cast_size. rewrite (dcast_ok _ _ _ _ HB), (dcast_ok _ _ _ _ HE).
  rewrite (Ztrunc_IZR 0). cbn [bind Z.leb Z.compare andb Z.opp].
  change (- 2 ^ 31 <=? 0) with true. change (0 <=? 2 ^ 31 - 1) with true. cbn [andb bind].
  rewrite sub32_ok by (unfold int32; lia). cbn [bind Z.sub Z.eqb Z.add Z.opp].
  destruct (Rle_lt_or_eq_dec _ _ H) as [L|L].
  - rewrite P by exact L. rewrite Rlt_bool_true by exact L. rewrite (proj1 (G0 _ _ FB)), (proj2 (G0 _ _ FB)). cbn [andb orb].
    rewrite (dcast_ok _ _ _ _ HB), (Ztrunc_IZR 0). reflexivity.
  - rewrite N by (symmetry; exact L). rewrite Rlt_bool_false by lra. rewrite add_nan, sub_nan, !ge_nan, !le_nan. reflexivity.
Qed.

(** SetDeltas takes infinity.  With infinite deltas every rectangle, inside the workspace or not, covering it or not, sets
    exactly the first cell if the accuracy is positive and none if it is zero. *)
Theorem C140_infinite_cells : forall z g m A lt rb e r c,
  shows m A -> corners g lt rb -> boundIndicies z = full_bounds r c -> 1 <= r < 2 ^ 31 -> 1 <= c < 2 ^ 31 ->
  dx z = infinity -> dy z = infinity -> real (eps z) e -> (0 <= e)%R ->
  coord32 (leftTop (angleCoords z)) -> differences_fit lt rb (angleCoords z) ->
  exists m' B, ZondRectangle z g m = (m', Ok tt) /\ shows m' B /\ drawn A B (fun i j => (0 < e)%R /\ i = 0 /\ j = 0).
Proof.
  intros z g m A lt rb e r c S (G1 & G2) HB Hr Hc X Y E He W (D1 & D2 & D3 & D4).
  unfold ZondRectangle, at_. rewrite G1, G2, (inf_covers z lt rb e W X E He). cbv zeta. unfold rect_indices.
  rewrite (sub32_ok _ _ D1), (sub32_ok _ _ D2), (sub32_ok _ _ D3), (sub32_ok _ _ D4). cbn [bind]. unfold NormIndicies. cbv zeta.
  rewrite X, Y. rewrite (NormPair_inf _ _ _ e _ _ (div_inf _ _ (real_int _ D3)) (div_inf _ _ (real_int _ D4)) E He). cbn [bind].
  rewrite (NormPair_inf _ _ _ e _ _ (div_inf _ _ (real_int _ D1)) (div_inf _ _ (real_int _ D2)) E He). cbn [bind].
  rewrite HB. cbn [iBegin iEnd jBegin jEnd full_bounds]. rewrite !Z.add_0_r.
  case Rlt_bool_spec; intros L; cbn [fst snd].
  - edestruct (for32_block A 0 0 0 0 (fun i => (to_size i <=? to_size 0) && (0 <=? to_size i) && (to_size i <=? r - 1))
      (fun j => (to_size j <=? to_size 0) && (0 <=? to_size j) && (to_size j <=? c - 1)) m) as (m' & E1 & E2); try lia.
    + intros i Hi. rewrite !to_size_small by lia. lia.
    + rewrite !to_size_small by lia. lia.
    + intros i Hi. rewrite !to_size_small by lia. lia.
    + rewrite !to_size_small by lia. lia.
    + exact S.
    + change (to_size 0) with 0 in *. exists m'. eexists. split; [exact E1|]. split; [exact E2|]. split; [reflexivity|]. split; [reflexivity|].
      cbn [arows acols acell adraw]. intros i j Hi Hj. rewrite orb_true_iff. unfold block.
      split; (intros [Q|Q]; [left; exact Q|right]); [split; [exact L|lia]|lia].
  - edestruct (for32_block A 1 0 1 0 (fun i => (to_size i <=? to_size 0) && (0 <=? to_size i) && (to_size i <=? r - 1))
      (fun j => (to_size j <=? to_size 0) && (0 <=? to_size j) && (to_size j <=? c - 1)) m) as (m' & E1 & E2); try lia.
    + rewrite !to_size_small by lia. lia.
    + rewrite !to_size_small by lia. lia.
    + exact S.
    + change (to_size 1) with 1 in *. change (to_size 0) with 0 in *. exists m'. eexists. split; [exact E1|]. split; [exact E2|]. split; [reflexivity|]. split; [reflexivity|].
      cbn [arows acols acell adraw]. intros i j Hi Hj. rewrite orb_true_iff. unfold block.
      split; (intros [Q|Q]; [left; exact Q|right]); [lia|lra].
Qed.

(** The setters accept such values: deltas that are not numbers or infinite at any time; and once the accuracy is not a number every
    other value is accepted for it, also one out of range. *)
Theorem C140_the_setters_accept : forall z,
  (forall x y, In x [nan; infinity] -> In y [nan; infinity] -> exists z', SetDeltas z x y = Ok z' /\ dx z' = x /\ dy z' = y) /\
  (forall r, real (eps z) r -> (0 <= r <= 1 / 2)%R -> exists z', SetEps z nan = Ok z' /\ eps z' = nan) /\
  (eps z = nan -> forall e, exists z', SetEps z e = Ok z' /\ eps z' = e).
Proof.
  intros z. split; [|split].
  - intros x y Hx Hy. exists (mkzond (boundIndicies z) (angleCoords z) x y (eps z)). split; [|split; reflexivity].
    destruct Hx as [<-|[<-|[]]], Hy as [<-|[<-|[]]]; reflexivity.
  - intros r R H. exact (C42_argument_not_checked z r nan R H).
  - intros E e. unfold SetEps. rewrite E. exists (mkzond (boundIndicies z) (angleCoords z) (dx z) (dy z) e). split; reflexivity.
Qed.

(** ** Concrete cases *)
Definition ex_settings : list setter :=
  [ZBounds (full_bounds 4 4); ZWorkspace (mkws (mkcoord 0 40) (mkcoord 40 0)); ZDeltas (dz 10) (dz 10); ZEps nan].

(** The hypotheses of C140_without_accuracy hold of a zond set up by calls; the rectangle begins in the middle of a cell. *)
Example C140_nonvacuous :
  let z := in_use (dz 0) ex_settings in let w := angleCoords z in
  let lt := mkcoord 5 35 in let rb := mkcoord 35 5 in
  corners (ex_zrect 5 5 35 35) lt rb /\ boundIndicies z = full_bounds 4 4 /\ cell_size (dx z) 10 /\ cell_size (dy z) 10 /\ eps z = nan /\
  differences_fit lt rb w /\ cx (leftTop w) <= cx lt <= cx rb /\ cy rb <= cy lt <= cy (leftTop w) /\
  position_fits (col_to rb w 10) /\ position_fits (row_to rb w 10) /\
  exists m', ZondRectangle z (ex_zrect 5 5 35 35) (BM_ctor infinite_memory 4 4) = (m', Ok tt) /\
    Get m' 0 1 = Ok false /\ Get m' 1 1 = Ok true /\ Get m' 1 2 = Ok true /\ Get m' 3 3 = Ok true /\ Get m' 1 0 = Ok false.
Proof.
  cbv zeta. split; [split; reflexivity|]. split; [reflexivity|]. split; [apply (cell_size_int 10); lia|]. split; [apply (cell_size_int 10); lia|].
  split; [reflexivity|].
  change (angleCoords (in_use (dz 0) ex_settings)) with (mkws (mkcoord 0 40) (mkcoord 40 0)). unfold differences_fit, position_fits, col_to, row_to, int32. cbn [cx cy leftTop rightBot].
  split; [lia|]. split; [lia|]. split; [lia|].
  assert (P : (position 35 10 < IZR (2 ^ 31 - 1))%R).
  { apply Rle_lt_trans with (IZR 4); [|apply IZR_lt; lia]. apply rnd_le_f; [apply int_format; lia|]. lra. }
  split; [exact P|]. split; [exact P|].
  eexists. split; [vm_compute; reflexivity|]. repeat split; vm_compute; reflexivity.
Qed.

(** Infinite deltas: a rectangle far to the left of and above the workspace sets the first cell; deltas that are not numbers. *)
Example C140_infinite_example :
  let z := in_use (dlit 1 8) [ZBounds (full_bounds 4 4); ZWorkspace (mkws (mkcoord 0 40) (mkcoord 40 0)); ZDeltas infinity infinity] in
  let z' := in_use (dz 0) [ZBounds (full_bounds 4 4); ZWorkspace (mkws (mkcoord 0 40) (mkcoord 40 0)); ZDeltas (dz 10) nan] in
  dx z = infinity /\ dy z = infinity /\ dy z' = nan /\
  (exists m', ZondRectangle z (ex_zrect (-9) 90 (-5) 95) (BM_ctor infinite_memory 4 4) = (m', Ok tt) /\ Get m' 0 0 = Ok true /\ Get m' 1 1 = Ok false) /\
  snd (ZondRectangle z' (ex_zrect 5 5 35 35) (BM_ctor infinite_memory 4 4)) = UB BadCast.
Proof.
  cbv zeta. split; [reflexivity|]. split; [reflexivity|]. split; [reflexivity|]. split; [|vm_compute; reflexivity].
  eexists. split; [vm_compute; reflexivity|]. split; vm_compute; reflexivity.
Qed.

(** That a rectangle that contains the workspace is drawn whenever the cells have a size is not so: the accuracy must be a number. *)
Theorem C140_covering_rectangle_drawn_refuted :
  ~ (forall e0 calls g m lt rb qx qy, let z := in_use e0 calls in corners g lt rb -> cell_size (dx z) qx -> cell_size (dy z) qy ->
       contains_ws lt rb (angleCoords z) -> snd (ZondRectangle z g m) = Ok tt).
Proof.
  intros C. specialize (C (dz 0) ex_settings (ex_zrect (-1) (-1) 41 41) (BM_ctor infinite_memory 4 4) (mkcoord (-1) 41) (mkcoord 41 (-1)) 10%R 10%R).
  assert (K : snd (ZondRectangle (in_use (dz 0) ex_settings) (ex_zrect (-1) (-1) 41 41) (BM_ctor infinite_memory 4 4)) = Throw InvalidArgument) by (vm_compute; reflexivity).
  cbv zeta in C. rewrite K in C. enough (X : @Throw unit InvalidArgument = Ok tt) by discriminate X. apply C.
  - split; reflexivity.
  - apply (cell_size_int 10); lia.
  - apply (cell_size_int 10); lia.
  - change (angleCoords (in_use (dz 0) ex_settings)) with (mkws (mkcoord 0 40) (mkcoord 40 0)). unfold contains_ws. cbn [cx cy leftTop rightBot]. lia.
Qed.

Print Assumptions C140_without_accuracy.
Print Assumptions C140_above_throws.
Print Assumptions C140_left_throws.
Print Assumptions C140_without_cell_height.
Print Assumptions C140_without_cell_width.
Print Assumptions C140_infinite_cells.
Print Assumptions C140_the_setters_accept.
Print Assumptions C140_covering_rectangle_drawn_refuted.
