(** Lemmas about zonding one part of a matrix. *)
From Coq Require Import Reals Lra.
From Flocq Require Import Core IEEE754.BinarySingleNaN.
From Verif Require Import Prelude P_Prelude M_Double S_Double P_Double P_Round M_LayoutData M_Loop P_Loop M_Vector2D M_BitMatrix S_Matrix P_BitMatrix
  M_Zond S_Zond P_Zond P_ZondReal P_ZondCells S_ZondOffset.
Local Open Scope R_scope.

Definition axis_off (n : Z * Z) (i0 i1 k : Z) : bool := ((fst n + i0 <=? k) && (k <=? snd n + i0) && (k <=? i1))%Z.

Lemma norm_range_off b e t bf bs : 0 <= b -> b <= e -> e < IZR (2 ^ 30 - 1) -> (0 <= bf < 2 ^ 30)%Z -> (0 <= bs < 2 ^ 30)%Z ->
  (0 <= fst (norm_spec b e t bf bs) < 2 ^ 30)%Z /\ (0 <= snd (norm_spec b e t bf bs) < 2 ^ 30)%Z.
Proof.
  intros B0 BE E1 Hf Hs. unfold norm_spec.
  pose proof (floor_nonneg b B0). pose proof (floor_nonneg e ltac:(lra)).
  pose proof (floor_lt e _ E1). pose proof (Zfloor_le b e BE).
  pose proof (ZnearestA_range e _ ltac:(lra) E1).
  destruct (Zfloor e - Zfloor b =? 0)%Z eqn:K.
  - destruct (_ && _); cbn [fst snd]; lia.
  - cbn [fst snd]. destruct (Rle_bool b (IZR bf)), (Rle_bool (IZR bs) e); try (destruct (Rle_bool (rnd (1 / 2 - t)) _));
      try (destruct (Rle_bool (b - _) _)); lia.
Qed.

Lemma rect_cells_off z g m A lt rb qx qy e : shows m A -> corners g lt rb -> small_bounds (boundIndicies z) ->
  tuned z qx qy e -> ws32 (angleCoords z) -> coord32 lt -> coord32 rb ->
  let w := angleCoords z in let bd := boundIndicies z in
  differences_fit lt rb w ->
  (cx (leftTop w) <= cx lt <= cx rb)%Z -> (cy rb <= cy lt <= cy (leftTop w))%Z ->
  position_small (col_to rb w qx) -> position_small (row_to rb w qy) ->
  covers_test z lt rb = false ->
  exists m', ZondRectangle z g m = (m', Ok tt) /\
    shows m' (adraw A (fun i j =>
      axis_off (norm_spec (row_from lt w qy) (row_to rb w qy) (rnd (e * qy)) (iBegin bd) (iEnd bd)) (iBegin bd) (iEnd bd) i
      && axis_off (norm_spec (col_from lt w qx) (col_to rb w qx) (rnd (e * qx)) (jBegin bd) (jEnd bd)) (jBegin bd) (jEnd bd) j)).
Proof.
  intros S (G1 & G2) (Hi & Hi' & Hj & Hj') (X & Y & E & Ee & Ex & Ey) W L R w bd (D1 & D2 & D3 & D4) HX HY PX PY T.
  pose proof (cell_size_pos _ _ X) as (RX & QX). pose proof (cell_size_pos _ _ Y) as (RY & QY).
  unfold ZondRectangle, at_. rewrite G1, G2. rewrite T. unfold rect_indices. fold w. fold bd in Hi, Hi', Hj, Hj'. fold bd. cbv zeta.
  rewrite !sub32_ok by assumption. cbn [bind].
  assert (B30 : IZR (2 ^ 30 - 1) < IZR (2 ^ 31 - 1)) by (apply IZR_lt; lia).
  assert (LL : IZR (2 ^ 31 - 1) < IZR (2 ^ 31)) by (apply IZR_lt; lia).
  unfold position_small in *.
  assert (PX'' : position_fits (col_to rb w qx)) by (unfold position_fits; lra).
  assert (PY'' : position_fits (row_to rb w qy)) by (unfold position_fits; lra).
  assert (PX' : position_fits (col_from lt w qx)).
  { unfold position_fits in *. apply Rle_lt_trans with (2 := PX''). apply position_mono; [lra|lia]. }
  assert (PY' : position_fits (row_from lt w qy)).
  { unfold position_fits in *. apply Rle_lt_trans with (2 := PY''). apply position_mono; [lra|lia]. }
  unfold col_from, col_to, row_from, row_to in *.
  destruct (position_ok (cx lt - cx (leftTop w)) _ _ X ltac:(lia) D1 PX') as (J1 & J1').
  destruct (position_ok (cx rb - cx (leftTop w)) _ _ X ltac:(lia) D2 PX'') as (J2 & J2').
  destruct (position_ok (cy (leftTop w) - cy lt) _ _ Y ltac:(lia) D3 PY') as (I1 & I1').
  destruct (position_ok (cy (leftTop w) - cy rb) _ _ Y ltac:(lia) D4 PY'') as (I2 & I2').
  pose proof (position_mono (cx lt - cx (leftTop w)) (cx rb - cx (leftTop w)) qx ltac:(lra) ltac:(lia)) as J12.
  pose proof (position_mono (cy (leftTop w) - cy lt) (cy (leftTop w) - cy rb) qy ltac:(lra) ltac:(lia)) as I12.
  destruct (tol_real _ _ _ _ RX QX E Ee Ex) as (TX & TX').
  destruct (tol_real _ _ _ _ RY QY E Ee Ey) as (TY & TY').
  set (jb := position (cx lt - cx (leftTop w)) qx) in *. set (je := position (cx rb - cx (leftTop w)) qx) in *.
  set (ib := position (cy (leftTop w) - cy lt) qy) in *. set (ie := position (cy (leftTop w) - cy rb) qy) in *.
  unfold position_fits in *.
  unfold NormIndicies. cbv zeta. fold bd.
  rewrite (NormPair_ok _ _ _ _ ib ie qy (rnd (e * qy)) (iBegin bd) (iEnd bd) I1 I2 RY TY) by (try lia; lra). cbn [bind].
  rewrite (NormPair_ok _ _ _ _ jb je qx (rnd (e * qx)) (jBegin bd) (jEnd bd) J1 J2 RX TX) by (try lia; lra). cbn [bind].
  destruct (norm_range_off ib ie (rnd (e * qy)) (iBegin bd) (iEnd bd)) as (NI1 & NI2); [lra|lra|lra|lia|lia|].
  destruct (norm_range_off jb je (rnd (e * qx)) (jBegin bd) (jEnd bd)) as (NJ1 & NJ2); [lra|lra|lra|lia|lia|].
  set (ni := norm_spec ib ie (rnd (e * qy)) (iBegin bd) (iEnd bd)) in *. set (nj := norm_spec jb je (rnd (e * qx)) (jBegin bd) (jEnd bd)) in *.
  cbn [iBegin iEnd jBegin jEnd].
  rewrite (to_size_small (fst ni + _)), (to_size_small (snd ni + _)), (to_size_small (fst nj + _)), (to_size_small (snd nj + _)) by lia.
  edestruct (for32_block A (fst ni + iBegin bd) (Z.max (fst ni + iBegin bd - 1) (Z.min (snd ni + iBegin bd) (iEnd bd)))
    (fst nj + jBegin bd) (Z.max (fst nj + jBegin bd - 1) (Z.min (snd nj + jBegin bd) (jEnd bd)))
    (fun i => (to_size i <=? snd ni + iBegin bd) && (iBegin bd <=? to_size i) && (to_size i <=? iEnd bd))%Z
    (fun j => (to_size j <=? snd nj + jBegin bd) && (jBegin bd <=? to_size j) && (to_size j <=? jEnd bd))%Z m) as (m' & E1 & E2).
  - lia.
  - lia.
  - lia.
  - lia.
  - intros i Hii. rewrite to_size_small by lia. lia.
  - rewrite to_size_small by lia. lia.
  - intros i Hii. rewrite to_size_small by lia. lia.
  - rewrite to_size_small by lia. lia.
  - exact S.
  - exists m'. split; [exact E1|]. eapply shows_ext; [exact E2|].
    repeat split. cbn [arows acols acell adraw]. intros a b Ha Hb. f_equal. unfold block, axis_off. lia.
Qed.

Lemma axis_off_centre b e t i0 i1 k : 0 <= b -> b <= e -> 0 <= t <= 1 / 4 -> (0 <= i0 <= i1)%Z -> (0 <= k)%Z -> (i0 + k <= i1)%Z ->
  b <= IZR k + 1 / 2 <= e ->
  (axis_off (norm_spec b e t i0 i1) i0 i1 (i0 + k) = true <-> not_lost b e i0 k).
Proof.
  intros B0 BE T I K0 K1 (BK & KE). destruct (mid_bounds t T) as (M1 & M2).
  pose proof (Zfloor_lb b). pose proof (Zfloor_ub b). pose proof (Zfloor_lb e). pose proof (Zfloor_ub e).
  pose proof (Zfloor_le b e BE) as FF. unfold not_lost.
  destruct (Z.eq_dec (Zfloor e) (Zfloor b)) as [Q|Q].
  - assert (KK : k = Zfloor b).
    { rewrite Q in *. assert (k <= Zfloor b)%Z by (apply lt_1_IZR; lra).
      assert (Zfloor b <= k)%Z by (apply lt_1_IZR; lra). lia. }
    split; [intros _; left; symmetry; exact Q|]. intros _.
    unfold axis_off, norm_spec. replace (Zfloor e - Zfloor b =? 0)%Z with true by lia.
    rewrite Rle_bool_true by (subst k; lra). rewrite Rle_bool_true by (rewrite Q; subst k; lra). cbn [andb fst snd]. lia.
  - assert (E2 : (k <= snd (norm_spec b e t i0 i1))%Z).
    { unfold norm_spec. replace (Zfloor e - Zfloor b =? 0)%Z with false by lia. cbn [snd].
      destruct (Rle_bool_spec (IZR i1) e) as [R1|R1]; [lia|].
      rewrite ZnearestA_pos by lra.
      destruct (Rle_bool_spec (rnd (1 / 2 - t)) (e - IZR (Zfloor e))).
      + destruct (Rle_bool_spec (1 / 2) (e - IZR (Zfloor e))); apply lt_1_IZR; rewrite ?plus_IZR; lra.
      + apply lt_1_IZR. rewrite minus_IZR. lra. }
    assert (E1 : (fst (norm_spec b e t i0 i1) <= k <-> i0 <= k)%Z).
    { unfold norm_spec. replace (Zfloor e - Zfloor b =? 0)%Z with false by lia. cbn [fst].
      destruct (Rle_bool_spec b (IZR i0)) as [R1|R1]; [reflexivity|].
      assert (I0 : (i0 <= Zfloor b)%Z) by (apply Zfloor_lub; lra).
      destruct (Rle_bool_spec (b - IZR (Zfloor b)) (rnd (1 / 2 + t))).
      - assert (Zfloor b <= k)%Z by (apply lt_1_IZR; lra). lia.
      - assert (Zfloor b + 1 <= k)%Z by (apply lt_1_IZR; rewrite plus_IZR; lra). lia. }
    unfold axis_off. lia.
Qed.

(** every cell drawn lies near the rectangle *)
Lemma axis_off_near b e t i0 i1 j : 0 <= b -> b <= e -> 0 <= t <= 1 / 4 -> (0 <= i0 <= i1)%Z ->
  axis_off (norm_spec b e t i0 i1) i0 i1 j = true ->
  exists k, (j = i0 + k)%Z /\ (0 <= k)%Z /\ (j <= i1)%Z /\ b <= IZR k + 1 / 2 + 2 * t /\ IZR k + 1 / 2 <= e + 1.
Proof.
  intros B0 BE T I A. destruct (mid_bounds t T) as (M1 & M2).
  pose proof (Zfloor_lb b). pose proof (Zfloor_ub b). pose proof (Zfloor_lb e). pose proof (Zfloor_ub e).
  pose proof (Zfloor_le b e BE) as FF. pose proof (floor_nonneg b B0) as F0.
  assert (A' : (fst (norm_spec b e t i0 i1) + i0 <= j /\ j <= snd (norm_spec b e t i0 i1) + i0 /\ j <= i1)%Z) by (unfold axis_off in A; lia).
  clear A. destruct A' as (A1 & A2 & A3). exists (j - i0)%Z. split; [lia|]. set (k := (j - i0)%Z).
  assert (A4 : (fst (norm_spec b e t i0 i1) <= k)%Z) by (unfold k; lia). assert (A5 : (k <= snd (norm_spec b e t i0 i1))%Z) by (unfold k; lia).
  assert (A6 : (k <= i1)%Z) by (unfold k; lia). clear A1 A2. unfold norm_spec in *.
  destruct (Z.eq_dec (Zfloor e) (Zfloor b)) as [Q|Q].
  - replace (Zfloor e - Zfloor b =? 0)%Z with true in * by lia.
    destruct (Rle_bool_spec (b - IZR (Zfloor b)) (rnd (1 / 2 + t))), (Rle_bool_spec (rnd (1 / 2 - t)) (e - IZR (Zfloor e)));
      cbn [andb fst snd] in *; try (exfalso; lia).
    assert (KB : k = Zfloor b) by lia. rewrite KB. rewrite Q in *. split; [lia|]. split; [lia|]. lra.
  - replace (Zfloor e - Zfloor b =? 0)%Z with false in * by lia. cbn [fst snd] in *.
    assert (Ls : (0 <= k)%Z /\ b <= IZR k + 1 / 2 + 2 * t).
    { destruct (Rle_bool_spec b (IZR i0)).
      - split; [lia|]. apply IZR_le in A4. lra.
      - destruct (Rle_bool_spec (b - IZR (Zfloor b)) (rnd (1 / 2 + t))).
        + apply IZR_le in A4 as A1'. split; [lia|lra].
        + apply IZR_le in A4 as A1'. rewrite plus_IZR in A1'. split; [lia|lra]. }
    split; [lia|]. split; [lia|]. split; [apply Ls|].
    destruct (Rle_bool_spec (IZR i1) e).
    + apply IZR_le in A6. lra.
    + rewrite ZnearestA_pos in A5 by lra.
      destruct (Rle_bool_spec (rnd (1 / 2 - t)) (e - IZR (Zfloor e))).
      * destruct (Rle_bool_spec (1 / 2) (e - IZR (Zfloor e))); apply IZR_le in A5; rewrite ?plus_IZR in A5; lra.
      * apply IZR_le in A5. rewrite minus_IZR in A5. lra.
Qed.
