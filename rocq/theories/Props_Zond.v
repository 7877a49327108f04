(** C41-C47: workspace coordinates and zonding.
    Specifications: S_Matrix ([shows]), S_Zond ([only_adds], [drawn], positions), S_Double. *)
From Coq Require Import Reals Lra.
From Flocq Require Import Core IEEE754.BinarySingleNaN.
From Verif Require Import Prelude P_Prelude M_Double S_Double P_Double P_Round M_LayoutData M_Loop P_Loop M_Vector2D M_BitMatrix S_Matrix P_BitMatrix
  M_Zond S_Zond P_Zond P_ZondReal P_ZondCells.
Local Open Scope Z_scope.

(** ** C41 *)
Theorem C41_set_angle_coords : forall w lt rb w' ok, SetAngleCoords w lt rb = (w', ok) ->
  (ok = true <-> cx lt <= cx rb /\ cy rb <= cy lt) /\
  (ok = true -> leftTop w' = lt /\ rightBot w' = rb) /\
  (ok = false -> w' = w).
Proof.
  intros w lt rb w' ok H. unfold SetAngleCoords in H.
  destruct ((cx rb <? cx lt) || (cy lt <? cy rb)) eqn:Q; injection H as <- <-.
  - split; [|split; [discriminate|reflexivity]]. split; [discriminate|lia].
  - split; [|split; [split; reflexivity|discriminate]]. split; [lia|reflexivity].
Qed.

Theorem C41_is_in_workspace : forall w p, isInWorkspace w p = true <->
  cx (leftTop w) < cx p < cx (rightBot w) /\ cy (rightBot w) < cy p < cy (leftTop w).
Proof.
  intros w p. unfold isInWorkspace.
  destruct ((cx (leftTop w) <? cx p) && (cx p <? cx (rightBot w))) eqn:Q1.
  - destruct ((cy p <? cy (leftTop w)) && (cy (rightBot w) <? cy p)) eqn:Q2.
    + split; [lia|reflexivity].
    + split; [discriminate|lia].
  - split; [discriminate|lia].
Qed.

(** Whatever calls are made, the stored box is ordered; and its corners are outside it. *)
Theorem C41_always_ordered : forall calls,
  let w := fold_left (fun w c => fst (SetAngleCoords w (fst c) (snd c))) calls ws_init in
  cx (leftTop w) <= cx (rightBot w) /\ cy (rightBot w) <= cy (leftTop w).
Proof.
  intros calls w.
  assert (G : forall w0, cx (leftTop w0) <= cx (rightBot w0) /\ cy (rightBot w0) <= cy (leftTop w0) ->
    let w := fold_left (fun w c => fst (SetAngleCoords w (fst c) (snd c))) calls w0 in
    cx (leftTop w) <= cx (rightBot w) /\ cy (rightBot w) <= cy (leftTop w)).
  { clear w. induction calls as [|(lt, rb) l IH]; intros w0 H0; [exact H0|]. cbn [fold_left fst snd]. apply IH.
    destruct (SetAngleCoords w0 lt rb) as [w1 ok] eqn:E. apply C41_set_angle_coords in E as (E1 & E2 & E3).
    cbn [fst]. destruct ok; [destruct E2 as (-> & ->); [reflexivity|]; apply E1; reflexivity|].
    rewrite E3 by reflexivity. exact H0. }
  apply G. cbn. lia.
Qed.

Example C41_nonvacuous :
  SetAngleCoords ws_init (mkcoord 0 100) (mkcoord 50 20) = (mkws (mkcoord 0 100) (mkcoord 50 20), true) /\
  SetAngleCoords ws_init (mkcoord 0 20) (mkcoord 50 100) = (ws_init, false) /\
  isInWorkspace (mkws (mkcoord 0 100) (mkcoord 50 20)) (mkcoord 1 99) = true /\
  isInWorkspace (mkws (mkcoord 0 100) (mkcoord 50 20)) (mkcoord 0 99) = false.
Proof. repeat split; reflexivity. Qed.

(** ** C42 *)
(** SetEps looks only at the stored value: the argument is stored whatever it is. *)
Theorem C42_argument_not_checked : forall z r e, real (eps z) r -> (0 <= r <= 1 / 2)%R ->
  exists z', SetEps z e = Ok z' /\ eps z' = e.
Proof.
  intros z r e H R. unfold SetEps. rewrite (dlt_ok _ _ _ _ H d0_real), (dgt_ok _ _ _ _ H mid_real).
  rewrite !Rlt_bool_false by lra. eexists. split; reflexivity.
Qed.

Theorem C42_fresh_accepts_anything : forall e, exists z', SetEps (zond_new (dz 0)) e = Ok z' /\ eps z' = e.
Proof. intros e. apply (C42_argument_not_checked _ 0%R); [exact d0_real|lra]. Qed.

Lemma C42_stored_rejects z e : out_of_range (eps z) -> SetEps z e = Throw InvalidArgument.
Proof.
  unfold SetEps. intros [(r & H & R)|(s & ->)].
  - rewrite (dlt_ok _ _ _ _ H d0_real), (dgt_ok _ _ _ _ H mid_real). destruct R as [R|R].
    + rewrite Rlt_bool_true by exact R. reflexivity.
    + rewrite (Rlt_bool_true (1 / 2)) by exact R. rewrite orb_true_r. reflexivity.
  - destruct s; reflexivity.
Qed.

Theorem C42_stuck : forall z calls e, out_of_range (eps z) ->
  eps (after_SetEps z calls) = eps z /\ SetEps (after_SetEps z calls) e = Throw InvalidArgument.
Proof.
  intros z calls e O.
  assert (G : after_SetEps z calls = z).
  { unfold after_SetEps. induction calls as [|x l IH]; [reflexivity|]. cbn [fold_left].
    rewrite (C42_stored_rejects z x O). exact IH. }
  rewrite G. split; [reflexivity|]. now apply C42_stored_rejects.
Qed.

(** So one wrong call on a fresh object disables the setter for ever. *)
Corollary C42_one_bad_value_blocks : forall bad calls e, out_of_range bad ->
  exists z, SetEps (zond_new (dz 0)) bad = Ok z /\
    SetEps (after_SetEps z calls) e = Throw InvalidArgument.
Proof.
  intros bad calls e O. destruct (C42_fresh_accepts_anything bad) as (z & E & Ez).
  exists z. split; [exact E|]. apply C42_stuck. rewrite Ez. exact O.
Qed.

(** SetDeltas does check its arguments. *)
Theorem C42_set_deltas : forall z x y a b, real x a -> real y b ->
  ((0 <= a)%R /\ (0 <= b)%R -> exists z', SetDeltas z x y = Ok z' /\ dx z' = x /\ dy z' = y /\
     eps z' = eps z /\ boundIndicies z' = boundIndicies z /\ angleCoords z' = angleCoords z) /\
  ((a < 0)%R \/ (b < 0)%R -> SetDeltas z x y = Throw InvalidArgument).
Proof.
  intros z x y a b X Y. unfold SetDeltas.
  rewrite (dgt_ok _ _ _ _ d0_real X), (dgt_ok _ _ _ _ d0_real Y). split.
  - intros (A & B). rewrite !Rlt_bool_false by lra. eexists. repeat split.
  - intros [A|A]; rewrite (Rlt_bool_true _ _ A); [rewrite orb_true_r|]; reflexivity.
Qed.

Example C42_nonvacuous : out_of_range (dlit 6 10) /\ out_of_range (B754_infinity true) /\
  real (dz 0) 0 /\ (0 <= 0 <= 1 / 2)%R.
Proof.
  split.
  - left. eexists. split; [apply nearest_real, dlit_ok; lia|]. right.
    apply Rlt_le_trans with (IZR 9 / 16)%R; [lra|]. apply rnd_ge; [|lra].
    apply generic_format_FLT. exists (Float radix2 9 (-4)); [|cbn; lia|cbn; lia].
    unfold F2R. cbn [Fnum Fexp]. change (bpow radix2 (-4)) with (/ 16)%R. reflexivity.
  - split; [right; exists true; reflexivity|]. split; [exact d0_real|lra].
Qed.

(** ** C43 *)
Theorem C43_only_adds : forall z g m A m' o, shows m A ->
  0 <= iBegin (boundIndicies z) < 2 ^ 31 -> 0 <= jBegin (boundIndicies z) < 2 ^ 31 ->
  ZondGeometry z (Some g) m = (m', o) ->
  (exists B, shows m' B /\ only_adds (boundIndicies z) A B) /\
  (forall e, o = Throw e -> m' = m).
Proof.
  intros z g m A m' o S Hi Hj E. unfold ZondGeometry in E.
  assert (T : forall u, (m, u) = (m', o) -> (exists B, shows m' B /\ only_adds (boundIndicies z) A B) /\
                        (forall e, o = Throw e -> m' = m)).
  { intros u Q. injection Q as <- <-. split; [exists A; split; [exact S|apply only_adds_refl]|]. reflexivity. }
  destruct (g_type g); try (now apply (T _ E)).
  destruct (rect_adds z g m A S Hi Hj _ E) as (H1 & H2). split; [exact H1|]. intros e He. apply (H2 e). exact He.
Qed.

(** A null pointer is dereferenced. *)
Theorem C43_null_pointer : forall z m, exists u, snd (ZondGeometry z None m) = UB u.
Proof. intros z m. eexists. reflexivity. Qed.

(** Polygons are ignored; every other type throws; either way nothing is drawn. *)
Theorem C43_other_types : forall z g m,
  (g_type g = GTpolygon -> ZondGeometry z (Some g) m = (m, Ok tt)) /\
  (g_type g <> GTpolygon -> g_type g <> GTrectangle ->
   ZondGeometry z (Some g) m = (m, Throw InvalidArgument)).
Proof.
  intros z g m. unfold ZondGeometry. destruct (g_type g); split; intros; congruence || reflexivity.
Qed.

(** ** C44 *)
Theorem C44_covering_rectangle_fills : forall z g m A lt rb qx qy e,
  shows m A -> corners g lt rb -> coord32 lt -> coord32 rb -> ws32 (angleCoords z) ->
  cell_size (dx z) qx -> cell_size (dy z) qy -> real (eps z) e -> (0 <= e <= 1 / 8)%R ->
  let b := boundIndicies z in
  0 <= iBegin b <= iEnd b -> iEnd b < 2 ^ 31 - 1 -> 0 <= jBegin b <= jEnd b -> jEnd b < 2 ^ 31 - 1 ->
  contains_ws lt rb (angleCoords z) ->
  exists m' B, ZondRectangle z g m = (m', Ok tt) /\ shows m' B /\ drawn A B (within b).
Proof.
  intros z g m A lt rb qx qy e S (G1 & G2) L R W X Y E Ee b Hi Hi' Hj Hj' C.
  unfold ZondRectangle, at_. rewrite G1, G2. rewrite (contains_test z lt rb qx qy e) by assumption.
  fold b. cbv zeta.
  destruct (for32_block A (iBegin b) (iEnd b) (jBegin b) (jEnd b)
    (fun i => to_size i <=? iEnd b) (fun j => to_size j <=? jEnd b) m) as (m' & E1 & E2); try lia.
  - intros i Hii. rewrite to_size_small by lia. lia.
  - rewrite to_size_small by lia. lia.
  - intros i Hii. rewrite to_size_small by lia. lia.
  - rewrite to_size_small by lia. lia.
  - exact S.
  - exists m'. eexists. split; [exact E1|]. split; [exact E2|].
    split; [reflexivity|]. split; [reflexivity|]. cbn [arows acols acell adraw]. intros i j H1 H2.
    rewrite orb_true_iff. unfold within, block. split; (intros [Q|Q]; [left; exact Q|right; lia]).
Qed.

(** ** C45 *)
Theorem C45_left_or_above_throws : forall z g m lt rb qx qy e,
  corners g lt rb -> coord32 lt -> coord32 rb -> ws32 (angleCoords z) ->
  0 <= iEnd (boundIndicies z) < 2 ^ 31 -> 0 <= iBegin (boundIndicies z) < 2 ^ 31 -> tuned z qx qy e ->
  let w := angleCoords z in
  differences_fit lt rb w -> cx lt <= cx rb -> cy rb <= cy lt ->
  position_fits (col_to rb w qx) -> position_fits (row_to rb w qy) ->
  cx lt < cx (leftTop w) \/ cy (leftTop w) < cy lt ->
  one_cell_short lt rb w qx qy ->
  ZondRectangle z g m = (m, Throw InvalidArgument).
Proof.
  intros z g m lt rb qx qy e (G1 & G2) L R W Bi Bi' (X & Y & E & Ee & Ex & Ey) w (D1 & D2 & D3 & D4) OX OY PX PY LA SH.
  pose proof (cell_size_pos _ _ X) as (RX & QX). pose proof (cell_size_pos _ _ Y) as (RY & QY).
  unfold ZondRectangle, at_. rewrite G1, G2. rewrite (short_test z lt rb qx qy e) by assumption. cbv zeta.
  assert (T : rect_indices z lt rb = Throw InvalidArgument); [|now rewrite T].
  unfold rect_indices. fold w. cbv zeta. rewrite !sub32_ok by assumption. cbn [bind].
  unfold NormIndicies. cbv zeta.
  pose proof (position_any _ _ _ X D1) as J1. pose proof (position_any _ _ _ X D2) as J2.
  pose proof (position_any _ _ _ Y D3) as I1. pose proof (position_any _ _ _ Y D4) as I2.
  destruct (Z.lt_ge_cases (cy (leftTop w)) (cy lt)) as [AB|AB].
  - (* above *)
    rewrite (NormPair_neg _ _ _ _ _ _ _ _ I1 I2); [reflexivity|]. left. apply position_neg; [lra|lra|lia].
  - (* the rows are fine *)
    assert (LE : cx lt < cx (leftTop w)) by lia.
    unfold row_to, position_fits in *.
    pose proof (position_sign (cy (leftTop w) - cy lt) qy ltac:(lra) ltac:(lia)) as I0.
    pose proof (position_mono (cy (leftTop w) - cy lt) (cy (leftTop w) - cy rb) qy ltac:(lra) ltac:(lia)) as I12.
    destruct (tol_real _ _ _ _ RY QY E Ee Ey) as (TY & TY').
    assert (LL : (IZR (2 ^ 31 - 1) < IZR (2 ^ 31))%R) by (apply IZR_lt; lia).
    rewrite (NormPair_ok _ _ _ _ _ _ _ _ (iBegin (boundIndicies z)) (iEnd (boundIndicies z)) I1 I2 RY TY) by (try lia; lra).
    cbn [bind].
    rewrite (NormPair_neg _ _ _ _ _ _ _ _ J1 J2); [reflexivity|]. left. apply position_neg; [lra|lra|lia].
Qed.

(** ** C46 *)
Theorem C46_covered_centres_are_set : forall z g m A lt rb qx qy e r c,
  shows m A -> corners g lt rb -> coord32 lt -> coord32 rb -> ws32 (angleCoords z) ->
  boundIndicies z = full_bounds r c -> 1 <= r < 2 ^ 31 -> 1 <= c < 2 ^ 31 -> tuned z qx qy e ->
  let w := angleCoords z in
  differences_fit lt rb w ->
  cx (leftTop w) <= cx lt <= cx rb -> cy rb <= cy lt <= cy (leftTop w) ->
  position_fits (col_to rb w qx) -> position_fits (row_to rb w qy) ->
  exists m' B, ZondRectangle z g m = (m', Ok tt) /\ shows m' B /\
    forall i j, (i < arows A)%nat -> (j < acols A)%nat -> Z.of_nat i < r -> Z.of_nat j < c ->
      (row_from lt w qy <= INR i + 1 / 2 <= row_to rb w qy)%R ->
      (col_from lt w qx <= INR j + 1 / 2 <= col_to rb w qx)%R ->
      acell B i j = true.
Proof.
  intros z g m A lt rb qx qy e r c S G L R W HB Hr Hc T w D HX HY PX PY.
  destruct (covers_test z lt rb) eqn:CT.
  - (* everything is filled *)
    destruct G as (G1 & G2). unfold ZondRectangle, at_. rewrite G1, G2, CT. cbv zeta. rewrite HB. cbn [iBegin iEnd jBegin jEnd full_bounds].
    destruct (for32_block A 0 (r - 1) 0 (c - 1)
      (fun i => to_size i <=? r - 1) (fun j => to_size j <=? c - 1) m) as (m' & E1 & E2); try lia.
    + intros i Hii. rewrite to_size_small by lia. lia.
    + rewrite to_size_small by lia. lia.
    + intros i Hii. rewrite to_size_small by lia. lia.
    + rewrite to_size_small by lia. lia.
    + exact S.
    + exists m'. eexists. split; [exact E1|]. split; [exact E2|]. cbn [arows acols acell adraw].
      intros i j H1 H2 H3 H4 _ _. unfold block. replace (_ && _) with true by lia. apply orb_true_r.
  - destruct (rect_cells z g m A lt rb qx qy e r c) as (m' & E1 & E2); try assumption.
    exists m'. eexists. split; [exact E1|]. split; [exact E2|]. cbn [arows acols acell adraw].
    intros i j H1 H2 H3 H4 I J. fold w. rewrite INR_IZR_INZ in I, J.
    destruct T as (X & Y & E & Ee & Ex & Ey).
    pose proof (cell_size_pos _ _ X) as (RX & QX). pose proof (cell_size_pos _ _ Y) as (RY & QY).
    destruct (tol_real _ _ _ _ RX QX E Ee Ex) as (_ & TX). destruct (tol_real _ _ _ _ RY QY E Ee Ey) as (_ & TY).
    unfold col_from, col_to, row_from, row_to in *.
    pose proof (position_sign (cx lt - cx (leftTop w)) qx ltac:(lra) ltac:(lia)).
    pose proof (position_sign (cy (leftTop w) - cy lt) qy ltac:(lra) ltac:(lia)).
    pose proof (position_mono (cx lt - cx (leftTop w)) (cx rb - cx (leftTop w)) qx ltac:(lra) ltac:(lia)).
    pose proof (position_mono (cy (leftTop w) - cy lt) (cy (leftTop w) - cy rb) qy ltac:(lra) ltac:(lia)).
    rewrite !axis_centre by (first [assumption|lia]). apply orb_true_r.
Qed.

(** ** C47 *)
(** A rectangle that starts inside the workspace and ends a cell before one of its edges: the
    cells it sets have their centre inside the rectangle, up to the accuracy at the edges where
    it begins and up to one whole cell at the edges where it ends. *)
Theorem C47_at_most_one_cell_too_far : forall z g m A lt rb qx qy e r c,
  shows m A -> corners g lt rb -> coord32 lt -> coord32 rb -> ws32 (angleCoords z) ->
  boundIndicies z = full_bounds r c -> 1 <= r < 2 ^ 31 -> 1 <= c < 2 ^ 31 -> tuned z qx qy e ->
  let w := angleCoords z in
  differences_fit lt rb w ->
  cx (leftTop w) <= cx lt <= cx rb -> cy rb <= cy lt <= cy (leftTop w) ->
  position_fits (col_to rb w qx) -> position_fits (row_to rb w qy) ->
  one_cell_short lt rb w qx qy ->
  exists m' B, ZondRectangle z g m = (m', Ok tt) /\ shows m' B /\
    forall i j, (i < arows A)%nat -> (j < acols A)%nat -> acell A i j = false -> acell B i j = true ->
      (row_from lt w qy <= INR i + 1 / 2 + 2 * rnd (e * qy))%R /\ (INR i + 1 / 2 <= row_to rb w qy + 1)%R /\
      (col_from lt w qx <= INR j + 1 / 2 + 2 * rnd (e * qx))%R /\ (INR j + 1 / 2 <= col_to rb w qx + 1)%R.
Proof.
  intros z g m A lt rb qx qy e r c S G L R W HB Hr Hc T w D HX HY PX PY SH.
  destruct T as (X & Y & E & Ee & Ex & Ey).
  destruct (rect_cells z g m A lt rb qx qy e r c) as (m' & E1 & E2); try assumption.
  { exact (conj X (conj Y (conj E (conj Ee (conj Ex Ey))))). }
  { apply (short_test z lt rb qx qy e); assumption. }
  exists m'. eexists. split; [exact E1|]. split; [exact E2|]. cbn [arows acols acell adraw]. fold w.
  intros i j H1 H2 HA HQ. rewrite HA in HQ. cbn [orb] in HQ. apply andb_true_iff in HQ as (Q1 & Q2).
  pose proof (cell_size_pos _ _ X) as (RX & QX). pose proof (cell_size_pos _ _ Y) as (RY & QY).
  destruct (tol_real _ _ _ _ RX QX E Ee Ex) as (_ & TX). destruct (tol_real _ _ _ _ RY QY E Ee Ey) as (_ & TY).
  unfold col_from, col_to, row_from, row_to in *.
  pose proof (position_sign (cx lt - cx (leftTop w)) qx ltac:(lra) ltac:(lia)).
  pose proof (position_sign (cy (leftTop w) - cy lt) qy ltac:(lra) ltac:(lia)).
  pose proof (position_mono (cx lt - cx (leftTop w)) (cx rb - cx (leftTop w)) qx ltac:(lra) ltac:(lia)).
  pose proof (position_mono (cy (leftTop w) - cy lt) (cy (leftTop w) - cy rb) qy ltac:(lra) ltac:(lia)).
  apply axis_near in Q1; try assumption; try lia. apply axis_near in Q2; try assumption; try lia.
  rewrite !INR_IZR_INZ. lra.
Qed.

Theorem C47_overshoot_columns : forall z g m A lt rb qx qy e r c,
  shows m A -> corners g lt rb -> coord32 lt -> coord32 rb -> ws32 (angleCoords z) ->
  boundIndicies z = full_bounds r c -> 1 <= r < 2 ^ 31 -> 1 <= c < 2 ^ 31 -> tuned z qx qy e ->
  let w := angleCoords z in
  differences_fit lt rb w ->
  cx (leftTop w) <= cx lt <= cx rb -> cy rb <= cy lt <= cy (leftTop w) ->
  position_fits (col_to rb w qx) -> position_fits (row_to rb w qy) ->
  one_cell_short lt rb w qx qy ->
  exists m' B, ZondRectangle z g m = (m', Ok tt) /\ shows m' B /\
    forall i j, (i < arows A)%nat -> (j < acols A)%nat -> acell A i j = false ->
      Z.of_nat i < r -> Z.of_nat j < c ->
      (row_from lt w qy <= INR i + 1 / 2 <= row_to rb w qy)%R ->
      (col_from lt w qx <= INR j + 1 / 2)%R -> (col_to rb w qx + 2 * rnd (e * qx) < INR j + 1 / 2)%R ->
      (acell B i j = true <-> overshot (col_from lt w qx) (col_to rb w qx) c (Z.of_nat j)).
Proof.
  intros z g m A lt rb qx qy e r c S G L R W HB Hr Hc T w D HX HY PX PY SH.
  destruct T as (X & Y & E & Ee & Ex & Ey).
  destruct (rect_cells z g m A lt rb qx qy e r c) as (m' & E1 & E2); try assumption.
  { exact (conj X (conj Y (conj E (conj Ee (conj Ex Ey))))). }
  { apply (short_test z lt rb qx qy e); assumption. }
  exists m'. eexists. split; [exact E1|]. split; [exact E2|]. cbn [arows acols acell adraw]. fold w.
  intros i j H1 H2 HA Hi Hj RI CJ1 CJ2. rewrite HA. cbn [orb].
  pose proof (cell_size_pos _ _ X) as (RX & QX). pose proof (cell_size_pos _ _ Y) as (RY & QY).
  destruct (tol_real _ _ _ _ RX QX E Ee Ex) as (_ & TX). destruct (tol_real _ _ _ _ RY QY E Ee Ey) as (_ & TY).
  unfold col_from, col_to, row_from, row_to in *.
  pose proof (position_sign (cx lt - cx (leftTop w)) qx ltac:(lra) ltac:(lia)).
  pose proof (position_sign (cy (leftTop w) - cy lt) qy ltac:(lra) ltac:(lia)).
  pose proof (position_mono (cx lt - cx (leftTop w)) (cx rb - cx (leftTop w)) qx ltac:(lra) ltac:(lia)).
  pose proof (position_mono (cy (leftTop w) - cy lt) (cy (leftTop w) - cy rb) qy ltac:(lra) ltac:(lia)).
  rewrite INR_IZR_INZ in *.
  rewrite axis_centre by (try assumption; try lia). cbn [andb].
  rewrite axis_overshoot by (try assumption; try lia). reflexivity.
Qed.

Theorem C47_overshoot_rows : forall z g m A lt rb qx qy e r c,
  shows m A -> corners g lt rb -> coord32 lt -> coord32 rb -> ws32 (angleCoords z) ->
  boundIndicies z = full_bounds r c -> 1 <= r < 2 ^ 31 -> 1 <= c < 2 ^ 31 -> tuned z qx qy e ->
  let w := angleCoords z in
  differences_fit lt rb w ->
  cx (leftTop w) <= cx lt <= cx rb -> cy rb <= cy lt <= cy (leftTop w) ->
  position_fits (col_to rb w qx) -> position_fits (row_to rb w qy) ->
  one_cell_short lt rb w qx qy ->
  exists m' B, ZondRectangle z g m = (m', Ok tt) /\ shows m' B /\
    forall i j, (i < arows A)%nat -> (j < acols A)%nat -> acell A i j = false ->
      Z.of_nat i < r -> Z.of_nat j < c ->
      (col_from lt w qx <= INR j + 1 / 2 <= col_to rb w qx)%R ->
      (row_from lt w qy <= INR i + 1 / 2)%R -> (row_to rb w qy + 2 * rnd (e * qy) < INR i + 1 / 2)%R ->
      (acell B i j = true <-> overshot (row_from lt w qy) (row_to rb w qy) r (Z.of_nat i)).
Proof.
  intros z g m A lt rb qx qy e r c S G L R W HB Hr Hc T w D HX HY PX PY SH.
  destruct T as (X & Y & E & Ee & Ex & Ey).
  destruct (rect_cells z g m A lt rb qx qy e r c) as (m' & E1 & E2); try assumption.
  { exact (conj X (conj Y (conj E (conj Ee (conj Ex Ey))))). }
  { apply (short_test z lt rb qx qy e); assumption. }
  exists m'. eexists. split; [exact E1|]. split; [exact E2|]. cbn [arows acols acell adraw]. fold w.
  intros i j H1 H2 HA Hi Hj RI CJ1 CJ2. rewrite HA. cbn [orb].
  pose proof (cell_size_pos _ _ X) as (RX & QX). pose proof (cell_size_pos _ _ Y) as (RY & QY).
  destruct (tol_real _ _ _ _ RX QX E Ee Ex) as (_ & TX). destruct (tol_real _ _ _ _ RY QY E Ee Ey) as (_ & TY).
  unfold col_from, col_to, row_from, row_to in *.
  pose proof (position_sign (cx lt - cx (leftTop w)) qx ltac:(lra) ltac:(lia)).
  pose proof (position_sign (cy (leftTop w) - cy lt) qy ltac:(lra) ltac:(lia)).
  pose proof (position_mono (cx lt - cx (leftTop w)) (cx rb - cx (leftTop w)) qx ltac:(lra) ltac:(lia)).
  pose proof (position_mono (cy (leftTop w) - cy lt) (cy (leftTop w) - cy rb) qy ltac:(lra) ltac:(lia)).
  rewrite INR_IZR_INZ in *.
  rewrite (axis_centre _ _ _ c) by (try assumption; try lia). rewrite andb_true_r.
  rewrite axis_overshoot by (try assumption; try lia). reflexivity.
Qed.

(** The natural reading of the rule - "a cell is set only if the rectangle touches it" - is
    false: columns 4 and 5 of row 0 for a rectangle covering 25..45 of a 100 wide workspace
    with cells of 10 are positions 2.5 .. 4.5; column 5 starts at 50. *)
Definition ex_zond : zond := mkzond (full_bounds 10 10) (mkws (mkcoord 0 100) (mkcoord 100 0)) (dz 10) (dz 10) (dlit 1 (10 ^ 13)).
Definition ex_rect (x0 y0 x1 y1 : Z) : geom :=
  mkgeom GTrectangle 1 [mkcoord x0 y1; mkcoord x1 y1; mkcoord x1 y0; mkcoord x0 y0; mkcoord x0 y1]
    (mkcoord x0 y0) (mkcoord x1 y1) (CRectangle 0).
Definition ex_matrix : bm := BM_ctor infinite_memory 10 10.

Example C47_untouched_column_is_set : exists m',
  ZondRectangle ex_zond (ex_rect 25 60 45 100) ex_matrix = (m', Ok tt) /\
  Get m' 0 4 = Ok true /\ Get m' 0 5 = Ok true /\ Get m' 0 6 = Ok false /\ Get m' 0 2 = Ok true /\ Get m' 0 1 = Ok false.
Proof. run_example. Qed.

(** ** The hypotheses hold of concrete cases *)
Lemma cell_size_int n : 1 <= n <= 2 ^ 53 -> cell_size (dz n) (IZR n).
Proof.
  intros H. split; [apply dz_exact; lia|]. split.
  - apply Rle_trans with 1%R; [|apply IZR_le; lia]. rewrite <- Rinv_1. apply Rinv_le; [lra|apply IZR_le; lia].
  - apply IZR_le. lia.
Qed.

Lemma generator_eps : exists e, real (dlit 1 (10 ^ 13)) e /\ (0 <= e <= / IZR (2 ^ 43))%R.
Proof.
  eexists. split; [apply nearest_real, dlit_ok; lia|]. split.
  - rewrite <- rnd_0. apply rnd_le. unfold Rdiv. rewrite Rmult_1_l. left. apply Rinv_0_lt_compat, IZR_lt. lia.
  - apply rnd_le_f.
    + apply generic_format_FLT. exists (Float radix2 1 (-43)); [|cbn; lia|cbn; lia].
      unfold F2R. cbn [Fnum Fexp]. rewrite Rmult_1_l. reflexivity.
    + unfold Rdiv. rewrite Rmult_1_l. apply Rinv_le; [apply IZR_lt; lia|]. apply IZR_le. lia.
Qed.

Lemma ex_tuned : exists e, tuned ex_zond 10 10 e.
Proof.
  destruct generator_eps as (e & R & H). exists e.
  assert (B : (/ IZR (2 ^ 43) <= 1 / 64)%R).
  { unfold Rdiv. rewrite Rmult_1_l. apply Rinv_le; [lra|]. apply IZR_le. lia. }
  repeat split; cbn [ex_zond M_Zond.dx M_Zond.dy M_Zond.eps]; try apply (cell_size_int 10 ltac:(lia)); try apply R; try lra.
Qed.

Lemma position_int d q : int32 d -> 0 < q -> (d mod q = 0) -> (position d (IZR q) = IZR (d / q))%R.
Proof.
  intros H Q M. unfold position. assert (E : (IZR d / IZR q = IZR (d / q))%R).
  { rewrite (Z_div_exact_2 d q ltac:(lia) M) at 1. rewrite mult_IZR. field. apply not_0_IZR. lia. }
  rewrite E. apply rnd_exact, int_format. unfold int32 in H.
  pose proof (Z.div_lt_upper_bound d q (2 ^ 31)). pose proof (Z.div_le_lower_bound d q (- 2 ^ 31)). 
  assert (d / q < 2 ^ 31) by (apply H0; nia). assert (- 2 ^ 31 <= d / q) by (apply H1; nia). lia.
Qed.

(** C44: the whole workspace; C45: a rectangle overlapping the left edge. *)
Example C44_nonvacuous : exists e lt rb, corners (ex_rect (-5) (-5) 100 107) lt rb /\ coord32 lt /\ coord32 rb /\
  ws32 (angleCoords ex_zond) /\ real (eps ex_zond) e /\ (0 <= e <= 1 / 8)%R /\ contains_ws lt rb (angleCoords ex_zond) /\
  exists m', ZondRectangle ex_zond (ex_rect (-5) (-5) 100 107) ex_matrix = (m', Ok tt) /\
    Get m' 0 0 = Ok true /\ Get m' 9 9 = Ok true.
Proof.
  destruct ex_tuned as (e & T). exists e, (mkcoord (-5) 107), (mkcoord 100 (-5)).
  split; [split; reflexivity|]. split; [vm_compute; repeat split; discriminate|]. split; [vm_compute; repeat split; discriminate|].
  split; [vm_compute; repeat split; discriminate|]. split; [apply T|]. split; [apply T|].
  split; [vm_compute; repeat split; discriminate|]. run_example.
Qed.

Example C45_nonvacuous : exists lt rb, corners (ex_rect (-5) 20 45 60) lt rb /\ coord32 lt /\ coord32 rb /\
  differences_fit lt rb (angleCoords ex_zond) /\ cx lt <= cx rb /\ cy rb <= cy lt /\
  position_fits (col_to rb (angleCoords ex_zond) 10) /\ position_fits (row_to rb (angleCoords ex_zond) 10) /\
  cx lt < cx (leftTop (angleCoords ex_zond)) /\ one_cell_short lt rb (angleCoords ex_zond) 10 10 /\
  snd (ZondRectangle ex_zond (ex_rect (-5) 20 45 60) ex_matrix) = Throw InvalidArgument.
Proof.
  exists (mkcoord (-5) 60), (mkcoord 45 20).
  split; [split; reflexivity|]. do 3 (split; [vm_compute; repeat split; discriminate|]).
  do 2 (split; [vm_compute; discriminate|]).
  unfold position_fits, col_to, row_to, one_cell_short. cbn [cx cy angleCoords ex_zond leftTop rightBot].
  split.
  { apply Rle_lt_trans with (IZR 5); [|apply IZR_lt; lia]. apply rnd_le_f; [apply int_format; lia|]. change (45 - 0) with 45. lra. }
  split; [rewrite (position_int (100 - 20) 10); [apply IZR_lt; lia|unfold int32; lia|lia|reflexivity]|].
  split; [lia|]. split; [right; left; lra|]. vm_compute. reflexivity.
Qed.

(** C46, C47: a rectangle from (25,60) to (45,100), inside the workspace. *)
Example C46_C47_nonvacuous : exists lt rb, corners (ex_rect 25 60 45 100) lt rb /\ coord32 lt /\ coord32 rb /\
  differences_fit lt rb (angleCoords ex_zond) /\ cx (leftTop (angleCoords ex_zond)) <= cx lt <= cx rb /\
  cy rb <= cy lt <= cy (leftTop (angleCoords ex_zond)) /\
  position_fits (col_to rb (angleCoords ex_zond) 10) /\ position_fits (row_to rb (angleCoords ex_zond) 10) /\
  one_cell_short lt rb (angleCoords ex_zond) 10 10 /\ shows ex_matrix (azero 10 10).
Proof.
  exists (mkcoord 25 100), (mkcoord 45 60).
  split; [split; reflexivity|]. do 3 (split; [vm_compute; repeat split; discriminate|]).
  do 2 (split; [vm_compute; repeat split; discriminate|]).
  unfold position_fits, col_to, row_to, one_cell_short. cbn [cx cy angleCoords ex_zond leftTop rightBot].
  split.
  { apply Rle_lt_trans with (IZR 5); [|apply IZR_lt; lia]. apply rnd_le_f; [apply int_format; lia|]. change (45 - 0) with 45. lra. }
  split; [rewrite (position_int (100 - 60) 10); [apply IZR_lt; lia|unfold int32; lia|lia|reflexivity]|].
  split; [right; left; lra|]. unfold ex_matrix; rewrite BM_ctor_inf; apply shows_new.
Qed.

Print Assumptions C41_set_angle_coords.
Print Assumptions C41_is_in_workspace.
Print Assumptions C41_always_ordered.
Print Assumptions C42_argument_not_checked.
Print Assumptions C42_fresh_accepts_anything.
Print Assumptions C42_stuck.
Print Assumptions C42_one_bad_value_blocks.
Print Assumptions C42_set_deltas.
Print Assumptions C43_only_adds.
Print Assumptions C43_other_types.
Print Assumptions C43_null_pointer.
Print Assumptions C44_covering_rectangle_fills.
Print Assumptions C45_left_or_above_throws.
Print Assumptions C46_covered_centres_are_set.
Print Assumptions C47_at_most_one_cell_too_far.
Print Assumptions C47_overshoot_columns.
Print Assumptions C47_overshoot_rows.
