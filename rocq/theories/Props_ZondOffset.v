(** C89: zonding a part of a matrix.
    Specifications: S_Matrix, S_Zond, S_ZondOffset. *)
From Coq Require Import Reals Lra.
From Flocq Require Import Core IEEE754.BinarySingleNaN.
From Verif Require Import Prelude P_Prelude M_Double S_Double P_Double P_Round M_LayoutData M_Loop P_Loop M_Vector2D M_BitMatrix S_Matrix P_BitMatrix
  M_Zond S_Zond P_Zond P_ZondReal P_ZondCells S_ZondOffset P_ZondOffset Props_Zond.
Local Open Scope Z_scope.

Ltac offset_setup w lt rb qx qy X Y E Ee Ex Ey :=
  pose proof (cell_size_pos _ _ X) as (RX & QX); pose proof (cell_size_pos _ _ Y) as (RY & QY);
  destruct (tol_real _ _ _ _ RX QX E Ee Ex) as (_ & TX); destruct (tol_real _ _ _ _ RY QY E Ee Ey) as (_ & TY);
  unfold col_from, col_to, row_from, row_to in *;
  pose proof (position_sign (cx lt - cx (leftTop w)) qx ltac:(lra) ltac:(lia)) as PS1;
  pose proof (position_sign (cy (leftTop w) - cy lt) qy ltac:(lra) ltac:(lia)) as PS2;
  pose proof (position_mono (cx lt - cx (leftTop w)) (cx rb - cx (leftTop w)) qx ltac:(lra) ltac:(lia)) as PM1;
  pose proof (position_mono (cy (leftTop w) - cy lt) (cy (leftTop w) - cy rb) qy ltac:(lra) ltac:(lia)) as PM2.

(** Row i0 + ki and column j0 + kj stand for the ki-th row and kj-th column of the workspace.  A
    cell whose centre the rectangle covers is set exactly when neither its row nor its column is
    lost: rectangles spanning several rows lose the first i0 rows, although they are within the
    bounds. *)
Theorem C89_covered_cells : forall z g m A lt rb qx qy e,
  shows m A -> corners g lt rb -> coord32 lt -> coord32 rb -> ws32 (angleCoords z) ->
  small_bounds (boundIndicies z) -> tuned z qx qy e ->
  let w := angleCoords z in let b := boundIndicies z in
  differences_fit lt rb w ->
  cx (leftTop w) <= cx lt <= cx rb -> cy rb <= cy lt <= cy (leftTop w) ->
  position_small (col_to rb w qx) -> position_small (row_to rb w qy) ->
  one_cell_short lt rb w qx qy ->
  exists m' B, ZondRectangle z g m = (m', Ok tt) /\ shows m' B /\ arows B = arows A /\ acols B = acols A /\
    forall i j ki kj, (i < arows A)%nat -> (j < acols A)%nat ->
      Z.of_nat i = iBegin b + ki -> 0 <= ki -> Z.of_nat i <= iEnd b ->
      Z.of_nat j = jBegin b + kj -> 0 <= kj -> Z.of_nat j <= jEnd b ->
      (row_from lt w qy <= IZR ki + 1 / 2 <= row_to rb w qy)%R ->
      (col_from lt w qx <= IZR kj + 1 / 2 <= col_to rb w qx)%R ->
      (acell B i j = true <-> acell A i j = true \/
        (not_lost (row_from lt w qy) (row_to rb w qy) (iBegin b) ki /\
         not_lost (col_from lt w qx) (col_to rb w qx) (jBegin b) kj)).
Proof.
  intros z g m A lt rb qx qy e S G L R W HB T w b D HX HY PX PY SH. pose proof T as (X & Y & E & Ee & Ex & Ey).
  destruct (rect_cells_off z g m A lt rb qx qy e) as (m' & E1 & E2); try assumption.
  { apply (short_test z lt rb qx qy e); assumption. }
  exists m'. eexists. split; [exact E1|]. split; [exact E2|]. split; [reflexivity|]. split; [reflexivity|]. cbn [arows acols acell adraw]. fold w b.
  intros i j ki kj Hi Hj Qi Ki Li Qj Kj Lj CI CJ. destruct HB as (B1 & B2 & B3 & B4). fold b in B1, B2, B3, B4.
  offset_setup w lt rb qx qy X Y E Ee Ex Ey.
  rewrite Qi, Qj, orb_true_iff, andb_true_iff.
  rewrite !axis_off_centre by (first [assumption|lia]). reflexivity.
Qed.

(** Every cell that is set in addition is near the rectangle, at its offset in the matrix. *)
Theorem C89_near_the_rectangle : forall z g m A lt rb qx qy e,
  shows m A -> corners g lt rb -> coord32 lt -> coord32 rb -> ws32 (angleCoords z) ->
  small_bounds (boundIndicies z) -> tuned z qx qy e ->
  let w := angleCoords z in let b := boundIndicies z in
  differences_fit lt rb w ->
  cx (leftTop w) <= cx lt <= cx rb -> cy rb <= cy lt <= cy (leftTop w) ->
  position_small (col_to rb w qx) -> position_small (row_to rb w qy) ->
  one_cell_short lt rb w qx qy ->
  exists m' B, ZondRectangle z g m = (m', Ok tt) /\ shows m' B /\
    forall i j, (i < arows A)%nat -> (j < acols A)%nat -> acell A i j = false -> acell B i j = true ->
      exists ki kj, Z.of_nat i = iBegin b + ki /\ 0 <= ki /\ Z.of_nat i <= iEnd b /\
        Z.of_nat j = jBegin b + kj /\ 0 <= kj /\ Z.of_nat j <= jEnd b /\
        (row_from lt w qy <= IZR ki + 1 / 2 + 2 * rnd (e * qy))%R /\ (IZR ki + 1 / 2 <= row_to rb w qy + 1)%R /\
        (col_from lt w qx <= IZR kj + 1 / 2 + 2 * rnd (e * qx))%R /\ (IZR kj + 1 / 2 <= col_to rb w qx + 1)%R.
Proof.
  intros z g m A lt rb qx qy e S G L R W HB T w b D HX HY PX PY SH. pose proof T as (X & Y & E & Ee & Ex & Ey).
  destruct (rect_cells_off z g m A lt rb qx qy e) as (m' & E1 & E2); try assumption.
  { apply (short_test z lt rb qx qy e); assumption. }
  exists m'. eexists. split; [exact E1|]. split; [exact E2|]. cbn [arows acols acell adraw]. fold w b.
  intros i j Hi Hj HA HQ. rewrite HA in HQ. cbn [orb] in HQ. apply andb_true_iff in HQ as (Q1 & Q2).
  destruct HB as (B1 & B2 & B3 & B4). fold b in B1, B2, B3, B4.
  offset_setup w lt rb qx qy X Y E Ee Ex Ey.
  apply axis_off_near in Q1; try assumption. apply axis_off_near in Q2; try assumption.
  destruct Q1 as (ki & K1 & K2 & K3 & K4 & K5). destruct Q2 as (kj & L1 & L2 & L3 & L4 & L5).
  exists ki, kj. repeat (split; [assumption|]). assumption.
Qed.

(** A part that begins further down than it is high draws nothing of a rectangle that spans
    several of its rows. *)
Theorem C89_far_parts_stay_empty : forall z g m A lt rb qx qy e,
  shows m A -> corners g lt rb -> coord32 lt -> coord32 rb -> ws32 (angleCoords z) ->
  small_bounds (boundIndicies z) -> tuned z qx qy e ->
  let w := angleCoords z in let b := boundIndicies z in
  differences_fit lt rb w ->
  cx (leftTop w) <= cx lt <= cx rb -> cy rb <= cy lt <= cy (leftTop w) ->
  position_small (col_to rb w qx) -> position_small (row_to rb w qy) ->
  one_cell_short lt rb w qx qy ->
  iEnd b - iBegin b < iBegin b -> Zfloor (row_from lt w qy) < Zfloor (row_to rb w qy) ->
  exists m', ZondRectangle z g m = (m', Ok tt) /\ shows m' A.
Proof.
  intros z g m A lt rb qx qy e S G L R W HB T w b D HX HY PX PY SH FAR SPAN. pose proof T as (X & Y & E & Ee & Ex & Ey).
  destruct (rect_cells_off z g m A lt rb qx qy e) as (m' & E1 & E2); try assumption.
  { apply (short_test z lt rb qx qy e); assumption. }
  exists m'. split; [exact E1|]. eapply shows_ext; [exact E2|]. repeat split. cbn [arows acols acell adraw]. fold w b.
  intros i j Hi Hj. replace (axis_off _ (iBegin b) (iEnd b) (Z.of_nat i)) with false; [cbn [andb]; apply orb_false_r|].
  symmetry. unfold axis_off, norm_spec. set (f := Zfloor (row_from lt w qy)) in *.
  replace (Zfloor (row_to rb w qy) - f =? 0) with false by lia. cbn [fst].
  destruct (Rle_bool_spec (row_from lt w qy) (IZR (iBegin b))) as [Q|Q]; [lia|].
  assert (iBegin b <= f) by (apply Zfloor_lub; lra).
  destruct (Rle_bool _ _); lia.
Qed.

(** So the drawing in the lower right quarter of a matrix is not that of the whole matrix of a
    quarter of the size, moved: columns and rows 5..9 stand for the workspace 0..50 x 0..50. *)
Definition ex_part (first : Z) : zond :=
  mkzond (mkind first (first + 4) first (first + 4)) (mkws (mkcoord 0 50) (mkcoord 50 0)) (dz 10) (dz 10) (dlit 1 (10 ^ 13)).

Theorem C89_drawing_moves_with_the_bounds_refuted : ~ (forall z g m m' i j k, 0 <= k < 2 ^ 30 ->
  let b := boundIndicies z in let moved := SetBoundIndicies z (mkind (iBegin b + k) (iEnd b + k) (jBegin b + k) (jEnd b + k)) in
  fst (ZondRectangle z g m) = m' -> Get m' i j = Ok true ->
  Get (fst (ZondRectangle moved g m)) (i + Z.to_nat k) (j + Z.to_nat k) = Ok true).
Proof.
  intros H. specialize (H (ex_part 0) (ex_rect 10 10 40 40) ex_matrix _ 2%nat 2%nat 5 ltac:(lia) eq_refl).
  assert (P : Get (fst (ZondRectangle (ex_part 0) (ex_rect 10 10 40 40) ex_matrix)) 2 2 = Ok true) by (vm_compute; reflexivity).
  specialize (H P). clear P.
  assert (Q : Get (fst (ZondRectangle (ex_part 5) (ex_rect 10 10 40 40) ex_matrix)) 7 7 = Ok false) by (vm_compute; reflexivity).
  assert (K : Ok true = Ok false); [|discriminate K]. rewrite <- Q. symmetry. exact H.
Qed.

Example C89_hypotheses_met : exists e lt rb,
  let z := ex_part 1 in let w := angleCoords z in
  corners (ex_rect 10 10 40 50) lt rb /\ coord32 lt /\ coord32 rb /\ ws32 w /\ small_bounds (boundIndicies z) /\ tuned z 10 10 e /\
  differences_fit lt rb w /\ cx (leftTop w) <= cx lt <= cx rb /\ cy rb <= cy lt <= cy (leftTop w) /\
  position_small (col_to rb w 10) /\ position_small (row_to rb w 10) /\ one_cell_short lt rb w 10 10 /\
  exists m', ZondRectangle z (ex_rect 10 10 40 50) ex_matrix = (m', Ok tt) /\
    (* the rectangle covers rows 0..3 and columns 1..3 of the workspace: rows 1..4 and columns 2..4 of the matrix *)
    map (fun i => Get m' i 3) (seq 0 6) = [Ok false; Ok false; Ok true; Ok true; Ok true; Ok false] /\
    map (fun j => Get m' 3 j) (seq 0 6) = [Ok false; Ok false; Ok true; Ok true; Ok true; Ok false].
Proof.
  destruct ex_tuned as (e & T). exists e, (mkcoord 10 50), (mkcoord 40 10). cbv zeta.
  split; [split; reflexivity|]. do 3 (split; [vm_compute; repeat split; discriminate|]).
  split; [vm_compute; repeat split; discriminate|]. split; [exact T|].
  do 3 (split; [vm_compute; repeat split; discriminate|]).
  unfold position_small, col_to, row_to, one_cell_short. cbn [cx cy angleCoords ex_part leftTop rightBot].
  split; [rewrite (position_int (40 - 0) 10); [apply IZR_lt; lia|unfold int32; lia|lia|reflexivity]|].
  split; [rewrite (position_int (50 - 10) 10); [apply IZR_lt; lia|unfold int32; lia|lia|reflexivity]|].
  split; [left; lra|]. eexists. split; [vm_compute; reflexivity|]. split; vm_compute; reflexivity.
Qed.

Print Assumptions C89_covered_cells.
Print Assumptions C89_near_the_rectangle.
Print Assumptions C89_far_parts_stay_empty.
Print Assumptions C89_drawing_moves_with_the_bounds_refuted.
