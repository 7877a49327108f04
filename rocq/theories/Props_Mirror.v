(** C135: mirror images and quarter turns of layouts. *)
From Coq Require Import Reals Lra Lia.
From Flocq Require Import Core.
From Verif Require Import Prelude P_Prelude M_Double S_Double P_Double M_LayoutData M_Converter S_Converter M_Vector2D M_BitMatrix S_Matrix
  P_BitMatrix P_Cells M_Ratio S_Ratio P_Ratio Props_Ratio Props_BitMatrix P_Rank Props_Rank M_Hash S_Hash M_Zond S_Zond M_Generator S_Generator P_Generator Props_Generator
  S_EndToEnd P_EndToEnd Props_EndToEnd S_Identify P_Identify S_Degrade P_Degrade Props_Degrade S_Exact S_Wobble Props_Wobble Props_Noise
  M_Msk S_Msk P_Msk Props_Msk S_MskBitmap Props_MskBitmap Props_Identify S_Nudge Props_Nudge S_Turn S_Mirror.
Local Open Scope Z_scope.

Lemma columns_opposite mn mx c a : cx mn < cx mx -> columns mn mx c (cx mn + cx mx - a) = (INR c - columns mn mx c a)%R.
Proof.
  intros H. apply IZR_lt in H. unfold columns. replace (cx mn + cx mx - a - cx mn) with ((cx mx - cx mn) - (a - cx mn)) by ring.
  rewrite !minus_IZR. field. lra.
Qed.
Lemma rows_opposite mn mx r a : cy mn < cy mx -> rows mn mx r (cy mn + cy mx - a) = (INR r - rows mn mx r a)%R.
Proof.
  intros H. apply IZR_lt in H. unfold rows. replace (cy mx - (cy mn + cy mx - a)) with ((cy mx - cy mn) - (cy mx - a)) by ring.
  rewrite !minus_IZR. field. lra.
Qed.
Lemma columns_turned mn mx c a : columns (turned mx) (turned mn) c (cx (turned a)) = rows mn mx c (cy a).
Proof.
  unfold columns, rows, turned. cbn [cx cy]. replace (- cy a - - cy mx) with (cy mx - cy a) by ring.
  replace (- cy mn - - cy mx) with (cy mx - cy mn) by ring. reflexivity.
Qed.
Lemma rows_turned mn mx r a : rows (turned mx) (turned mn) r (cy (turned a)) = columns mn mx r (cx a).
Proof.
  unfold columns, rows, turned. cbn [cx cy]. replace (- cx mn - - cx a) with (cx a - cx mn) by ring.
  replace (- cx mn - - cx mx) with (cx mx - cx mn) by ring. reflexivity.
Qed.
Lemma opposite_lt f n k : (k < n)%nat -> (opposite f n k < n)%nat.
Proof. unfold opposite. destruct f; lia. Qed.
Lemma centre_opposite n k : (k < n)%nat -> (INR (n - 1 - k) + 1 / 2 = INR n - (INR k + 1 / 2))%R.
Proof. intros H. rewrite !minus_INR by lia. change (INR 1) with 1%R. lra. Qed.

Lemma near_reflected fx fy mn mx r c q i j : cx mn < cx mx -> cy mn < cy mx -> (i < r)%nat -> (j < c)%nat ->
  (near_centre mn mx r c (fst (reflected fx fy mn mx q)) (snd (reflected fx fy mn mx q)) i j <->
   near_centre mn mx r c (fst q) (snd q) (opposite fy r i) (opposite fx c j)).
Proof.
  intros Bx By I J. unfold near_centre, reflected, opposite. cbn [fst snd cx cy].
  destruct fx, fy; rewrite ?columns_opposite, ?rows_opposite, ?centre_opposite by assumption; intuition lra.
Qed.
Lemma covers_reflected fx fy mn mx r c q i j : cx mn < cx mx -> cy mn < cy mx -> (i < r)%nat -> (j < c)%nat ->
  (covers_centre mn mx r c (fst (reflected fx fy mn mx q)) (snd (reflected fx fy mn mx q)) i j <->
   covers_centre mn mx r c (fst q) (snd q) (opposite fy r i) (opposite fx c j)).
Proof.
  intros Bx By I J. unfold covers_centre, reflected, opposite. cbn [fst snd cx cy].
  destruct fx, fy; rewrite ?columns_opposite, ?rows_opposite, ?centre_opposite by assumption; intuition lra.
Qed.
Lemma near_turned mn mx r c lt rb i j : near_centre (turned mx) (turned mn) r c (turned lt) (turned rb) i j <-> near_centre mn mx c r lt rb j i.
Proof. unfold near_centre. rewrite !columns_turned, !rows_turned. intuition. Qed.
Lemma covers_turned mn mx r c lt rb i j : covers_centre (turned mx) (turned mn) r c (turned lt) (turned rb) i j <-> covers_centre mn mx c r lt rb j i.
Proof. unfold covers_centre. rewrite !columns_turned, !rows_turned. intuition. Qed.

(** The cell of the sheet that becomes cell (i,j) of its image. *)
Definition sheet_i (s : symmetry) (r c i j : nat) : nat := if axes s then opposite (left_right s) c j else opposite (top_bottom s) r i.
Definition sheet_j (s : symmetry) (r c i j : nat) : nat := if axes s then opposite (top_bottom s) r i else opposite (left_right s) c j.
Lemma near_image s mn mx r c q i j : cx mn < cx mx -> cy mn < cy mx -> (i < r)%nat -> (j < c)%nat ->
  (near_centre (image_min s mn mx) (image_max s mn mx) r c (fst (image_rect s mn mx q)) (snd (image_rect s mn mx q)) i j <->
   near_centre mn mx (sheet_rows s r c) (sheet_columns s r c) (fst q) (snd q) (sheet_i s r c i j) (sheet_j s r c i j)).
Proof.
  intros Bx By I J. destruct s as [t fx fy]. unfold image_rect, image_min, image_max, sheet_rows, sheet_columns, sheet_i, sheet_j.
  cbn [axes left_right top_bottom]. destruct t; cbn [fst snd].
  - rewrite near_reflected by (first [exact I|exact J|cbn [turned cx cy]; lia]). cbn [fst snd]. apply near_turned.
  - apply near_reflected; assumption.
Qed.
Lemma covers_image s mn mx r c q i j : cx mn < cx mx -> cy mn < cy mx -> (i < r)%nat -> (j < c)%nat ->
  (covers_centre (image_min s mn mx) (image_max s mn mx) r c (fst (image_rect s mn mx q)) (snd (image_rect s mn mx q)) i j <->
   covers_centre mn mx (sheet_rows s r c) (sheet_columns s r c) (fst q) (snd q) (sheet_i s r c i j) (sheet_j s r c i j)).
Proof.
  intros Bx By I J. destruct s as [t fx fy]. unfold image_rect, image_min, image_max, sheet_rows, sheet_columns, sheet_i, sheet_j.
  cbn [axes left_right top_bottom]. destruct t; cbn [fst snd].
  - rewrite covers_reflected by (first [exact I|exact J|cbn [turned cx cy]; lia]). cbn [fst snd]. apply covers_turned.
  - apply covers_reflected; assumption.
Qed.
Lemma sheet_ij_lt s r c i j : (i < r)%nat -> (j < c)%nat -> (sheet_i s r c i j < sheet_rows s r c)%nat /\ (sheet_j s r c i j < sheet_columns s r c)%nat.
Proof. intros I J. unfold sheet_i, sheet_j, sheet_rows, sheet_columns. destruct (axes s); split; apply opposite_lt; assumption. Qed.
Lemma image_cell s B r c i j : arows B = sheet_rows s r c -> acols B = sheet_columns s r c ->
  acell (image_cells s B) i j = acell B (sheet_i s r c i j) (sheet_j s r c i j) /\ arows (image_cells s B) = r /\ acols (image_cells s B) = c.
Proof.
  unfold image_cells, mirror, across, sheet_rows, sheet_columns, sheet_i, sheet_j. destruct (axes s); cbn [arows acols acell]; intros -> ->; auto.
Qed.

Lemma shown_same m A A' : shows m A -> shows m A' -> asame A A'.
Proof.
  intros S S'. destruct (shows_elim _ _ S) as (_ & a1 & a2 & a3). destruct (shows_elim _ _ S') as (_ & b1 & b2 & b3).
  split; [congruence|]. split; [congruence|]. intros i j I J. rewrite <- a3 by assumption. apply b3; congruence.
Qed.
Lemma reflection sy d M M' calls calls' g g' heap heap' libs libs' L L' mn mx mn' mx' v v' al al' stack stack' r c items items' pairs :
  history M gen_new calls = Some g -> history M' gen_new calls' = Some g' ->
  in_force calls (Live (mklayout heap libs) L mn mx) -> in_force calls' (Live (mklayout heap' libs') L' mn' mx') ->
  candidates L libs items -> candidates L' libs' items' -> memory_ok al r c -> memory_ok al' (sheet_rows sy r c) (sheet_columns sy r c) -> fine_box mn mx r c -> fine_box mn' mx' (sheet_rows sy r c) (sheet_columns sy r c) ->
  (forall item, In (Some item) items -> overlaps (box_workspace mn mx) item -> collectable heap stack item) ->
  (forall item, In (Some item) items' -> overlaps (box_workspace mn' mx') item -> collectable heap' stack' item) ->
  drawable heap mn mx r c items -> drawable heap' mn' mx' (sheet_rows sy r c) (sheet_columns sy r c) items' ->
  (0 <= d)%R -> drawn_as_image sy d heap heap' mn mx mn' mx' r c items items' pairs ->
  exists m m' A B, result (Process (Some v) al stack g r c) = (m, Ok true) /\ result (Process (Some v') al' stack' g' (sheet_rows sy r c) (sheet_columns sy r c)) = (m', Ok true) /\
    shows m A /\ shows m' B /\ arows A = r /\ acols A = c /\ arows B = sheet_rows sy r c /\ acols B = sheet_columns sy r c /\
    (INR (differences A (image_cells sy B)) <= total (map (fun p => seam d mn mx r c (fst p)) pairs))%R.
Proof.
  intros H H' F F' Hi Hi' Hm Hm' FB FB' HC HC' HD HD' D (P1 & P2 & P3).
  destruct (C68_covered_cells_are_set M calls g heap libs L mn mx v al stack r c items H F Hm Hi FB HC HD) as (m & E & Cv).
  destruct (C68_covered_cells_are_set M' calls' g' heap' libs' L' mn' mx' v' al' stack' _ _ items' H' F' Hm' Hi' FB' HC' HD') as (m' & E' & Cv').
  pose proof (C69_set_cells_are_near_a_rectangle M calls g heap libs L mn mx v al stack r c items m H F Hm Hi FB HC HD E) as Nr.
  pose proof (C69_set_cells_are_near_a_rectangle M' calls' g' heap' libs' L' mn' mx' v' al' stack' _ _ items' m' H' F' Hm' Hi' FB' HC' HD' E') as Nr'.
  pose proof FB as (_ & _ & Bx & By & Hr & Hc). pose proof FB' as (_ & _ & Bx' & By' & Hr' & Hc').
  destruct (C52_the_bitmap_is_the_union M calls g heap libs L mn mx v al stack r c m items H F Hm ltac:(lia) ltac:(lia) Hi E) as (z & A & Hz & SA & Ar & Ac & _).
  destruct (C52_the_bitmap_is_the_union M' calls' g' heap' libs' L' mn' mx' v' al' stack' _ _ m' items' H' F' Hm' ltac:(lia) ltac:(lia) Hi' E') as (z' & B & Hz' & SB & Br & Bc & _).
  exists m, m', A, B. split; [exact E|]. split; [exact E'|]. split; [exact SA|]. split; [exact SB|]. do 4 (split; [assumption|]).
  rewrite differences_cells.
  apply (union_length _ pairs (fun p => seam_cells d mn mx r c (fst p)) _ (diff_cells A (image_cells sy B)) (diff_cells_nodup A (image_cells sy B))).
  - intros (i, j) I. apply diff_cells_in in I as (I1 & I2 & I3). rewrite Ar in I1. rewrite Ac in I2.
    rewrite (proj1 (image_cell sy B r c i j Br Bc)) in I3.
    destruct (sheet_ij_lt sy r c i j I1 I2) as (I1' & I2').
    set (i' := sheet_i sy r c i j) in *. set (j' := sheet_j sy r c i j) in *.
    pose proof (get_shown m A i j SA ltac:(lia) ltac:(lia)) as QA. pose proof (get_shown m' B i' j' SB ltac:(lia) ltac:(lia)) as QB.
    assert (K : (acell A i j = true /\ acell B i' j' <> true) \/ (acell B i' j' = true /\ acell A i j <> true))
      by (destruct (acell A i j), (acell B i' j'); intuition congruence).
    destruct K as [(K1 & K2)|(K1 & K2)].
    + apply QA in K1. destruct (Nr i j I1 I2 K1) as (item & s & lt & rb & T1 & T2 & T3 & T4 & T5).
      destruct (proj1 (P1 lt rb)) as ((lt' & rb') & Hp); [exists item, s; auto|]. exists ((lt, rb), (lt', rb')). split; [exact Hp|].
      apply (seam_cells_in d mn mx _ _ r c (lt, rb) _ i j D (P3 _ _ Hp) I1 I2 (or_introl T5)). intros (_ & Cq). apply K2, QB.
      apply covers_image in Cq; [|lia|lia|exact I1|exact I2].
      destruct (proj2 (P2 lt' rb')) as (item' & s' & S1 & S2 & S3 & S4); [exists (lt, rb); exact Hp|].
      exact (Cv' i' j' item' s' lt' rb' I1' I2' S1 S2 S3 S4 Cq).
    + apply QB in K1. destruct (Nr' i' j' I1' I2' K1) as (item & s & lt' & rb' & T1 & T2 & T3 & T4 & T5).
      destruct (proj1 (P2 lt' rb')) as ((lt & rb) & Hp); [exists item, s; auto|]. exists ((lt, rb), (lt', rb')). split; [exact Hp|].
      assert (N : near_centre (image_min sy mn' mx') (image_max sy mn' mx') r c (fst (image_rect sy mn' mx' (lt', rb'))) (snd (image_rect sy mn' mx' (lt', rb'))) i j)
        by (apply near_image; [lia|lia|exact I1|exact I2|exact T5]).
      apply (seam_cells_in d mn mx _ _ r c (lt, rb) _ i j D (P3 _ _ Hp) I1 I2 (or_intror N)). intros (Cq & _). apply K2, QA.
      destruct (proj2 (P1 lt rb)) as (item' & s' & S1 & S2 & S3 & S4); [exists (lt', rb'); exact Hp|].
      exact (Cv i j item' s' lt rb I1 I2 S1 S2 S3 S4 Cq).
  - intros ((lt, rb), q') Hp. cbn [fst].
    destruct (proj2 (P1 lt rb)) as (item & s & S1 & S2 & S3 & S4); [exists q'; exact Hp|].
    destruct (HD item s S1 S2 S3) as (lt2 & rb2 & S5 & Mq & _). destruct (corners_unique _ _ _ _ _ S4 S5) as (<- & <-).
    destruct Mq as (_ & _ & Q1 & Q2 & _). apply seam_count; cbn [fst snd]; first [exact D|lia].
Qed.

(** Two layouts, one of them an image of the other up to d cells: the image of its bitmap differs from the other bitmap in at
    most as many cells as lie along the edges. *)
Theorem C135_image_bitmaps :
  forall sy d M M' calls calls' g g' heap heap' libs libs' L L' mn mx mn' mx' v v' al al' stack stack' r c items items' pairs,
  history M gen_new calls = Some g -> history M' gen_new calls' = Some g' ->
  in_force calls (Live (mklayout heap libs) L mn mx) -> in_force calls' (Live (mklayout heap' libs') L' mn' mx') ->
  candidates L libs items -> candidates L' libs' items' -> memory_ok al r c -> memory_ok al' (sheet_rows sy r c) (sheet_columns sy r c) ->
  fine_box mn mx r c -> fine_box mn' mx' (sheet_rows sy r c) (sheet_columns sy r c) ->
  (forall item, In (Some item) items -> overlaps (box_workspace mn mx) item -> collectable heap stack item) ->
  (forall item, In (Some item) items' -> overlaps (box_workspace mn' mx') item -> collectable heap' stack' item) ->
  drawable heap mn mx r c items -> drawable heap' mn' mx' (sheet_rows sy r c) (sheet_columns sy r c) items' ->
  (0 <= d)%R -> drawn_as_image sy d heap heap' mn mx mn' mx' r c items items' pairs ->
  exists m m', result (Process (Some v) al stack g r c) = (m, Ok true) /\
    result (Process (Some v') al' stack' g' (sheet_rows sy r c) (sheet_columns sy r c)) = (m', Ok true) /\
    forall A B, shows m A -> shows m' B -> (INR (differences A (image_cells sy B)) <= total (map (fun p => seam d mn mx r c (fst p)) pairs))%R.
Proof.
  intros sy d M M' calls calls' g g' heap heap' libs libs' L L' mn mx mn' mx' v v' al al' stack stack' r c items items' pairs
    H H' F F' Hi Hi' Hm Hm' FB FB' HC HC' HD HD' D P.
  destruct (reflection sy d M M' calls calls' g g' heap heap' libs libs' L L' mn mx mn' mx' v v' al al' stack stack' r c items items' pairs
    H H' F F' Hi Hi' Hm Hm' FB FB' HC HC' HD HD' D P) as (m & m' & A & B & E & E' & SA & SB & Ar & Ac & Br & Bc & Q).
  exists m, m'. split; [exact E|]. split; [exact E'|]. intros A' B' SA' SB'.
  replace (differences A' (image_cells sy B')) with (differences A (image_cells sy B)); [exact Q|].
  destruct (image_cell sy B r c 0 0 Br Bc) as (_ & Rr & Rc).
  pose proof (shown_same _ _ _ SA SA') as EA. pose proof (shown_same _ _ _ SB SB') as EB.
  pose proof EA as (a1 & a2 & a3). pose proof EB as (b1 & b2 & b3). rewrite Ar in a1, a3. rewrite Ac in a2, a3. rewrite Br in b1, b3. rewrite Bc in b2, b3.
  unfold differences. rewrite <- a1, <- a2, Ar, Ac. f_equal. rewrite !flat_map_concat_map. f_equal.
  apply map_ext_in. intros i I. apply map_ext_in. intros j J. apply in_seq in I, J.
  rewrite (proj1 (image_cell sy B r c i j Br Bc)), (proj1 (image_cell sy B' r c i j (eq_sym b1) (eq_sym b2))).
  destruct (sheet_ij_lt sy r c i j ltac:(lia) ltac:(lia)) as (I' & J'). rewrite a3, b3 by lia. reflexivity.
Qed.

(** The score of the bitmap and of any matrix that shows the image of the other bitmap. *)
Theorem C135_image_scores :
  forall sy d M M' calls calls' g g' heap heap' libs libs' L L' mn mx mn' mx' v v' al al' al2 stack stack' r c items items' pairs,
  history M gen_new calls = Some g -> history M' gen_new calls' = Some g' ->
  in_force calls (Live (mklayout heap libs) L mn mx) -> in_force calls' (Live (mklayout heap' libs') L' mn' mx') ->
  candidates L libs items -> candidates L' libs' items' -> memory_ok al r c -> memory_ok al' (sheet_rows sy r c) (sheet_columns sy r c) ->
  fine_box mn mx r c -> fine_box mn' mx' (sheet_rows sy r c) (sheet_columns sy r c) ->
  (forall item, In (Some item) items -> overlaps (box_workspace mn mx) item -> collectable heap stack item) ->
  (forall item, In (Some item) items' -> overlaps (box_workspace mn' mx') item -> collectable heap' stack' item) ->
  drawable heap mn mx r c items -> drawable heap' mn' mx' (sheet_rows sy r c) (sheet_columns sy r c) items' ->
  (0 <= d)%R -> drawn_as_image sy d heap heap' mn mx mn' mx' r c items items' pairs ->
  memory_ok al2 r c -> Z.of_nat r * Z.of_nat c <= 2 ^ 38 ->
  exists m m', result (Process (Some v) al stack g r c) = (m, Ok true) /\
    result (Process (Some v') al' stack' g' (sheet_rows sy r c) (sheet_columns sy r c)) = (m', Ok true) /\
    forall B n, shows m' B -> shows n (image_cells sy B) ->
      (exists x s, Compare al2 n m = Ok x /\ real x s /\ (1 - total (map (fun p => seam d mn mx r c (fst p)) pairs) / (INR r * INR c) - / IZR (2 ^ 52) <= s)%R) /\
      ((10000 * total (map (fun p => seam d mn mx r c (fst p)) pairs) <= INR r * INR c)%R -> bm_eq al2 m n = Ok true).
Proof.
  intros sy d M M' calls calls' g g' heap heap' libs libs' L L' mn mx mn' mx' v v' al al' al2 stack stack' r c items items' pairs
    H H' F F' Hi Hi' Hm Hm' FB FB' HC HC' HD HD' D P Hm2 Sz.
  destruct (C135_image_bitmaps sy d M M' calls calls' g g' heap heap' libs libs' L L' mn mx mn' mx' v v' al al' stack stack' r c items items' pairs
    H H' F F' Hi Hi' Hm Hm' FB FB' HC HC' HD HD' D P) as (m & m' & E & E' & Q).
  pose proof FB as (_ & _ & Bx & By & Hr & Hc). pose proof FB' as (_ & _ & Bx' & By' & Hr' & Hc').
  destruct (C52_the_bitmap_is_the_union M calls g heap libs L mn mx v al stack r c m items H F Hm ltac:(lia) ltac:(lia) Hi E) as (z & A & Hz & SA & Ar & Ac & _).
  destruct (C52_the_bitmap_is_the_union M' calls' g' heap' libs' L' mn' mx' v' al' stack' _ _ m' items' H' F' Hm' ltac:(lia) ltac:(lia) Hi' E') as (z' & B0 & Hz' & SB0 & Br0 & Bc0 & _).
  exists m, m'. split; [exact E|]. split; [exact E'|]. intros B n SB SN. specialize (Q A B SA SB).
  pose proof (shown_same _ _ _ SB0 SB) as (b1 & b2 & _).
  destruct (image_cell sy B r c 0 0 ltac:(congruence) ltac:(congruence)) as (_ & Nr & Nc).
  assert (CN : cell_number (image_cells sy B) = (r * c)%nat) by (unfold cell_number; now rewrite Nr, Nc).
  assert (CA : cell_number A = (r * c)%nat) by (unfold cell_number; now rewrite Ar, Ac).
  assert (0 < INR r)%R by (apply lt_0_INR; lia). assert (0 < INR c)%R by (apply lt_0_INR; lia).
  split.
  - destruct (C107_score_is_the_share_of_equal_cells al2 n m _ A SN SA) as (x & s & Ex & Rx & K).
    + congruence.
    + congruence.
    + split; lia.
    + rewrite Nr, Nc. now apply plenty.
    + rewrite CN. lia.
    + exists x, s. split; [exact Ex|]. split; [exact Rx|].
      rewrite differences_sym in Q by congruence.
      pose proof (differences_le (image_cells sy B) A) as Le. rewrite minus_INR in K by exact Le. rewrite CN, mult_INR in K.
      assert (N : (0 < INR r * INR c)%R) by nra. set (k := (INR r * INR c)%R) in *. apply Rabs_le_inv in K.
      replace ((k - INR (differences (image_cells sy B) A)) / k)%R with (1 - INR (differences (image_cells sy B) A) / k)%R in K by (field; lra).
      assert (T : (INR (differences (image_cells sy B) A) / k <= total (map (fun p => seam d mn mx r c (fst p)) pairs) / k)%R).
      { unfold Rdiv. apply Rmult_le_compat_r; [left; apply Rinv_0_lt_compat, N|exact Q]. }
      lra.
  - intros T10. destruct (C11_equality al2 m n A _ SA SN) as (e & n' & Eq & _ & T & _).
    + congruence.
    + congruence.
    + split; lia.
    + rewrite Ar, Ac. now apply plenty.
    + rewrite CA. lia.
    + rewrite Eq. f_equal. apply T. rewrite CA.
      apply le_IZR. rewrite mult_IZR, Nat2Z.inj_mul, mult_IZR, <- !INR_IZR_INZ. lra.
Qed.

(** What the images are: a point lies in a rectangle if and only if its image lies in the image of the rectangle, images of
    points of the box lie in the image of the box; and the cells of the mirror images and of the quarter turns. *)
Theorem C135_images_of_points_and_cells :
  (forall s mn mx p q, in_rect p q <-> in_rect (image_point s mn mx p) (image_rect s mn mx q)) /\
  (forall s mn mx p, in_rect p (mkcoord (cx mn) (cy mx), mkcoord (cx mx) (cy mn)) <->
     in_rect (image_point s mn mx p) (mkcoord (cx (image_min s mn mx)) (cy (image_max s mn mx)), mkcoord (cx (image_max s mn mx)) (cy (image_min s mn mx)))) /\
  (forall A i j, (i < arows A)%nat -> (j < acols A)%nat ->
     acell (image_cells (mksym false true false) A) i (acols A - 1 - j) = acell A i j /\
     acell (image_cells (mksym false false true) A) (arows A - 1 - i) j = acell A i j /\
     acell (image_cells (mksym false true true) A) (arows A - 1 - i) (acols A - 1 - j) = acell A i j /\
     acell (image_cells (mksym true false false) A) j i = acell A i j /\
     acell (image_cells (mksym true true false) A) j (arows A - 1 - i) = acell A i j /\
     acell (image_cells (mksym true false true) A) (acols A - 1 - j) i = acell A i j /\
     acell (image_cells (mksym true true true) A) (acols A - 1 - j) (arows A - 1 - i) = acell A i j) /\
  (forall mn mx x y, image_point (mksym true true false) mn mx (mkcoord x y) = mkcoord (y - cy mn - cy mx) (- x) /\
     image_point (mksym true false true) mn mx (mkcoord x y) = mkcoord (- y) (x - cx mn - cx mx)).
Proof.
  split; [|split; [|split]].
  - intros [[] [] []] mn mx p q; unfold in_rect, image_point, image_rect, reflected, image_min, image_max, turned; cbn [axes left_right top_bottom fst snd cx cy]; lia.
  - intros [[] [] []] mn mx p; unfold in_rect, image_point, image_min, image_max, turned; cbn [axes left_right top_bottom fst snd cx cy]; lia.
  - intros A i j I J. unfold image_cells, mirror, across, opposite. cbn [axes left_right top_bottom arows acols acell].
    repeat split; f_equal; lia.
  - intros mn mx x y. unfold image_point, image_min, image_max, turned. cbn [axes left_right top_bottom cx cy]. split; f_equal; lia.
Qed.

(** From two MSK files. *)
Theorem C135_images_of_files :
  forall sy pl pl' fs fs' name name' rd rd' text text' cs cs' l l' n n' d heap heap' mn mx mn' mx' v v' al al' stack stack' r c,
  GetReader fs name = Some rd -> encodable name -> fs (narrow name) = Some text ->
  GetReader fs' name' = Some rd' -> encodable name' -> fs' (narrow name') = Some text' ->
  file_says text cs -> shapes cs l -> file_says text' cs' -> shapes cs' l' -> l <> [] -> l' <> [] -> n <> -5 -> n' <> -5 ->
  Forall2 (fun q q' => off_by d mn mx (image_min sy mn' mx') (image_max sy mn' mx') r c q (image_rect sy mn' mx' q')) (on_layer n l) (on_layer n' l') ->
  (0 <= d)%R ->
  all_drawable mn mx r c n l -> all_drawable mn' mx' (sheet_rows sy r c) (sheet_columns sy r c) n' l' ->
  memory_ok al r c -> memory_ok al' (sheet_rows sy r c) (sheet_columns sy r c) ->
  fine_box mn mx r c -> fine_box mn' mx' (sheet_rows sy r c) (sheet_columns sy r c) ->
  exists rd1 dt g m rd2 dt' g' m', Read pl fs rd (Some no_layout) = Ok (rd1, Some dt, true) /\
    Init gen_new (Some (mklayout heap (ld_libraries dt))) [n] mn mx = (g, Ok tt) /\ result (Process (Some v) al stack g r c) = (m, Ok true) /\
    Read pl' fs' rd' (Some no_layout) = Ok (rd2, Some dt', true) /\
    Init gen_new (Some (mklayout heap' (ld_libraries dt'))) [n'] mn' mx' = (g', Ok tt) /\
    result (Process (Some v') al' stack' g' (sheet_rows sy r c) (sheet_columns sy r c)) = (m', Ok true) /\
    forall A B, shows m A -> shows m' B ->
      (INR (differences A (image_cells sy B)) <= total (map (seam d mn mx r c) (on_layer n l)))%R.
Proof.
  intros sy pl pl' fs fs' name name' rd rd' text text' cs cs' l l' n n' d heap heap' mn mx mn' mx' v v' al al' stack stack' r c
    G He F G' He' F' S Sh S' Sh' Hl Hl' Hn Hn' Nu D AD AD' Hm Hm' FB FB'.
  destruct (C83_from_file_to_bitmap pl fs name rd text cs l n heap mn mx v al stack r c G He F S Sh Hl Hn Hm FB
    (fun p q I _ => proj2 (AD p q I))) as (rd1 & dt & g & m & R & I & P & _).
  destruct (C83_from_file_to_bitmap pl' fs' name' rd' text' cs' l' n' heap' mn' mx' v' al' stack' _ _ G' He' F' S' Sh' Hl' Hn' Hm' FB'
    (fun p q I _ => proj2 (AD' p q I))) as (rd2 & dt' & g' & m' & R' & I' & P' & _).
  exists rd1, dt, g, m, rd2, dt', g', m'. do 6 (split; [assumption|]).
  destruct (msk_items _ _ _ _ _ _ _ n _ _ G He F S Sh Hl Hn R) as (items & C & IT).
  destruct (msk_items _ _ _ _ _ _ _ n' _ _ G' He' F' S' Sh' Hl' Hn' R') as (items' & C' & IT').
  destruct (init_live _ _ _ _ _ I) as (H1 & H2). destruct (init_live _ _ _ _ _ I') as (H1' & H2').
  destruct (combine_all _ _ _ Nu) as (K1 & K2 & K3 & K4).
  assert (DA : drawn_as_image sy d heap heap' mn mx mn' mx' r c items items' (combine (on_layer n l) (on_layer n' l'))).
  { split; [|split].
    - intros lt rb. rewrite (msk_draws heap mn mx r c n l items lt rb AD IT). apply K1.
    - intros lt rb. rewrite (msk_draws heap' mn' mx' _ _ n' l' items' lt rb AD' IT'). apply K2.
    - intros a b Q. apply K3, Q. }
  assert (Eq : map (fun p => seam d mn mx r c (fst p)) (combine (on_layer n l) (on_layer n' l')) = map (seam d mn mx r c) (on_layer n l)).
  { rewrite <- K4 at 2. now rewrite map_map. }
  assert (HC : forall item, In (Some item) items -> overlaps (box_workspace mn mx) item -> collectable heap stack item)
    by (intros item Q _; apply IT in Q as (p & q & _ & ->); exact Logic.I).
  assert (HC' : forall item, In (Some item) items' -> overlaps (box_workspace mn' mx') item -> collectable heap' stack' item)
    by (intros item Q _; apply IT' in Q as (p & q & _ & ->); exact Logic.I).
  pose proof (msk_drawable heap mn mx r c n l items AD IT) as HD. pose proof (msk_drawable heap' mn' mx' _ _ n' l' items' AD' IT') as HD'.
  rewrite <- Eq.
  destruct (C135_image_bitmaps sy d _ _ _ _ g g' heap heap' _ _ _ _ mn mx mn' mx' v v' al al' stack stack' r c items items' _
    H1 H1' H2 H2' C C' Hm Hm' FB FB' HC HC' HD HD' D DA) as (m1 & m1' & E & E' & X).
  rewrite P in E. injection E as <-. rewrite P' in E'. injection E' as <-. exact X.
Qed.

(** ** A concrete case: the rectangle of ex_file, from (10, 20) to (40, 60), and the same sheet turned by 90 degrees: from (40, 10) to (80, 40) in a box
    from (0, 0) to (100, 100); 10 x 10 cells.  The two bitmaps. *)
Definition ex_line4 : list byte := lit "REC(40,10,40,30,ME)".
Definition ex_file4 : list byte := lit "VERSION 8.21" ++ nl ++ ex_line4.
Definition ex_contents4 : list content := [Nothing; Rect (lit "ME") (mkcoord 40 10) (mkcoord 80 40)].
Definition ex_shapes4 : list (Z * coord * coord) := [(23, mkcoord 40 10, mkcoord 80 40)].
Lemma ex_says4 : file_says ex_file4 ex_contents4.
Proof.
  exists [lit "VERSION 8.21"; ex_line4]. split.
  - unfold ex_file4, nl. change (?a ++ [newline] ++ ?x) with (a ++ newline :: x).
    apply lines_more; [cbn; intuition discriminate|]. apply lines_last; [discriminate|cbn; intuition discriminate].
  - assert (W : forall l, ~ In return_char l -> without_returns l l).
    { induction l as [|c l IH]; intros H; [repeat constructor|]. cbn in H. constructor; [intros Q; apply H; auto|apply IH; tauto]. }
    assert (R : says ex_line4 (Rect (lit "ME") (mkcoord 40 10) (mkcoord 80 40))).
    { apply (says_rec (lit "40") (lit "10") (lit "40") (lit "30") 40 10 40 30 [] (lit "ME") (lit ")") []); try ex_number; try (unfold int32; lia);
        [constructor|repeat constructor; (discriminate || (unfold white; cbn; lia))|cbn; lia|left; reflexivity|left; reflexivity]. }
    repeat constructor.
    + exists (lit "VERSION 8.21"). split; [apply W; cbn; intuition discriminate|].
      apply says_other; [cbn; intuition discriminate| | |]; intros (t & Q); discriminate.
    + exists ex_line4. split; [apply W; cbn; intuition discriminate|exact R].
Qed.
Example C135_hypotheses_met :
  let sy := mksym true true false in
  file_says ex_file ex_contents /\ shapes ex_contents ex_shapes /\ file_says ex_file4 ex_contents4 /\ shapes ex_contents4 ex_shapes4 /\
  GetReader (ex_fs ex_file) ex_name = Some ex_reader /\ GetReader (ex_fs ex_file4) ex_name = Some ex_reader /\ encodable ex_name /\
  Forall2 (fun q q' => off_by 0 (mkcoord 0 0) (mkcoord 100 100) (image_min sy (mkcoord 0 0) (mkcoord 100 100)) (image_max sy (mkcoord 0 0) (mkcoord 100 100)) 10 10
    q (image_rect sy (mkcoord 0 0) (mkcoord 100 100) q')) (on_layer 23 ex_shapes) (on_layer 23 ex_shapes4) /\
  all_drawable (mkcoord 0 0) (mkcoord 100 100) 10 10 23 ex_shapes /\ all_drawable (mkcoord 0 0) (mkcoord 100 100) 10 10 23 ex_shapes4 /\
  fine_box (mkcoord 0 0) (mkcoord 100 100) 10 10 /\
  exists lay lay' m m', ex_read ex_file = Some lay /\ ex_read ex_file4 = Some lay' /\
    ex_bitmap lay 23 (mkcoord 0 0) (mkcoord 100 100) 10 10 = Some (m, Ok true) /\
    ex_bitmap lay' 23 (mkcoord 0 0) (mkcoord 100 100) 10 10 = Some (m', Ok true) /\
    Get m 4 3 = Ok true /\ Get m' 6 4 = Ok true.
Proof.
  cbv zeta.
  split; [exact ex_says|]. split; [exact ex_shapes_ok|]. split; [exact ex_says4|]. split.
  { apply shapes_nothing, shapes_known; [vm_compute; tauto|constructor]. }
  split; [vm_compute; reflexivity|]. split; [vm_compute; reflexivity|]. split; [exact ex_encodable|]. split.
  { assert (E : on_layer 23 ex_shapes = [(mkcoord 10 60, mkcoord 40 20)]) by reflexivity.
    assert (E' : on_layer 23 ex_shapes4 = [(mkcoord 40 40, mkcoord 80 10)]) by reflexivity.
    rewrite E, E'. constructor; [|constructor].
    unfold off_by, columns, rows, image_rect, reflected, image_min, image_max, turned. cbn [axes left_right top_bottom fst snd cx cy].
    rewrite !INR_IZR_INZ. change (Z.of_nat 10) with 10.
    repeat match goal with |- context [IZR (?a - ?b)] => let x := eval vm_compute in (a - b) in change (IZR (a - b)) with (IZR x) end.
    repeat split; apply Rabs_le; lra. }
  split.
  { intros p q [Q|[Q|[Q|[]]]]; [discriminate Q| |discriminate Q]. injection Q as <- <-. apply ex_box_drawable; lia. }
  split.
  { intros p q [Q|[]]. injection Q as <- <-. apply ex_box_drawable; lia. }
  split; [unfold fine_box, coord32, int32; cbn [cx cy]; lia|]. do 4 eexists. split; [vm_compute; reflexivity|]. split; [vm_compute; reflexivity|].
  split; [vm_compute; reflexivity|]. split; [vm_compute; reflexivity|]. split; vm_compute; reflexivity.
Qed.

Print Assumptions C135_image_bitmaps.
Print Assumptions C135_image_scores.
Print Assumptions C135_images_of_points_and_cells.
Print Assumptions C135_images_of_files.
