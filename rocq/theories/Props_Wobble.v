(** C129: layouts that are drawn slightly differently. *)
From Coq Require Import Reals Lra Lia.
From Flocq Require Import Core.
From Verif Require Import Prelude P_Prelude M_Double S_Double M_LayoutData M_Converter S_Converter M_Vector2D M_BitMatrix S_Matrix
  P_BitMatrix P_Cells M_Ratio S_Ratio P_Ratio Props_Ratio M_Zond S_Zond P_Zond P_ZondCells Props_Zond M_Generator P_Uniform S_Generator P_Generator Props_Generator
  S_EndToEnd P_EndToEnd Props_EndToEnd S_Identify P_Identify S_Degrade P_Degrade Props_Degrade S_Exact S_Wobble.
Local Open Scope Z_scope.

(** ** Counting along a line *)
Definition strips (e a b : R) (n : nat) : list nat :=
  filter (between (a - 1 - e) (a + e)) (seq 0 n) ++ filter (between (b - e) (b + 1 + e)) (seq 0 n).
Definition outer (e a b : R) (n : nat) : list nat := filter (between (a - 1 - e) (b + 1 + e)) (seq 0 n).
Lemma strips_in e a b n k : (k < n)%nat -> (a - 1 - e <= INR k + 1 / 2 <= b + 1 + e)%R -> ~ (a + e <= INR k + 1 / 2 <= b - e)%R -> In k (strips e a b n).
Proof.
  intros L O C. unfold strips. apply in_or_app. rewrite !filter_In, !in_seq, !between_spec.
  destruct (Rle_dec (a + e) (INR k + 1 / 2)); [right; split; [lia|lra]|left; split; [lia|lra]].
Qed.
Lemma outer_in e a b n k : (k < n)%nat -> (a - 1 - e <= INR k + 1 / 2 <= b + 1 + e)%R -> In k (outer e a b n).
Proof. intros L O. unfold outer. rewrite filter_In, in_seq, between_spec. split; [lia|exact O]. Qed.
Lemma strips_length e a b n : (0 <= e)%R -> (INR (length (strips e a b n)) <= 4 + 4 * e)%R.
Proof.
  intros E. unfold strips. rewrite app_length, plus_INR.
  pose proof (count_above (a - 1 - e) (a + e) n ltac:(lra)). pose proof (count_above (b - e) (b + 1 + e) n ltac:(lra)). lra.
Qed.
Lemma outer_length e a b n : (0 <= e)%R -> (a <= b)%R -> (INR (length (outer e a b n)) <= b - a + 3 + 2 * e)%R.
Proof. intros E L. unfold outer. pose proof (count_above (a - 1 - e) (b + 1 + e) n ltac:(lra)). lra. Qed.

(** The cells along the edges of a rectangle. *)
Definition seam_cells (d : R) (mn mx : coord) (r c : nat) (q : rect) : list (nat * nat) :=
  let e := (d + margin)%R in
  let top := rows mn mx r (cy (fst q)) in let bottom := rows mn mx r (cy (snd q)) in
  let left := columns mn mx c (cx (fst q)) in let right := columns mn mx c (cx (snd q)) in
  list_prod (strips e top bottom r) (outer e left right c) ++ list_prod (outer e top bottom r) (strips e left right c).

Lemma seam_count d mn mx r c q : (0 <= d)%R -> cx mn < cx mx -> cy mn < cy mx -> cx (fst q) <= cx (snd q) -> cy (snd q) <= cy (fst q) ->
  (INR (length (seam_cells d mn mx r c q)) <= seam d mn mx r c q)%R.
Proof.
  intros D Hx Hy Lx Ly. pose proof margin_pos as Mg. unfold seam_cells, seam, width, height. rewrite app_length, !prod_length, plus_INR, !mult_INR.
  pose proof (columns_mono mn mx c _ _ Hx Lx) as C. pose proof (rows_mono mn mx r _ _ Hy Ly) as R.
  set (e := (d + margin)%R). assert (E : (0 <= e)%R) by (unfold e; lra).
  pose proof (strips_length e (rows mn mx r (cy (fst q))) (rows mn mx r (cy (snd q))) r E) as A1.
  pose proof (strips_length e (columns mn mx c (cx (fst q))) (columns mn mx c (cx (snd q))) c E) as A2.
  pose proof (outer_length e _ _ r E R) as B1. pose proof (outer_length e _ _ c E C) as B2.
  pose proof (pos_INR (length (strips e (rows mn mx r (cy (fst q))) (rows mn mx r (cy (snd q))) r))).
  pose proof (pos_INR (length (strips e (columns mn mx c (cx (fst q))) (columns mn mx c (cx (snd q))) c))).
  pose proof (pos_INR (length (outer e (rows mn mx r (cy (fst q))) (rows mn mx r (cy (snd q))) r))).
  pose proof (pos_INR (length (outer e (columns mn mx c (cx (fst q))) (columns mn mx c (cx (snd q))) c))).
  replace (4 + 4 * d + 4 * margin)%R with (4 + 4 * e)%R by (unfold e; ring).
  replace (4 * d + 4 * margin)%R with (4 * e)%R by (unfold e; ring).
  set (w := (columns mn mx c (cx (snd q)) - columns mn mx c (cx (fst q)))%R) in *. set (h := (rows mn mx r (cy (snd q)) - rows mn mx r (cy (fst q)))%R) in *.
  replace ((4 + 4 * e) * (w + h + 6 + 4 * d + 4 * margin))%R with ((4 + 4 * e) * (w + 3 + 2 * e) + (h + 3 + 2 * e) * (4 + 4 * e))%R by (unfold e; ring).
  apply Rplus_le_compat; apply Rmult_le_compat; assumption.
Qed.

Lemma seam_cells_in d mn mx mn' mx' r c q q' i j : (0 <= d)%R -> off_by d mn mx mn' mx' r c q q' -> (i < r)%nat -> (j < c)%nat ->
  (near_centre mn mx r c (fst q) (snd q) i j \/ near_centre mn' mx' r c (fst q') (snd q') i j) ->
  ~ (covers_centre mn mx r c (fst q) (snd q) i j /\ covers_centre mn' mx' r c (fst q') (snd q') i j) ->
  In (i, j) (seam_cells d mn mx r c q).
Proof.
  intros D (O1 & O2 & O3 & O4) Hi Hj N C. apply Rabs_le_inv in O1, O2, O3, O4. pose proof margin_pos as Mg. unfold seam_cells, near_centre, covers_centre in *.
  set (a := columns mn mx c (cx (fst q))) in *. set (b := columns mn mx c (cx (snd q))) in *. set (a' := rows mn mx r (cy (fst q))) in *. set (b' := rows mn mx r (cy (snd q))) in *.
  set (u := columns mn' mx' c (cx (fst q'))) in *. set (v := columns mn' mx' c (cx (snd q'))) in *. set (u' := rows mn' mx' r (cy (fst q'))) in *. set (v' := rows mn' mx' r (cy (snd q'))) in *.
  clearbody a b a' b' u v u' v'. set (x := (INR j + 1 / 2)%R) in *. set (y := (INR i + 1 / 2)%R) in *.
  assert (X : (a - 1 - (d + margin) <= x <= b + 1 + (d + margin))%R) by (destruct N; lra).
  assert (Y : (a' - 1 - (d + margin) <= y <= b' + 1 + (d + margin))%R) by (destruct N; lra).
  apply in_or_app. rewrite !in_prod_iff.
  destruct (Rle_dec (a' + (d + margin)) y) as [L1|L1]; [destruct (Rle_dec y (b' - (d + margin))) as [L2|L2]|].
  - right. split; [apply outer_in; [exact Hi|exact Y]|]. apply strips_in; [exact Hj|exact X|]. intros (K1 & K2). apply C. fold x in K1, K2. split; lra.
  - left. split; [apply strips_in; [exact Hi|exact Y|fold y; lra]|apply outer_in; [exact Hj|exact X]].
  - left. split; [apply strips_in; [exact Hi|exact Y|fold y; lra]|apply outer_in; [exact Hj|exact X]].
Qed.

(** ** The theorems *)
Lemma corners_unique s lt rb lt' rb' : corners s lt rb -> corners s lt' rb' -> lt = lt' /\ rb = rb'.
Proof. unfold corners. intros (A & B) (C & D). split; congruence. Qed.
Lemma wobble d M M' calls calls' g g' heap heap' libs libs' L L' mn mx mn' mx' v v' al al' stack stack' r c items items' pairs :
  history M gen_new calls = Some g -> history M' gen_new calls' = Some g' ->
  in_force calls (Live (mklayout heap libs) L mn mx) -> in_force calls' (Live (mklayout heap' libs') L' mn' mx') ->
  candidates L libs items -> candidates L' libs' items' -> memory_ok al r c -> memory_ok al' r c -> fine_box mn mx r c -> fine_box mn' mx' r c ->
  (forall item, In (Some item) items -> overlaps (box_workspace mn mx) item -> collectable heap stack item) ->
  (forall item, In (Some item) items' -> overlaps (box_workspace mn' mx') item -> collectable heap' stack' item) ->
  drawable heap mn mx r c items -> drawable heap' mn' mx' r c items' ->
  (0 <= d)%R -> drawn_alike d heap heap' mn mx mn' mx' r c items items' pairs ->
  exists m m' A B, result (Process (Some v) al stack g r c) = (m, Ok true) /\ result (Process (Some v') al' stack' g' r c) = (m', Ok true) /\
    shows m A /\ shows m' B /\ arows A = r /\ acols A = c /\ arows B = r /\ acols B = c /\
    (INR (differences A B) <= total (map (fun p => seam d mn mx r c (fst p)) pairs))%R.
Proof.
  intros H H' F F' Hi Hi' Hm Hm' FB FB' HC HC' HD HD' D (P1 & P2 & P3).
  destruct (C68_covered_cells_are_set M calls g heap libs L mn mx v al stack r c items H F Hm Hi FB HC HD) as (m & E & Cv).
  destruct (C68_covered_cells_are_set M' calls' g' heap' libs' L' mn' mx' v' al' stack' r c items' H' F' Hm' Hi' FB' HC' HD') as (m' & E' & Cv').
  pose proof (C69_set_cells_are_near_a_rectangle M calls g heap libs L mn mx v al stack r c items m H F Hm Hi FB HC HD E) as Nr.
  pose proof (C69_set_cells_are_near_a_rectangle M' calls' g' heap' libs' L' mn' mx' v' al' stack' r c items' m' H' F' Hm' Hi' FB' HC' HD' E') as Nr'.
  pose proof FB as (_ & _ & Bx & By & Hr & Hc).
  destruct (C52_the_bitmap_is_the_union M calls g heap libs L mn mx v al stack r c m items H F Hm ltac:(lia) ltac:(lia) Hi E) as (z & A & Hz & SA & Ar & Ac & _).
  destruct (C52_the_bitmap_is_the_union M' calls' g' heap' libs' L' mn' mx' v' al' stack' r c m' items' H' F' Hm' ltac:(lia) ltac:(lia) Hi' E') as (z' & B & Hz' & SB & Br & Bc & _).
  exists m, m', A, B. split; [exact E|]. split; [exact E'|]. split; [exact SA|]. split; [exact SB|]. do 4 (split; [assumption|]).
  rewrite differences_cells.
  apply (union_length _ pairs (fun p => seam_cells d mn mx r c (fst p)) _ (diff_cells A B) (diff_cells_nodup A B)).
  - intros (i, j) I. apply diff_cells_in in I as (I1 & I2 & I3). rewrite Ar in I1. rewrite Ac in I2.
    pose proof (get_shown m A i j SA ltac:(lia) ltac:(lia)) as QA. pose proof (get_shown m' B i j SB ltac:(lia) ltac:(lia)) as QB.
    assert (K : (acell A i j = true /\ acell B i j <> true) \/ (acell B i j = true /\ acell A i j <> true))
      by (destruct (acell A i j), (acell B i j); intuition congruence).
    destruct K as [(K1 & K2)|(K1 & K2)].
    + apply QA in K1. destruct (Nr i j I1 I2 K1) as (item & s & lt & rb & T1 & T2 & T3 & T4 & T5).
      destruct (proj1 (P1 lt rb)) as ((lt' & rb') & Hp); [exists item, s; auto|]. exists ((lt, rb), (lt', rb')). split; [exact Hp|].
      apply (seam_cells_in d mn mx mn' mx' r c (lt, rb) (lt', rb') i j D (P3 _ _ Hp) I1 I2 (or_introl T5)). intros (_ & Cq). apply K2, QB.
      destruct (proj2 (P2 lt' rb')) as (item' & s' & S1 & S2 & S3 & S4); [exists (lt, rb); exact Hp|].
      exact (Cv' i j item' s' lt' rb' I1 I2 S1 S2 S3 S4 Cq).
    + apply QB in K1. destruct (Nr' i j I1 I2 K1) as (item & s & lt' & rb' & T1 & T2 & T3 & T4 & T5).
      destruct (proj1 (P2 lt' rb')) as ((lt & rb) & Hp); [exists item, s; auto|]. exists ((lt, rb), (lt', rb')). split; [exact Hp|].
      apply (seam_cells_in d mn mx mn' mx' r c (lt, rb) (lt', rb') i j D (P3 _ _ Hp) I1 I2 (or_intror T5)). intros (Cq & _). apply K2, QA.
      destruct (proj2 (P1 lt rb)) as (item' & s' & S1 & S2 & S3 & S4); [exists (lt', rb'); exact Hp|].
      exact (Cv i j item' s' lt rb I1 I2 S1 S2 S3 S4 Cq).
  - intros ((lt, rb), q') Hp. cbn [fst].
    destruct (proj2 (P1 lt rb)) as (item & s & S1 & S2 & S3 & S4); [exists q'; exact Hp|].
    destruct (HD item s S1 S2 S3) as (lt2 & rb2 & S5 & Mq & _). destruct (corners_unique _ _ _ _ _ S4 S5) as (<- & <-).
    destruct Mq as (_ & _ & Q1 & Q2 & _). apply seam_count; cbn [fst snd]; first [exact D|lia].
Qed.

(** Two layouts that draw the same rectangles up to an inaccuracy of d cells: the bitmaps differ in at most as many cells as lie along the
    edges. *)
Theorem C129_few_cells_differ :
  forall d M M' calls calls' g g' heap heap' libs libs' L L' mn mx mn' mx' v v' al al' stack stack' r c items items' pairs,
  history M gen_new calls = Some g -> history M' gen_new calls' = Some g' ->
  in_force calls (Live (mklayout heap libs) L mn mx) -> in_force calls' (Live (mklayout heap' libs') L' mn' mx') ->
  candidates L libs items -> candidates L' libs' items' -> memory_ok al r c -> memory_ok al' r c -> fine_box mn mx r c -> fine_box mn' mx' r c ->
  (forall item, In (Some item) items -> overlaps (box_workspace mn mx) item -> collectable heap stack item) ->
  (forall item, In (Some item) items' -> overlaps (box_workspace mn' mx') item -> collectable heap' stack' item) ->
  drawable heap mn mx r c items -> drawable heap' mn' mx' r c items' ->
  (0 <= d)%R -> drawn_alike d heap heap' mn mx mn' mx' r c items items' pairs ->
  exists m m', result (Process (Some v) al stack g r c) = (m, Ok true) /\ result (Process (Some v') al' stack' g' r c) = (m', Ok true) /\
    forall A B, shows m A -> shows m' B -> (INR (differences A B) <= total (map (fun p => seam d mn mx r c (fst p)) pairs))%R.
Proof.
  intros d M M' calls calls' g g' heap heap' libs libs' L L' mn mx mn' mx' v v' al al' stack stack' r c items items' pairs
    H H' F F' Hi Hi' Hm Hm' FB FB' HC HC' HD HD' D P.
  destruct (wobble d M M' calls calls' g g' heap heap' libs libs' L L' mn mx mn' mx' v v' al al' stack stack' r c items items' pairs
    H H' F F' Hi Hi' Hm Hm' FB FB' HC HC' HD HD' D P) as (m & m' & A & B & E & E' & SA & SB & Ar & Ac & Br & Bc & Q).
  exists m, m'. split; [exact E|]. split; [exact E'|]. intros A' B' SA' SB'.
  replace (differences A' B') with (differences A B); [exact Q|].
  destruct (shows_elim _ _ SA) as (_ & a1 & a2 & a3). destruct (shows_elim _ _ SA') as (_ & a4 & a5 & a6).
  destruct (shows_elim _ _ SB) as (_ & b1 & b2 & b3). destruct (shows_elim _ _ SB') as (_ & b4 & b5 & b6).
  unfold differences. rewrite <- a4, <- a5, a1, a2. f_equal. rewrite !flat_map_concat_map. f_equal.
  apply map_ext_in. intros i I. apply map_ext_in. intros j J. apply in_seq in I, J.
  rewrite <- a3, <- a6, <- b3, <- b6 by lia. reflexivity.
Qed.

(** Operator == calls them equal when those cells are at most a ten-thousandth of the bitmap. *)
Theorem C129_small_inaccuracies_go_unnoticed :
  forall d M M' calls calls' g g' heap heap' libs libs' L L' mn mx mn' mx' v v' al al' al2 stack stack' r c items items' pairs,
  history M gen_new calls = Some g -> history M' gen_new calls' = Some g' ->
  in_force calls (Live (mklayout heap libs) L mn mx) -> in_force calls' (Live (mklayout heap' libs') L' mn' mx') ->
  candidates L libs items -> candidates L' libs' items' -> memory_ok al r c -> memory_ok al' r c -> memory_ok al2 r c -> fine_box mn mx r c -> fine_box mn' mx' r c ->
  Z.of_nat r * Z.of_nat c <= 2 ^ 38 ->
  (forall item, In (Some item) items -> overlaps (box_workspace mn mx) item -> collectable heap stack item) ->
  (forall item, In (Some item) items' -> overlaps (box_workspace mn' mx') item -> collectable heap' stack' item) ->
  drawable heap mn mx r c items -> drawable heap' mn' mx' r c items' ->
  (0 <= d)%R -> drawn_alike d heap heap' mn mx mn' mx' r c items items' pairs ->
  (10000 * total (map (fun p => seam d mn mx r c (fst p)) pairs) <= INR r * INR c)%R ->
  exists m m', result (Process (Some v) al stack g r c) = (m, Ok true) /\ result (Process (Some v') al' stack' g' r c) = (m', Ok true) /\
    bm_eq al2 m m' = Ok true.
Proof.
  intros d M M' calls calls' g g' heap heap' libs libs' L L' mn mx mn' mx' v v' al al' al2 stack stack' r c items items' pairs
    H H' F F' Hi Hi' Hm Hm' Hm2 FB FB' Sz HC HC' HD HD' D P T0.
  destruct (wobble d M M' calls calls' g g' heap heap' libs libs' L L' mn mx mn' mx' v v' al al' stack stack' r c items items' pairs
    H H' F F' Hi Hi' Hm Hm' FB FB' HC HC' HD HD' D P) as (m & m' & A & B & E & E' & SA & SB & Ar & Ac & Br & Bc & Q).
  exists m, m'. split; [exact E|]. split; [exact E'|]. pose proof FB as (_ & _ & _ & _ & Hr & Hc).
  destruct (C11_equality al2 m m' A B SA SB) as (e & n & Eq & _ & T & _).
  - congruence.
  - congruence.
  - split; lia.
  - rewrite Ar, Ac. now apply plenty.
  - unfold cell_number. rewrite Ar, Ac. lia.
  - rewrite Eq. f_equal. apply T. unfold cell_number. rewrite Ar, Ac.
    apply le_IZR. rewrite mult_IZR, Nat2Z.inj_mul, mult_IZR, <- !INR_IZR_INZ. lra.
Qed.

(** ** Concrete cases *)
Definition ex_small : list (option geom) := ex_more 30 30 31 31.
Definition ex_fine : list (option geom) := ex_more 75 75 78 78.
Lemma ex_draws side x1 y1 x2 y2 lt rb : 0 < side -> 0 <= x1 -> x1 < x2 -> x2 <= side -> 0 <= y1 -> y1 < y2 -> y2 <= side ->
  (draws [] (mkcoord 0 0) (mkcoord side side) (ex_more x1 y1 x2 y2) lt rb <-> (lt, rb) = (mkcoord x1 y2, mkcoord x2 y1)).
Proof.
  intros Sd X1 X2 X3 Y1 Y2 Y3. split.
  - intros (item & s & I & T & Ts & C). rewrite (ex_only_rect _ _ _ _ _ _ _ _ I T Ts) in C.
    destruct (corners_unique _ _ _ (mkcoord x1 y2) (mkcoord x2 y1) C) as (-> & ->); [split; reflexivity|reflexivity].
  - intros [= -> ->]. exists (ex_gen_rect 5 x1 y1 x2 y2), (ex_gen_rect 5 x1 y1 x2 y2). split; [left; reflexivity|].
    split; [|split; [reflexivity|split; reflexivity]].
    split; [|split; [|left; split; [left; reflexivity|reflexivity]]].
    + unfold overlaps. cbn. lia.
    + unfold overlaps. cbn. lia.
Qed.

Lemma ex_alike : drawn_alike (1 / 2) [] [] (mkcoord 0 0) (mkcoord 400 400) (mkcoord 0 0) (mkcoord 1000 1000) 1000 1000 ex_small ex_fine
  [((mkcoord 30 31, mkcoord 31 30), (mkcoord 75 78, mkcoord 78 75))].
Proof.
  split; [|split].
  - intros lt rb. unfold ex_small. rewrite ex_draws by lia. split; [intros ->; eexists; left; reflexivity|]. intros (q' & [Q|[]]). congruence.
  - intros lt rb. unfold ex_fine. rewrite ex_draws by lia. split; [intros ->; eexists; left; reflexivity|]. intros (q' & [Q|[]]). congruence.
  - intros q q' [[= <- <-]|[]]. unfold off_by, columns, rows. cbn [cx cy fst snd]. rewrite !INR_IZR_INZ.
    change (Z.of_nat 1000) with 1000. change (30 - 0) with 30. change (31 - 0) with 31. change (75 - 0) with 75. change (78 - 0) with 78.
    change (400 - 0) with 400. change (1000 - 0) with 1000. change (400 - 31) with 369. change (400 - 30) with 370. change (1000 - 78) with 922. change (1000 - 75) with 925.
    repeat split; apply Rabs_le; lra.
Qed.

Lemma ex_drawable side x1 y1 x2 y2 : 0 < side <= 1000 -> 0 <= x1 -> x1 <= x2 -> x2 <= side -> 0 <= y1 -> y1 <= y2 -> y2 <= side ->
  drawable [] (mkcoord 0 0) (mkcoord side side) 1000 1000 (ex_more x1 y1 x2 y2).
Proof.
  intros Sd X1 X2 X3 Y1 Y2 Y3 item s I T Ts. rewrite (ex_only_rect _ _ _ _ _ _ _ _ I T Ts). exists (mkcoord x1 y2), (mkcoord x2 y1).
  split; [split; reflexivity|]. split; [apply ex_manageable; lia|]. unfold starts_inside. cbn [cx cy]. lia.
Qed.

(** A rectangle of one micron in a box of 400, and one of three microns in a box of 1000, drawn with 1000 x 1000 cells: two of the edges are half
    a cell off; the bitmaps are equal for operator ==. *)
Example C129_hypotheses_met : exists g g' m m',
  history ex_machine gen_new (ex_init ex_small 400) = Some g /\ history ex_machine gen_new (ex_init ex_fine 1000) = Some g' /\
  (10000 * total (map (fun p => seam (1 / 2) (mkcoord 0 0) (mkcoord 400 400) 1000 1000 (fst p)) [((mkcoord 30 31, mkcoord 31 30), (mkcoord 75 78, mkcoord 78 75))])
     <= INR 1000 * INR 1000)%R /\
  result (Process (Some 1) infinite_memory 10 g 1000 1000) = (m, Ok true) /\ result (Process (Some 1) infinite_memory 10 g' 1000 1000) = (m', Ok true) /\
  bm_eq infinite_memory m m' = Ok true.
Proof.
  assert (Hg : exists g, history ex_machine gen_new (ex_init ex_small 400) = Some g) by (eexists; reflexivity).
  assert (Hg' : exists g, history ex_machine gen_new (ex_init ex_fine 1000) = Some g) by (eexists; reflexivity).
  destruct Hg as (g & Hg). destruct Hg' as (g' & Hg'). exists g, g'.
  assert (T : (10000 * total (map (fun p => seam (1 / 2) (mkcoord 0 0) (mkcoord 400 400) 1000 1000 (fst p)) [((mkcoord 30 31, mkcoord 31 30), (mkcoord 75 78, mkcoord 78 75))])
     <= INR 1000 * INR 1000)%R).
  { pose proof margin_small as MS. pose proof margin_pos as MP. cbn [total map fold_right]. unfold seam, width, height, columns, rows. cbn [cx cy fst snd].
    rewrite !INR_IZR_INZ. change (Z.of_nat 1000) with 1000. change (30 - 0) with 30. change (31 - 0) with 31.
    change (400 - 0) with 400. change (400 - 31) with 369. change (400 - 30) with 370.
    replace (31 * 1000 / 400 - 30 * 1000 / 400)%R with (5 / 2)%R by field. replace (370 * 1000 / 400 - 369 * 1000 / 400)%R with (5 / 2)%R by field. nra. }
  destruct (C129_small_inaccuracies_go_unnoticed (1 / 2) ex_machine ex_machine (ex_init ex_small 400) (ex_init ex_fine 1000) g g' [] []
    (ex_libs ex_small) (ex_libs ex_fine) [5] [5] (mkcoord 0 0) (mkcoord 400 400) (mkcoord 0 0) (mkcoord 1000 1000) 1 1 infinite_memory infinite_memory infinite_memory 10 10
    1000 1000 ex_small ex_fine [((mkcoord 30 31, mkcoord 31 30), (mkcoord 75 78, mkcoord 78 75))]) as (m & m' & E & E' & Q).
  all: try (apply ex_init_force; lia). all: try exact Hg. all: try exact Hg'. all: try (apply candidates_items; reflexivity). all: try easy.
  all: try (unfold fine_box, coord32, int32; cbn [cx cy]; lia).
  - intros item [[= <-]|[[= <-]|[]]] _; exact I.
  - intros item [[= <-]|[[= <-]|[]]] _; exact I.
  - apply ex_drawable; lia.
  - apply ex_drawable; lia.
  - lra.
  - exact ex_alike.
  - exists m, m'. do 5 (split; [assumption|]). assumption.
Qed.

(** Half a cell of inaccuracy alone is not harmless: on a coarse bitmap operator == sees it. *)
Theorem C129_half_a_cell_goes_unnoticed_refuted :
  ~ (forall M M' calls calls' g g' heap heap' libs libs' L L' mn mx mn' mx' v v' al al' al2 stack stack' r c items items' pairs m m',
  history M gen_new calls = Some g -> history M' gen_new calls' = Some g' ->
  in_force calls (Live (mklayout heap libs) L mn mx) -> in_force calls' (Live (mklayout heap' libs') L' mn' mx') ->
  candidates L libs items -> candidates L' libs' items' -> memory_ok al r c -> memory_ok al' r c -> memory_ok al2 r c -> fine_box mn mx r c -> fine_box mn' mx' r c ->
  drawn_alike (1 / 2) heap heap' mn mx mn' mx' r c items items' pairs ->
  result (Process (Some v) al stack g r c) = (m, Ok true) -> result (Process (Some v') al' stack' g' r c) = (m', Ok true) ->
  bm_eq al2 m m' = Ok true).
Proof.
  intros Claim.
  assert (K : exists g g' m m', history ex_machine gen_new (ex_init (ex_more 30 30 80 80) 100) = Some g /\ history ex_machine gen_new (ex_init (ex_more 35 35 85 85) 100) = Some g' /\
    result (Process (Some 1) infinite_memory 10 g 10 10) = (m, Ok true) /\ result (Process (Some 1) infinite_memory 10 g' 10 10) = (m', Ok true) /\
    bm_eq infinite_memory m m' = Ok false).
  { do 2 eexists. eexists ?[m], ?[m']. split; [reflexivity|]. split; [reflexivity|]. split; [vm_compute; reflexivity|]. split; [vm_compute; reflexivity|]. vm_compute. reflexivity. }
  destruct K as (g & g' & m & m' & Hg & Hg' & E & E' & Q).
  assert (Y : bm_eq infinite_memory m m' = Ok true).
  { apply (Claim ex_machine ex_machine (ex_init (ex_more 30 30 80 80) 100) (ex_init (ex_more 35 35 85 85) 100) g g' [] []
      (ex_libs (ex_more 30 30 80 80)) (ex_libs (ex_more 35 35 85 85)) [5] [5] (mkcoord 0 0) (mkcoord 100 100) (mkcoord 0 0) (mkcoord 100 100) 1 1
      infinite_memory infinite_memory infinite_memory 10%nat 10%nat 10%nat 10%nat (ex_more 30 30 80 80) (ex_more 35 35 85 85)
      [((mkcoord 30 80, mkcoord 80 30), (mkcoord 35 85, mkcoord 85 35))] m m' Hg Hg').
    all: try (apply ex_init_force; lia). all: try (apply candidates_items; reflexivity). all: try easy.
    all: try (unfold fine_box, coord32, int32; cbn [cx cy]; lia).
    split; [|split].
    - intros lt rb. rewrite ex_draws by lia. split; [intros ->; eexists; left; reflexivity|]. intros (q' & [Z|[]]). congruence.
    - intros lt rb. rewrite ex_draws by lia. split; [intros ->; eexists; left; reflexivity|]. intros (q' & [Z|[]]). congruence.
    - intros q q' [[= <- <-]|[]]. unfold off_by, columns, rows. cbn [cx cy fst snd]. rewrite !INR_IZR_INZ.
      change (Z.of_nat 10) with 10. change (30 - 0) with 30. change (80 - 0) with 80. change (35 - 0) with 35. change (85 - 0) with 85.
      change (100 - 0) with 100. change (100 - 80) with 20. change (100 - 30) with 70. change (100 - 85) with 15. change (100 - 35) with 65.
      repeat split; apply Rabs_le; lra. }
  rewrite Q in Y. discriminate Y.
Qed.

Print Assumptions C129_few_cells_differ.
Print Assumptions C129_small_inaccuracies_go_unnoticed.
Print Assumptions C129_half_a_cell_goes_unnoticed_refuted.
