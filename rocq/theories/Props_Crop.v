(** C138: the bitmap of a window is the block of the bitmap of the sheet.  Specification: S_Crop. *)
From Coq Require Import Reals Lra Lia.
From Flocq Require Import Core.
From Verif Require Import Prelude P_Prelude M_Double S_Double P_Double M_LayoutData M_Converter S_Converter M_Vector2D M_BitMatrix S_Matrix
  P_BitMatrix P_Cells M_Ratio S_Ratio P_Ratio Props_Ratio Props_BitMatrix P_Rank Props_Rank M_Hash S_Hash M_Zond S_Zond M_Generator S_Generator P_Generator Props_Generator
  S_EndToEnd P_EndToEnd Props_EndToEnd S_Identify P_Identify S_Degrade P_Degrade Props_Degrade S_Exact S_Wobble Props_Wobble Props_Noise
  M_Msk S_Msk P_Msk Props_Msk S_MskBitmap Props_MskBitmap Props_Identify S_Nudge Props_Nudge S_Turn Props_Mirror S_Crop.
Local Open Scope Z_scope.

Section Window.
Variables (mn mx mn' mx' : coord) (R C r c a b : nat).
Hypothesis Win : window_of mn mx R C mn' mx' r c a b.
Hypothesis Bx : cx mn < cx mx. Hypothesis By : cy mn < cy mx.
Hypothesis Hr : (0 < r)%nat. Hypothesis Hc : (0 < c)%nat.

Lemma window_inside : cx mn <= cx mn' < cx mx' /\ cx mx' <= cx mx /\ cy mn <= cy mn' < cy mx' /\ cy mx' <= cy mx.
Proof. destruct Win as (X1 & X2 & Y1 & Y2 & L1 & L2). nia. Qed.

Lemma window_columns x : columns mn mx C x = (INR b + columns mn' mx' c x)%R.
Proof.
  destruct Win as (X1 & X2 & _ & _ & _ & L). pose proof window_inside as (W1 & W2 & _). unfold columns.
  assert (E1 : (IZR (cx mn' - cx mn) * INR C = INR b * IZR (cx mx - cx mn))%R) by (rewrite !INR_IZR_INZ, <- !mult_IZR; now f_equal).
  assert (E2 : (IZR (cx mx' - cx mn') * INR C = INR c * IZR (cx mx - cx mn))%R) by (rewrite !INR_IZR_INZ, <- !mult_IZR; now f_equal).
  assert (P1 : (0 < IZR (cx mx - cx mn))%R) by (apply IZR_lt; lia). assert (P2 : (0 < IZR (cx mx' - cx mn'))%R) by (apply IZR_lt; lia).
  assert (P3 : (0 < INR C)%R) by (apply lt_0_INR; lia).
  replace (x - cx mn) with ((x - cx mn') + (cx mn' - cx mn)) by ring. rewrite plus_IZR.
  set (u := IZR (x - cx mn')) in *. set (w := IZR (cx mx - cx mn)) in *. set (w' := IZR (cx mx' - cx mn')) in *. set (o := IZR (cx mn' - cx mn)) in *.
  replace ((u + o) * INR C / w)%R with (o * INR C / w + u * INR C / w)%R by (field; lra). f_equal.
  - rewrite E1. field. lra.
  - assert (INR c = w' * INR C / w)%R as -> by (rewrite E2; field; lra). field. split; lra.
Qed.
Lemma window_rows y : rows mn mx R y = (INR a + rows mn' mx' r y)%R.
Proof.
  destruct Win as (_ & _ & X1 & X2 & L & _). pose proof window_inside as (_ & _ & W1 & W2). unfold rows.
  assert (E1 : (IZR (cy mx - cy mx') * INR R = INR a * IZR (cy mx - cy mn))%R) by (rewrite !INR_IZR_INZ, <- !mult_IZR; now f_equal).
  assert (E2 : (IZR (cy mx' - cy mn') * INR R = INR r * IZR (cy mx - cy mn))%R) by (rewrite !INR_IZR_INZ, <- !mult_IZR; now f_equal).
  assert (P1 : (0 < IZR (cy mx - cy mn))%R) by (apply IZR_lt; lia). assert (P2 : (0 < IZR (cy mx' - cy mn'))%R) by (apply IZR_lt; lia).
  assert (P3 : (0 < INR R)%R) by (apply lt_0_INR; lia).
  replace (cy mx - y) with ((cy mx' - y) + (cy mx - cy mx')) by ring. rewrite plus_IZR.
  set (u := IZR (cy mx' - y)) in *. set (w := IZR (cy mx - cy mn)) in *. set (w' := IZR (cy mx' - cy mn')) in *. set (o := IZR (cy mx - cy mx')) in *.
  replace ((u + o) * INR R / w)%R with (o * INR R / w + u * INR R / w)%R by (field; lra). f_equal.
  - rewrite E1. field. lra.
  - assert (INR r = w' * INR R / w)%R as -> by (rewrite E2; field; lra). field. split; lra.
Qed.
Lemma window_near lt rb i j : near_centre mn mx R C lt rb (a + i) (b + j) <-> near_centre mn' mx' r c lt rb i j.
Proof. unfold near_centre. rewrite !window_columns, !window_rows, !plus_INR. intuition lra. Qed.
Lemma window_covers lt rb i j : covers_centre mn mx R C lt rb (a + i) (b + j) <-> covers_centre mn' mx' r c lt rb i j.
Proof. unfold covers_centre. rewrite !window_columns, !window_rows, !plus_INR. intuition lra. Qed.

(** A rectangle that covers the centre of a cell of a box meets the box. *)
Lemma covers_meets lt rb i j : (i < r)%nat -> (j < c)%nat -> covers_centre mn' mx' r c lt rb i j ->
  cx lt <= cx mx' /\ cx mn' <= cx rb /\ cy mn' <= cy lt /\ cy rb <= cy mx'.
Proof.
  intros I J ((K1 & K2) & (K3 & K4)). pose proof window_inside as (W1 & W2 & W3 & W4). pose proof margin_pos as MP.
  assert (Ij : (INR j + 1 <= INR c)%R) by (rewrite <- S_INR; apply le_INR; lia). assert (Ii : (INR i + 1 <= INR r)%R) by (rewrite <- S_INR; apply le_INR; lia).
  pose proof (pos_INR i). pose proof (pos_INR j).
  assert (C0 : columns mn' mx' c (cx mn') = 0%R) by (unfold columns; rewrite Z.sub_diag; unfold Rdiv; ring).
  assert (C1 : columns mn' mx' c (cx mx') = INR c) by (unfold columns; field; apply not_0_IZR; lia).
  assert (R0 : rows mn' mx' r (cy mx') = 0%R) by (unfold rows; rewrite Z.sub_diag; unfold Rdiv; ring).
  assert (R1 : rows mn' mx' r (cy mn') = INR r) by (unfold rows; field; apply not_0_IZR; lia).
  repeat split; apply Z.nlt_ge; intros L.
  - pose proof (columns_mono mn' mx' c (cx mx') (cx lt) ltac:(lia) ltac:(lia)). lra.
  - pose proof (columns_mono mn' mx' c (cx rb) (cx mn') ltac:(lia) ltac:(lia)). lra.
  - pose proof (rows_mono mn' mx' r (cy mn') (cy lt) ltac:(lia) ltac:(lia)). lra.
  - pose proof (rows_mono mn' mx' r (cy rb) (cy mx') ltac:(lia) ltac:(lia)). lra.
Qed.

(** What the cells of the two bitmaps say about the rectangles U of the sheet and V of the window bounds their difference. *)
Lemma crop_cells (U V : rect -> Prop) (qs : list rect) (A B : amat) :
  arows B = r -> acols B = c ->
  (forall q i j, U q -> (i < r)%nat -> (j < c)%nat -> covers_centre mn mx R C (fst q) (snd q) (a + i) (b + j) -> acell A (a + i) (b + j) = true) ->
  (forall i j, (i < r)%nat -> (j < c)%nat -> acell A (a + i) (b + j) = true -> exists q, U q /\ near_centre mn mx R C (fst q) (snd q) (a + i) (b + j)) ->
  (forall q i j, V q -> (i < r)%nat -> (j < c)%nat -> covers_centre mn' mx' r c (fst q) (snd q) i j -> acell B i j = true) ->
  (forall i j, (i < r)%nat -> (j < c)%nat -> acell B i j = true -> exists q, V q /\ near_centre mn' mx' r c (fst q) (snd q) i j) ->
  (forall q, V q -> U q) ->
  (forall q i j, U q -> (i < r)%nat -> (j < c)%nat -> covers_centre mn' mx' r c (fst q) (snd q) i j -> V q) ->
  (forall q, U q -> comes_near mn' mx' r c q -> In q qs) -> Forall oriented qs ->
  (INR (differences B (block a b r c A)) <= total (map (seam 0 mn' mx' r c) qs))%R.
Proof.
  intros Br Bc Cv Nr Cv' Nr' VU UV Hq Or. pose proof window_inside as (W1 & W2 & W3 & W4).
  rewrite differences_cells.
  apply (union_length _ qs (fun q => seam_cells 0 mn' mx' r c q) _ (diff_cells B (block a b r c A)) (diff_cells_nodup B (block a b r c A))).
  - intros (i, j) I. apply diff_cells_in in I as (I1 & I2 & I3). rewrite Br in I1. rewrite Bc in I2. cbn [block acell] in I3.
    assert (off : forall q, off_by 0 mn' mx' mn' mx' r c q q) by (intros q; unfold off_by; rewrite !Rminus_diag_eq, !Rabs_R0 by reflexivity; lra).
    assert (K : (acell A (a + i) (b + j) = true /\ acell B i j <> true) \/ (acell B i j = true /\ acell A (a + i) (b + j) <> true))
      by (destruct (acell A (a + i) (b + j)), (acell B i j); intuition congruence).
    destruct K as [(K1 & K2)|(K1 & K2)].
    + destruct (Nr i j I1 I2 K1) as (q & Uq & N). apply window_near in N.
      exists q. split; [apply Hq; [exact Uq|exists i, j; auto]|].
      apply (seam_cells_in 0 mn' mx' mn' mx' r c q q i j (Rle_refl 0) (off q) I1 I2 (or_introl N)). intros (Cq & _).
      exact (K2 (Cv' q i j (UV q i j Uq I1 I2 Cq) I1 I2 Cq)).
    + destruct (Nr' i j I1 I2 K1) as (q & Vq & N).
      exists q. split; [apply Hq; [exact (VU q Vq)|exists i, j; auto]|].
      apply (seam_cells_in 0 mn' mx' mn' mx' r c q q i j (Rle_refl 0) (off q) I1 I2 (or_introl N)). intros (Cq & _).
      exact (K2 (Cv q i j (VU q Vq) I1 I2 (proj2 (window_covers _ _ i j) Cq))).
  - intros q Iq. rewrite Forall_forall in Or. destruct (Or q Iq). apply seam_count; first [apply Rle_refl|lia].
Qed.
End Window.

(** ** C138 *)
(** A layout of plain rectangles drawn in the box of a sheet, and drawn in the box of a window of it: where the rectangles begin
    inside the box they are drawn in, the bitmap of the window and the block of the bitmap of the sheet differ at most in the
    cells along the edges of the rectangles qs, if these include all that come near the window. *)
Theorem C138_windows_of_layouts :
  forall M M' calls calls' g g' heap libs L mn mx mn' mx' v v' al al' stack stack' R C r c a b items qs,
  history M gen_new calls = Some g -> history M' gen_new calls' = Some g' ->
  in_force calls (Live (mklayout heap libs) L mn mx) -> in_force calls' (Live (mklayout heap libs) L mn' mx') ->
  candidates L libs items -> memory_ok al R C -> memory_ok al' r c -> fine_box mn mx R C -> fine_box mn' mx' r c ->
  window_of mn mx R C mn' mx' r c a b ->
  (forall item, In (Some item) items -> plain item) ->
  drawable heap mn mx R C items -> drawable heap mn' mx' r c items ->
  (forall lt rb, draws heap mn mx items lt rb -> comes_near mn' mx' r c (lt, rb) -> In (lt, rb) qs) -> Forall oriented qs ->
  exists m m', result (Process (Some v) al stack g R C) = (m, Ok true) /\ result (Process (Some v') al' stack' g' r c) = (m', Ok true) /\
    forall A B, shows m A -> shows m' B -> (INR (differences B (block a b r c A)) <= total (map (seam 0 mn' mx' r c) qs))%R.
Proof.
  intros M M' calls calls' g g' heap libs L mn mx mn' mx' v v' al al' stack stack' R C r c a b items qs
    H H' F F' Hi Hm Hm' FB FB' Win Pl HD HD' Hq Or.
  assert (HC : forall w st item, In (Some item) items -> overlaps w item -> collectable heap st item).
  { intros w st item I _. destruct (Pl item I) as (T & _). unfold collectable. rewrite T. exact Logic.I. }
  destruct (C68_covered_cells_are_set M calls g heap libs L mn mx v al stack R C items H F Hm Hi FB (HC _ _) HD) as (m & E & Cv).
  destruct (C68_covered_cells_are_set M' calls' g' heap libs L mn' mx' v' al' stack' r c items H' F' Hm' Hi FB' (HC _ _) HD') as (m' & E' & Cv').
  pose proof (C69_set_cells_are_near_a_rectangle M calls g heap libs L mn mx v al stack R C items m H F Hm Hi FB (HC _ _) HD E) as Nr.
  pose proof (C69_set_cells_are_near_a_rectangle M' calls' g' heap libs L mn' mx' v' al' stack' r c items m' H' F' Hm' Hi FB' (HC _ _) HD' E') as Nr'.
  pose proof FB as (_ & _ & Bx & By & HR & HCc). pose proof FB' as (_ & _ & Bx' & By' & Hr & Hc). pose proof Win as (_ & _ & _ & _ & La & Lb).
  destruct (C52_the_bitmap_is_the_union M calls g heap libs L mn mx v al stack R C m items H F Hm ltac:(lia) ltac:(lia) Hi E) as (z & A0 & Hz & SA0 & Ar0 & Ac0 & _).
  destruct (C52_the_bitmap_is_the_union M' calls' g' heap libs L mn' mx' v' al' stack' r c m' items H' F' Hm' ltac:(lia) ltac:(lia) Hi E') as (z' & B0 & Hz' & SB0 & Br0 & Bc0 & _).
  exists m, m'. split; [exact E|]. split; [exact E'|]. intros A B SA SB.
  destruct (shown_same _ _ _ SA0 SA) as (a1 & a2 & _). destruct (shown_same _ _ _ SB0 SB) as (b1 & b2 & _).
  assert (QA : forall i j, (i < r)%nat -> (j < c)%nat -> (Get m (a + i) (b + j) = Ok true <-> acell A (a + i) (b + j) = true))
    by (intros i j I J; apply (get_shown m A _ _ SA); lia).
  assert (QB : forall i j, (i < r)%nat -> (j < c)%nat -> (Get m' i j = Ok true <-> acell B i j = true))
    by (intros i j I J; apply (get_shown m' B _ _ SB); lia).
  pose proof (window_inside mn mx mn' mx' R C r c a b Win ltac:(lia) ltac:(lia) ltac:(lia) ltac:(lia)) as (W1 & W2 & W3 & W4).
  assert (Big : forall g, overlaps (box_workspace mn' mx') g -> overlaps (box_workspace mn mx) g).
  { intros s0 (O1 & O2 & O3 & O4). unfold overlaps, box_workspace in *. cbn [leftTop rightBot cx cy] in *. lia. }
  assert (Same : forall w item s, In (Some item) items -> to_draw heap w item s -> s = item).
  { intros w item s I (_ & _ & [(_ & ->)|[(wd & (Q & _) & _)|(Q & _)]]); [reflexivity| |]; destruct (Pl item I) as (T & _); congruence. }
  apply (crop_cells mn mx mn' mx' R C r c a b Win ltac:(lia) ltac:(lia) ltac:(lia) ltac:(lia)
    (fun q => draws heap mn mx items (fst q) (snd q)) (fun q => draws heap mn' mx' items (fst q) (snd q)) qs A B); try congruence; try exact Or.
  - intros (lt, rb) i j (item & s & T1 & T2 & T3 & T4) I J Q. apply (QA i j I J).
    exact (Cv (a + i)%nat (b + j)%nat item s lt rb ltac:(lia) ltac:(lia) T1 T2 T3 T4 Q).
  - intros i j I J Q. apply (QA i j I J) in Q. destruct (Nr (a + i)%nat (b + j)%nat ltac:(lia) ltac:(lia) Q) as (item & s & lt & rb & T1 & T2 & T3 & T4 & T5).
    exists (lt, rb). split; [exists item, s; auto|exact T5].
  - intros (lt, rb) i j (item & s & T1 & T2 & T3 & T4) I J Q. apply (QB i j I J).
    exact (Cv' i j item s lt rb I J T1 T2 T3 T4 Q).
  - intros i j I J Q. apply (QB i j I J) in Q. destruct (Nr' i j I J Q) as (item & s & lt & rb & T1 & T2 & T3 & T4 & T5).
    exists (lt, rb). split; [exists item, s; auto|exact T5].
  - intros (lt, rb) (item & s & T1 & (O1 & O2 & T2) & T3 & T4). exists item, s. split; [exact T1|]. split; [|auto].
    split; [apply Big, O1|]. split; [apply Big, O2|exact T2].
  - intros (lt, rb) i j (item & s & T1 & T2 & T3 & T4) I J Q. pose proof (Same _ _ _ T1 T2) as ->. cbn [fst snd] in *.
    destruct (covers_meets mn mx mn' mx' R C r c a b Win ltac:(lia) ltac:(lia) ltac:(lia) ltac:(lia) lt rb i j I J Q) as (X1 & X2 & X3 & X4).
    assert (O : overlaps (box_workspace mn' mx') item).
    { destruct (Pl item T1) as (_ & lt2 & rb2 & S2 & Gn & Gx). destruct (corners_unique _ _ _ _ _ T4 S2) as (<- & <-).
      unfold overlaps, box_workspace. rewrite Gn, Gx. cbn [leftTop rightBot cx cy]. lia. }
    exists item, item. split; [exact T1|]. split; [|auto]. destruct T2 as (_ & _ & T2). split; [exact O|]. split; [exact O|exact T2].
  - intros (lt, rb) D N. exact (Hq lt rb D N).
Qed.

(** The same for an MSK file. *)
Theorem C138_windows_of_files :
  forall pl fs name rd text cs l n heap mn mx mn' mx' v v' al al' stack stack' R C r c a b qs,
  GetReader fs name = Some rd -> encodable name -> fs (narrow name) = Some text ->
  file_says text cs -> shapes cs l -> l <> [] -> n <> -5 ->
  memory_ok al R C -> memory_ok al' r c -> fine_box mn mx R C -> fine_box mn' mx' r c -> window_of mn mx R C mn' mx' r c a b ->
  (forall p q, In (n, p, q) l -> meets mn mx p q ->
     manageable mn mx R C (left_top p q) (right_bottom p q) /\ starts_inside mn mx (left_top p q)) ->
  (forall p q, In (n, p, q) l -> meets mn' mx' p q ->
     manageable mn' mx' r c (left_top p q) (right_bottom p q) /\ starts_inside mn' mx' (left_top p q)) ->
  (forall p q, In (n, p, q) l -> comes_near mn' mx' r c (left_top p q, right_bottom p q) -> In (left_top p q, right_bottom p q) qs) ->
  Forall oriented qs ->
  exists rd' dt g g' m m', Read pl fs rd (Some no_layout) = Ok (rd', Some dt, true) /\
    Init gen_new (Some (mklayout heap (ld_libraries dt))) [n] mn mx = (g, Ok tt) /\ result (Process (Some v) al stack g R C) = (m, Ok true) /\
    Init gen_new (Some (mklayout heap (ld_libraries dt))) [n] mn' mx' = (g', Ok tt) /\ result (Process (Some v') al' stack' g' r c) = (m', Ok true) /\
    forall A B, shows m A -> shows m' B -> (INR (differences B (block a b r c A)) <= total (map (seam 0 mn' mx' r c) qs))%R.
Proof.
  intros pl fs name rd text cs l n heap mn mx mn' mx' v v' al al' stack stack' R C r c a b qs
    G He F S Sh Hl Hn Hm Hm' FB FB' Win AD AD' Hq Or.
  destruct (C83_from_file_to_bitmap pl fs name rd text cs l n heap mn mx v al stack R C G He F S Sh Hl Hn Hm FB AD) as (rd1 & dt & g & m & Rd & I & P & X).
  destruct (C83_from_file_to_bitmap pl fs name rd text cs l n heap mn' mx' v' al' stack' r c G He F S Sh Hl Hn Hm' FB' AD') as (rd2 & dt' & g' & m' & Rd' & I' & P' & X').
  rewrite Rd in Rd'. injection Rd' as <- <-.
  exists rd1, dt, g, g', m, m'. do 5 (split; [assumption|]). intros A B SA SB.
  destruct (msk_items _ _ _ _ _ _ _ n _ _ G He F S Sh Hl Hn Rd) as (items & Hi & IT).
  destruct (init_live _ _ _ _ _ I) as (H1 & H2). destruct (init_live _ _ _ _ _ I') as (H1' & H2').
  pose proof FB as (_ & _ & Bx & By & HR & HCc). pose proof FB' as (_ & _ & Bx' & By' & Hr & Hc). pose proof Win as (_ & _ & _ & _ & La & Lb).
  destruct (C52_the_bitmap_is_the_union _ _ g _ _ _ mn mx v al stack R C m items H1 H2 Hm ltac:(lia) ltac:(lia) Hi P) as (z & A0 & Hz & SA0 & Ar0 & Ac0 & _).
  destruct (C52_the_bitmap_is_the_union _ _ g' _ _ _ mn' mx' v' al' stack' r c m' items H1' H2' Hm' ltac:(lia) ltac:(lia) Hi P') as (z' & B0 & Hz' & SB0 & Br0 & Bc0 & _).
  destruct (shown_same _ _ _ SA0 SA) as (a1 & a2 & _). destruct (shown_same _ _ _ SB0 SB) as (b1 & b2 & _).
  assert (QA : forall i j, (i < r)%nat -> (j < c)%nat -> (Get m (a + i) (b + j) = Ok true <-> acell A (a + i) (b + j) = true))
    by (intros i j J K; apply (get_shown m A _ _ SA); lia).
  assert (QB : forall i j, (i < r)%nat -> (j < c)%nat -> (Get m' i j = Ok true <-> acell B i j = true))
    by (intros i j J K; apply (get_shown m' B _ _ SB); lia).
  set (U := fun q : rect => exists p p', In (n, p, p') l /\ q = (left_top p p', right_bottom p p')).
  apply (crop_cells mn mx mn' mx' R C r c a b Win ltac:(lia) ltac:(lia) ltac:(lia) ltac:(lia) U U qs A B); try congruence; try exact Or.
  - intros q i j (p & p' & Hp & ->) J K Q. apply (QA i j J K). destruct (X (a + i)%nat (b + j)%nat ltac:(lia) ltac:(lia)) as (X1 & _). exact (X1 p p' Hp Q).
  - intros i j J K Q. apply (QA i j J K) in Q. destruct (X (a + i)%nat (b + j)%nat ltac:(lia) ltac:(lia)) as (_ & X2). destruct (X2 Q) as (p & p' & Hp & _ & N).
    exists (left_top p p', right_bottom p p'). split; [exists p, p'; auto|exact N].
  - intros q i j (p & p' & Hp & ->) J K Q. apply (QB i j J K). destruct (X' i j J K) as (X1 & _). exact (X1 p p' Hp Q).
  - intros i j J K Q. apply (QB i j J K) in Q. destruct (X' i j J K) as (_ & X2). destruct (X2 Q) as (p & p' & Hp & _ & N).
    exists (left_top p p', right_bottom p p'). split; [exists p, p'; auto|exact N].
  - intros q (p & p' & Hp & ->) N. exact (Hq p p' Hp N).
Qed.

(** The score of the window's bitmap against any matrix that shows the block, from the bound T on the differing cells. *)
Theorem C138_score_of_a_window : forall al2 m' n A B a b r c T, shows m' B -> shows n (block a b r c A) -> arows B = r -> acols B = c ->
  (0 < r)%nat -> (0 < c)%nat -> memory_ok al2 r c -> Z.of_nat r * Z.of_nat c <= 2 ^ 38 -> (INR (differences B (block a b r c A)) <= T)%R ->
  (exists x s, Compare al2 m' n = Ok x /\ real x s /\ (1 - T / (INR r * INR c) - / IZR (2 ^ 52) <= s)%R) /\
  ((10000 * T <= INR r * INR c)%R -> bm_eq al2 m' n = Ok true).
Proof.
  intros al2 m' n A B a b r c T SB SN Br Bc Hr Hc Hm2 Sz Q.
  assert (CN : cell_number B = (r * c)%nat) by (unfold cell_number; now rewrite Br, Bc).
  assert (0 < INR r)%R by (apply lt_0_INR; lia). assert (0 < INR c)%R by (apply lt_0_INR; lia).
  assert (N : (0 < INR r * INR c)%R) by nra.
  split.
  - destruct (C107_score_is_the_share_of_equal_cells al2 m' n B (block a b r c A) SB SN) as (x & s & Ex & Rx & K).
    + exact Br.
    + exact Bc.
    + split; lia.
    + rewrite Br, Bc. now apply plenty.
    + rewrite CN. lia.
    + exists x, s. split; [exact Ex|]. split; [exact Rx|].
      pose proof (differences_le B (block a b r c A)) as Le. rewrite minus_INR in K by exact Le. rewrite CN, mult_INR in K.
      set (k := (INR r * INR c)%R) in *. apply Rabs_le_inv in K.
      replace ((k - INR (differences B (block a b r c A))) / k)%R with (1 - INR (differences B (block a b r c A)) / k)%R in K by (field; lra).
      assert (W : (INR (differences B (block a b r c A)) / k <= T / k)%R).
      { unfold Rdiv. apply Rmult_le_compat_r; [left; apply Rinv_0_lt_compat, N|exact Q]. }
      lra.
  - intros T10. destruct (C11_equality al2 m' n B (block a b r c A) SB SN) as (e & n' & Eq & _ & X & _).
    + exact Br.
    + exact Bc.
    + split; lia.
    + rewrite Br, Bc. now apply plenty.
    + rewrite CN. lia.
    + rewrite Eq. f_equal. apply X. rewrite CN.
      apply le_IZR. rewrite mult_IZR, Nat2Z.inj_mul, mult_IZR, <- !INR_IZR_INZ. lra.
Qed.

(** ** A concrete case: a file with the rectangle from (30, 10) to (45, 40); the sheet from (0, 0) to (100, 100), 10 x 10 cells; the window
    from (50, 0) to (100, 50) does not meet the rectangle; the one from (20, 0) to (80, 60) holds it. *)
Definition ex_line5 : list byte := lit "REC(30,10,15,30,ME)".
Definition ex_file5 : list byte := lit "VERSION 8.21" ++ nl ++ ex_line5.
Definition ex_contents5 : list content := [Nothing; Rect (lit "ME") (mkcoord 30 10) (mkcoord 45 40)].
Definition ex_shapes5 : list (Z * coord * coord) := [(23, mkcoord 30 10, mkcoord 45 40)].
Lemma ex_says5 : file_says ex_file5 ex_contents5.
Proof.
  exists [lit "VERSION 8.21"; ex_line5]. split.
  - unfold ex_file5, nl. change (?a ++ [newline] ++ ?x) with (a ++ newline :: x).
    apply lines_more; [cbn; intuition discriminate|]. apply lines_last; [discriminate|cbn; intuition discriminate].
  - assert (W : forall l, ~ In return_char l -> without_returns l l).
    { induction l as [|c l IH]; intros H; [repeat constructor|]. cbn in H. constructor; [intros Q; apply H; auto|apply IH; tauto]. }
    assert (R : says ex_line5 (Rect (lit "ME") (mkcoord 30 10) (mkcoord 45 40))).
    { apply (says_rec (lit "30") (lit "10") (lit "15") (lit "30") 30 10 15 30 [] (lit "ME") (lit ")") []); try ex_number; try (unfold int32; lia);
        [constructor|repeat constructor; (discriminate || (unfold white; cbn; lia))|cbn; lia|left; reflexivity|left; reflexivity]. }
    repeat constructor.
    + exists (lit "VERSION 8.21"). split; [apply W; cbn; intuition discriminate|].
      apply says_other; [cbn; intuition discriminate| | |]; intros (t & Q); discriminate.
    + exists ex_line5. split; [apply W; cbn; intuition discriminate|exact R].
Qed.
Lemma ex_shapes5_ok : shapes ex_contents5 ex_shapes5.
Proof. apply shapes_nothing, shapes_known; [vm_compute; tauto|constructor]. Qed.

(** The bitmap of the window is not exactly the block: a rectangle that ends just before the window leaves its mark in the
    block. *)
Theorem C138_exactly_the_block_refuted :
  exists text cs l lay mn mx mn' mx' R C r c a b m m' i j,
  file_says text cs /\ shapes cs l /\ fine_box mn mx R C /\ fine_box mn' mx' r c /\ window_of mn mx R C mn' mx' r c a b /\
  (forall p q, In (23, p, q) l -> meets mn mx p q ->
     manageable mn mx R C (left_top p q) (right_bottom p q) /\ starts_inside mn mx (left_top p q)) /\
  (forall p q, In (23, p, q) l -> meets mn' mx' p q ->
     manageable mn' mx' r c (left_top p q) (right_bottom p q) /\ starts_inside mn' mx' (left_top p q)) /\
  ex_read text = Some lay /\ ex_bitmap lay 23 mn mx R C = Some (m, Ok true) /\ ex_bitmap lay 23 mn' mx' r c = Some (m', Ok true) /\
  (i < r)%nat /\ (j < c)%nat /\ Get m (a + i) (b + j) = Ok true /\ Get m' i j = Ok false.
Proof.
  exists ex_file5, ex_contents5, ex_shapes5. eexists ?[lay].
  exists (mkcoord 0 0), (mkcoord 100 100), (mkcoord 50 0), (mkcoord 100 50), 10%nat, 10%nat, 5%nat, 5%nat, 5%nat, 5%nat. eexists ?[m], ?[m'], 1%nat, 0%nat.
  split; [exact ex_says5|]. split; [exact ex_shapes5_ok|].
  split; [unfold fine_box, coord32, int32; cbn [cx cy]; lia|]. split; [unfold fine_box, coord32, int32; cbn [cx cy]; lia|].
  split; [unfold window_of; cbn [cx cy]; lia|]. split.
  { intros p q [Q|[]] _. injection Q as <- <-. apply (ex_box_drawable 30 10 45 40); lia. }
  split.
  { intros p q [Q|[]] (x & y & X1 & _ & X2 & _). injection Q as <- <-. cbn [cx cy] in *. lia. }
  split; [vm_compute; reflexivity|]. split; [vm_compute; reflexivity|]. split; [vm_compute; reflexivity|].
  split; [lia|]. split; [lia|]. split; vm_compute; reflexivity.
Qed.

Example C138_hypotheses_met :
  let mn := mkcoord 0 0 in let mx := mkcoord 100 100 in let mn' := mkcoord 20 0 in let mx' := mkcoord 80 60 in
  file_says ex_file5 ex_contents5 /\ shapes ex_contents5 ex_shapes5 /\ GetReader (ex_fs ex_file5) ex_name = Some ex_reader /\ encodable ex_name /\
  fine_box mn mx 10 10 /\ fine_box mn' mx' 6 6 /\ window_of mn mx 10 10 mn' mx' 6 6 4 2 /\
  (forall p q, In (23, p, q) ex_shapes5 -> meets mn mx p q ->
     manageable mn mx 10 10 (left_top p q) (right_bottom p q) /\ starts_inside mn mx (left_top p q)) /\
  (forall p q, In (23, p, q) ex_shapes5 -> meets mn' mx' p q ->
     manageable mn' mx' 6 6 (left_top p q) (right_bottom p q) /\ starts_inside mn' mx' (left_top p q)) /\
  meets mn' mx' (mkcoord 30 10) (mkcoord 45 40) /\
  (forall p q, In (23, p, q) ex_shapes5 -> In (left_top p q, right_bottom p q) [(mkcoord 30 40, mkcoord 45 10)]) /\
  Forall oriented [(mkcoord 30 40, mkcoord 45 10)] /\
  exists lay m m', ex_read ex_file5 = Some lay /\ ex_bitmap lay 23 mn mx 10 10 = Some (m, Ok true) /\ ex_bitmap lay 23 mn' mx' 6 6 = Some (m', Ok true) /\
    Get m 6 3 = Ok true /\ Get m' 2 1 = Ok true.
Proof.
  cbv zeta. split; [exact ex_says5|]. split; [exact ex_shapes5_ok|]. split; [vm_compute; reflexivity|]. split; [exact ex_encodable|].
  split; [unfold fine_box, coord32, int32; cbn [cx cy]; lia|]. split; [unfold fine_box, coord32, int32; cbn [cx cy]; lia|].
  split; [unfold window_of; cbn [cx cy]; lia|]. split.
  { intros p q [Q|[]] _. injection Q as <- <-. apply (ex_box_drawable 30 10 45 40); lia. }
  split.
  { intros p q [Q|[]] _. injection Q as <- <-.
    unfold manageable, starts_inside, coord32, int32, differences_fit, box_workspace, columns, rows, left_top, right_bottom, int32.
    cbn [cx cy leftTop rightBot]. rewrite !INR_IZR_INZ. change (Z.of_nat 6) with 6.
    repeat match goal with |- context [IZR (?a - ?b)] => let x := eval vm_compute in (a - b) in change (IZR (a - b)) with (IZR x) end.
    repeat split; try lia; change (2 ^ 30) with 1073741824; lra. }
  split.
  { exists 30, 10. cbn [cx cy]. lia. }
  split.
  { intros p q [Q|[]]. injection Q as <- <-. left. reflexivity. }
  split; [constructor; [split; cbn [fst snd cx cy]; lia|constructor]|].
  do 3 eexists. split; [vm_compute; reflexivity|]. split; [vm_compute; reflexivity|]. split; [vm_compute; reflexivity|]. split; vm_compute; reflexivity.
Qed.

Print Assumptions C138_windows_of_layouts.
Print Assumptions C138_windows_of_files.
Print Assumptions C138_score_of_a_window.
Print Assumptions C138_exactly_the_block_refuted.
