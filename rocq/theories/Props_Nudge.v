(** C133: MSK files whose numbers differ a little. *)
From Coq Require Import Reals Lra Lia.
From Flocq Require Import Core.
From Verif Require Import Prelude P_Prelude M_Double S_Double P_Double M_LayoutData M_Converter S_Converter M_Vector2D M_BitMatrix S_Matrix
  P_BitMatrix P_Cells M_Ratio S_Ratio P_Ratio Props_Ratio Props_BitMatrix P_Rank Props_Rank M_Hash S_Hash M_Zond S_Zond M_Generator S_Generator P_Generator Props_Generator
  S_EndToEnd P_EndToEnd Props_EndToEnd S_Identify P_Identify S_Degrade P_Degrade Props_Degrade S_Exact S_Wobble Props_Wobble Props_Noise
  M_Msk S_Msk P_Msk Props_Msk S_MskBitmap Props_MskBitmap Props_Identify S_Nudge.
Local Open Scope Z_scope.

Lemma on_layer_in n l lt rb : In (lt, rb) (on_layer n l) <-> exists p q, In (n, p, q) l /\ lt = left_top p q /\ rb = right_bottom p q.
Proof.
  unfold on_layer. rewrite in_flat_map. split.
  - intros (((n', p), q) & I & H). destruct (Z.eqb_spec n' n) as [->|]; [|destruct H]. destruct H as [[= <- <-]|[]]. eauto.
  - intros (p & q & I & -> & ->). exists (n, p, q). split; [exact I|]. rewrite Z.eqb_refl. left. reflexivity.
Qed.

Lemma combine_all {A B} (P : A -> B -> Prop) l l' : Forall2 P l l' ->
  (forall a, In a l <-> exists b, In (a, b) (combine l l')) /\ (forall b, In b l' <-> exists a, In (a, b) (combine l l')) /\
  (forall a b, In (a, b) (combine l l') -> P a b) /\ map fst (combine l l') = l.
Proof.
  intros H. induction H as [|a b l l' Pab H (I1 & I2 & I3 & I4)].
  { split; [|split; [|split]]; [| |intros a b []|reflexivity]; intros x; split; [intros []|intros (y & [])|intros []|intros (y & [])]. }
  cbn [combine]. split; [|split; [|split]].
  - intros x. split.
    + intros [<-|I]; [exists b; left; reflexivity|]. apply I1 in I as (y & I). exists y. right. exact I.
    + intros (y & [[= <- <-]|I]); [left; reflexivity|]. right. apply I1. exists y. exact I.
  - intros x. split.
    + intros [<-|I]; [exists a; left; reflexivity|]. apply I2 in I as (y & I). exists y. right. exact I.
    + intros (y & [[= <- <-]|I]); [left; reflexivity|]. right. apply I2. exists y. exact I.
  - intros x y [[= <- <-]|I]; [exact Pab|]. apply I3, I.
  - cbn [map fst]. now rewrite I4.
Qed.

Lemma cells_apart k e w n (x y : Z) : 0 < w -> Z.abs (x - y) <= k -> (IZR k * INR n <= e * IZR w)%R ->
  (Rabs (IZR x * INR n / IZR w - IZR y * INR n / IZR w) <= e)%R.
Proof.
  intros W D K. apply (IZR_lt 0) in W.
  replace (IZR x * INR n / IZR w - IZR y * INR n / IZR w)%R with (IZR (x - y) * INR n / IZR w)%R by (rewrite minus_IZR; field; lra).
  unfold Rdiv. rewrite !Rabs_mult. rewrite (Rabs_pos_eq (INR n)) by apply pos_INR.
  rewrite (Rabs_pos_eq (/ IZR w)) by (left; apply Rinv_0_lt_compat, W). rewrite <- abs_IZR. apply IZR_le in D.
  apply Rmult_le_reg_r with (IZR w); [exact W|]. rewrite Rmult_assoc, Rinv_l, Rmult_1_r by lra.
  eapply Rle_trans; [|exact K]. apply Rmult_le_compat_r; [apply pos_INR|exact D].
Qed.

Lemma msk_draws heap mn mx r c n l items lt rb : all_drawable mn mx r c n l ->
  (forall item, In (Some item) items <-> exists p q, In (n, p, q) l /\ item = box n p q) ->
  (draws heap mn mx items lt rb <-> In (lt, rb) (on_layer n l)).
Proof.
  intros AD IT. rewrite on_layer_in. split.
  - intros (item & s & I & Td & Ts & C). apply IT in I as (p & q & Hpq & ->).
    destruct Td as (Ov & _ & [(_ & ->)|[(wd & (Q & _) & _)|(Q & _)]]); [|discriminate Q|discriminate Q].
    destruct C as (C1 & C2). cbn in C1, C2. injection C1 as <-. injection C2 as <-. exists p, q. auto.
  - intros (p & q & I & -> & ->). exists (box n p q), (box n p q). split; [apply IT; eauto|].
    assert (Ov : overlaps (box_workspace mn mx) (box n p q)).
    { apply box_overlaps. destruct (AD p q I) as ((x & y & M1 & M2 & M3 & M4) & _). lia. }
    split; [split; [exact Ov|split; [exact Ov|left; split; [left; reflexivity|reflexivity]]]|]. split; [reflexivity|]. split; reflexivity.
Qed.
Lemma msk_drawable heap mn mx r c n l items : all_drawable mn mx r c n l ->
  (forall item, In (Some item) items <-> exists p q, In (n, p, q) l /\ item = box n p q) -> drawable heap mn mx r c items.
Proof.
  intros AD IT item s I Td Ts. apply IT in I as (p & q & Hpq & ->).
  destruct Td as (_ & _ & [(_ & ->)|[(wd & (Q & _) & _)|(Q & _)]]); [|discriminate Q|discriminate Q].
  exists (left_top p q), (right_bottom p q). split; [split; reflexivity|]. exact (proj2 (AD p q Hpq)).
Qed.

Lemma off_by_nudge k d mn mx r c a b : cx mn < cx mx -> cy mn < cy mx -> at_most_cells k d mn mx r c ->
  nudged k a b -> off_by d mn mx mn mx r c a b.
Proof.
  intros Bx By (_ & K1 & K2) (D1 & D2 & D3 & D4). unfold off_by, columns, rows.
  split; [|split; [|split]]; eapply cells_apart; try eassumption; lia.
Qed.

(** Two MSK files, with the same rectangles on layer n up to k units in each coordinate, and whatever else: the bitmaps of layer n differ in at most the cells along the edges. *)
Theorem C133_slightly_different_files :
  forall pl pl' fs fs' name name' rd rd' text text' cs cs' l l' n k d heap heap' mn mx v v' al al' al2 stack stack' r c,
  GetReader fs name = Some rd -> encodable name -> fs (narrow name) = Some text ->
  GetReader fs' name' = Some rd' -> encodable name' -> fs' (narrow name') = Some text' ->
  file_says text cs -> shapes cs l -> file_says text' cs' -> shapes cs' l' -> l <> [] -> l' <> [] -> n <> -5 ->
  Forall2 (nudged k) (on_layer n l) (on_layer n l') -> at_most_cells k d mn mx r c ->
  all_drawable mn mx r c n l -> all_drawable mn mx r c n l' ->
  memory_ok al r c -> memory_ok al' r c -> memory_ok al2 r c -> fine_box mn mx r c -> Z.of_nat r * Z.of_nat c <= 2 ^ 38 ->
  exists rd1 dt g m rd2 dt' g' m', Read pl fs rd (Some no_layout) = Ok (rd1, Some dt, true) /\
    Init gen_new (Some (mklayout heap (ld_libraries dt))) [n] mn mx = (g, Ok tt) /\ result (Process (Some v) al stack g r c) = (m, Ok true) /\
    Read pl' fs' rd' (Some no_layout) = Ok (rd2, Some dt', true) /\
    Init gen_new (Some (mklayout heap' (ld_libraries dt'))) [n] mn mx = (g', Ok tt) /\ result (Process (Some v') al' stack' g' r c) = (m', Ok true) /\
    let T := total (map (seam d mn mx r c) (on_layer n l)) in
    (forall A B, shows m A -> shows m' B -> (INR (differences A B) <= T)%R) /\
    (exists x s, Compare al2 m' m = Ok x /\ real x s /\ (1 - T / (INR r * INR c) - / IZR (2 ^ 52) <= s)%R) /\
    ((10000 * T <= INR r * INR c)%R -> bm_eq al2 m m' = Ok true).
Proof.
  intros pl pl' fs fs' name name' rd rd' text text' cs cs' l l' n k d heap heap' mn mx v v' al al' al2 stack stack' r c
    G He F G' He' F' S Sh S' Sh' Hl Hl' Hn Nu AM AD AD' Hm Hm' Hm2 FB Sz.
  destruct (C83_from_file_to_bitmap pl fs name rd text cs l n heap mn mx v al stack r c G He F S Sh Hl Hn Hm FB
    (fun p q I _ => proj2 (AD p q I))) as (rd1 & dt & g & m & R & I & P & _).
  destruct (C83_from_file_to_bitmap pl' fs' name' rd' text' cs' l' n heap' mn mx v' al' stack' r c G' He' F' S' Sh' Hl' Hn Hm' FB
    (fun p q I _ => proj2 (AD' p q I))) as (rd2 & dt' & g' & m' & R' & I' & P' & _).
  exists rd1, dt, g, m, rd2, dt', g', m'. do 6 (split; [assumption|]). cbv zeta.
  destruct (msk_items _ _ _ _ _ _ _ n _ _ G He F S Sh Hl Hn R) as (items & C & IT).
  destruct (msk_items _ _ _ _ _ _ _ n _ _ G' He' F' S' Sh' Hl' Hn R') as (items' & C' & IT').
  destruct (init_live _ _ _ _ _ I) as (H1 & H2). destruct (init_live _ _ _ _ _ I') as (H1' & H2').
  destruct (combine_all _ _ _ Nu) as (K1 & K2 & K3 & K4).
  pose proof FB as (_ & _ & Bx & By & Hr & Hc).
  assert (DA : drawn_alike d heap heap' mn mx mn mx r c items items' (combine (on_layer n l) (on_layer n l'))).
  { split; [|split].
    - intros lt rb. rewrite (msk_draws heap mn mx r c n l items lt rb AD IT). apply K1.
    - intros lt rb. rewrite (msk_draws heap' mn mx r c n l' items' lt rb AD' IT'). apply K2.
    - intros a b Q. apply (off_by_nudge k d mn mx r c a b ltac:(lia) ltac:(lia) AM). apply K3, Q. }
  assert (Eq : map (fun p => seam d mn mx r c (fst p)) (combine (on_layer n l) (on_layer n l')) = map (seam d mn mx r c) (on_layer n l)).
  { rewrite <- K4 at 2. now rewrite map_map. }
  assert (HC : forall item, In (Some item) items -> overlaps (box_workspace mn mx) item -> collectable heap stack item)
    by (intros item Q _; apply IT in Q as (p & q & _ & ->); exact Logic.I).
  assert (HC' : forall item, In (Some item) items' -> overlaps (box_workspace mn mx) item -> collectable heap' stack' item)
    by (intros item Q _; apply IT' in Q as (p & q & _ & ->); exact Logic.I).
  pose proof (msk_drawable heap mn mx r c n l items AD IT) as HD. pose proof (msk_drawable heap' mn mx r c n l' items' AD' IT') as HD'.
  destruct AM as (Dp & _). rewrite <- Eq. split; [|split].
  - destruct (C129_few_cells_differ d _ _ _ _ g g' heap heap' _ _ _ _ mn mx mn mx v v' al al' stack stack' r c items items' _
      H1 H1' H2 H2' C C' Hm Hm' FB FB HC HC' HD HD' Dp DA) as (m1 & m1' & E & E' & W).
    rewrite P in E. injection E as <-. rewrite P' in E'. injection E' as <-. exact W.
  - destruct (C132_the_score_under_noise d _ _ _ _ g g' heap heap' _ _ _ _ mn mx mn mx v v' al al' al2 stack stack' r c items items' _
      H1 H1' H2 H2' C C' Hm Hm' Hm2 FB FB ltac:(lia) HC HC' HD HD' Dp DA) as (m1 & m1' & x & s & E & E' & X1 & X2 & X3).
    rewrite P in E. injection E as <-. rewrite P' in E'. injection E' as <-. exists x, s. split; [exact X1|]. split; [exact X2|exact X3].
  - intros T. destruct (C129_small_inaccuracies_go_unnoticed d _ _ _ _ g g' heap heap' _ _ _ _ mn mx mn mx v v' al al' al2 stack stack' r c items items' _
      H1 H1' H2 H2' C C' Hm Hm' Hm2 FB FB Sz HC HC' HD HD' Dp DA T) as (m1 & m1' & E & E' & X).
    rewrite P in E. injection E as <-. rewrite P' in E'. injection E' as <-. exact X.
Qed.

(** ** A concrete case: the file of Props_Msk with a metal rectangle from (10, 20) to (40, 60), and another with one from (11, 20) to (41, 61). *)
Definition ex_line3 : list byte := lit "REC(11,20,30,41,ME)".
Definition ex_file3 : list byte := lit "VERSION 8.21" ++ nl ++ ex_line3.
Definition ex_contents3 : list content := [Nothing; Rect (lit "ME") (mkcoord 11 20) (mkcoord 41 61)].
Definition ex_shapes3 : list (Z * coord * coord) := [(23, mkcoord 11 20, mkcoord 41 61)].
Lemma ex_says3 : file_says ex_file3 ex_contents3.
Proof.
  exists [lit "VERSION 8.21"; ex_line3]. split.
  - unfold ex_file3, nl. change (?a ++ [newline] ++ ?x) with (a ++ newline :: x).
    apply lines_more; [cbn; intuition discriminate|]. apply lines_last; [discriminate|cbn; intuition discriminate].
  - assert (W : forall l, ~ In return_char l -> without_returns l l).
    { induction l as [|c l IH]; intros H; [repeat constructor|]. cbn in H. constructor; [intros Q; apply H; auto|apply IH; tauto]. }
    assert (R : says ex_line3 (Rect (lit "ME") (mkcoord 11 20) (mkcoord 41 61))).
    { apply (says_rec (lit "11") (lit "20") (lit "30") (lit "41") 11 20 30 41 [] (lit "ME") (lit ")") []); try ex_number; try (unfold int32; lia);
        [constructor|repeat constructor; (discriminate || (unfold white; cbn; lia))|cbn; lia|left; reflexivity|left; reflexivity]. }
    repeat constructor.
    + exists (lit "VERSION 8.21"). split; [apply W; cbn; intuition discriminate|].
      apply says_other; [cbn; intuition discriminate| | |]; intros (t & Q); discriminate.
    + exists ex_line3. split; [apply W; cbn; intuition discriminate|exact R].
Qed.
Lemma ex_box_drawable x1 y1 x2 y2 : 0 <= x1 -> x1 <= x2 -> x2 <= 100 -> 0 <= y1 -> y1 <= y2 -> y2 <= 100 ->
  let p := mkcoord x1 y1 in let q := mkcoord x2 y2 in
  meets (mkcoord 0 0) (mkcoord 100 100) p q /\ manageable (mkcoord 0 0) (mkcoord 100 100) 10 10 (left_top p q) (right_bottom p q) /\
  starts_inside (mkcoord 0 0) (mkcoord 100 100) (left_top p q).
Proof.
  intros X1 X2 X3 Y1 Y2 Y3 p q.
  assert (L : left_top p q = mkcoord x1 y2) by (unfold left_top, p, q; cbn [cx cy]; f_equal; lia).
  assert (R : right_bottom p q = mkcoord x2 y1) by (unfold right_bottom, p, q; cbn [cx cy]; f_equal; lia).
  rewrite L, R. split; [exists x1, y1; unfold p, q; cbn [cx cy]; lia|]. split.
  - apply ex_manageable; lia.
  - unfold starts_inside. cbn [cx cy]. lia.
Qed.

Example C133_hypotheses_met :
  file_says ex_file ex_contents /\ shapes ex_contents ex_shapes /\ file_says ex_file3 ex_contents3 /\ shapes ex_contents3 ex_shapes3 /\
  GetReader (ex_fs ex_file) ex_name = Some ex_reader /\ GetReader (ex_fs ex_file3) ex_name = Some ex_reader /\ encodable ex_name /\
  Forall2 (nudged 1) (on_layer 23 ex_shapes) (on_layer 23 ex_shapes3) /\ at_most_cells 1 (1 / 10) (mkcoord 0 0) (mkcoord 100 100) 10 10 /\
  all_drawable (mkcoord 0 0) (mkcoord 100 100) 10 10 23 ex_shapes /\ all_drawable (mkcoord 0 0) (mkcoord 100 100) 10 10 23 ex_shapes3 /\
  fine_box (mkcoord 0 0) (mkcoord 100 100) 10 10 /\
  exists lay lay' m m', ex_read ex_file = Some lay /\ ex_read ex_file3 = Some lay' /\
    ex_bitmap lay 23 (mkcoord 0 0) (mkcoord 100 100) 10 10 = Some (m, Ok true) /\
    ex_bitmap lay' 23 (mkcoord 0 0) (mkcoord 100 100) 10 10 = Some (m', Ok true) /\
    match Compare infinite_memory m' m with Ok x => dge x (dlit 41 100) | _ => false end = true.
Proof.
  split; [exact ex_says|]. split; [exact ex_shapes_ok|]. split; [exact ex_says3|]. split.
  { apply shapes_nothing, shapes_known; [vm_compute; tauto|constructor]. }
  split; [vm_compute; reflexivity|]. split; [vm_compute; reflexivity|]. split; [exact ex_encodable|]. split.
  { assert (E : on_layer 23 ex_shapes = [(mkcoord 10 60, mkcoord 40 20)]) by reflexivity.
    assert (E' : on_layer 23 ex_shapes3 = [(mkcoord 11 61, mkcoord 41 20)]) by reflexivity.
    rewrite E, E'. constructor; [|constructor]. unfold nudged. cbn [fst snd cx cy]. lia. }
  split.
  { unfold at_most_cells. cbn [cx cy]. rewrite !INR_IZR_INZ. change (Z.of_nat 10) with 10. change (100 - 0) with 100. lra. }
  split.
  { intros p q [Q|[Q|[Q|[]]]]; [discriminate Q| |discriminate Q]. injection Q as <- <-. apply ex_box_drawable; lia. }
  split.
  { intros p q [Q|[]]. injection Q as <- <-. apply ex_box_drawable; lia. }
  split; [unfold fine_box, coord32, int32; cbn [cx cy]; lia|]. do 4 eexists. split; [vm_compute; reflexivity|]. split; [vm_compute; reflexivity|].
  split; [vm_compute; reflexivity|]. split; [vm_compute; reflexivity|]. vm_compute. reflexivity.
Qed.

Print Assumptions C133_slightly_different_files.
