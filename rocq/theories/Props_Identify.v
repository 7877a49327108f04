(** C84 - C86: identifying layouts by their bitmaps and hashes. *)
From Coq Require Import Reals Lra Lia Permutation.
From Verif Require Import Prelude P_Prelude M_LayoutData M_Converter S_Converter M_Double M_Vector2D M_BitMatrix S_Matrix P_BitMatrix P_Cells
  M_Base64 M_Hash S_Hash P_Hash Props_Hash
  M_Zond S_Zond M_Generator S_Generator P_Generator Props_Generator S_EndToEnd P_EndToEnd Props_EndToEnd
  M_Scanf M_Msk S_Msk P_Scanf P_Msk P_MskFile P_MskFatal P_MskRead Props_Msk S_MskBitmap Props_MskBitmap S_Identify P_Identify P_Zond.
Local Open Scope Z_scope.

Lemma nonempty_of A r c : arows A = r -> acols A = c -> (0 < r)%nat -> (0 < c)%nat -> nonempty A.
Proof. intros <- <- Hr Hc. split; assumption. Qed.

(** ** C84 *)
(** Two layouts (any selections of layers, any histories) whose candidates are the same objects -
    in whatever order, however often repeated: if the bitmap of one is made so is that of the
    other, with the same cells, and they have the same hash. *)
Theorem C84_same_objects_same_bitmap_and_hash :
  forall M M' calls calls' g g' heap libs libs' L L' mn mx v v' al al' stack r c items items' m,
  history M gen_new calls = Some g -> history M' gen_new calls' = Some g' ->
  in_force calls (Live (mklayout heap libs) L mn mx) -> in_force calls' (Live (mklayout heap libs') L' mn mx) ->
  candidates L libs items -> candidates L' libs' items' -> same_objects items items' ->
  memory_ok al r c -> memory_ok al' r c -> (0 < r)%nat -> (0 < c)%nat ->
  result (Process (Some v) al stack g r c) = (m, Ok true) ->
  exists m', result (Process (Some v') al' stack g' r c) = (m', Ok true) /\ same_matrix m m' /\
    (forall al2, memory_ok al2 r c -> EncodeHash al2 m = EncodeHash al2 m').
Proof.
  intros M M' calls calls' g g' heap libs libs' L L' mn mx v v' al al' stack r c items items' m H H' F F' Hi Hi' SO Hm Hm' Hr Hc P.
  rewrite (live_process v al stack g r c _ _ _ _ (in_force_agrees _ _ _ _ F H) Hr Hc Hm) in P.
  rewrite (live_process v' al' stack g' r c _ _ _ _ (in_force_agrees _ _ _ _ F' H') Hr Hc Hm').
  destruct (core_set stack heap libs libs' _ L L' r c m items items' Hi Hi' (fun x => iff_sym (SO x)) P) as (m' & P' & A & S & S' & Ar & Ac).
  exists m'. split; [exact P'|]. split; [exists A; split; assumption|].
  intros al2 Hm2. apply (C37_hash_depends_on_visible_bits_only al2 m m' A S S'); [exact (nonempty_of A r c Ar Ac Hr Hc)|].
  rewrite Ar, Ac. exact Hm2.
Qed.

(** Two bitmaps with the same hash have the same size and the same cells, whatever layouts they
    were made from. *)
Theorem C84_same_hash_same_bitmap :
  forall M M' calls calls' g g' d d' L L' mn mx mn' mx' v v' al al' al2 stack stack' r c r' c' m m' h,
  history M gen_new calls = Some g -> history M' gen_new calls' = Some g' ->
  in_force calls (Live d L mn mx) -> in_force calls' (Live d' L' mn' mx') ->
  memory_ok al r c -> memory_ok al' r' c' -> memory_ok al2 r c -> memory_ok al2 r' c' ->
  (0 < r)%nat -> (0 < c)%nat -> (0 < r')%nat -> (0 < c')%nat ->
  Z.of_nat r < 2 ^ 32 -> Z.of_nat c < 2 ^ 32 -> Z.of_nat r' < 2 ^ 32 -> Z.of_nat c' < 2 ^ 32 ->
  result (Process (Some v) al stack g r c) = (m, Ok true) -> result (Process (Some v') al' stack' g' r' c') = (m', Ok true) ->
  EncodeHash al2 m = Ok h -> EncodeHash al2 m' = Ok h ->
  r = r' /\ c = c' /\ same_matrix m m'.
Proof.
  intros M M' calls calls' g g' d d' L L' mn mx mn' mx' v v' al al' al2 stack stack' r c r' c' m m' h
    H H' F F' Hm Hm' Hm1 Hm2 Hr Hc Hr' Hc' Lr Lc Lr' Lc' P P' E E'. destruct d as [heap libs], d' as [heap' libs'].
  destruct (C52_every_layout_has_its_candidates L libs) as (items & Hi). destruct (C52_every_layout_has_its_candidates L' libs') as (items' & Hi').
  destruct (C52_the_bitmap_is_the_union _ _ _ _ _ _ _ _ _ _ _ _ _ _ _ H F Hm Hr Hc Hi P) as (_ & A & _ & S & Ar & Ac & _).
  destruct (C52_the_bitmap_is_the_union _ _ _ _ _ _ _ _ _ _ _ _ _ _ _ H' F' Hm' Hr' Hc' Hi' P') as (_ & B & _ & S' & Br & Bc & _).
  destruct (C37_equal_hashes_equal_matrices al2 m m' A B h S S') as (Q1 & Q2 & Q3); try (rewrite ?Ar, ?Ac, ?Br, ?Bc; assumption);
    [exact (nonempty_of A r c Ar Ac Hr Hc)|exact (nonempty_of B r' c' Br Bc Hr' Hc')|].
  split; [congruence|]. split; [congruence|]. exists A. split; [exact S|]. eapply shows_ext; [exact S'|].
  split; [congruence|]. split; [congruence|]. intros i j Hi0 Hj0. rewrite <- Q3; first [reflexivity|congruence|lia].
Qed.

(** ** C85 *)
Lemma msk_items pl fs name rd text cs l n rd' d :
  GetReader fs name = Some rd -> encodable name -> fs (narrow name) = Some text ->
  file_says text cs -> shapes cs l -> l <> [] -> n <> -5 ->
  Read pl fs rd (Some no_layout) = Ok (rd', Some d, true) ->
  exists items, candidates [n] (ld_libraries d) items /\
    forall item, In (Some item) items <-> exists p q, In (n, p, q) l /\ item = box n p q.
Proof.
  intros G He F S Sh Hl Hn R.
  apply C62_format_detection in G. destruct G as (-> & _ & _).
  destruct (C58_well_formed_files pl fs (mkreader name false false) no_layout text cs l eq_refl F He eq_refl S Sh Hl)
    as (rd1 & d1 & lib & el & R1 & D1 & D2 & _ & _ & DP).
  pose proof (eq_trans (eq_sym R) R1) as Q. injection Q as <- <-.
  destruct (C59_layers_hold_the_objects pl fs (mkreader name false false) no_layout text rd' d eq_refl F eq_refl R) as (lib' & el' & D1' & D2' & LH).
  rewrite D1 in D1'. injection D1' as <-. rewrite D2 in D2'. injection D2' as <-.
  destruct (msk_candidates n lib _ Hn LH) as (items & HC & HI). exists items. rewrite D1. split; [exact HC|].
  intros item. rewrite HI. split.
  - intros (A & g' & [= <-] & B). destruct (forall2_in_r _ _ _ _ DP A) as (((n', p), q) & X & Y). pose proof (depicted_box _ _ _ _ Y) as Z. injection Z as ->.
    cbn in B. subst n'. eauto.
  - intros (p & q & X & ->). destruct (forall2_in_l _ _ _ _ DP X) as (o & A & Y). pose proof (depicted_box _ _ _ _ Y). subst o.
    split; [exact A|]. exists (box n p q). split; reflexivity.
Qed.

Lemma init_live d n mn mx g : Init gen_new (Some d) [n] mn mx = (g, Ok tt) ->
  history (mkmachine None infinite_memory 0) gen_new [CInit (Some d) [n] mn mx] = Some g /\
  in_force [CInit (Some d) [n] mn mx] (Live d [n] mn mx).
Proof.
  intros EI. split; [cbn [history]; rewrite EI; reflexivity|].
  apply (in_force_next [] Fresh); [constructor|]. apply next_init; [discriminate|].
  unfold Init in EI. cbn [gen_new gen_fragments V_not orb] in EI. unfold SetAngleCoords in EI. cbn [cx cy] in EI.
  unfold ordered_box. destruct (Z.ltb_spec (cx mx) (cx mn)) as [Q|Q]; destruct (Z.ltb_spec (cy mx) (cy mn)) as [Q'|Q']; cbn [orb] in EI;
    first [lia | apply (f_equal snd) in EI; cbn [snd] in EI; discriminate EI].
Qed.

(** Two well-formed MSK files - whatever their names, comments, titles, the order and number of
    their lines, and their other layers - with the same rectangles on layer n: the bitmaps of
    that layer have the same cells and the same hash. *)
Theorem C85_files_with_the_same_shapes :
  forall pl pl' fs fs' name name' rd rd' text text' cs cs' l l' n rd1 rd2 d d' heap mn mx g g' v v' al al' stack r c m,
  GetReader fs name = Some rd -> encodable name -> fs (narrow name) = Some text ->
  GetReader fs' name' = Some rd' -> encodable name' -> fs' (narrow name') = Some text' ->
  file_says text cs -> shapes cs l -> file_says text' cs' -> shapes cs' l' -> l <> [] -> l' <> [] -> n <> -5 ->
  (forall p q, In (n, p, q) l <-> In (n, p, q) l') ->
  Read pl fs rd (Some no_layout) = Ok (rd1, Some d, true) -> Read pl' fs' rd' (Some no_layout) = Ok (rd2, Some d', true) ->
  Init gen_new (Some (mklayout heap (ld_libraries d))) [n] mn mx = (g, Ok tt) ->
  Init gen_new (Some (mklayout heap (ld_libraries d'))) [n] mn mx = (g', Ok tt) ->
  memory_ok al r c -> memory_ok al' r c -> (0 < r)%nat -> (0 < c)%nat ->
  result (Process (Some v) al stack g r c) = (m, Ok true) ->
  exists m', result (Process (Some v') al' stack g' r c) = (m', Ok true) /\ same_matrix m m' /\
    (forall al2, memory_ok al2 r c -> EncodeHash al2 m = EncodeHash al2 m').
Proof.
  intros pl pl' fs fs' name name' rd rd' text text' cs cs' l l' n rd1 rd2 d d' heap mn mx g g' v v' al al' stack r c m
    G He F G' He' F' S Sh S' Sh' Hl Hl' Hn E R R' I I' Hm Hm' Hr Hc P.
  destruct (msk_items _ _ _ _ _ _ _ n _ _ G He F S Sh Hl Hn R) as (items & C & IT).
  destruct (msk_items _ _ _ _ _ _ _ n _ _ G' He' F' S' Sh' Hl' Hn R') as (items' & C' & IT').
  destruct (init_live _ _ _ _ _ I) as (H1 & H2). destruct (init_live _ _ _ _ _ I') as (H1' & H2').
  eapply (C84_same_objects_same_bitmap_and_hash _ _ _ _ g g' heap _ _ _ _ mn mx v v' al al' stack); try eassumption.
  intros x. rewrite IT, IT'. split; intros (p & q & X & Y); exists p, q; (split; [apply E, X|exact Y]).
Qed.

(** ** C86 *)
(** A layout of rectangles and polygons and the box are moved by the vector v: when every
    rectangle contains the box or ends a cell short of one of its edges, Process does the same
    on both - the same matrix, the same outcome. *)
Theorem C86_moving_layout_and_box :
  forall M M' calls calls' g g' heap heap' libs libs' L L' mn mx w v v' al al' stack stack' r c items,
  history M gen_new calls = Some g -> history M' gen_new calls' = Some g' ->
  in_force calls (Live (mklayout heap libs) L mn mx) -> in_force calls' (Live (mklayout heap' libs') L' (moved w mn) (moved w mx)) ->
  fine_box mn mx r c -> fine_box (moved w mn) (moved w mx) r c ->
  candidates L libs items -> candidates L' libs' (map (moved_item w) items) -> Forall plain items ->
  (forall i lt rb, In (Some i) items -> g_type i = GTrectangle -> overlaps (box_workspace mn mx) i -> corners i lt rb ->
     coord32 lt /\ coord32 rb /\ coord32 (moved w lt) /\ coord32 (moved w rb) /\ decided mn mx r c lt rb) ->
  memory_ok al r c -> memory_ok al' r c ->
  result (Process (Some v) al stack g r c) = result (Process (Some v') al' stack' g' r c).
Proof.
  intros M M' calls calls' g g' heap heap' libs libs' L L' mn mx w v v' al al' stack stack' r c items H H' F F' FB FB' Hi Hi' Pl HD Hm Hm'.
  pose proof FB as (_ & _ & _ & _ & Hr & Hc).
  rewrite (live_process v al stack g r c _ _ _ _ (in_force_agrees _ _ _ _ F H) ltac:(lia) ltac:(lia) Hm).
  rewrite (live_process v' al' stack' g' r c _ _ _ _ (in_force_agrees _ _ _ _ F' H') ltac:(lia) ltac:(lia) Hm').
  symmetry. exact (core_moved w stack stack' heap heap' libs libs' L L' mn mx r c items FB FB' Hi Hi' Pl HD).
Qed.

(** So for an MSK file whose rectangles on layer n are those of another, moved. *)
Theorem C86_moved_files :
  forall pl pl' fs fs' name name' rd rd' text text' cs cs' l l' n rd1 rd2 d d' heap heap' mn mx w g g' v v' al al' stack stack' r c m,
  GetReader fs name = Some rd -> encodable name -> fs (narrow name) = Some text ->
  GetReader fs' name' = Some rd' -> encodable name' -> fs' (narrow name') = Some text' ->
  file_says text cs -> shapes cs l -> file_says text' cs' -> shapes cs' l' -> l <> [] -> l' <> [] -> n <> -5 ->
  (forall p q, In (n, p, q) l <-> In (n, moved w p, moved w q) l') ->
  Read pl fs rd (Some no_layout) = Ok (rd1, Some d, true) -> Read pl' fs' rd' (Some no_layout) = Ok (rd2, Some d', true) ->
  Init gen_new (Some (mklayout heap (ld_libraries d))) [n] mn mx = (g, Ok tt) ->
  Init gen_new (Some (mklayout heap' (ld_libraries d'))) [n] (moved w mn) (moved w mx) = (g', Ok tt) ->
  fine_box mn mx r c -> fine_box (moved w mn) (moved w mx) r c ->
  (forall p q, In (n, p, q) l -> meets mn mx p q ->
     coord32 p /\ coord32 q /\ coord32 (moved w p) /\ coord32 (moved w q) /\ decided mn mx r c (left_top p q) (right_bottom p q)) ->
  memory_ok al r c -> memory_ok al' r c ->
  result (Process (Some v) al stack g r c) = (m, Ok true) ->
  exists m', result (Process (Some v') al' stack' g' r c) = (m', Ok true) /\ same_matrix m m' /\
    (forall al2, memory_ok al2 r c -> EncodeHash al2 m = EncodeHash al2 m').
Proof.
  intros pl pl' fs fs' name name' rd rd' text text' cs cs' l l' n rd1 rd2 d d' heap heap' mn mx w g g' v v' al al' stack stack' r c m
    G He F G' He' F' S Sh S' Sh' Hl Hl' Hn E R R' I I' FB FB' HD Hm Hm' P.
  pose proof FB as (_ & _ & _ & _ & Hr & Hc).
  destruct (msk_items _ _ _ _ _ _ _ n _ _ G He F S Sh Hl Hn R) as (items & C & IT).
  destruct (msk_items _ _ _ _ _ _ _ n _ _ G' He' F' S' Sh' Hl' Hn R') as (items' & C' & IT').
  destruct (init_live _ _ _ _ _ I) as (H1 & H2). destruct (init_live _ _ _ _ _ I') as (H1' & H2').
  set (lib := mklibrary [] [] [mklayer n 0 [] (map (moved_item w) items)] (mkcoord 0 0) (mkcoord 0 0)).
  assert (CM : candidates [n] [lib] (map (moved_item w) items)).
  { rewrite <- (app_nil_r (map (moved_item w) items)).
    apply (candidates_some [n] lib (mklayer n 0 [] (map (moved_item w) items)) [] []); [|constructor].
    exists [], []. split; [reflexivity|]. split; [left; reflexivity|]. intros x []. }
  assert (OB : ordered_box (moved w mn) (moved w mx)) by (destruct FB' as (_ & _ & A & B & _); unfold ordered_box; lia).
  destruct (Init gen_new (Some (mklayout heap' [lib])) [n] (moved w mn) (moved w mx)) as (g2 & o) eqn:E2.
  assert (o = Ok tt).
  { pose proof (C48_first_init (mkmachine None infinite_memory 0) [] gen_new (mklayout heap' [lib]) n [] (moved w mn) (moved w mx) eq_refl (Forall_nil _)) as (Q & _).
    specialize (Q OB). rewrite E2 in Q. exact Q. }
  subst o. destruct (init_live _ _ _ _ _ E2) as (H3 & H4).
  assert (P2 : result (Process (Some v') al' stack' g2 r c) = (m, Ok true)).
  { rewrite <- P. symmetry.
    eapply (C86_moving_layout_and_box _ _ _ _ g g2 heap heap' _ _ _ _ mn mx w v v' al al' stack stack'); try eassumption.
    - apply Forall_forall. intros [i|] Hx; [|exact Logic.I]. apply IT in Hx. destruct Hx as (p & q & _ & ->). split; discriminate.
    - intros i lt rb Hx T Ov (K1 & K2). apply IT in Hx. destruct Hx as (p & q & X & ->). cbn in K1, K2. injection K1 as <-. injection K2 as <-.
      destruct (HD p q X (overlaps_meets _ _ _ _ _ _ _ FB Ov)) as ((A1 & A2) & (A3 & A4) & (A5 & A6) & (A7 & A8) & D).
      unfold coord32, moved, left_top, right_bottom in *. cbn [cx cy] in *. tauto. }
  eapply (C84_same_objects_same_bitmap_and_hash _ _ _ _ g2 g' heap' _ _ _ _ (moved w mn) (moved w mx) v' v' al' al' stack'); try eassumption; try lia.
  intros x. rewrite IT'. split.
  - intros Hx. apply in_map_iff in Hx. destruct Hx as ([i|] & Hx & Hi); [|discriminate Hx].
    apply IT in Hi. destruct Hi as (p & q & X & ->). injection Hx as <-.
    exists (moved w p), (moved w q). split; [apply E, X|].
    unfold box, moved_geom, moved. cbn [g_type g_layer g_coords g_min g_max g_class map cx cy]. f_equal; f_equal; lia.
  - intros (p & q & X & ->). apply in_map_iff.
    set (w' := mkcoord (- cx w) (- cy w)).
    assert (M1 : forall a, moved w (moved w' a) = a) by (intros [x y]; unfold moved, w'; cbn [cx cy]; f_equal; lia).
    exists (Some (box n (moved w' p) (moved w' q))). split.
    + cbn [moved_item option_map]. f_equal. rewrite <- (M1 p), <- (M1 q) at 2.
      unfold box, moved_geom, moved. cbn [g_type g_layer g_coords g_min g_max g_class map cx cy]. f_equal; f_equal; lia.
    + apply IT. exists (moved w' p), (moved w' q). split; [|reflexivity]. apply E. rewrite !M1. exact X.
Qed.

(** Not so for a rectangle that ends exactly half a cell before an edge and begins outside of the
    box: near the origin it aborts the bitmap, at a distance of 2^30 it is taken to cover the box
    (the accuracy 1e-13 vanishes in the rounding of the coordinates). *)
Definition ex_layer (items : list (option geom)) : layout :=
  mklayout [] [mklibrary [] [] [mklayer 5 0 [] items] (mkcoord 0 0) (mkcoord 0 0)].
Definition ex_bitmap (lay : layout) (n : Z) (mn mx : coord) (r c : nat) : option (bm * res bool) :=
  option_map (fun g => result (Process (Some 1) infinite_memory 10 g r c)) (history ex_machine gen_new [CInit (Some lay) [n] mn mx]).

Theorem C86_moving_never_matters_refuted : exists m,
  let item := ex_gen_rect 5 (-5) (-1) 19 21 in let mn := mkcoord 0 0 in let mx := mkcoord 20 20 in let v := mkcoord (2 ^ 30) 0 in
  option_map snd (ex_bitmap (ex_layer [Some item]) 5 mn mx 10 10) = Some (Throw InvalidArgument) /\
  ex_bitmap (ex_layer [moved_item v (Some item)]) 5 (moved v mn) (moved v mx) 10 10 = Some (m, Ok true) /\
  Get m 0 0 = Ok true /\ Get m 9 9 = Ok true.
Proof.
  eexists. cbv zeta. split; [vm_compute; reflexivity|]. split; [vm_compute; reflexivity|]. split; vm_compute; reflexivity.
Qed.

(** Two overlapping rectangles; the second layout repeats one and reverses the order. *)
Definition ex_a : geom := ex_gen_rect 5 30 30 80 80.
Definition ex_b : geom := ex_gen_rect 5 10 20 40 50.
Example C84_hypotheses_met : exists m m' h,
  let L1 := ex_layer [Some ex_a; Some ex_b] in let L2 := ex_layer [Some ex_b; None; Some ex_a; Some ex_b] in
  same_objects [Some ex_a; Some ex_b] [Some ex_b; None; Some ex_a; Some ex_b] /\
  candidates [5] (lay_libraries L1) [Some ex_a; Some ex_b] /\ candidates [5] (lay_libraries L2) [Some ex_b; None; Some ex_a; Some ex_b] /\
  ex_bitmap L1 5 (mkcoord 0 0) (mkcoord 100 100) 10 10 = Some (m, Ok true) /\
  ex_bitmap L2 5 (mkcoord 0 0) (mkcoord 100 100) 10 10 = Some (m', Ok true) /\
  EncodeHash infinite_memory m = Ok h /\ EncodeHash infinite_memory m' = Ok h.
Proof.
  do 3 eexists. cbv zeta. split; [intros g; split; intros H; cbn [In] in *; repeat destruct H as [H|H]; try discriminate H; auto; destruct H|].
  split; [apply candidates_items; reflexivity|]. split; [apply candidates_items; reflexivity|].
  split; [vm_compute; reflexivity|]. split; [vm_compute; reflexivity|]. split; vm_compute; reflexivity.
Qed.

(** The file of Props_Msk and another with the same metal (23) rectangle. *)
Definition ex_file2 : list byte := lit "VERSION 8.21" ++ nl ++ lit "REC(10,20,30,40,ME)" ++ nl ++ lit "REC(10,20,30,40,ME)".
Lemma ex_says2 : file_says ex_file2 [Nothing; Rect (lit "ME") (mkcoord 10 20) (mkcoord 40 60); Rect (lit "ME") (mkcoord 10 20) (mkcoord 40 60)].
Proof.
  exists [lit "VERSION 8.21"; lit "REC(10,20,30,40,ME)"; lit "REC(10,20,30,40,ME)"]. split.
  - unfold ex_file2, nl. change (?a ++ [newline] ++ ?x) with (a ++ newline :: x).
    apply lines_more; [cbn; intuition discriminate|]. change (?a ++ [newline] ++ ?x) with (a ++ newline :: x).
    apply lines_more; [cbn; intuition discriminate|]. apply lines_last; [discriminate|cbn; intuition discriminate].
  - assert (W : forall l, ~ In return_char l -> without_returns l l).
    { induction l as [|c l IH]; intros H; [repeat constructor|]. cbn in H. constructor; [intros Q; apply H; auto|apply IH; tauto]. }
    assert (R : says (lit "REC(10,20,30,40,ME)") (Rect (lit "ME") (mkcoord 10 20) (mkcoord 40 60))).
    { apply (says_rec (lit "10") (lit "20") (lit "30") (lit "40") 10 20 30 40 [] (lit "ME") (lit ")") []); try ex_number; try (unfold int32; lia);
        [constructor|repeat constructor; (discriminate || (unfold white; cbn; lia))|cbn; lia|left; reflexivity|left; reflexivity]. }
    repeat constructor.
    + exists (lit "VERSION 8.21"). split; [apply W; cbn; intuition discriminate|].
      apply says_other; [cbn; intuition discriminate| | |]; intros (t & Q); discriminate.
    + exists (lit "REC(10,20,30,40,ME)"). split; [apply W; cbn; intuition discriminate|exact R].
    + exists (lit "REC(10,20,30,40,ME)"). split; [apply W; cbn; intuition discriminate|exact R].
Qed.
Definition ex_read (text : list byte) : option layout :=
  match Read ex_platform (ex_fs text) ex_reader (Some no_layout) with Ok (_, Some d, true) => Some (mklayout [] (ld_libraries d)) | _ => None end.
Definition ex_shapes2 : list (Z * coord * coord) := [(23, mkcoord 10 20, mkcoord 40 60); (23, mkcoord 10 20, mkcoord 40 60)].

Example C85_hypotheses_met :
  (exists cs, file_says ex_file cs /\ shapes cs ex_shapes) /\ (exists cs, file_says ex_file2 cs /\ shapes cs ex_shapes2) /\
  (forall p q, In (23, p, q) ex_shapes <-> In (23, p, q) ex_shapes2) /\
  GetReader (ex_fs ex_file) ex_name = Some ex_reader /\ GetReader (ex_fs ex_file2) ex_name = Some ex_reader /\ encodable ex_name /\
  exists lay lay' m m', ex_read ex_file = Some lay /\ ex_read ex_file2 = Some lay' /\
    ex_bitmap lay 23 (mkcoord 0 0) (mkcoord 100 100) 10 10 = Some (m, Ok true) /\
    ex_bitmap lay' 23 (mkcoord 0 0) (mkcoord 100 100) 10 10 = Some (m', Ok true) /\ Get m' 5 2 = Ok true /\ Get m' 5 6 = Ok false.
Proof.
  split; [exists ex_contents; split; [exact ex_says|exact ex_shapes_ok]|]. split.
  { eexists. split; [exact ex_says2|]. unfold ex_shapes2. apply shapes_nothing, shapes_known; [unfold msk_layers; cbn [In]; tauto|].
    apply shapes_known; [unfold msk_layers; cbn [In]; tauto|constructor]. }
  split.
  { intros p q. unfold ex_shapes, ex_shapes2. cbn [In]. split; intros H.
    - destruct H as [H|[H|[H|[]]]]; [discriminate H|auto|discriminate H].
    - destruct H as [H|[H|[]]]; auto. }
  split; [vm_compute; reflexivity|]. split; [vm_compute; reflexivity|]. split; [exact ex_encodable|].
  do 4 eexists. do 5 (split; [vm_compute; reflexivity|]). vm_compute. reflexivity.
Qed.

(** The layout and the box moved by (1000, -7). *)
Example C86_hypotheses_met :
  let mn := mkcoord 0 0 in let mx := mkcoord 100 100 in let w := mkcoord 1000 (-7) in let items := [Some ex_a; Some ex_b] in
  fine_box mn mx 10 10 /\ fine_box (moved w mn) (moved w mx) 10 10 /\ Forall plain items /\
  candidates [5] (lay_libraries (ex_layer items)) items /\
  candidates [5] (lay_libraries (ex_layer (map (moved_item w) items))) (map (moved_item w) items) /\
  (forall i lt rb, In (Some i) items -> g_type i = GTrectangle -> overlaps (box_workspace mn mx) i -> corners i lt rb ->
     coord32 lt /\ coord32 rb /\ coord32 (moved w lt) /\ coord32 (moved w rb) /\ decided mn mx 10 10 lt rb) /\
  exists m, ex_bitmap (ex_layer items) 5 mn mx 10 10 = Some (m, Ok true) /\
    ex_bitmap (ex_layer (map (moved_item w) items)) 5 (moved w mn) (moved w mx) 10 10 = Some (m, Ok true).
Proof.
  intros mn mx w items. split; [exact ex_fine|]. split; [unfold fine_box, coord32, int32, moved; cbn [cx cy mn mx w]; lia|].
  split; [repeat constructor; discriminate|]. split; [apply candidates_items; reflexivity|]. split; [apply candidates_items; reflexivity|].
  split; [|eexists; split; vm_compute; reflexivity].
  pose proof margin_small as MS. intros i lt rb Hi _ _ (K1 & K2).
  assert (D : forall a b, cx a <= 80 -> decided mn mx 10 10 b a).
  { intros a b Q. right. right. left. unfold columns. cbn [cx cy mn mx]. rewrite !INR_IZR_INZ. change (Z.of_nat 10) with 10. change (100 - 0) with 100.
    apply IZR_le in Q. rewrite Z.sub_0_r. lra. }
  destruct Hi as [[= <-]|[[= <-]|[]]]; cbn in K1, K2; injection K1 as <-; injection K2 as <-;
    unfold coord32, int32, moved; cbn [cx cy w]; (split; [lia|split; [lia|split; [lia|split; [lia|apply D; cbn; lia]]]]).
Qed.

Print Assumptions C84_same_objects_same_bitmap_and_hash.
Print Assumptions C84_same_hash_same_bitmap.
Print Assumptions C85_files_with_the_same_shapes.
Print Assumptions C86_moving_layout_and_box.
Print Assumptions C86_moved_files.
Print Assumptions C86_moving_never_matters_refuted.
