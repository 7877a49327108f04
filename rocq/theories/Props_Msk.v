(** C57 (MSK boxes), C58-C62, C72-C75: the MSK reader. *)
From Coq Require Import Permutation.
From Verif Require Import Prelude P_Prelude M_LayoutData M_Converter S_Converter P_Converter M_Scanf M_Msk S_Msk P_Scanf P_Msk P_MskFile P_MskFatal P_MskRead.
Local Open Scope Z_scope.

(** ** A concrete file *)
Lemma digits_by ds : ds <> [] -> forallb (fun c => (48 <=? b2z c) && (b2z c <=? 57)) ds = true -> digits ds (decimal ds).
Proof.
  intros N. destruct (exists_last N) as (t & c & ->). clear N. revert c. induction t as [|x t IH] using rev_ind; intros c H.
  - cbn in H. unfold decimal. cbn [app fold_left]. rewrite Z.mul_0_r, Z.add_0_l. constructor; lia.
  - rewrite forallb_app in H. apply andb_true_iff in H. destruct H as (H1 & H2). cbn in H2.
    unfold decimal. rewrite fold_left_app. cbn [fold_left]. apply digits_more; [apply (IH x H1)|lia|lia].
Qed.
Lemma number_by s : s <> [] -> forallb (fun c => (48 <=? b2z c) && (b2z c <=? 57)) s = true -> decimal s < 2 ^ 31 -> number s (decimal s).
Proof.
  intros N H L. pose proof (digits_by s N H) as D. pose proof (digits_nonneg _ _ D). split; [|unfold int32; lia].
  exists [], [], s, (decimal s). split; [constructor|]. split; [exact D|]. split; [reflexivity|left; split; reflexivity].
Qed.
Ltac ex_number := match goal with |- number (lit ?s) ?z => change z with (decimal (lit s)); apply number_by; [discriminate|reflexivity|reflexivity] end.

Definition nl : list byte := [newline].
Definition ex_file : list byte :=
  lit "VERSION 8.21" ++ [return_char] ++ nl ++ lit "BB(0,0,100,200)" ++ [return_char] ++ nl ++ lit "REC(10,20,30,40,ME)" ++ nl ++
  lit "REC(5,6,7,8,XX)" ++ nl ++ lit "TITLE 12 13  #REC" ++ nl ++ lit "REC( 50, 60,10,10, PO) thin".
Definition ex_contents : list content :=
  [Nothing; Bounding (mkcoord 0 0) (mkcoord 100 200); Rect (lit "ME") (mkcoord 10 20) (mkcoord 40 60);
   Rect (lit "XX") (mkcoord 5 6) (mkcoord 12 14); Nothing; Rect (lit "PO") (mkcoord 50 60) (mkcoord 60 70)].
Definition ex_shapes : list (Z * coord * coord) :=
  [(-5, mkcoord 0 0, mkcoord 100 200); (23, mkcoord 10 20, mkcoord 40 60); (13, mkcoord 50 60, mkcoord 60 70)].

Lemma ex_says : file_says ex_file ex_contents.
Proof.
  exists [lit "VERSION 8.21" ++ [return_char]; lit "BB(0,0,100,200)" ++ [return_char]; lit "REC(10,20,30,40,ME)"; lit "REC(5,6,7,8,XX)";
    lit "TITLE 12 13  #REC"; lit "REC( 50, 60,10,10, PO) thin"].
  split.
  - unfold ex_file, nl.
    change (lit "VERSION 8.21" ++ [return_char] ++ [newline] ++ ?x) with ((lit "VERSION 8.21" ++ [return_char]) ++ newline :: x).
    apply lines_more; [cbn; intuition discriminate|].
    change (lit "BB(0,0,100,200)" ++ [return_char] ++ [newline] ++ ?x) with ((lit "BB(0,0,100,200)" ++ [return_char]) ++ newline :: x).
    apply lines_more; [cbn; intuition discriminate|].
    change (lit "REC(10,20,30,40,ME)" ++ [newline] ++ ?x) with (lit "REC(10,20,30,40,ME)" ++ newline :: x).
    apply lines_more; [cbn; intuition discriminate|].
    change (lit "REC(5,6,7,8,XX)" ++ [newline] ++ ?x) with (lit "REC(5,6,7,8,XX)" ++ newline :: x).
    apply lines_more; [cbn; intuition discriminate|].
    change (lit "TITLE 12 13  #REC" ++ [newline] ++ ?x) with (lit "TITLE 12 13  #REC" ++ newline :: x).
    apply lines_more; [cbn; intuition discriminate|].
    apply lines_last; [discriminate|cbn; intuition discriminate].
  - assert (W : forall l, ~ In return_char l -> without_returns l l /\ without_returns (l ++ [return_char]) l).
    { induction l as [|c l IH]; intros H; [split; repeat constructor|]. cbn in H. destruct IH as (A & B); [tauto|].
      split; cbn [app]; constructor; (first [congruence|assumption|intuition]). }
    repeat constructor.
    + exists (lit "VERSION 8.21"). split; [apply W; cbn; intuition discriminate|].
      apply says_other; [cbn; intuition discriminate| | |]; intros (t & Q); discriminate.
    + exists (lit "BB(0,0,100,200)"). split; [apply W; cbn; intuition discriminate|].
      apply (says_bb (lit "0") (lit "0") (lit "100") (lit "200") 0 0 100 200 []); try ex_number; unfold int32; lia.
    + exists (lit "REC(10,20,30,40,ME)"). split; [apply W; cbn; intuition discriminate|].
      apply (says_rec (lit "10") (lit "20") (lit "30") (lit "40") 10 20 30 40 [] (lit "ME") (lit ")") []); try ex_number; try (unfold int32; lia);
        [constructor|repeat constructor; (discriminate || (unfold white; cbn; lia))|cbn; lia|left; reflexivity|left; reflexivity].
    + exists (lit "REC(5,6,7,8,XX)"). split; [apply W; cbn; intuition discriminate|].
      apply (says_rec (lit "5") (lit "6") (lit "7") (lit "8") 5 6 7 8 [] (lit "XX") (lit ")") []); try ex_number; try (unfold int32; lia);
        [constructor|repeat constructor; (discriminate || (unfold white; cbn; lia))|cbn; lia|left; reflexivity|left; reflexivity].
    + exists (lit "TITLE 12 13  #REC"). split; [apply W; cbn; intuition discriminate|].
      assert (N : number (lit " 12") 12).
      { split; [|unfold int32; lia]. exists (lit " "), [], (lit "12"), 12. split; [repeat constructor; left; reflexivity|].
        split; [apply (digits_by (lit "12")); [discriminate|reflexivity]|]. split; [reflexivity|left; split; reflexivity]. }
      apply (says_title (lit " 12") (lit "13") 12 13 " "%byte (lit "  ") [] (lit "REC") []); try ex_number;
        [exact N|left; reflexivity|repeat constructor; left; reflexivity|constructor|repeat constructor; (discriminate || (unfold white; cbn; lia))|discriminate|cbn; lia|left; reflexivity].
    + exists (lit "REC( 50, 60,10,10, PO) thin"). split; [apply W; cbn; intuition discriminate|].
      assert (N1 : number (lit " 50") 50).
      { split; [|unfold int32; lia]. exists (lit " "), [], (lit "50"), 50. split; [repeat constructor; left; reflexivity|].
        split; [apply (digits_by (lit "50")); [discriminate|reflexivity]|]. split; [reflexivity|left; split; reflexivity]. }
      assert (N2 : number (lit " 60") 60).
      { split; [|unfold int32; lia]. exists (lit " "), [], (lit "60"), 60. split; [repeat constructor; left; reflexivity|].
        split; [apply (digits_by (lit "60")); [discriminate|reflexivity]|]. split; [reflexivity|left; split; reflexivity]. }
      apply (says_rec (lit " 50") (lit " 60") (lit "10") (lit "10") 50 60 10 10 (lit " ") (lit "PO") (lit ")") (lit " thin")); try ex_number; try (unfold int32; lia);
        [exact N1|exact N2|repeat constructor; left; reflexivity|repeat constructor; (discriminate || (unfold white; cbn; lia))|cbn; lia|left; reflexivity|].
      right. exists " "%byte, (lit "thin"). split; [reflexivity|]. left. left. reflexivity.
Qed.

Lemma ex_shapes_ok : shapes ex_contents ex_shapes.
Proof.
  unfold ex_contents, ex_shapes. apply shapes_nothing, shapes_bounding. apply shapes_known; [unfold msk_layers; cbn [In]; tauto|].
  apply shapes_unknown; [intros n H; unfold msk_layers in H; cbn [In] in H; repeat (destruct H as [H|H]; [discriminate|]); destruct H|].
  apply shapes_nothing. apply shapes_known; [unfold msk_layers; cbn [In]; tauto|constructor].
Qed.

(** "chip.msk" *)
Definition ex_name : list Z := map b2z (lit "dir/chip.msk").
Definition ex_fs (text : list byte) : file_system := fun n => if streqb n (lit "dir/chip.msk") then Some text else None.
Definition ex_reader : reader := mkreader ex_name false false.
Definition ex_platform : platform := mkplatform false (fun _ => 77).
Definition ex_data : layout_data := mkdata [] [] FFundefined.
Lemma ex_encodable : encodable ex_name.
Proof. unfold encodable, ex_name. cbn. repeat constructor; lia. Qed.

(** ** C57 *)
Theorem C57_msk_boxes : forall p q n, coord32 p -> coord32 q ->
  (int32 (cx q - cx p) -> int32 (cy q - cy p) -> exists g, FillBox new_rectangle p q n = Ok g /\ depicts (n, p, q) (Some g)) /\
  (~ (int32 (cx q - cx p) /\ int32 (cy q - cy p)) -> FillBox new_rectangle p q n = UB SignedOverflow).
Proof.
  intros p q n Hp Hq. split.
  - intros H1 H2. exists (box n p q). split; [apply FillBox_spec; auto|apply box_depicts].
  - apply FillBox_spec, Hp.
Qed.

Example C57_msk_hypotheses_met : exists g,
  FillBox new_rectangle (mkcoord 7 9) (mkcoord (-1) 20) 5 = Ok g /\ g_min g = mkcoord (-1) 9 /\ g_max g = mkcoord 7 20.
Proof. run_example. Qed.

(** ** C58 *)
(** Every file whose lines are in order, with at least one shape, is read completely. *)
Theorem C58_well_formed_files : forall pl fs r d text cs l,
  rd_open r = false -> fs (narrow (rd_name r)) = Some text -> encodable (rd_name r) -> ld_libraries d = [] ->
  file_says text cs -> shapes cs l -> l <> [] ->
  exists r' d' lib el, Read pl fs r (Some d) = Ok (r', Some d', true) /\
    ld_libraries d' = [lib] /\ lib_elements lib = [el] /\ ld_format d' = FFmsk /\ ld_name d' = rd_name r /\
    Forall2 depicts l (e_geometries el).
Proof.
  intros pl fs r d text cs l O F He D S Sh N.
  destruct (opened_cases pl (rd_name r) text d He) as (ln & en & E1 & E2 & [(u & Eu & _)|(lib & el & E & Hn & Hel & Hen & Hmn & Hmx & HL & HB)]).
  - rewrite (file_read pl text cs _ S) in Eu. discriminate.
  - pose proof (eq_trans (eq_sym E) (file_read pl text cs (new_library ln, new_element en) S)) as E'. injection E' as E'.
    pose proof (shapes_geometries pl cs l Sh (new_library ln, new_element en)) as G. rewrite <- E' in G. cbn [snd new_element e_geometries app] in G.
    destruct (read_blank pl (rd_name r) text d ln en lib el D E1 E2 E Hel HB) as (_ & R).
    destruct R as (mn & mx & _ & R). { rewrite G. destruct l; [congruence|discriminate]. }
    rewrite (read_opened pl fs r d text O F), R. eexists _, _, _, _. split; [reflexivity|]. split; [reflexivity|]. split; [reflexivity|].
    split; [reflexivity|]. split; [reflexivity|]. cbn [e_geometries]. rewrite G. apply depicts_all.
Qed.

Example C58_hypotheses_met :
  rd_open ex_reader = false /\ ex_fs ex_file (narrow (rd_name ex_reader)) = Some ex_file /\ encodable (rd_name ex_reader) /\
  ld_libraries ex_data = [] /\ file_says ex_file ex_contents /\ shapes ex_contents ex_shapes /\ ex_shapes <> [].
Proof.
  split; [reflexivity|]. split; [reflexivity|]. split; [exact ex_encodable|]. split; [reflexivity|].
  split; [exact ex_says|]. split; [exact ex_shapes_ok|discriminate].
Qed.

(** ** C59, C60 *)
(** Whatever the text: when Read returns true, the layers hold exactly the objects of the
    element, and the element's box is the bounding box of all their points. *)
Theorem C59_layers_hold_the_objects : forall pl fs r d text r' d',
  rd_open r = false -> fs (narrow (rd_name r)) = Some text -> ld_libraries d = [] ->
  Read pl fs r (Some d) = Ok (r', Some d', true) ->
  exists lib el, ld_libraries d' = [lib] /\ lib_elements lib = [el] /\ layers_hold (lib_layers lib) (e_geometries el).
Proof.
  intros pl fs r d text r' d' O F D R. rewrite (read_opened pl fs r d text O F) in R.
  destruct (ReadOpened pl (rd_name r) text d) as [d1|e|u] eqn:E; [|discriminate|discriminate]. injection R as <- <-.
  unfold ReadOpened in E. destruct (GetElemName pl (rd_name r)) as [en| |] eqn:E1; cbn [bind] in E; try discriminate.
  destruct (WcsStrToUtf8 pl (rd_name r)) as [ln| |] eqn:E2; cbn [bind] in E; try discriminate.
  destruct (for_each (getlines [] text) (new_library ln, new_element en) (ReadLine pl)) as [(lib, el)| |] eqn:E3; cbn [bind] in E; try discriminate.
  assert (Q := lines_invariant pl (fun st => (partitioned st /\ (forall o, In o (e_geometries (snd st)) -> exists g, o = Some g)) /\ lib_elements (fst st) = [])).
  destruct (Q ltac:(intros st st' S (H1 & H2); split; [exact (part_step pl st st' S H1)|destruct S as [st|p q st|nm n p q st Hin]; [exact H2| |]; destruct st; exact H2])
    (getlines [] text) (new_library ln, new_element en) (lib, el)) as ((Q1 & _) & Q2); [|exact E3|].
  { split; [|reflexivity]. split; [|intros o []]. cbn. split; [constructor|]. split; [intros ly o []|]. split; [intros [|i] j a b; discriminate|]. split; intros ly []. }
  cbn [fst] in Q2. rewrite D, Q2 in E. cbn [app] in E. unfold bound_first in E. cbn [at_ nth_error bind lib_elements] in E.
  destruct (bound_element el) as [el'| |] eqn:B; cbn [bind] in E; try discriminate. injection E as <-.
  eexists _, el'. split; [reflexivity|]. split; [reflexivity|]. cbn [lib_layers].
  unfold bound_element in B. destruct (at_ (e_geometries el) 0) as [[g0|]| |]; cbn [bind] in B; try discriminate.
  destruct (for_each _ _ _) in B; cbn [bind] in B; try discriminate. injection B as <-. cbn [e_geometries]. exact Q1.
Qed.

Theorem C60_element_bounding_box : forall pl fs r d text r' d',
  rd_open r = false -> fs (narrow (rd_name r)) = Some text -> encodable (rd_name r) -> ld_libraries d = [] ->
  Read pl fs r (Some d) = Ok (r', Some d', true) ->
  exists lib el, ld_libraries d' = [lib] /\ lib_elements lib = [el] /\ e_geometries el <> [] /\
    bounding_box (points (e_geometries el)) (e_min el) (e_max el).
Proof.
  intros pl fs r d text r' d' O F He D R. rewrite (read_opened pl fs r d text O F) in R.
  destruct (opened_cases pl (rd_name r) text d He) as (ln & en & E1 & E2 & [(u & _ & Eu)|(lib & el & E & Hn & Hel & Hen & Hmn & Hmx & HL & HB)]).
  - rewrite Eu in R. discriminate.
  - destruct (read_blank pl (rd_name r) text d ln en lib el D E1 E2 E Hel HB) as (R0 & R1).
    assert (N : e_geometries el <> []) by (intros Q; rewrite (R0 Q) in R; discriminate).
    destruct (R1 N) as (mn & mx & B & R2). rewrite R2 in R. injection R as <- <-.
    eexists _, _. split; [reflexivity|]. split; [reflexivity|]. cbn [e_geometries e_min e_max]. split; [exact N|exact B].
Qed.

(** A file that says nothing that has a shape: undefined behaviour. *)
Theorem C60_no_shape_is_undefined : forall pl fs r d text cs,
  rd_open r = false -> fs (narrow (rd_name r)) = Some text -> encodable (rd_name r) -> ld_libraries d = [] ->
  file_says text cs -> shapes cs [] -> Read pl fs r (Some d) = UB OobIndex.
Proof.
  intros pl fs r d text cs O F He D S Sh.
  destruct (opened_cases pl (rd_name r) text d He) as (ln & en & E1 & E2 & [(u & Eu & _)|(lib & el & E & Hn & Hel & Hen & Hmn & Hmx & HL & HB)]).
  - rewrite (file_read pl text cs _ S) in Eu. discriminate.
  - pose proof (eq_trans (eq_sym E) (file_read pl text cs (new_library ln, new_element en) S)) as E'. injection E' as E'.
    pose proof (shapes_geometries pl cs [] Sh (new_library ln, new_element en)) as G. rewrite <- E' in G. cbn in G.
    destruct (read_blank pl (rd_name r) text d ln en lib el D E1 E2 E Hel HB) as (R & _).
    rewrite (read_opened pl fs r d text O F), (R G). reflexivity.
Qed.

Example C59_C60_hypotheses_met : exists r' d' lib el,
  Read ex_platform (ex_fs ex_file) ex_reader (Some ex_data) = Ok (r', Some d', true) /\
  ld_libraries d' = [lib] /\ lib_elements lib = [el] /\ map l_layer (lib_layers lib) = [-5; 23; 13] /\
  e_min el = mkcoord 0 0 /\ e_max el = mkcoord 100 200 /\ e_name el = lit "chip".
Proof. run_example. Qed.

Example C60_empty_hypotheses_met : file_says (lit "VERSION 8.21") [Nothing] /\ shapes [Nothing] [] /\
  Read ex_platform (ex_fs (lit "VERSION 8.21")) ex_reader (Some ex_data) = UB OobIndex.
Proof.
  split; [|split; [repeat constructor|vm_compute; reflexivity]].
  exists [lit "VERSION 8.21"]. split; [apply lines_last; [discriminate|cbn; intuition discriminate]|].
  repeat constructor. exists (lit "VERSION 8.21"). split; [repeat constructor; discriminate|].
  apply says_other; [cbn; intuition discriminate| | |]; intros (t & Q); discriminate.
Qed.

(** ** C61 *)
(** A fatal line, whatever follows it and whatever the layout holds. *)
Theorem C61_fatal_lines : forall pl fs r d text u,
  rd_open r = false -> fs (narrow (rd_name r)) = Some text -> encodable (rd_name r) ->
  file_fatal text u -> Read pl fs r (Some d) = UB u.
Proof.
  intros pl fs r d text u O F He X.
  destruct (opened_cases pl (rd_name r) text d He) as (ln & en & E1 & E2 & [(u' & Eu & Eo)|(lib & el & E & _)]).
  - rewrite (lines_fatal pl text u _ (fun st l => fatal_sections pl st l u) X) in Eu. injection Eu as <-.
    rewrite (read_opened pl fs r d text O F), Eo. reflexivity.
  - rewrite (lines_fatal pl text u _ (fun st l => fatal_sections pl st l u) X) in E. discriminate.
Qed.

(** A bounding box whose line ends early is taken, with zeros for what is missing. *)
Theorem C61_short_bounding_boxes : forall pl fs r d text ls1 x x' ls2 cs1 cs2 l1 l2 p q,
  rd_open r = false -> fs (narrow (rd_name r)) = Some text -> encodable (rd_name r) -> ld_libraries d = [] ->
  file_lines text (ls1 ++ x :: ls2) -> without_returns x x' -> short_bb x' p q ->
  Forall2 (fun l c => exists l', without_returns l l' /\ says l' c) ls1 cs1 ->
  Forall2 (fun l c => exists l', without_returns l l' /\ says l' c) ls2 cs2 -> shapes cs1 l1 -> shapes cs2 l2 ->
  exists r' d' lib el, Read pl fs r (Some d) = Ok (r', Some d', true) /\ ld_libraries d' = [lib] /\ lib_elements lib = [el] /\
    Forall2 depicts (l1 ++ (-5, p, q) :: l2) (e_geometries el).
Proof.
  intros pl fs r d text ls1 x x' ls2 cs1 cs2 l1 l2 p q O F He D FL W SB F1 F2 S1 S2.
  assert (RL : forall st, for_each (getlines [] text) st (ReadLine pl) =
    Ok (fold_left (apply_content pl) cs2 (add_bounding pl (box (-5) p q) (fold_left (apply_content pl) cs1 st)))).
  { intros st. rewrite (getlines_lines _ _ FL). apply lines_no_newline in FL. apply Forall_app in FL. destruct FL as (N1 & N2). inversion N2; subst.
    rewrite for_each_app, (lines_read pl ls1 cs1 st N1 F1). cbn [bind for_each].
    rewrite ReadLine_sections, (clean_returns x x') by assumption. rewrite (short_sections pl _ x' p q SB).
    apply lines_read; assumption. }
  destruct (opened_cases pl (rd_name r) text d He) as (ln & en & E1 & E2 & [(u & Eu & _)|(lib & el & E & Hn & Hel & Hen & Hmn & Hmx & HL & HB)]).
  - rewrite RL in Eu. discriminate.
  - pose proof (eq_trans (eq_sym E) (RL (new_library ln, new_element en))) as E'. injection E' as E'.
    assert (G : e_geometries el = map shape_geom (l1 ++ (-5, p, q) :: l2)).
    { change el with (snd (lib, el)). rewrite E', (shapes_geometries pl cs2 l2 S2).
      pose proof (shapes_geometries pl cs1 l1 S1 (new_library ln, new_element en)) as G1.
      destruct (fold_left (apply_content pl) cs1 (new_library ln, new_element en)) as [a b]. cbn [add_bounding snd add_geometry e_geometries] in *.
      rewrite G1. cbn [new_element e_geometries app]. rewrite map_app, <- app_assoc. reflexivity. }
    destruct (read_blank pl (rd_name r) text d ln en lib el D E1 E2 E Hel HB) as (_ & R).
    destruct R as (mn & mx & _ & R). { rewrite G. destruct l1; discriminate. }
    rewrite (read_opened pl fs r d text O F), R. eexists _, _, _, _. split; [reflexivity|]. split; [reflexivity|]. split; [reflexivity|].
    cbn [e_geometries]. rewrite G. apply depicts_all.
Qed.

Example C61_hypotheses_met :
  fatal (lit "REC(1,2,3,4,LONGNAME)") BufferOverflow /\ fatal (lit "REC(1,2") OobIndex /\ short_bb (lit "BB(1,2") (mkcoord 1 2) (mkcoord 0 0) /\
  Read ex_platform (ex_fs (lit "REC(1,2,3,4,LONGNAME)")) ex_reader (Some ex_data) = UB BufferOverflow /\
  Read ex_platform (ex_fs (lit "REC(1,2")) ex_reader (Some ex_data) = UB OobIndex.
Proof.
  assert (N1 : number (lit "1") 1) by ex_number. assert (N2 : number (lit "2") 2) by ex_number.
  assert (N3 : number (lit "3") 3) by ex_number. assert (N4 : number (lit "4") 4) by ex_number.
  assert (C : cut_args 4 (lit "1,2") [1; 2]) by (apply (cut_more 3 (lit "1") 1 (lit "2") [2] N1), (cut_number 2 _ _ N2)).
  split; [|split; [|split; [|split; vm_compute; reflexivity]]].
  - apply (fatal_name (lit "1,2,3,4,") [] (lit "LONGNAME)") []); [|constructor| |cbn; lia|left; reflexivity].
    + apply (begun_more 3 (lit "1") 1 (lit "2,3,4,") N1), (begun_more 2 (lit "2") 2 (lit "3,4,") N2),
        (begun_more 1 (lit "3") 3 (lit "4,") N3), (begun_more 0 (lit "4") 4 [] N4), begun_nil.
    + repeat constructor; (discriminate || (unfold white; cbn; lia)).
  - exact (fatal_cut (lit "1,2") [1; 2] C).
  - apply (short_cut (lit "1,2") [1; 2] C); unfold int32; cbn; lia.
Qed.

(** ** C62 *)
Theorem C62_format_detection : forall fs name r,
  GetReader fs name = Some r <->
  r = mkreader name false false /\ msk_name (narrow name) /\
  exists text, fs (narrow name) = Some text /\ begins (lit "VERSION") text.
Proof.
  intros fs name r. unfold GetReader, IsMyFormat. rewrite <- regex_spec.
  destruct (regex_search (narrow name)) eqn:E; cbn [negb].
  2: { split; [discriminate|]. intros (_ & Q & _). congruence. }
  cbn [reader_new rd_open rd_active]. destruct (fs (narrow name)) as [text|] eqn:F.
  2: { split; [discriminate|]. intros (_ & _ & t & Q & _). discriminate. }
  destruct (lines_exist text) as (ls & FL). rewrite (getlines_lines _ _ FL). destruct ls as [|l ls].
  - inversion FL; subst. split; [discriminate|]. intros (_ & _ & t & [= <-] & (x & Q)). discriminate.
  - destruct (if (length l <? 7)%nat then false else streqb (firstn 7 l) (lit "VERSION")) eqn:V.
    + split.
      * intros [= <-]. split; [reflexivity|]. split; [reflexivity|]. exists text. split; [reflexivity|]. apply (version_first text ls l FL), V.
      * intros (-> & _). reflexivity.
    + split; [discriminate|]. intros (_ & _ & t & [= <-] & B). apply (version_first text ls l FL) in B. congruence.
Qed.

Example C62_hypotheses_met : GetReader (ex_fs ex_file) ex_name = Some ex_reader /\
  GetReader (ex_fs (lit "version 1")) ex_name = None /\ GetReader (fun _ => Some ex_file) (map b2z (lit "CHIP.MSK")) <> None /\
  GetReader (fun _ => Some ex_file) (map b2z (lit ".msk")) = None.
Proof. split; [|split; [|split]]; vm_compute; congruence. Qed.

(** ** C72 *)
(** When Read cannot do its work: no layout, no file, no name; and the same after an earlier
    success, where the handler destroys what the earlier layout holds. *)
Theorem C72_failing_reads : forall pl fs r d,
  (exists r', Read pl fs r None = Ok (r', None, false)) /\
  (rd_open r = false -> fs (narrow (rd_name r)) = None ->
     (rd_active r = false -> Read pl fs r (Some d) = Ok (r, Some (mkdata (ld_name d) (ld_libraries d) FFundefined), false)) /\
     (rd_active r = true -> Read pl fs r (Some d) = UB DoubleFree)) /\
  (forall r' d', Read pl fs r (Some d) = Ok (r', Some d', false) -> ld_libraries d' = ld_libraries d /\ ld_format d' = FFundefined) /\
  (forall r' d', Read pl fs r (Some d) = Ok (r', d', true) -> rd_active r' = true /\ rd_open r' = false /\ rd_name r' = rd_name r).
Proof.
  intros pl fs r d. split; [eexists; reflexivity|]. split; [|split].
  - intros O F. unfold Read. rewrite O, F. destruct r as [nm op ac]. cbn in *. subst op. split; intros ->; reflexivity.
  - intros r' d'. unfold Read. destruct (if rd_open r then Some [] else fs (narrow (rd_name r))) as [text|].
    + destruct (ReadOpened pl (rd_name r) text d); intros Q; try discriminate. injection Q as <- <-. split; reflexivity.
    + destruct (rd_active r); intros Q; try discriminate. injection Q as <- <-. split; reflexivity.
  - intros r' d'. unfold Read. destruct (if rd_open r then Some [] else fs (narrow (rd_name r))) as [text|].
    + destruct (ReadOpened pl (rd_name r) text d); intros Q; try discriminate. injection Q as <- <-. auto.
    + destruct (rd_active r); discriminate.
Qed.

(** The file disappears between two reads of the same reader. *)
Example C72_hypotheses_met : exists r' d',
  Read ex_platform (ex_fs ex_file) ex_reader (Some ex_data) = Ok (r', Some d', true) /\
  rd_active r' = true /\ Read ex_platform (fun _ => None) r' (Some ex_data) = UB DoubleFree.
Proof. run_example. Qed.

(** ** C73 *)
(** Reading into a layout that already has a library: the bounding box of the first library's
    first element is computed again; the new element keeps (-1,-1). *)
Theorem C73_second_file_has_no_bounding_box : forall pl fs r d text l0 libs e0 els r' d',
  rd_open r = false -> fs (narrow (rd_name r)) = Some text -> encodable (rd_name r) ->
  ld_libraries d = l0 :: libs -> lib_elements l0 = e0 :: els ->
  Read pl fs r (Some d) = Ok (r', Some d', true) ->
  exists lib el mn mx, 
    ld_libraries d' = mklibrary (lib_name l0) (mkelement (e_name e0) (e_geometries e0) mn mx :: els) (lib_layers l0) (lib_min l0) (lib_max l0) :: libs ++ [lib] /\
    lib_elements lib = [el] /\ e_min el = mkcoord (-1) (-1) /\ e_max el = mkcoord (-1) (-1) /\
    layers_hold (lib_layers lib) (e_geometries el).
Proof.
  intros pl fs r d text l0 libs e0 els r' d' O F He D D0 R. rewrite (read_opened pl fs r d text O F) in R.
  destruct (opened_cases pl (rd_name r) text d He) as (ln & en & E1 & E2 & [(u & _ & Eu)|(lib & el & E & Hn & Hel & Hen & Hmn & Hmx & HL & HB)]).
  - rewrite Eu in R. discriminate.
  - rewrite (read_text pl _ text d en ln lib el E1 E2 E), D in R. cbn [app] in R. unfold bound_first in R. cbn [at_ nth_error bind] in R.
    rewrite D0 in R. cbn [nth_error at_ bind] in R. unfold bound_element in R.
    destruct (at_ (e_geometries e0) 0) as [[g0|]| |]; cbn [bind] in R; try discriminate.
    destruct (for_each (tl (e_geometries e0)) _ _) as [mm| |]; cbn [bind upd] in R; try discriminate. injection R as <- <-.
    exists (mklibrary (lib_name lib) (lib_elements lib ++ [el]) (lib_layers lib) (lib_min lib) (lib_max lib)), el, (fst mm), (snd mm).
    rewrite Hel. split; [reflexivity|]. split; [reflexivity|]. split; [exact Hmn|]. split; [exact Hmx|exact HL].
Qed.

Example C73_hypotheses_met : exists r1 d1 r2 d2,
  Read ex_platform (ex_fs ex_file) ex_reader (Some ex_data) = Ok (r1, Some d1, true) /\
  Read ex_platform (ex_fs ex_file) r1 (Some d1) = Ok (r2, Some d2, true) /\
  map (fun l => map e_max (lib_elements l)) (ld_libraries d2) = [[mkcoord 100 200]; [mkcoord (-1) (-1)]].
Proof. run_example. Qed.

Print Assumptions C57_msk_boxes.
Print Assumptions C58_well_formed_files.
Print Assumptions C59_layers_hold_the_objects.
Print Assumptions C60_element_bounding_box.
Print Assumptions C60_no_shape_is_undefined.
Print Assumptions C61_fatal_lines.
Print Assumptions C61_short_bounding_boxes.
Print Assumptions C62_format_detection.
Print Assumptions C72_failing_reads.
Print Assumptions C73_second_file_has_no_bounding_box.
