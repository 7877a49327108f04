(** C125: MSK files that end early.
    Specifications: S_Msk ([file_says], [says], [shapes], [depicts]), S_Cut ([remains], [left_of], [torn_args]). *)
From Verif Require Import Prelude P_Prelude M_LayoutData M_Converter S_Converter P_Converter M_Scanf M_Msk S_Msk P_Scanf P_Msk P_MskFile P_MskFatal P_MskRead
  S_Cut P_Cut Props_Msk.
Local Open Scope Z_scope.

(** ** C125 *)
(** A well-formed file of which only the first k characters are there.  Its whole lines are read as ever; of the last one,
    x, becomes what [remains] says, and this relates to what the whole line says as [left_of] says.  If nothing at all is
    left to draw, reading is undefined, too. *)
Theorem C125_cut_files : forall pl fs r d text cs k,
  rd_open r = false -> fs (narrow (rd_name r)) = Some (firstn k text) -> encodable (rd_name r) -> ld_libraries d = [] ->
  file_says text cs ->
  let n := count_occ byte_eq_dec (firstn k text) newline in
  exists pre x x' o,
    firstn k text = pre ++ x /\ (pre = [] \/ last pre x00 = newline) /\ ~ In newline x /\ without_returns x x' /\
    remains x' o /\ left_of (nth n cs Nothing) o /\
    match o with
    | inl c => forall l, shapes (firstn n cs ++ [c]) l ->
        (l = [] -> Read pl fs r (Some d) = UB OobIndex) /\
        (l <> [] -> exists r' d' lib el, Read pl fs r (Some d) = Ok (r', Some d', true) /\
           ld_libraries d' = [lib] /\ lib_elements lib = [el] /\ ld_format d' = FFmsk /\ ld_name d' = rd_name r /\
           Forall2 depicts l (e_geometries el))
    | inr u => Read pl fs r (Some d) = UB u
    end.
Proof.
  intros pl fs r d text cs k O F He D S n.
  assert (B : begins (firstn k text) text) by (exists (skipn k text); symmetry; apply firstn_skipn).
  destruct (cut_read text cs (firstn k text) S B) as (pre & x & x' & o & E & Lp & Nx & W & R & L & Q). fold n in L, Q.
  exists pre, x, x', o. do 6 (split; [assumption|]). destruct o as [c|u].
  - intros l Sh. apply (read_contents pl fs r d (firstn k text) (firstn n cs ++ [c]) O F He D); [|exact Sh].
    intros st. rewrite Q. cbn [outcome]. rewrite fold_left_app. reflexivity.
  - apply (read_breaks pl fs r d (firstn k text) u O F He). intros st. rewrite Q. reflexivity.
Qed.

(** Cut between two lines: the objects of the whole lines, in their order. *)
Theorem C125_whole_lines : forall pl fs r d text cs k l,
  rd_open r = false -> fs (narrow (rd_name r)) = Some (firstn k text) -> encodable (rd_name r) -> ld_libraries d = [] ->
  file_says text cs -> last (firstn k text) x00 = newline ->
  shapes (firstn (count_occ byte_eq_dec (firstn k text) newline) cs) l -> l <> [] ->
  exists r' d' lib el, Read pl fs r (Some d) = Ok (r', Some d', true) /\
    ld_libraries d' = [lib] /\ lib_elements lib = [el] /\ Forall2 depicts l (e_geometries el).
Proof.
  intros pl fs r d text cs k l O F He D S Ln Sh N.
  assert (B : begins (firstn k text) text) by (exists (skipn k text); symmetry; apply firstn_skipn).
  destruct S as (ls & FL & S). destruct (lines_prefix text ls FL (firstn k text) B) as (pre & x & E & Lp & Nx & C).
  assert (X : x = []).
  { destruct x as [|c x]; [reflexivity|]. exfalso. destruct (exists_last (l := c :: x) ltac:(discriminate)) as (y & e & Ey).
    rewrite E, Ey, app_assoc, last_last in Ln. subst e. apply Nx. rewrite Ey. apply in_or_app. right. now left. }
  destruct C as [(_ & F1)|(Nn & _)]; [|congruence].
  destruct (C58_well_formed_files pl fs r d (firstn k text) (firstn (count_occ byte_eq_dec (firstn k text) newline) cs) l O F He D) as
    (r' & d' & lib & el & Q1 & Q2 & Q3 & _ & _ & Q4); [|exact Sh|exact N|].
  - eexists. split; [exact F1|]. now apply forall2_firstn.
  - exists r', d', lib, el. auto.
Qed.

Lemma begun_values k s : begun_args k s -> exists vs, length vs = k /\ args vs s.
Proof.
  induction 1 as [|k s z t Hs B (vs & L & A)]; [exists []; split; [reflexivity|constructor]|].
  exists (z :: vs). split; [cbn; congruence|]. now constructor.
Qed.

(** A rectangle whose line ends before its name is undefined behaviour - only a line that ends with the sign of the first
    number is passed over. *)
Theorem C125_torn_rectangles : forall pl fs r d text ls x x' cs,
  rd_open r = false -> fs (narrow (rd_name r)) = Some text -> encodable (rd_name r) -> ld_libraries d = [] ->
  file_lines text (ls ++ [x]) -> Forall2 (fun l c => exists l', without_returns l l' /\ says l' c) ls cs -> without_returns x x' ->
  forall s ws y, begun_args 4 s -> Forall white ws -> begins y (s ++ ws) ->
  x' = lit "REC" \/ x' = lit "REC(" ++ y ->
  Read pl fs r (Some d) = UB OobIndex \/
  (exists w sg, x' = lit "REC(" ++ w ++ [sg] /\ Forall white w /\ (sg = "+"%byte \/ sg = "-"%byte) /\
     forall l, shapes cs l -> l <> [] -> exists r' d' lib el, Read pl fs r (Some d) = Ok (r', Some d', true) /\
       ld_libraries d' = [lib] /\ lib_elements lib = [el] /\ Forall2 depicts l (e_geometries el)).
Proof.
  intros pl fs r d text ls x x' cs O F He D FL S W s ws y A Hw B X.
  pose proof (lines_no_newline _ _ FL) as NN. apply Forall_app in NN. destruct NN as (NN & Nx). inversion Nx as [|? ? Nx' _]; subst.
  assert (G : forall st, for_each (getlines [] text) st (ReadLine pl) = sections pl (fold_left (apply_content pl) cs st) x').
  { intros st. rewrite (getlines_lines _ _ FL), for_each_app, (lines_read pl ls cs st NN S). cbn [bind for_each].
    rewrite ReadLine_sections, (clean_returns x x' Nx' W). destruct (sections pl _ x'); reflexivity. }
  assert (U : (forall st, sections pl st x' = UB OobIndex) -> Read pl fs r (Some d) = UB OobIndex).
  { intros H. apply (read_breaks pl fs r d text OobIndex O F He). intros st. rewrite G. apply H. }
  destruct X as [->|X].
  - left. apply U. intros st. apply (fatal_sections pl st _ _ fatal_rec).
  - assert (T : exists us e, torn_args 4 y us e).
    { destruct (begun_values 4 s A) as (vs & Lv & Av).
      destruct (args_prefix vs s Av ws y B) as [(us & e & T & _)|(y' & -> & B')].
      - exists us, e. rewrite Lv in T. exact T.
      - exists (vs ++ []), true. replace 4%nat with (length vs + 0)%nat by lia. apply (torn_after vs s Av).
        constructor. exact (begins_forall _ _ _ Hw B'). }
    destruct T as (us & e & T).
    destruct ((length us =? 0)%nat && negb e) eqn:Q.
    + right. assert (us = [] /\ e = false) as (-> & ->).
      { apply andb_true_iff in Q. destruct Q as (Q1 & Q2). destruct us; [|discriminate]. now destruct e. }
      inversion T as [|? w sg Hws Hsg| |]; subst. exists w, sg. split; [reflexivity|]. split; [exact Hws|]. split; [exact Hsg|].
      intros l Sh N. destruct (read_contents pl fs r d text cs O F He D) with (l := l) as (_ & R); [|exact Sh|].
      * intros st. rewrite G, (torn_rec pl _ _ [] false T). reflexivity.
      * destruct (R N) as (r' & d' & lib & el & Q1 & Q2 & Q3 & _ & _ & Q4). exists r', d', lib, el. auto.
    + left. apply U. intros st. rewrite X, (torn_rec pl st y us e T), Q. reflexivity.
Qed.

(** The beginning of a file is recognised as soon as it has the word VERSION. *)
Theorem C125_recognised : forall fs name text k, msk_name (narrow name) -> begins (lit "VERSION") text ->
  fs (narrow name) = Some (firstn k text) ->
  (GetReader fs name = Some (mkreader name false false) <-> (7 <= k)%nat).
Proof.
  intros fs name text k M (t & ->) F. rewrite C62_format_detection. split.
  - intros (_ & _ & text' & E & (u & B)). rewrite F in E. injection E as <-.
    destruct (Nat.le_gt_cases 7 k) as [H|H]; [exact H|]. exfalso.
    apply (f_equal (@length byte)) in B. rewrite firstn_length, app_length in B. change (length (lit "VERSION")) with 7%nat in B. lia.
  - intros H. split; [reflexivity|]. split; [exact M|]. exists (firstn k (lit "VERSION" ++ t)). split; [exact F|].
    exists (firstn (k - 7) t). rewrite firstn_app. change (length (lit "VERSION")) with 7%nat.
    rewrite firstn_all2 by (change (length (lit "VERSION")) with 7%nat; lia). reflexivity.
Qed.

(** "BB(0,0,100,200)" without its last three characters. *)
Definition ex_cut_box : list byte := firstn 26 ex_file.
Lemma ex_cut_box_read : exists r' d' lib el g,
  Read ex_platform (ex_fs ex_cut_box) ex_reader (Some ex_data) = Ok (r', Some d', true) /\
  ld_libraries d' = [lib] /\ lib_elements lib = [el] /\ e_geometries el = [Some g] /\
  (g_layer g = -5 /\ g_min g = mkcoord 0 0 /\ g_max g = mkcoord 100 2).
Proof. run_example. Qed.

(** Refuted: what is read from the beginning of a file is among what is read from the file. *)
Theorem C125_only_objects_of_the_file_refuted :
  ~ (forall pl text cs l k r' d',
       file_says text cs -> shapes cs l -> l <> [] ->
       Read pl (ex_fs (firstn k text)) ex_reader (Some ex_data) = Ok (r', Some d', true) ->
       forall lib el o, In lib (ld_libraries d') -> In el (lib_elements lib) -> In o (e_geometries el) ->
         exists s, In s l /\ depicts s o).
Proof.
  intros H. destruct ex_cut_box_read as (r' & d' & lib & el & g & R & E1 & E2 & E3 & (G1 & G2 & G3)).
  destruct (H ex_platform ex_file ex_contents ex_shapes 26%nat r' d' ex_says ex_shapes_ok ltac:(discriminate) R lib el (Some g)) as (s & I & Dp).
  - rewrite E1. now left.
  - rewrite E2. now left.
  - rewrite E3. now left.
  - destruct s as ((n, p), q). apply depicts_box in Dp. injection Dp as ->.
    unfold ex_shapes in I. cbn [In] in I.
    destruct I as [I|[I|[I|[]]]]; injection I as <- <- <-; cbn in G1, G3; discriminate.
Qed.

(** The cuts of the example file: after "BB(0,0,100,2", after "REC(10,20", after "REC(10,20,30,40,M". *)
Example C125_example :
  rd_open ex_reader = false /\ ex_fs ex_cut_box (narrow (rd_name ex_reader)) = Some (firstn 26 ex_file) /\ ld_libraries ex_data = [] /\
  file_says ex_file ex_contents /\
  count_occ byte_eq_dec ex_cut_box newline = 1%nat /\
  Read ex_platform (ex_fs (firstn 40 ex_file)) ex_reader (Some ex_data) = UB OobIndex /\
  (exists r' d' lib el g, Read ex_platform (ex_fs (firstn 48 ex_file)) ex_reader (Some ex_data) = Ok (r', Some d', true) /\
     ld_libraries d' = [lib] /\ lib_elements lib = [el] /\ e_geometries el = [Some g] /\ g_max g = mkcoord 100 200) /\
  (exists x y, firstn 40 ex_file = x ++ lit "REC(10,20" /\ firstn 48 ex_file = y ++ lit "REC(10,20,30,40,M").
Proof.
  split; [reflexivity|]. split; [reflexivity|]. split; [reflexivity|]. split; [exact ex_says|]. split; [vm_compute; reflexivity|].
  split; [vm_compute; reflexivity|]. split; [run_example|].
  exists (firstn 31 ex_file), (firstn 31 ex_file). split; vm_compute; reflexivity.
Qed.

Print Assumptions C125_cut_files.
Print Assumptions C125_whole_lines.
Print Assumptions C125_torn_rectangles.
Print Assumptions C125_recognised.
Print Assumptions C125_only_objects_of_the_file_refuted.
