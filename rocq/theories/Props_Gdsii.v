(** C66, C74-C80: the GDSII reader. *)
From Coq Require Import Reals Permutation Sorted.
From Flocq Require Import Core IEEE754.BinarySingleNaN.
From Verif Require Import Prelude P_Prelude M_LayoutData M_Double S_Double S_Converter M_Msk M_GdsiiHelpers S_Gdsii M_Gdsii P_GdsiiLoop S_GdsiiFile P_GdsiiFile P_GdsiiPost P_GdsiiRead P_GdsiiShow.
Local Open Scope Z_scope.

Ltac well_formed := repeat match goal with
  | |- library_ok _ => unfold library_ok; cbn [lb_version lb_dates lb_name lb_options lb_user lb_physical lb_structures ex_library]
  | |- structure_ok _ => unfold structure_ok; cbn [st_dates st_name st_elements ex_cell ex_top ex_big]
  | |- element_ok _ => unfold element_ok, shape_ok; cbn [el_shape el_property ex_boundary ex_path ex_text ex_box ex_sref]
  | |- option_ok _ => unfold option_ok
  | |- trans_ok _ => unfold trans_ok; cbn [t_flags t_mag t_angle]
  | |- points_ok _ => unfold points_ok
  | |- point_ok _ => unfold point_ok; cbn [cx cy]
  | |- string_ok _ => unfold string_ok
  | |- real_ok _ => reflexivity
  | |- int16 _ => unfold int16; cbn; lia
  | |- int31 _ => unfold int31; cbn; lia
  | |- fits _ None => intros ? Q; discriminate Q
  | |- fits _ (Some _) => intros ? Q; injection Q as <-; cbn [fst snd]
  | |- Forall _ [] => constructor
  | |- Forall _ (_ :: _) => constructor
  | |- _ /\ _ => split
  | |- ~ _ => cbn; intuition discriminate
  | |- _ <> [] => discriminate
  | |- length _ = _ => reflexivity
  | |- _ <= _ => cbn; lia
  | |- _ \/ _ => cbn; lia
  end.

(** ** C66 *)
(** [used r]: r is what a new reader has become after any calls of its two functions. *)
Theorem C66_the_reader_never_reads : forall r fs layout, used r -> gRead fs r layout = Ok (r, layout, false).
Proof. intros r fs layout. apply never_reads. Qed.

(** The reader is asked for a good file, and agrees; then it is told to read it. *)
Example C66_hypotheses_met : exists r, gIsMyFormat (ex_gfs (library_bytes ex_library)) greader_new ex_gds = Ok (r, true) /\
  used r /\ gRead (ex_gfs (library_bytes ex_library)) r (Some ex_empty) = Ok (r, Some ex_empty, false).
Proof.
  assert (E : gIsMyFormat (ex_gfs (library_bytes ex_library)) greader_new ex_gds = Ok (mkgreader ex_gds false, true)) by (vm_compute; reflexivity).
  exists (mkgreader ex_gds false). split; [exact E|]. split; [exact (used_asked _ _ _ _ _ used_new E)|reflexivity].
Qed.

(** ** C74 *)
Theorem C74_format_detection : forall fs r name,
  (~ gds_name name \/ fs (narrow name) = None -> gIsMyFormat fs r name = Ok (mkgreader name (gr_data r), false)) /\
  (forall text, gds_name name -> fs (narrow name) = Some text -> (4 <= length text)%nat ->
     exists b, gIsMyFormat fs r name = Ok (mkgreader name (gr_data r), b) /\ (b = true <-> gds_begin text)).
Proof. intros fs r name. split; [apply format_other|intros text; apply format_exact]. Qed.

(** Files of less than four bytes: a record is looked at that has not been read. *)
Theorem C74_short_files : forall fs r name text, gds_name name -> fs (narrow name) = Some text -> (length text < 4)%nat ->
  gIsMyFormat fs r name = UB Indeterminate \/
  (exists a b c, text = [a; b; c] /\ c <> x00 /\ gIsMyFormat fs r name = Ok (mkgreader name (gr_data r), false)).
Proof.
  intros fs r name text N F L. rewrite (format_short fs r name text N F L). destruct text as [|a [|b [|c [|? ?]]]]; try (left; reflexivity).
  destruct (beqb c x00) eqn:B; [left; reflexivity|right]. exists a, b, c. split; [reflexivity|]. split; [|reflexivity]. intros ->. discriminate.
Qed.
(** Every well-formed library is recognised. *)
Theorem C74_libraries_are_recognised : forall fs r name b rest, gds_name name -> library_ok b -> fs (narrow name) = Some (library_bytes b ++ rest) ->
  gIsMyFormat fs r name = Ok (mkgreader name (gr_data r), true).
Proof.
  intros fs r name b rest N H F. destruct (format_exact fs r name _ N F) as (x & E & X).
  - unfold library_bytes, record. rewrite <- !app_assoc. cbn [app length word]. rewrite !app_length. cbn. lia.
  - rewrite E. do 2 f_equal. apply X. destruct H as (_ & H & _). unfold gds_begin. exists (z2b (lb_version b / 2 ^ 8)), (z2b (lb_version b)). left.
    unfold library_bytes, record. rewrite H. eexists. rewrite <- !app_assoc. cbn [app word length]. reflexivity.
Qed.

Example C74_hypotheses_met :
  gds_name ex_gds /\ library_ok ex_library /\ gIsMyFormat (ex_gfs (library_bytes ex_library)) greader_new ex_gds = Ok (mkgreader ex_gds false, true) /\
  gIsMyFormat (ex_gfs (library_bytes ex_library)) greader_new [97; 46; 116; 120; 116] = Ok (mkgreader [97; 46; 116; 120; 116] false, false) /\
  gIsMyFormat (ex_gfs [x00; x06; x00; x02; x00; x03; x00; x1c; x05; x02]) greader_new ex_gds = Ok (mkgreader ex_gds false, false) /\
  gIsMyFormat (ex_gfs [x00]) greader_new ex_gds = UB Indeterminate.
Proof.
  split; [left; right; split; [cbn; lia|exists [97]; reflexivity]|]. split; [|vm_compute; auto].
  well_formed.
Qed.

(** ** C75 *)
(** A reader whose data pointer is set; the three active pointers are null.  Reading ends on every
    file; it returns, or it negates -2^31, or it looks at a value that the file was too short to give. *)
Theorem C75_reading_ends : forall fs r d, gr_data r = true ->
  (fs (narrow (gr_name r)) = None -> gRead fs r (Some d) = Ok (r, Some d, false)) /\
  (forall text, fs (narrow (gr_name r)) = Some text ->
     (exists libs ok, gRead fs r (Some d) = Ok (r, Some (mkgdata (gr_name r) libs FFgdsii_bin), ok)) \/
     gRead fs r (Some d) = UB SignedOverflow \/ gRead fs r (Some d) = UB Indeterminate) /\
  (forall text, fs (narrow (gr_name r)) = Some text -> gRead fs r None = UB NullDeref).
Proof.
  intros fs [nm dd] d D. cbn in D. subst dd. split; [|split].
  - intros F. cbn [gr_name] in F. unfold gRead. cbn [gr_data negb gr_name]. rewrite F. reflexivity.
  - intros text F. destruct (gRead_cases fs (mkgreader nm true) d text eq_refl F) as [(st & _ & E)|E]; [left|right; exact E]. eexists. eexists. exact E.
  - intros text F. cbn [gr_name] in F. unfold gRead. cbn [gr_data negb gr_name]. rewrite F. reflexivity.
Qed.

(** All three happen: a file of no records; a file that breaks off in the dates; a coordinate -2^31. *)
Example C75_hypotheses_met :
  gRead (ex_gfs []) ex_greader (Some ex_empty) = Ok (ex_greader, Some (mkgdata ex_gds [] FFgdsii_bin), true) /\
  gRead (ex_gfs (record 1 2 [x00])) ex_greader (Some ex_empty) = UB Indeterminate /\
  gRead (ex_gfs (open_structure ex_library ex_top ++ record 8 0 [] ++ record 16 3 [x80; x00; x00; x00; x00; x00; x00; x00])) ex_greader (Some ex_empty) = UB SignedOverflow.
Proof. split; [|split]; vm_compute; reflexivity. Qed.

(** ** C76 *)
Theorem C76_well_formed_files : forall fs r name ff b n, gr_data r = true -> library_ok b ->
  fs (narrow (gr_name r)) = Some (library_bytes b ++ repeat x00 n) ->
  exists g ok, gRead fs r (Some (mkgdata name [] ff)) = Ok (r, Some (mkgdata (gr_name r) [g] FFgdsii_bin), ok) /\
    (ok = true <-> resolvable (lb_structures b)) /\ (ok = true -> shows_library 0 b g).
Proof. intros fs r name ff b n D H F. exact (file_shown b n fs r name ff H D F). Qed.

(** Property values are lost: the natural claim that properties are kept is false. *)
Theorem C76_property_values_refuted : ~ (forall fs r b g a v s e o,
  gr_data r = true -> library_ok b -> fs (narrow (gr_name r)) = Some (library_bytes b) ->
  gRead fs r (Some ex_empty) = Ok (r, Some (mkgdata (gr_name r) [g] FFgdsii_bin), true) ->
  nth_error (lb_structures b) 0 = Some s -> nth_error (st_elements s) 0 = Some e -> el_property e = Some (a, v) ->
  option_map s_objs (nth_error (b_elements g) 0) = Some [o] -> o_props o = [(a, v)]).
Proof.
  intros H. pose (b := mklibrary 3 (repeat x00 24) [] [] ex_milli ex_nano [mkstructure (repeat x00 24) [] [ex_boundary]]).
  assert (OK : library_ok b).
  { subst b. well_formed. }
  destruct (C76_well_formed_files (ex_gfs (library_bytes b ++ repeat x00 0)) ex_greader [] FFundefined b 0 eq_refl OK eq_refl) as (g & ok & E & O & S).
  assert (T : ok = true) by (apply O; intros s e n t xy [<-|[]] [<-|[]] Q; discriminate). subst ok. destruct (S eq_refl) as (_ & _ & _ & L & N).
  change (length (lb_structures b)) with 1%nat in L. destruct (b_elements g) as [|e0 [|? ?]] eqn:EE; try discriminate L.
  destruct (N 0%nat _ e0 eq_refl eq_refl) as (_ & F & _). inversion F as [|? o0 ? ? F1 F2 Q1 Q2]. inversion F2; subst. destruct F1 as (_ & _ & _ & P & _).
  assert (X : o_props o0 = [(1, [x76])]).
  { apply (H (ex_gfs (library_bytes b)) ex_greader b g 1 [x76] (mkstructure (repeat x00 24) [] [ex_boundary]) ex_boundary o0 eq_refl OK eq_refl); try reflexivity.
    - rewrite app_nil_r in E. exact E.
    - rewrite EE. cbn. f_equal. symmetry. assumption. }
  rewrite P in X. discriminate.
Qed.

Example C76_hypotheses_met : library_ok ex_library /\ resolvable (lb_structures ex_library) /\ ~ resolvable (lb_structures ex_broken) /\
  ex_view (gRead (ex_gfs (library_bytes ex_library ++ repeat x00 5)) ex_greader (Some ex_empty)) =
    Some (true, [([x4c; x49; x42], [([x41], 3%nat, true); ([x42], 1%nat, false); ([x54; x4f; x50], 2%nat, false)])]) /\
  ex_view (gRead (ex_gfs (library_bytes ex_broken)) ex_greader (Some ex_empty)) = Some (false, [([x4c], [([x41], 1%nat, false)])]).
Proof.
  split; [exact (proj1 (proj2 C74_hypotheses_met))|]. split.
  { intros s e n t xy Hs He Q. exists 0%nat. exists ex_cell. split; [reflexivity|]. split; [|intros; lia].
    cbn in Hs. destruct Hs as [<-|[<-|[<-|[]]]]; cbn in He; repeat (destruct He as [<-|He]; [try discriminate Q; injection Q as <- _ _; reflexivity|]); contradiction. }
  split.
  { intros H. destruct (H _ _ _ _ _ (or_introl eq_refl) (or_introl eq_refl) eq_refl) as (j & s & H1 & H2 & _). destruct j as [|[|j]]; cbn in H1; try discriminate. injection H1 as <-. discriminate. }
  split; vm_compute; reflexivity.
Qed.

(** ** C77 *)
(** Whatever the file: after a successful Read into an empty layout every reference leads to the
    first element of that name, and the elements referred to are exactly those marked as nested.
    Read succeeds if and only if there is an element for every name. *)
Theorem C77_references : forall fs r name ff r' d' ok, gr_data r = true ->
  gRead fs r (Some (mkgdata name [] ff)) = Ok (r', Some d', ok) -> fs (narrow (gr_name r)) <> None ->
  (ok = true <-> forall n, refers_to (gd_libraries d') n -> exists i j e, element_at (gd_libraries d') i j e /\ s_name e = n) /\
  (ok = true -> forall i j e o n p m, element_at (gd_libraries d') i j e -> In o (s_objs e) -> o_class o = SReference n p m ->
     exists i' j', p = Some (i', j') /\ first_element (gd_libraries d') n i' j') /\
  (ok = true -> forall i j e, element_at (gd_libraries d') i j e -> (s_nested e = true <-> exists n, refers_to (gd_libraries d') n /\ first_element (gd_libraries d') n i j)).
Proof.
  intros fs r name ff r' d' ok D E F. destruct (read_clean fs r name ff r' d' _ D E F) as (libs & C & P).
  split; [exact (post_ok _ _ _ P)|]. split; intros ->; [exact (post_references _ _ P)|exact (post_nested _ C _ P)].
Qed.

(** ** C78 *)
(** The layers of a library after a successful Read: the numbers are those of the objects' pairs,
    sorted; the data types stay where they were. *)
Theorem C78_layers : forall fs r name ff r' d' i b, gr_data r = true -> fs (narrow (gr_name r)) <> None ->
  gRead fs r (Some (mkgdata name [] ff)) = Ok (r', Some d', true) -> nth_error (gd_libraries d') i = Some b ->
  exists ps, first_pairs (objects b) ps /\ Permutation (map y_layer (b_layers b)) (map fst ps) /\ Sorted Z.le (map y_layer (b_layers b)) /\
    map y_dataType (b_layers b) = map snd ps.
Proof.
  intros fs r name ff r' d' i b D F E. destruct (read_clean fs r name ff r' d' _ D E F) as (libs & C & P). exact (post_layers _ C _ _ _ P).
Qed.
(** The list of pairs is determined by the objects, without repetition. *)
Theorem C78_pairs_are_determined : forall os ps, first_pairs os ps -> NoDup ps /\ (forall p, In p ps <-> exists o, In o os /\ layer_pair o p).
Proof.
  assert (U : forall o p q, layer_pair o p -> layer_pair o q -> p = q).
  { intros o p q H1 H2. inversion H1; inversion H2; subst; try congruence. }
  intros os ps H. induction H as [|os ps o n p m H (N & IH) C|os ps o p H (N & IH) P I|os ps o p H (N & IH) P I].
  - split; [constructor|]. intros p. split; [intros []|intros (o & [] & _)].
  - split; [exact N|]. intros q. rewrite IH. split; intros (o' & I & L); [exists o'; split; [apply in_or_app; auto|exact L]|].
    apply in_app_or in I. destruct I as [I|[<-|[]]]; [eauto|]. inversion L; congruence.
  - split; [exact N|]. intros q. split; [intros Q; apply IH in Q; destruct Q as (o' & Q & L); exists o'; split; [apply in_or_app; auto|exact L]|].
    intros (o' & Q & L). apply in_app_or in Q. destruct Q as [Q|[<-|[]]]; [apply IH; eauto|]. rewrite (U _ _ _ L P). exact I.
  - split.
    + apply (Permutation_NoDup (l := p :: ps)); [apply Permutation_cons_append|constructor; assumption].
    + intros q. rewrite in_app_iff, IH. split.
      * intros [(o' & Q & L)|[<-|[]]]; [exists o'; split; [apply in_or_app; auto|exact L]|exists o; split; [apply in_or_app; right; left; reflexivity|exact P]].
      * intros (o' & Q & L). apply in_app_or in Q. destruct Q as [Q|[<-|[]]]; [left; eauto|right; left; exact (U _ _ _ P L)].
Qed.
(** The natural claim - every pair that is listed is that of an object - is false. *)
Theorem C78_pairs_refuted : ~ (forall fs r name ff r' d' i b y, gr_data r = true -> gRead fs r (Some (mkgdata name [] ff)) = Ok (r', Some d', true) ->
  nth_error (gd_libraries d') i = Some b -> In y (b_layers b) -> exists o, In o (objects b) /\ layer_pair o (y_layer y, y_dataType y)).
Proof.
  intros H. assert (V : ex_layers (gRead (ex_gfs (library_bytes ex_library)) ex_greader (Some ex_empty)) = Some [([(1, 7); (2, 2); (3, 0); (3, 0); (9, 0)], mkcoord 1 1, mkcoord 100 100)]) by (vm_compute; reflexivity).
  assert (W : match gRead (ex_gfs (library_bytes ex_library)) ex_greader (Some ex_empty) with
     | Ok (_, Some d, true) => Some (map (fun b => map (fun o => match o_class o with SPolygon x => (o_layer o, x) | SPath x _ _ => (o_layer o, x) | _ => (o_layer o, 0) end) (objects b)) (gd_libraries d))
     | _ => None end = Some [[(3, 7); (1, 2); (3, 0); (9, 0); (-1, 0); (2, 0)]]) by (vm_compute; reflexivity).
  destruct (gRead (ex_gfs (library_bytes ex_library)) ex_greader (Some ex_empty)) as [[[r' [d'|]] [|]]| |] eqn:E; try discriminate V.
  cbn [ex_layers] in V. injection V as V. injection W as W.
  destruct (gd_libraries d') as [|b [|? ?]] eqn:L; try discriminate V. cbn [map] in V, W. injection V as V _ _. injection W as W.
  destruct (b_layers b) as [|y ys] eqn:Y; [discriminate V|]. cbn [map] in V. injection V as V1 V2 _.
  destruct (H _ ex_greader [] FFundefined r' d' 0%nat b y eq_refl E) as (o & I & P).
  { rewrite L. reflexivity. }
  { rewrite Y. left. reflexivity. }
  rewrite V1, V2 in P. apply (in_map (fun o => match o_class o with SPolygon x => (o_layer o, x) | SPath x _ _ => (o_layer o, x) | _ => (o_layer o, 0) end)) in I. rewrite W in I.
  assert (Q : (match o_class o with SPolygon x => (o_layer o, x) | SPath x _ _ => (o_layer o, x) | _ => (o_layer o, 0) end) = (1, 7)) by (inversion P as [? ? C|? ? ? ? C|? ? ? ? ? ? ? ? C|? ? C]; subst; rewrite C; congruence).
  rewrite Q in I. cbn in I. clear - I. intuition discriminate.
Qed.

(** ** C79 *)
Theorem C79_library_boxes : forall fs r name ff r' d' i b, gr_data r = true -> fs (narrow (gr_name r)) <> None ->
  gRead fs r (Some (mkgdata name [] ff)) = Ok (r', Some d', true) -> nth_error (gd_libraries d') i = Some b ->
  ((forall e, In e (b_elements b) -> s_nested e = true) /\ b_min b = mkcoord 0 0 /\ b_max b = mkcoord 0 0) \/
  (exists before e after, b_elements b = before ++ e :: after /\ s_nested e = false /\ (forall x, In x after -> s_nested x = true) /\ b_min b = s_min e /\ b_max b = s_max e).
Proof.
  intros fs r name ff r' d' i b D F E. destruct (read_clean fs r name ff r' d' _ D E F) as (libs & C & P). exact (post_boxes _ C _ _ _ P).
Qed.
(** When a reference cannot be resolved, there are neither layers nor boxes. *)
Theorem C79_nothing_after_a_failure : forall fs r name ff r' d' i b, gr_data r = true -> fs (narrow (gr_name r)) <> None ->
  gRead fs r (Some (mkgdata name [] ff)) = Ok (r', Some d', false) -> nth_error (gd_libraries d') i = Some b ->
  b_layers b = [] /\ b_min b = mkcoord 0 0 /\ b_max b = mkcoord 0 0.
Proof.
  intros fs r name ff r' d' i b D F E. destruct (read_clean fs r name ff r' d' _ D E F) as (libs & C & P). exact (post_failed _ C _ _ _ P).
Qed.
(** The natural claim - the box holds the boxes of all elements that are not nested - is false. *)
Theorem C79_boxes_refuted : ~ (forall fs r name ff r' d' b e, gr_data r = true -> gRead fs r (Some (mkgdata name [] ff)) = Ok (r', Some d', true) ->
  nth_error (gd_libraries d') 0 = Some b -> In e (b_elements b) -> s_nested e = false -> cx (s_max e) <= cx (b_max b)).
Proof.
  intros H.
  assert (W : match gRead (ex_gfs (library_bytes ex_library)) ex_greader (Some ex_empty) with
     | Ok (_, Some d, true) => Some (map (fun b => (b_max b, map (fun e => (s_nested e, s_max e)) (b_elements b))) (gd_libraries d))
     | _ => None end = Some [(mkcoord 100 100, [(true, mkcoord 20 10); (false, mkcoord 500 700); (false, mkcoord 100 100)])]) by (vm_compute; reflexivity).
  destruct (gRead (ex_gfs (library_bytes ex_library)) ex_greader (Some ex_empty)) as [[[r' [d'|]] [|]]| |] eqn:E; try discriminate W.
  injection W as W. destruct (gd_libraries d') as [|b [|? ?]] eqn:L; try discriminate W. cbn [map] in W. injection W as B W.
  destruct (b_elements b) as [|e1 [|e2 l]] eqn:Y; try discriminate W. cbn [map] in W. injection W as _ _ N2 M2 _.
  specialize (H _ ex_greader [] FFundefined r' d' b e2 eq_refl E). rewrite L in H. specialize (H eq_refl). rewrite Y in H. specialize (H (or_intror (or_introl eq_refl)) N2). rewrite B, M2 in H. cbn in H. clear - H. lia.
Qed.

(** One library meets the hypotheses of C77-C79, another those of the failure. *)
Example C77_C78_C79_hypotheses_met :
  ex_view (gRead (ex_gfs (library_bytes ex_library)) ex_greader (Some ex_empty)) =
    Some (true, [([x4c; x49; x42], [([x41], 3%nat, true); ([x42], 1%nat, false); ([x54; x4f; x50], 2%nat, false)])]) /\
  ex_layers (gRead (ex_gfs (library_bytes ex_library)) ex_greader (Some ex_empty)) = Some [([(1, 7); (2, 2); (3, 0); (3, 0); (9, 0)], mkcoord 1 1, mkcoord 100 100)] /\
  ex_view (gRead (ex_gfs (library_bytes ex_broken)) ex_greader (Some ex_empty)) = Some (false, [([x4c], [([x41], 1%nat, false)])]).
Proof. split; [|split]; vm_compute; reflexivity. Qed.

(** ** C80 *)
(** A second PROPATTR in an element: its data are taken for the next records. *)
Theorem C80_second_property : forall fs fs' r d b s e a v dt data t, gr_data r = true -> library_ok b -> structure_ok s -> element_ok e -> el_property e = Some (a, v) ->
  Z.of_nat (length data) <= 65531 ->
  fs (narrow (gr_name r)) = Some (open_element b s e ++ record 43 dt data ++ t) -> fs' (narrow (gr_name r)) = Some (open_element b s e ++ data ++ t) ->
  gRead fs r (Some d) = gRead fs' r (Some d).
Proof.
  intros fs fs' r d b s e a v dt data t D HB HS HE HP L F F'. rewrite (gRead_run fs r d _ D F), (gRead_run fs' r d _ D F').
  assert (X : run (at_text (open_element b s e ++ record 43 dt data ++ t) (outside (gd_libraries d))) = run (at_text (open_element b s e ++ data ++ t) (outside (gd_libraries d)))).
  { destruct (open_element_stable b s e (gd_libraries d) HB HS HE) as (libs & e1 & os & o & R & K). rewrite !K.
    destruct R as (_ & _ & _ & P & _). rewrite HP in P. exact (second_propattr dt data t libs e1 os o a [] L P). }
  rewrite X. reflexivity.
Qed.
(** An array reference: AREF is skipped, and then the name in its SNAME record is taken for
    records; so for every record that belongs to an element and stands outside of one. *)
Theorem C80_array_references : forall fs fs' r d b s ty dt data t, gr_data r = true -> library_ok b -> structure_ok s -> element_record ty -> Z.of_nat (length data) <= 65531 ->
  fs (narrow (gr_name r)) = Some (open_structure b s ++ record 11 0 [] ++ record ty dt data ++ t) -> fs' (narrow (gr_name r)) = Some (open_structure b s ++ data ++ t) ->
  gRead fs r (Some d) = gRead fs' r (Some d).
Proof.
  intros fs fs' r d b s ty dt data t D HB HS HT L F F'. rewrite (gRead_run fs r d _ D F), (gRead_run fs' r d _ D F').
  destruct (open_structure_stable b s (gd_libraries d) HB HS) as (libs & e & os & K). rewrite !K. rewrite aref_skipped, (stray_record ty dt data t libs e os HT L). reflexivity.
Qed.
(** In general: at every place, every record that is not taken there is refused, and its data are
    then taken for records; records of unknown types are skipped with their data. *)
Theorem C80_refused_records : forall pl text fs fs' r d ty dt data t, gr_data r = true -> standing pl text ->
  known_record ty -> ~ taken pl ty -> Z.of_nat (length data) <= 65531 ->
  fs (narrow (gr_name r)) = Some (text ++ record ty dt data ++ t) -> fs' (narrow (gr_name r)) = Some (text ++ data ++ t) ->
  gRead fs r (Some d) = gRead fs' r (Some d).
Proof.
  intros pl text fs fs' r d ty dt data t D S K N L F F'. rewrite (gRead_run fs r d _ D F), (gRead_run fs' r d _ D F').
  destruct S as [|b HB|b s HB HS|b s e HB HS HE].
  - cbn [app]. rewrite refused_outside by assumption. reflexivity.
  - destruct (open_library_stable b (gd_libraries d) HB) as (libs & E). rewrite !E, refused_in_lib by assumption. reflexivity.
  - destruct (open_structure_stable b s (gd_libraries d) HB HS) as (libs & e & os & E). rewrite !E, refused_between by assumption. reflexivity.
  - destruct (open_element_stable b s e (gd_libraries d) HB HS HE) as (libs & e1 & os & o & R & E). rewrite !E.
    rewrite (refused_in_el ty dt data t libs e1 os o e R K N L). reflexivity.
Qed.

Theorem C80_unknown_records_skipped : forall pl text fs fs' r d ty dt data t, gr_data r = true -> standing pl text ->
  0 <= ty < 128 -> ~ known_record ty -> Z.of_nat (length data) <= 65531 ->
  fs (narrow (gr_name r)) = Some (text ++ record ty dt data ++ t) -> fs' (narrow (gr_name r)) = Some (text ++ t) ->
  gRead fs r (Some d) = gRead fs' r (Some d).
Proof.
  intros pl text fs fs' r d ty dt data t D S K N L F F'. rewrite (gRead_run fs r d _ D F), (gRead_run fs' r d _ D F').
  destruct S as [|b HB|b s HB HS|b s e HB HS HE].
  - cbn [app]. rewrite run_unknown by (first [apply outside_ok|assumption]). reflexivity.
  - destruct (open_library_stable b (gd_libraries d) HB) as (libs & E). rewrite !E, run_unknown by (first [apply in_lib_ok|assumption]). reflexivity.
  - destruct (open_structure_stable b s (gd_libraries d) HB HS) as (libs & e & os & E). rewrite !E, run_unknown by (first [apply between_ok|assumption]). reflexivity.
  - destruct (open_element_stable b s e (gd_libraries d) HB HS HE) as (libs & e1 & os & o & R & E). rewrite !E, run_unknown by (first [apply in_el_ok|assumption]). reflexivity.
Qed.

(** A structure is lost without a word: its second property swallows the end of the element. *)
Example C80_hypotheses_met :
  library_ok ex_library /\ structure_ok ex_top /\ element_ok ex_boundary /\ el_property ex_boundary = Some (1, [x76]) /\
  ex_view (gRead (ex_gfs ex_two_properties) ex_greader (Some ex_empty)) =
    Some (true, [([x4c; x49; x42], [([x41], 3%nat, true); ([x42], 1%nat, false); ([x54; x4f; x50], 2%nat, false)])]).
Proof.
  pose proof (proj1 (proj2 C74_hypotheses_met)) as H. split; [exact H|]. destruct H as (_ & _ & _ & _ & _ & _ & H). cbn [lb_structures ex_library] in H.
  inversion H as [|? ? H1 H2]; subst. inversion H2 as [|? ? _ H3]; subst. inversion H3 as [|? ? H4 _]; subst. split; [exact H4|].
  destruct H1 as (_ & _ & H1). inversion H1; subst. split; [assumption|]. split; [reflexivity|]. vm_compute. reflexivity.
Qed.

(** A structure begun inside a structure; the name of a reference in a boundary; a second library. *)
Example C80_refused_met :
  standing AmongElements (open_structure ex_library ex_top) /\ known_record 5 /\ ~ taken AmongElements 5 /\
  standing (InsideElement ex_boundary) (open_element ex_library ex_top ex_boundary) /\ known_record 18 /\ ~ taken (InsideElement ex_boundary) 18 /\
  standing AmongStructures (open_library ex_library) /\ known_record 1 /\ ~ taken AmongStructures 1 /\ ~ known_record 11.
Proof.
  destruct C80_hypotheses_met as (H1 & H2 & H3 & _). unfold known_record, taken, In. cbn [ex_boundary el_shape].
  split; [constructor; assumption|]. split; [tauto|]. split; [lia|]. split; [constructor; assumption|]. split; [tauto|].
  split; [intros [Q|[Q|[Q|[(Q & _)|Q]]]]; lia || contradiction|]. split; [constructor; assumption|]. split; [tauto|]. split; lia.
Qed.

Print Assumptions C66_the_reader_never_reads.
Print Assumptions C74_format_detection.
Print Assumptions C74_short_files.
Print Assumptions C74_libraries_are_recognised.
Print Assumptions C75_reading_ends.
Print Assumptions C76_well_formed_files.
Print Assumptions C76_property_values_refuted.
Print Assumptions C77_references.
Print Assumptions C78_layers.
Print Assumptions C78_pairs_are_determined.
Print Assumptions C78_pairs_refuted.
Print Assumptions C79_library_boxes.
Print Assumptions C79_nothing_after_a_failure.
Print Assumptions C79_boxes_refuted.
Print Assumptions C80_second_property.
Print Assumptions C80_array_references.
Print Assumptions C80_refused_records.
Print Assumptions C80_unknown_records_skipped.
