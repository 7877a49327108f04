(** Read as a whole. *)
From Coq Require Import Permutation Sorted Reals.
From Flocq Require Import IEEE754.BinarySingleNaN.
From Verif Require Import Prelude P_Prelude M_LayoutData M_Double S_Double S_Converter M_Msk M_GdsiiHelpers S_Gdsii P_GdsiiInt P_GdsiiReal M_Gdsii P_GdsiiLoop S_GdsiiFile P_GdsiiFile P_GdsiiPost.
Local Open Scope Z_scope.

(** ** While the records are read nothing is nested, and libraries have neither layers nor boxes. *)
Definition clean_struc (e : struc) : Prop := s_nested e = false.
Definition clean_lib (b : glib) : Prop := Forall clean_struc (b_elements b) /\ b_layers b = [] /\ b_min b = mkcoord 0 0 /\ b_max b = mkcoord 0 0.
Definition clean (st : gstate) : Prop := Forall clean_lib (g_libs st) /\ forall e, g_elem st = Some e -> clean_struc e.
Definition clean_res (r : res gstate) : Prop := forall st, r = Ok st -> clean st.

Lemma upd_last_Forall {A} (P : A -> Prop) f l : Forall P l -> (forall x, P x -> P (f x)) -> Forall P (upd_last f l).
Proof.
  intros H Hf. induction l as [|x [|y t] IH]; cbn [upd_last]; [constructor| |].
  - inversion H; subst. constructor; auto.
  - inversion H; subst. constructor; auto.
Qed.
Lemma clean_ok st : clean st -> clean_res (Ok st).
Proof. intros H st' Q. injection Q as <-. exact H. Qed.
Lemma clean_elem f st : (forall e, clean_struc e -> clean_struc (f e)) -> clean st -> clean (with_elem f st).
Proof.
  intros Hf (H1 & H2). split; [exact H1|]. intros e. unfold with_elem. cbn [g_elem]. destruct (g_elem st) as [e0|]; [|discriminate]. cbn. intros Q. injection Q as <-. auto.
Qed.
Lemma clean_geom f st : clean st -> clean (with_geom f st).
Proof. apply clean_elem. intros e H. exact H. Qed.
Lemma clean_class f st : clean st -> clean (change_class f st).
Proof. apply clean_geom. Qed.
Lemma clean_stream s st : clean st -> clean (set_stream s st).
Proof. exact (fun H => H). Qed.
Lemma clean_bind {A} (x : res A) f : (forall a, x = Ok a -> clean_res (f a)) -> clean_res (bind x f).
Proof. intros H st Q. destruct x as [a|?|?]; try discriminate. exact (H a eq_refl st Q). Qed.
Lemma word0_clean st v st' : clean st -> read_word0 st = Ok (v, st') -> clean st'.
Proof.
  intros H. unfold read_word0. destruct (read_over _ _) as [img s]. destruct (Normalize_WORD _); cbn [bind]; try discriminate. intros Q. injection Q as <- <-. exact H.
Qed.
Lemma word_new_clean st v st' : clean st -> read_word_new st = Ok (v, st') -> clean st'.
Proof.
  intros H. unfold read_word_new. destruct (read_new _ _) as [[img s]|?|?]; cbn [bind]; try discriminate. destruct (Normalize_WORD _); cbn [bind]; try discriminate. intros Q. injection Q as <- <-. exact H.
Qed.
Lemma string_clean len st v st' : clean st -> read_string len st = (v, st') -> clean st'.
Proof. intros H. unfold read_string. destruct (sread _ _) as [got s]. intros Q. injection Q as <- <-. exact H. Qed.
Lemma begin_clean c st : clean st -> clean_res (begin_element c st).
Proof.
  intros H. unfold begin_element. destruct (negb _); [apply clean_ok, H|]. apply clean_ok. split; [exact (proj1 H)|]. intros e E.
  apply (proj2 (clean_elem (with_objs (fun os => os ++ [new_obj c])) st (fun e H => H) H) e E).
Qed.
Lemma dates_clean st : clean st -> clean_res (read_dates st).
Proof. intros H. unfold read_dates. apply clean_bind. intros r _. apply clean_bind. intros r' _. apply clean_ok. exact H. Qed.

Lemma dispatch_clean ty len st : clean st -> clean_res (dispatch ty len st).
Proof.
  intros S.
  assert (D : clean_res (Ok (set_stream (sseek (Z.to_nat len) (g_stream st)) st))) by (apply clean_ok; exact S).
  unfold dispatch.
  destruct ty as [|p|p]; [|do 6 (try (destruct p as [p|p|]; try exact D))|exact D];
    unfold ReadSection_HEADER, ReadSection_BEGINLIBRARY, ReadSection_LIBNAME, ReadSection_UNITS, ReadSection_ENDLIBRARY, ReadSection_BEGINSTRUCTURE,
      ReadSection_STRNAME, ReadSection_ENDSTRUCTURE, ReadSection_BOUNDARY, ReadSection_PATH, ReadSection_SREF, ReadSection_TEXT, ReadSection_LAYER,
      ReadSection_DATATYPE, ReadSection_WIDTH, ReadSection_XY, ReadSection_ENDELEMENT, ReadSection_SNAME, ReadSection_TEXTTYPE, ReadSection_PRESENTATION,
      ReadSection_STRING, ReadSection_STRANS, ReadSection_MAG, ReadSection_PATHTYPE, ReadSection_PROPATTR, ReadSection_BOX, ReadSection_BOXTYPE;
    try (apply begin_clean, S);
    try match goal with |- context [if ?b then Ok st else _] => destruct b eqn:Hg; [apply clean_ok, S|] end;
    try (apply clean_bind; intros [v st'] E; apply (word0_clean _ _ _ S) in E; apply clean_ok; cbn [snd]; first [exact E|apply clean_class, E]);
    try (apply clean_bind; intros [v st'] E; apply (word_new_clean _ _ _ S) in E; apply clean_ok; apply clean_class, E);
    try (destruct (read_string len st) as [str st'] eqn:E; apply (string_clean _ _ _ _ S) in E; apply clean_ok; first [apply clean_class, E | apply clean_elem; [intros e H; exact H|exact E]]).
  - (* WIDTH *) destruct (read_over _ _) as [img s]. apply clean_bind. intros v _. apply clean_ok, clean_class, clean_stream, S.
  - (* PROPATTR *) destruct (active st) as [o|]; [|intros ? Q; discriminate].
    destruct (rev (o_props o)) as [|[a [|x y]] t]; [|apply clean_ok, S|]; (apply clean_bind; intros [v st'] E; apply (word0_clean _ _ _ S) in E; apply clean_ok, clean_geom, E).
  - (* MAG *) destruct (read_over _ _) as [img s]. apply clean_bind. intros v _. apply clean_ok, clean_class, clean_stream, S.
  - (* ENDSTR *) destruct (g_elem st) as [e|] eqn:Ee; [|apply clean_ok, S]. apply clean_ok. destruct S as (S1 & S2). split; [|discriminate]. cbn [g_libs].
    apply upd_last_Forall; [exact S1|]. intros b (B1 & B2). split; [|exact B2]. cbn [b_elements]. apply Forall_app. split; [exact B1|]. constructor; [|constructor].
    pose proof (S2 e Ee) as C. unfold clean_struc, bound_struc in *. destruct (s_objs e) as [|o os]; [exact C|]. destruct (fold_left widen_box os _). exact C.
  - (* LAYER *) destruct (active st) as [o|]; [|intros ? Q; discriminate]. destruct (read_over _ _) as [img s]. apply clean_bind. intros v _. apply clean_ok, clean_geom, clean_stream, S.
  - (* ENDEL *) apply clean_ok. exact S.
  - (* BGNSTR *) apply dates_clean. split; [exact (proj1 S)|]. intros e Q. injection Q as <-. reflexivity.
  - (* UNITS *) destruct (read_over _ _) as [img s]. apply clean_bind. intros u _. apply clean_bind. intros p _. apply clean_ok. split; [|exact (proj2 S)]. cbn [g_libs with_lib set_stream].
    apply upd_last_Forall; [exact (proj1 S)|]. intros b B. exact B.
  - (* SREF *) apply clean_bind. intros st' E. apply begin_clean in E; [|exact S]. apply clean_ok. destruct (in_structure st); [|exact E]. apply clean_elem; [intros e H; exact H|exact E].
  - (* XY *) destruct (active st) as [o|]; [|intros ? Q; discriminate]. destruct (o_class o); (apply clean_bind; intros [c s] _; apply clean_ok, clean_geom, clean_stream, S).
  - (* ENDLIB *) apply clean_ok. exact S.
  - (* LIBNAME *) destruct (read_string len st) as [str st'] eqn:E; apply (string_clean _ _ _ _ S) in E; apply clean_ok. split; [|exact (proj2 E)]. cbn [g_libs with_lib].
    apply upd_last_Forall; [exact (proj1 E)|]. intros b B. exact B.
  - (* BGNLIB *) apply dates_clean. split; [|exact (proj2 S)]. cbn [g_libs]. apply Forall_app. split; [exact (proj1 S)|]. constructor; [|constructor]. split; [constructor|auto].
Qed.
Lemma loop_clean fuel : forall st, clean st -> clean_res (read_loop fuel st).
Proof.
  induction fuel as [|fuel IH]; intros st H; [intros ? Q; discriminate|]. cbn [read_loop]. destruct (sread 4 (g_stream st)) as [got s].
  assert (E : clean_res (if s_eof s then Ok (set_stream s st) else UB Diverges)) by (destruct (s_eof s); [apply clean_ok; exact H|intros ? Q; discriminate]).
  destruct got as [|l0 [|l1 [|ty [|dt [|? ?]]]]]; try exact E. destruct (s_eof s); [exact E|]. apply clean_bind. intros len _. apply clean_bind. intros st' E'.
  apply IH. exact (dispatch_clean _ _ (set_stream s st) H st' E').
Qed.

(** ** Read *)
Lemma gRead_run fs r d text : gr_data r = true -> fs (narrow (gr_name r)) = Some text ->
  gRead fs r (Some d) =
  let* st := run (at_text text (outside (gd_libraries d))) in
  let '(libs, ok) := PostProcessLayout (g_libs st) in
  Ok (mkgreader (gr_name r) true, Some (mkgdata (gr_name r) libs FFgdsii_bin), ok).
Proof. intros D F. unfold gRead. rewrite D. cbn [negb gr_name]. rewrite F. reflexivity. Qed.

Lemma run_ends text libs : ends (run (at_text text (outside libs))).
Proof. unfold run. apply loop_ends; [reflexivity|intros H; discriminate|lia]. Qed.

Lemma gRead_cases fs r d text : gr_data r = true -> fs (narrow (gr_name r)) = Some text ->
  (exists st, run (at_text text (outside (gd_libraries d))) = Ok st /\
     gRead fs r (Some d) = Ok (mkgreader (gr_name r) true, Some (mkgdata (gr_name r) (fst (PostProcessLayout (g_libs st))) FFgdsii_bin), snd (PostProcessLayout (g_libs st)))) \/
  gRead fs r (Some d) = UB SignedOverflow \/ gRead fs r (Some d) = UB Indeterminate.
Proof.
  intros D F. rewrite (gRead_run fs r d text D F). pose proof (run_ends text (gd_libraries d)) as E.
  destruct (run _) as [st|?|u]; [left|contradiction|right; destruct E as [-> | ->]; auto]. exists st. split; [reflexivity|]. cbn [bind]. destruct (PostProcessLayout _). reflexivity.
Qed.

(** ** References in the result *)
Lemma element_at_get libs i j e : element_at libs i j e <-> get_el i j libs = Some e.
Proof.
  unfold element_at, get_el. destruct (nth_error libs i) as [b|]; split.
  - intros (b' & Q & H). injection Q as <-. exact H.
  - intros H. exists b. auto.
  - intros (b' & Q & _). discriminate.
  - discriminate.
Qed.
Lemma first_element_resolve libs n i j : first_element libs n i j <-> resolve_name n libs = Some (i, j).
Proof.
  pose proof (resolve_name_spec n libs) as S. split.
  - intros ((e & He & Hn) & H). apply element_at_get in He. destruct (resolve_name n libs) as [[x y]|].
    + destruct S as ((e' & He' & Hn') & H'). assert (~ (x < i \/ x = i /\ y < j)%nat). { intros L. apply (H x y e' L); [apply element_at_get, He'|exact Hn']. }
      assert (~ (i < x \/ i = x /\ j < y)%nat). { intros L. exact (H' i j e L He Hn). } f_equal. f_equal; lia.
    + exfalso. exact (S i j e He Hn).
  - intros E. rewrite E in S. destruct S as ((e & He & Hn) & H). split; [exists e; split; [apply element_at_get, He|exact Hn]|]. intros i' j' e' L He'. apply element_at_get in He'. exact (H i' j' e' L He').
Qed.
Lemma unresolved libs n : resolve_name n libs = None <-> forall i j e, element_at libs i j e -> s_name e <> n.
Proof.
  pose proof (resolve_name_spec n libs) as S. split.
  - intros E i j e He. rewrite E in S. apply element_at_get in He. exact (S i j e He).
  - intros H. destruct (resolve_name n libs) as [[i j]|]; [|reflexivity]. destruct S as ((e & He & Hn) & _). exfalso. apply element_at_get in He. exact (H i j e He Hn).
Qed.

(** the post-processing, for libraries that are clean *)
Section post.
Variable libs : list glib.
Hypothesis Hclean : Forall clean_lib libs.

Lemma post_shape : exists L ok, resolve_all libs = (L, ok) /\ PostProcessLayout libs = (if ok then map bound_lib (EnumerateLayers L) else L, ok).
Proof. unfold PostProcessLayout. destruct (resolve_all libs) as [L ok]. exists L, ok. split; [reflexivity|]. destruct ok; reflexivity. Qed.

Lemma final_elements L i : option_map b_elements (nth_error (map bound_lib (EnumerateLayers L)) i) = option_map b_elements (nth_error L i).
Proof. unfold EnumerateLayers. rewrite !nth_error_map. destruct (nth_error L i) as [b|]; [|reflexivity]. cbn. rewrite bound_lib_spec. reflexivity. Qed.
Lemma final_get L i j : get_el i j (map bound_lib (EnumerateLayers L)) = get_el i j L.
Proof. pose proof (final_elements L i) as H. unfold get_el. destruct (nth_error (map _ _) i), (nth_error L i); cbn in H; try discriminate; [injection H as ->|]; reflexivity. Qed.

Lemma names_get L L' : length L = length L' -> (forall i j, option_map s_name (get_el i j L) = option_map s_name (get_el i j L')) -> names L = names L'.
Proof.
  intros Len H. unfold names. apply nth_ext_opt. intros i. rewrite !nth_error_map.
  assert (H3 : forall j, option_map s_name (get_el i j L) = option_map s_name (get_el i j L')) by (intros j; apply H). unfold get_el in H3.
  assert (HN : nth_error L i = None <-> nth_error L' i = None) by (rewrite !nth_error_None; lia).
  destruct (nth_error L i) as [b|], (nth_error L' i) as [b'|].
  - cbn. f_equal. apply nth_ext_opt. intros j. rewrite !nth_error_map. apply H3.
  - destruct HN as (_ & HN). discriminate (HN eq_refl).
  - destruct HN as (HN & _). discriminate (HN eq_refl).
  - reflexivity.
Qed.

Lemma hd_length {L : list glib} : (forall i, option_map lib_hd (nth_error L i) = option_map lib_hd (nth_error libs i)) -> length L = length libs.
Proof.
  intros H. assert (map lib_hd L = map lib_hd libs) as E by (apply nth_ext_opt; intros i; rewrite !nth_error_map; apply H).
  rewrite <- (map_length lib_hd L), E. apply map_length.
Qed.

Lemma ro_class L o : ref_name (ro L o) = ref_name o.
Proof. unfold ro, ref_name. destruct (o_class o) eqn:C; try (rewrite C; reflexivity). destruct (resolve_name _ _); [reflexivity|rewrite C; reflexivity]. Qed.

(** In both cases the result has the names and the references of what was read. *)
Lemma post_names L ok : PostProcessLayout libs = (L, ok) -> names L = names libs /\
  forall i j, option_map (fun e => map ref_name (s_objs e)) (get_el i j L) = option_map (fun e => map ref_name (s_objs e)) (get_el i j libs).
Proof.
  intros E. destruct post_shape as (L0 & ok0 & E0 & E1). rewrite E in E1. injection E1 as -> ->. destruct (resolve_all_spec libs) as (L1 & E2 & H1 & _ & ps & H2).
  rewrite E0 in E2. injection E2 as -> ->. set (okb := forallb _ _) in *.
  assert (G : forall i j, get_el i j (if okb then map bound_lib (EnumerateLayers L1) else L1) = option_map (after libs ps i j) (get_el i j libs)).
  { intros i j. destruct okb; [rewrite final_get|]; apply H2. }
  assert (LL : length (if okb then map bound_lib (EnumerateLayers L1) else L1) = length libs).
  { rewrite <- (hd_length H1). destruct okb; [unfold EnumerateLayers; rewrite !map_length|]; reflexivity. }
  split.
  - apply names_get; [exact LL|]. intros i j. rewrite G. destruct (get_el i j libs); reflexivity.
  - intros i j. rewrite G. destruct (get_el i j libs) as [e|]; [|reflexivity]. cbn. f_equal. apply nth_ext_opt. intros k. rewrite !nth_error_map, nth_imap. cbn.
    destruct (nth_error (s_objs e) k); [|reflexivity]. cbn. f_equal. destruct (mem _ _); [apply ro_class|reflexivity].
Qed.

Lemma ref_name_some o n : ref_name o = Some n <-> exists p m, o_class o = SReference n p m.
Proof. unfold ref_name. destruct (o_class o); split; try discriminate; try (intros (? & ? & Q); discriminate). - intros Q. injection Q as ->. eauto. - intros (p & m & Q). injection Q as -> -> ->. reflexivity. Qed.
Lemma refers_to_names L n : refers_to L n <-> exists i j e, get_el i j L = Some e /\ In (Some n) (map ref_name (s_objs e)).
Proof.
  split.
  - intros (i & j & e & o & p & m & H1 & H2 & H3). exists i, j, e. split; [apply element_at_get, H1|]. apply in_map_iff. exists o. split; [apply ref_name_some; eauto|exact H2].
  - intros (i & j & e & H1 & H2). apply in_map_iff in H2. destruct H2 as (o & H2 & H3). apply ref_name_some in H2. destruct H2 as (p & m & H2). exists i, j, e, o, p, m. split; [apply element_at_get, H1|auto].
Qed.
Lemma refers_to_post L ok n : PostProcessLayout libs = (L, ok) -> (refers_to L n <-> refers_to libs n).
Proof.
  intros E. destruct (post_names L ok E) as (_ & H). rewrite !refers_to_names. split; intros (i & j & e & H1 & H2); specialize (H i j); rewrite H1 in H; cbn in H.
  - destruct (get_el i j libs) as [e'|] eqn:X; [|discriminate]. cbn in H. injection H as H. exists i, j, e'. rewrite <- H. auto.
  - destruct (get_el i j L) as [e'|] eqn:X; [|discriminate]. cbn in H. injection H as H. exists i, j, e'. rewrite H. auto.
Qed.

Lemma post_ok L ok : PostProcessLayout libs = (L, ok) -> (ok = true <-> forall n, refers_to L n -> exists i j e, element_at L i j e /\ s_name e = n).
Proof.
  intros E. destruct (post_names L ok E) as (HN & _).
  assert (R : forall n, (exists i j e, element_at L i j e /\ s_name e = n) <-> resolve_name n libs <> None).
  { intros n. rewrite <- (resolve_name_names n L libs HN). split.
    - intros (i & j & e & H1 & H2) H. exact (proj1 (unresolved L n) H i j e H1 H2).
    - intros H. destruct (resolve_name n L) as [[i j]|] eqn:Q; [|congruence]. apply first_element_resolve in Q. destruct Q as ((e & He & Hn) & _). eauto. }
  destruct post_shape as (L0 & ok0 & E0 & E1). rewrite E in E1. injection E1 as _ ->. destruct (resolve_all_spec libs) as (L1 & E2 & _). rewrite E0 in E2. injection E2 as _ ->.
  rewrite forallb_forall. split.
  - intros H n Hn. apply R. apply (refers_to_post L _ n E) in Hn. destruct Hn as (i & j & e & o & p & m & H1 & H2 & H3). apply element_at_get in H1. apply In_nth_error in H2. destruct H2 as (k & H2).
    assert (G : get_obj i j k libs = Some o) by (rewrite get_obj_el, H1; exact H2). specialize (H (i, j, k) (proj2 (positions_in libs i j k) (ex_intro _ o G))).
    unfold resolves in H. rewrite G in H. unfold ref_name in H. rewrite H3 in H. destruct (resolve_name n libs); [discriminate|discriminate H].
  - intros H [[i j] k] I. unfold resolves. destruct (get_obj i j k libs) as [o|] eqn:G; [|reflexivity]. destruct (ref_name o) as [n|] eqn:Q; [|reflexivity].
    assert (HR : refers_to libs n). { rewrite get_obj_el in G. destruct (get_el i j libs) as [e|] eqn:Ee; [|discriminate]. apply refers_to_names. exists i, j, e. split; [exact Ee|]. apply in_map_iff. exists o. split; [exact Q|exact (nth_error_In _ _ G)]. }
    specialize (H n (proj2 (refers_to_post L _ n E) HR)). apply R in H. destruct (resolve_name n libs); [reflexivity|congruence].
Qed.

Lemma post_elements L i j : PostProcessLayout libs = (L, true) -> get_el i j L = option_map (resolved_struc libs i j) (get_el i j libs).
Proof.
  intros E. destruct post_shape as (L0 & ok0 & E0 & E1). rewrite E in E1. injection E1 as -> <-. destruct (resolve_all_spec libs) as (L1 & E2 & _ & H2 & _).
  rewrite E0 in E2. injection E2 as -> Q. rewrite final_get. apply H2. symmetry. exact Q.
Qed.

Lemma post_references L : PostProcessLayout libs = (L, true) ->
  forall i j e o n p m, element_at L i j e -> In o (s_objs e) -> o_class o = SReference n p m -> exists i' j', p = Some (i', j') /\ first_element L n i' j'.
Proof.
  intros E i j e o n p m H1 H2 H3. pose proof (proj1 (post_ok L true E) eq_refl n (ex_intro _ i (ex_intro _ j (ex_intro _ e (ex_intro _ o (ex_intro _ p (ex_intro _ m (conj H1 (conj H2 H3)))))))))
    as (a & b & e1 & Ha & Hb).
  destruct (post_names L true E) as (HN & _).
  assert (R : exists x y, resolve_name n libs = Some (x, y)).
  { rewrite <- (resolve_name_names n L libs HN). destruct (resolve_name n L) as [[x y]|] eqn:Q; [eauto|]. exfalso. exact (proj1 (unresolved L n) Q a b e1 Ha Hb). }
  destruct R as (x & y & R). apply element_at_get in H1. rewrite (post_elements L i j E) in H1. destruct (get_el i j libs) as [e0|]; [|discriminate]. cbn in H1. injection H1 as <-. cbn [resolved_struc s_objs] in H2.
  apply in_map_iff in H2. destruct H2 as (o0 & Q & I). subst o. unfold ro in H3. destruct (o_class o0) eqn:C; try (rewrite C in H3; discriminate).
  assert (name = n). { destruct (resolve_name name libs); [cbn in H3; injection H3; auto|rewrite C in H3; injection H3; auto]. } subst name. rewrite R in H3. cbn in H3. injection H3 as <- <-.
  exists x, y. split; [reflexivity|]. apply first_element_resolve. rewrite (resolve_name_names n L libs HN). exact R.
Qed.

Lemma post_nested L : PostProcessLayout libs = (L, true) -> forall i j e, element_at L i j e -> (s_nested e = true <-> exists n, refers_to L n /\ first_element L n i j).
Proof.
  intros E i j e H1. destruct (post_names L true E) as (HN & _). apply element_at_get in H1. rewrite (post_elements L i j E) in H1. destruct (get_el i j libs) as [e0|] eqn:E0; [|discriminate]. cbn in H1. injection H1 as <-.
  cbn [resolved_struc s_nested].
  assert (C : s_nested e0 = false).
  { unfold get_el in E0. destruct (nth_error libs i) as [b|] eqn:Eb; [|discriminate]. apply nth_error_In in E0, Eb. rewrite Forall_forall in Hclean. destruct (Hclean b Eb) as (Cb & _). rewrite Forall_forall in Cb. exact (Cb e0 E0). }
  rewrite C. cbn [orb]. rewrite existsb_exists. split.
  - intros ([[a b] k] & I & H). unfold refers in H. destruct (get_obj a b k libs) as [o|] eqn:G; [|discriminate]. destruct (ref_name o) as [n|] eqn:Q; [|discriminate].
    destruct (resolve_name n libs) as [[x y]|] eqn:R; [|discriminate]. apply andb_true_iff in H. destruct H as (Hx & Hy). apply Nat.eqb_eq in Hx, Hy. subst x y.
    exists n. split.
    + apply (refers_to_post L true n E). rewrite get_obj_el in G. destruct (get_el a b libs) as [e1|] eqn:Ee; [|discriminate]. apply refers_to_names. exists a, b, e1. split; [exact Ee|]. apply in_map_iff. exists o. split; [exact Q|exact (nth_error_In _ _ G)].
    + apply first_element_resolve. rewrite (resolve_name_names n L libs HN). exact R.
  - intros (n & H1 & H2). apply (refers_to_post L true n E) in H1. apply first_element_resolve in H2. rewrite (resolve_name_names n L libs HN) in H2.
    destruct H1 as (a & b & e1 & o & p & m & H1 & H3 & H4). apply element_at_get in H1. apply In_nth_error in H3. destruct H3 as (k & H3).
    assert (G : get_obj a b k libs = Some o) by (rewrite get_obj_el, H1; exact H3). exists (a, b, k). split; [apply positions_in; eauto|].
    unfold refers. rewrite G. unfold ref_name. rewrite H4, H2, !Nat.eqb_refl. reflexivity.
Qed.

(** Layers *)
Lemma layer_of_pair o y : layer_of o = Some y <-> layer_pair o (y_layer y, y_dataType y).
Proof.
  destruct y as [l d]. cbn [y_layer y_dataType]. unfold layer_of. split.
  - destruct (o_class o) eqn:C; intros Q; try discriminate; injection Q as <- <-; [eapply pair_polygon|eapply pair_path|eapply pair_text|eapply pair_box]; exact C.
  - intros H. inversion H as [? ? C|? ? ? ? C|? ? ? ? ? ? ? ? C|? ? C]; subst; rewrite C; reflexivity.
Qed.
Definition pair_of (y : glayer) : Z * Z := (y_layer y, y_dataType y).
Lemma first_pairs_collect os : exists ls, fold_left collect os [] = ls /\ first_pairs os (map pair_of ls).
Proof.
  induction os as [|o os IH] using rev_ind; [exists []; split; [reflexivity|constructor]|]. destruct IH as (ls & E & F). rewrite fold_left_app. cbn [fold_left]. rewrite E. eexists. split; [reflexivity|].
  unfold collect. destruct (layer_of o) as [y|] eqn:Q.
  - pose proof (proj1 (layer_of_pair o y) Q) as P. destruct (existsb (same_layer y) ls) eqn:X.
    + apply (fp_old os _ o _ F P). apply existsb_exists in X. destruct X as (z & I & X). apply same_layer_eq in X. subst z. apply (in_map pair_of) in I. exact I.
    + rewrite map_app. apply (fp_new os _ o _ F P). intros I. apply in_map_iff in I. destruct I as (z & Qz & I). assert (z = y) by (destruct z, y; unfold pair_of in Qz; cbn in Qz; injection Qz as -> ->; reflexivity). subst z.
      assert (existsb (same_layer y) ls = true) by (apply existsb_exists; exists y; split; [exact I|apply same_layer_eq; reflexivity]). congruence.
  - unfold layer_of in Q. destruct (o_class o) eqn:C; try discriminate. exact (fp_reference os _ o _ _ _ F C).
Qed.

Lemma post_libraries L i b : PostProcessLayout libs = (L, true) -> nth_error L i = Some b -> exists b0, nth_error libs i = Some b0 /\ b_name b = b_name b0 /\ b_user b = b_user b0 /\ b_physical b = b_physical b0 /\
  b_layers b = reorder (fold_left collect (objects b) []) /\ (b_min b, b_max b) = last_outer (b_elements b) (mkcoord 0 0, mkcoord 0 0).
Proof.
  intros E H. destruct post_shape as (L0 & ok0 & E0 & E1). rewrite E in E1. injection E1 as -> <-. destruct (resolve_all_spec libs) as (L1 & E2 & H1 & _). rewrite E0 in E2. injection E2 as -> _.
  unfold EnumerateLayers in H. rewrite !nth_error_map in H. specialize (H1 i). destruct (nth_error L1 i) as [b1|]; [|discriminate]. cbn in H. injection H as <-. destruct (nth_error libs i) as [b0|] eqn:Eb; [|discriminate].
  cbn in H1. unfold lib_hd in H1. injection H1 as A1 A2 A3 _ A5 A6 A7. apply nth_error_In in Eb. rewrite Forall_forall in Hclean. destruct (Hclean b0 Eb) as (_ & C1 & C2 & C3).
  exists b0. split; [reflexivity|]. rewrite bound_lib_spec. cbn [b_name b_user b_physical b_layers b_elements b_min b_max]. split; [exact A1|]. split; [exact A2|]. split; [exact A3|].
  split; [unfold collect_layers, objects; cbn [b_elements]; rewrite A5, C1; reflexivity|]. rewrite A6, A7, C2, C3, <- surjective_pairing. reflexivity.
Qed.

Lemma post_layers L i b : PostProcessLayout libs = (L, true) -> nth_error L i = Some b ->
  exists ps, first_pairs (objects b) ps /\ Permutation (map y_layer (b_layers b)) (map fst ps) /\ Sorted Z.le (map y_layer (b_layers b)) /\ map y_dataType (b_layers b) = map snd ps.
Proof.
  intros E H. destruct (post_libraries L i b E H) as (b0 & _ & _ & _ & _ & HL & _). destruct (first_pairs_collect (objects b)) as (ls & El & F). rewrite HL, El.
  destruct (reorder_spec ls) as (A & B & C). exists (map pair_of ls). split; [exact F|]. rewrite !map_map. cbn [pair_of fst snd]. auto.
Qed.

Lemma post_boxes L i b : PostProcessLayout libs = (L, true) -> nth_error L i = Some b ->
  ((forall e, In e (b_elements b) -> s_nested e = true) /\ b_min b = mkcoord 0 0 /\ b_max b = mkcoord 0 0) \/
  exists before e after, b_elements b = before ++ e :: after /\ s_nested e = false /\ (forall x, In x after -> s_nested x = true) /\ b_min b = s_min e /\ b_max b = s_max e.
Proof.
  intros E H. destruct (post_libraries L i b E H) as (b0 & _ & _ & _ & _ & _ & HB). unfold last_outer in HB.
  assert (G : forall es, match rev (filter (fun e => negb (s_nested e)) es) with
     | [] => forall e, In e es -> s_nested e = true
     | e :: _ => exists before after, es = before ++ e :: after /\ s_nested e = false /\ forall x, In x after -> s_nested x = true end).
  { induction es as [|e es IH] using rev_ind; [intros ? []|]. rewrite filter_app, rev_app_distr. cbn [filter]. destruct (s_nested e) eqn:N; cbn [negb rev app].
    - destruct (rev (filter _ es)) as [|e1 t].
      + intros x I. apply in_app_or in I. destruct I as [I|[<-|[]]]; auto.
      + destruct IH as (bf & af & -> & H1 & H2). exists bf, (af ++ [e]). rewrite <- app_assoc. split; [reflexivity|]. split; [exact H1|]. intros x I. apply in_app_or in I. destruct I as [I|[<-|[]]]; auto.
    - exists es, []. split; [reflexivity|]. split; [exact N|]. intros ? []. }
  specialize (G (b_elements b)). destruct (rev (filter _ (b_elements b))) as [|e t].
  - left. injection HB as H1 H2. auto.
  - right. destruct G as (bf & af & G1 & G2 & G3). injection HB as H1 H2. exists bf, e, af. auto.
Qed.
Lemma post_failed L i b : PostProcessLayout libs = (L, false) -> nth_error L i = Some b -> b_layers b = [] /\ b_min b = mkcoord 0 0 /\ b_max b = mkcoord 0 0.
Proof.
  intros E H. destruct post_shape as (L0 & ok0 & E0 & E1). rewrite E in E1. injection E1 as -> <-. destruct (resolve_all_spec libs) as (L1 & E2 & H1 & _). rewrite E0 in E2. injection E2 as -> _.
  specialize (H1 i). rewrite H in H1. destruct (nth_error libs i) as [b0|] eqn:Eb; [|discriminate]. cbn in H1. unfold lib_hd in H1. injection H1 as A1 A2 A3 _ A5 A6 A7.
  apply nth_error_In in Eb. rewrite Forall_forall in Hclean. destruct (Hclean b0 Eb) as (_ & C1 & C2 & C3). rewrite A5, A6, A7. auto.
Qed.
End post.

(** Read into an empty layout: the post-processing of something clean *)
Lemma read_clean fs r name ff r' d' ok : gr_data r = true -> gRead fs r (Some (mkgdata name [] ff)) = Ok (r', Some d', ok) -> fs (narrow (gr_name r)) <> None ->
  exists libs, Forall clean_lib libs /\ PostProcessLayout libs = (gd_libraries d', ok).
Proof.
  intros D E F. destruct (fs (narrow (gr_name r))) as [text|] eqn:FT; [|congruence].
  destruct (gRead_cases fs r (mkgdata name [] ff) text D FT) as [(st & R & Q)|[Q|Q]]; rewrite E in Q; try discriminate Q. cbn [gd_libraries] in R.
  exists (g_libs st). split.
  - assert (C : clean (at_text text (outside []))) by (split; [constructor|intros e X; discriminate X]). exact (proj1 (loop_clean _ _ C st R)).
  - destruct (PostProcessLayout (g_libs st)) as [L k]. cbn [fst snd] in Q. injection Q as _ -> ->. reflexivity.
Qed.
