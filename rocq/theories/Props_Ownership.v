(** C92, C93, C94: who owns the objects of a layout. *)
From Coq Require Import Permutation.
From Verif Require Import Prelude P_Prelude M_LayoutData M_Scanf M_Msk M_Ownership S_Msk S_Ownership P_Scanf P_Msk P_MskFile P_Ownership P_OwnerRead P_OwnerSim Props_Msk.
Local Open Scope Z_scope.

(** ** C92 *)
(** The destructor of a layout is defined exactly when the layout is sound ... *)
Theorem C92_defined : forall h d, (exists h', destroy_data h d = Ok h') <-> sound h d.
Proof.
  intros h d. split; [intros (h' & E); apply (proj2 (destroy_spec h d) h' E)|apply destroy_spec].
Qed.

(** ... it is undefined behaviour otherwise (it never throws) ... *)
Theorem C92_undefined : forall h d, ~ sound h d -> exists u, destroy_data h d = UB u.
Proof.
  intros h d N. destruct (destroy_data h d) as [h'|e|u] eqn:E.
  - exfalso. apply N. apply (proj2 (destroy_spec h d) h' E).
  - exfalso. exact (for_each_no_throw _ _ delete_library_no_throw _ _ E).
  - exists u. reflexivity.
Qed.

(** ... and it releases exactly the objects that the layout owns, once each. *)
Theorem C92_releases : forall h d h', destroy_data h d = Ok h' -> without h (owned h d) h' /\ NoDup (owned h d).
Proof. intros h d h' E. destruct (proj2 (destroy_spec h d) h' E) as ((_ & N) & W & _). split; assumption. Qed.

(** ** C93 *)
Lemma dead_first (D : heap -> pointer -> res heap) ps h : (forall h, D h None = Ok h) ->
  (forall a, In a (targets ps) -> D h (Some a) = UB DoubleFree) -> targets ps <> [] -> for_each ps h D = UB DoubleFree.
Proof.
  intros H0 H1 N. induction ps as [|p ps IH]; [exfalso; apply N; reflexivity|]. cbn [for_each]. rewrite targets_cons in *. destruct p as [a|].
  - rewrite H1 by (left; reflexivity). reflexivity.
  - rewrite H0. apply IH; assumption.
Qed.

Lemma none_first (D : heap -> pointer -> res heap) ps h : (forall h, D h None = Ok h) -> targets ps = [] -> for_each ps h D = Ok h.
Proof. intros H0 T. induction ps as [|p ps IH]; [reflexivity|]. cbn [for_each]. rewrite targets_cons in T. destruct p; [discriminate|]. rewrite H0. apply IH, T. Qed.

(** A layout, a library and an element can be copied, and then both the original and the copy
    are destroyed: undefined behaviour, unless there is nothing to own. *)
Theorem C93_copied_layout : forall h d h1, destroy_data h d = Ok h1 ->
  (targets (pd_libraries d) <> [] -> destroy_data h1 (copy_data d) = UB DoubleFree) /\
  (targets (pd_libraries d) = [] -> destroy_data h1 (copy_data d) = Ok h1).
Proof.
  intros h d h1 E. destruct (C92_releases h d h1 E) as (W & _). unfold destroy_data, copy_data in *. cbn [pd_libraries]. split; intros N.
  - apply dead_first; [reflexivity| |exact N]. intros a I. unfold delete_library, load_library.
    assert (h_cell h1 a = None) as ->; [|reflexivity]. apply W. unfold owned. apply in_concat. exists (owned_by_library h a). split; [apply in_map; exact I|left; reflexivity].
  - apply none_first; [reflexivity|exact N].
Qed.

Theorem C93_copied_library : forall h b h1, destroy_library h b = Ok h1 ->
  (targets (pb_elements b) <> [] -> destroy_library h1 (copy_library b) = UB DoubleFree) /\
  (targets (pb_elements b) = [] -> destroy_library h1 (copy_library b) = Ok h1).
Proof.
  intros h b h1 E. unfold destroy_library, copy_library in *. cbn [pb_elements]. destruct (proj2 (delete_elements _ _) h1 E) as (_ & _ & W & _). split; intros N.
  - apply dead_first; [reflexivity| |exact N]. intros a I. unfold delete_element, load_element.
    assert (h_cell h1 a = None) as ->; [|reflexivity]. apply W. apply in_concat. exists (owned_by_element h a). split; [apply in_map; exact I|left; reflexivity].
  - apply none_first; [reflexivity|exact N].
Qed.

Theorem C93_copied_element : forall h e h1, destroy_element h e = Ok h1 ->
  (targets (pe_geometries e) <> [] -> destroy_element h1 (copy_element e) = UB DoubleFree) /\
  (targets (pe_geometries e) = [] -> destroy_element h1 (copy_element e) = Ok h1).
Proof.
  intros h e h1 E. unfold destroy_element, copy_element in *. cbn [pe_geometries]. destruct (proj2 (delete_geometries _ _) h1 E) as (_ & _ & W & _). split; intros N.
  - apply dead_first; [reflexivity| |exact N]. intros a I. unfold delete_geometry, load_geometry.
    assert (h_cell h1 a = None) as ->; [|reflexivity]. apply W. exact I.
  - apply none_first; [reflexivity|exact N].
Qed.

(** ** C94 *)
Lemma line_lost_says l l' c : ~ In newline l -> without_returns l l' -> says l' c -> (line_lost l = true <-> begins (lit "TITLE") l').
Proof.
  intros N W S. unfold line_lost, cleaned. fold (clean l). rewrite (clean_returns l l' N W). unfold title_lost.
  assert (Other : forall b t, l' = b :: t -> b <> "T"%byte -> b <> x00 -> (contains (lit "TITLE") l' &&
    match sscanf l' (lit "TITLE %d %d  #%s") with Ok (n, _) => negb (n =? 0) | _ => false end = true <-> begins (lit "TITLE") l')).
  { intros b t -> N1 N2. rewrite first_title by assumption. rewrite andb_false_r. split; [discriminate|]. intros (x & Q). cbn in Q. congruence. }
  destruct S as [s1 s2 s3 s4 a b c d rest|s1 s2 s3 s4 a b w h ws name close rest|s1 s2 a b sp ws ws' text rest Ha Hb Hsp Hws Hws' Hw Ht Hl He|line N0 NB NR NT].
  - eapply Other; [reflexivity|discriminate|discriminate].
  - eapply Other; [reflexivity|discriminate|discriminate].
  - rewrite (title_scan a b) by assumption. rewrite contains_begins by (eexists; reflexivity). split; [intros _; eexists; reflexivity|reflexivity].
  - split; [|intros Q; contradiction]. intros Q. apply andb_true_iff in Q. destruct Q as (C & Q).
    rewrite (sscanf_no_prefix _ (lit "TITLE") title_dirs) in Q; [discriminate Q|reflexivity| |]; rewrite c_str_id by exact N0; [exact NT|apply contains_length, C].
Qed.

Lemma lost_titles text cs ls n : file_says text cs -> file_lines text ls -> titles ls n -> lost (getlines [] text) = n.
Proof.
  intros (ls' & F' & S) F T. rewrite (getlines_lines _ _ F). assert (ls' = ls) as -> by (rewrite <- (getlines_lines _ _ F'); apply getlines_lines; exact F).
  pose proof (lines_no_newline _ _ F) as N. clear F F'. revert cs S. induction T as [|l l' t n W B T IH|l l' t n W B T IH]; intros cs S.
  - reflexivity.
  - inversion S as [|? c ? cs' (l2 & W2 & Sy) S']; subst. inversion N as [|? ? N1 N2]; subst. cbn [lost].
    assert (l2 = l') as -> by (rewrite <- (clean_returns _ _ N1 W2); apply clean_returns; assumption).
    rewrite (proj2 (line_lost_says l l' c N1 W Sy) B), (IH N2 cs' S'). reflexivity.
  - inversion S as [|? c ? cs' (l2 & W2 & Sy) S']; subst. inversion N as [|? ? N1 N2]; subst. cbn [lost].
    assert (l2 = l') as -> by (rewrite <- (clean_returns _ _ N1 W2); apply clean_returns; assumption).
    destruct (line_lost l) eqn:E; [exfalso; apply B, (line_lost_says l l' c N1 W Sy), E|]. rewrite (IH N2 cs' S'). reflexivity.
Qed.

(** A successful read: the layout at the level of pointers is the one that the value-level model
    gives; it is sound if it was; it owns what it owned and a new library, a new element and new
    geometries; the layers of the new library hold the geometries of the new element, once each;
    apart from the new owned objects there are [lost] new ones. *)
Theorem C94_read : forall pl fs r v h d dv v' dv',
  abstracts r v -> regular h -> holds h d dv -> sound h d -> Read pl fs v (Some dv) = Ok (v', Some dv', true) ->
  exists h' r' d' lib el gs lost b e,
    pRead pl fs r h (Some d) = Ok (h', r', Some d', true) /\ abstracts r' v' /\ holds h' d' dv' /\ sound h' d' /\ regular h' /\
    owned h' d' = owned h d ++ lib :: el :: gs /\
    NoDup (lib :: el :: gs ++ lost) /\ (forall a, In a (lib :: el :: gs ++ lost) -> h_cell h a = None) /\
    (forall a, h_cell h' a <> None <-> h_cell h a <> None \/ In a (lib :: el :: gs ++ lost)) /\
    h_cell h' lib = Some (CellLibrary b) /\ pb_elements b = [Some el] /\
    h_cell h' el = Some (CellElement e) /\ targets (pe_geometries e) = gs /\
    Permutation (targets (concat (map py_geometries (pb_layers b)))) gs.
Proof.
  intros pl fs r v h d dv v' dv' A Rg H So E. unfold Read in E.
  destruct (if rd_open v then Some [] else fs (narrow (rd_name v))) as [text|] eqn:T; [|destruct (rd_active v); discriminate E].
  pose proof (opened_sim pl fs r v h d dv text A Rg H So T) as Sim.
  destruct (ReadOpened pl (rd_name v) text dv) as [dv2|x|u]; [|discriminate E|discriminate E]. injection E as <- <-.
  destruct Sim as (h' & gs & texts & ls & b & Sim). cbv zeta in Sim.
  destruct Sim as (ER & S1 & S2 & S3 & S4 & S5 & S6 & S7 & S8 & S9 & S10 & S11 & S12 & S13 & (e & Ee & Eg) & S14).
  exists h'. eexists _, _. exists (h_next h), (S (h_next h)), gs, texts, b, e. split; [exact ER|].
  split. { split; [reflexivity|]. split; [reflexivity|]. split; [discriminate|]. intros _. split; discriminate. }
  split; [exact S1|]. split; [exact S2|]. split; [exact S3|]. split; [exact S4|]. split; [exact S5|]. split; [exact S7|]. split; [exact S9|].
  split; [exact S11|]. split; [exact S13|]. split; [exact Ee|]. split; [exact Eg|]. rewrite S12. exact S14.
Qed.

(** The number of objects lost, when the file is well-formed: one for every line that begins with
    TITLE. *)
Theorem C94_lost : forall pl fs r v h d dv v' dv' text cs ls n,
  abstracts r v -> regular h -> holds h d dv -> sound h d -> Read pl fs v (Some dv) = Ok (v', Some dv', true) ->
  rd_open v = false -> fs (narrow (rd_name v)) = Some text -> file_says text cs -> file_lines text ls -> titles ls n ->
  exists h' r' d' h'' lost,
    pRead pl fs r h (Some d) = Ok (h', r', Some d', true) /\ destroy_data h' d' = Ok h'' /\
    length lost = n /\ NoDup lost /\ (forall a, In a lost -> h_cell h a = None) /\
    (forall a, h_cell h'' a <> None <-> (h_cell h a <> None /\ ~ In a (owned h d)) \/ In a lost).
Proof.
  intros pl fs r v h d dv v' dv' text cs ls n A Rg H So E O F FS FL TI. unfold Read in E. rewrite O, F in E.
  assert (T : (if rd_open v then Some [] else fs (narrow (rd_name v))) = Some text) by (rewrite O; exact F).
  pose proof (opened_sim pl fs r v h d dv text A Rg H So T) as Sim.
  destruct (ReadOpened pl (rd_name v) text dv) as [dv2|x|u]; [|discriminate E|discriminate E]. injection E as <- <-.
  destruct Sim as (h' & gs & texts & lys & b & Sim). cbv zeta in Sim.
  destruct Sim as (ER & S1 & S2 & S3 & S4 & S5 & S6 & S7 & S8 & S9 & _).
  destruct (proj1 (destroy_spec h' _) S2) as (h'' & ED). destruct (proj2 (destroy_spec h' _) h'' ED) as (_ & W & _).
  exists h'. eexists _, _. exists h'', texts. split; [exact ER|]. split; [exact ED|].
  split; [etransitivity; [exact S6|exact (lost_titles text cs ls n FS FL TI)]|].
  change (h_next h :: S (h_next h) :: gs ++ texts) with ((h_next h :: S (h_next h) :: gs) ++ texts) in *.
  apply NoDup_app_iff in S5. destruct S5 as (N1 & N2 & N3). split; [exact N2|].
  split; [intros a I; apply S7, in_app_iff; right; exact I|].
  assert (Live : forall a, In a (owned h d) -> h_cell h a <> None).
  { intros a Q. unfold owned in Q. apply in_concat in Q. destruct Q as (l & Il & Ia). apply in_map_iff in Il. destruct Il as (t & <- & It).
    destruct So as (SL & _). rewrite Forall_forall in SL. exact (library_live h t a (SL t It) Ia). }
  intros a. destruct (W a) as (W1 & W2). rewrite S4 in W1, W2.
  destruct (in_dec Nat.eq_dec a (owned h d ++ h_next h :: S (h_next h) :: gs)) as [I|I].
  - rewrite (W1 I). split; [intros Q; exfalso; apply Q; reflexivity|]. apply in_app_iff in I. intros [(Q & Q')|Q].
    + exfalso. destruct I as [I|I]; [exact (Q' I)|]. apply Q, S7, in_app_iff. left. exact I.
    + exfalso. destruct I as [I|I]; [|exact (N3 a I Q)]. apply (Live a I), S7, in_app_iff. right. exact Q.
  - rewrite (W2 I). rewrite S9. split.
    + intros [Q|Q]; [left; split; [exact Q|intros Q'; apply I, in_app_iff; left; exact Q']|]. right. apply in_app_iff in Q.
      destruct Q as [Q|Q]; [exfalso; apply I, in_app_iff; right; exact Q|exact Q].
    + intros [(Q & _)|Q]; [left; exact Q|right; apply in_app_iff; right; exact Q].
Qed.

(** A read that fails, with a reader that has not read a file before, leaves the heap as it was;
    the layout keeps its libraries. *)
Theorem C94_failed : forall pl fs r v h d dv v' dv',
  abstracts r v -> rd_active v = false -> regular h -> holds h d dv -> sound h d -> Read pl fs v (Some dv) = Ok (v', Some dv', false) ->
  exists h' r' d', pRead pl fs r h (Some d) = Ok (h', r', Some d', false) /\ abstracts r' v' /\
    (forall a, h_cell h' a = h_cell h a) /\ pd_libraries d' = pd_libraries d /\ holds h' d' dv'.
Proof.
  intros pl fs r v h d dv v' dv' A Ac Rg H So E. unfold Read in E.
  assert (Same : forall h', (forall a, h_cell h' a = h_cell h a) -> Forall2 (holds_library h') (pd_libraries d) (ld_libraries dv)).
  { intros h' Q. destruct H as (_ & _ & HL). eapply Forall2_imp; [|exact HL]. intros p w. apply grown_library. intros a c Ea. rewrite Q. exact Ea. }
  destruct (if rd_open v then Some [] else fs (narrow (rd_name v))) as [text|] eqn:T.
  - pose proof (opened_sim pl fs r v h d dv text A Rg H So T) as Sim.
    destruct (ReadOpened pl (rd_name v) text dv) as [dv2|x|u]; [discriminate E| |discriminate E]. injection E as <- <-.
    destruct Sim as (h' & ER & Q & _). exists h'. eexists _, _. split; [exact ER|].
    split. { split; [reflexivity|]. split; [reflexivity|]. split; [intros _; split; reflexivity|discriminate]. }
    split; [exact Q|]. split; [reflexivity|]. split; [reflexivity|]. split; [reflexivity|]. cbn [pd_libraries ld_libraries]. exact (Same h' Q).
  - rewrite Ac in E. injection E as <- <-. destruct A as (An & Ao & A0 & _). destruct (A0 Ac) as (Al & Ae).
    unfold pRead. rewrite An, Ao, T. unfold pread_failed. rewrite Al, Ae. cbn [delete_element delete_library bind].
    exists h, (mkpreader (pr_name r) false None None), (mkpdata (pd_name d) (pd_libraries d) FFundefined). split; [reflexivity|].
    split. { split; [exact An|]. split; [reflexivity|]. split; [intros _; split; reflexivity|discriminate]. }
    split; [reflexivity|]. split; [reflexivity|]. destruct H as (Hn & _ & HL). split; [exact Hn|]. split; [reflexivity|exact HL].
Qed.

(** Undefined behaviour while a file is read is undefined behaviour of the same kind at both
    levels. *)
Theorem C94_undefined : forall pl fs r v h d dv u,
  abstracts r v -> rd_active v = false -> regular h -> holds h d dv -> sound h d ->
  Read pl fs v (Some dv) = UB u -> pRead pl fs r h (Some d) = UB u.
Proof.
  intros pl fs r v h d dv u A Ac Rg H So E. unfold Read in E.
  destruct (if rd_open v then Some [] else fs (narrow (rd_name v))) as [text|] eqn:T; [|rewrite Ac in E; discriminate E].
  pose proof (opened_sim pl fs r v h d dv text A Rg H So T) as Sim.
  destruct (ReadOpened pl (rd_name v) text dv) as [dv2|x|u']; [discriminate E|discriminate E|]. injection E as <-. exact Sim.
Qed.

(** A reader that has read a file, and then cannot open the next one, deletes objects twice,
    whether the first layout still exists or not. *)
Theorem C94_twice : forall pl fs fs' r v h d dv v' dv' d2,
  abstracts r v -> regular h -> holds h d dv -> sound h d -> Read pl fs v (Some dv) = Ok (v', Some dv', true) ->
  fs' (narrow (rd_name v')) = None ->
  exists h' r' d', pRead pl fs r h (Some d) = Ok (h', r', Some d', true) /\
    pRead pl fs' r' h' (Some d2) = UB DoubleFree /\
    (forall h'', destroy_data h' d' = Ok h'' -> pRead pl fs' r' h'' (Some d2) = UB DoubleFree).
Proof.
  intros pl fs fs' r v h d dv v' dv' d2 A Rg H So E F. unfold Read in E.
  destruct (if rd_open v then Some [] else fs (narrow (rd_name v))) as [text|] eqn:T; [|destruct (rd_active v); discriminate E].
  pose proof (opened_sim pl fs r v h d dv text A Rg H So T) as Sim.
  destruct (ReadOpened pl (rd_name v) text dv) as [dv2|x|u]; [|discriminate E|discriminate E]. injection E as <- <-. cbn [rd_name] in F.
  destruct Sim as (h' & gs & texts & lys & b & Sim). cbv zeta in Sim.
  destruct Sim as (ER & S1 & S2 & S3 & S4 & S5 & _ & _ & _ & _ & _ & Eb & _ & Ee1 & (e & Ee & Eg) & _).
  exists h'. eexists _, _. split; [exact ER|]. unfold pRead. cbn [pr_open pr_name]. rewrite F. unfold pread_failed. cbn [pr_element pr_library].
  split.
  - assert (K : element_ok h' (S (h_next h))).
    { destruct S2 as (SL & SN). split.
      - rewrite Forall_forall in SL. cbn [pd_libraries] in SL. destruct (SL (h_next h)) as (b' & Eb' & Fb). { rewrite targets_app. apply in_app_iff. right. left. reflexivity. }
        rewrite Eb in Eb'. injection Eb' as <-. rewrite Ee1 in Fb. inversion Fb; subst. assumption.
      - unfold owned_by_element. rewrite Ee, Eg. apply NoDup_cons_iff in S5. destruct S5 as (_ & S5).
        change (S (h_next h) :: gs ++ texts) with ((S (h_next h) :: gs) ++ texts) in S5. apply NoDup_app_iff in S5. apply S5. }
    destruct (proj1 (delete_element_spec h' (S (h_next h))) K) as (h1 & E1). change (delete_element h' _) with (delete_element h' (Some (S (h_next h)))). etransitivity; [exact (f_equal (fun x => bind x _) E1)|]. cbn [bind].
    destruct (proj2 (delete_element_spec h' (S (h_next h))) h1 E1) as (_ & W & _).
    assert (L1 : h_cell h1 (h_next h) = Some (CellLibrary b)).
    { destruct (W (h_next h)) as (_ & W2). rewrite W2; [exact Eb|]. unfold owned_by_element. rewrite Ee, Eg.
      apply NoDup_cons_iff in S5. destruct S5 as (S5 & _). intros [Q|Q]; apply S5; [left; exact Q|right; apply in_app_iff; left; exact Q]. }
    unfold delete_library, load_library. rewrite L1. cbn [bind]. rewrite Ee1. cbn [for_each]. unfold delete_element at 1, load_element.
    assert (h_cell h1 (S (h_next h)) = None) as ->; [|reflexivity]. apply W. left. reflexivity.
  - intros h'' ED. destruct (C92_releases h' _ h'' ED) as (W & _).
    assert (h_cell h'' (S (h_next h)) = None) as Z0.
    { apply W. rewrite S4. apply in_app_iff. right. right. left. reflexivity. }
    unfold delete_element, load_element. rewrite Z0. reflexivity.
Qed.

(** ** The hypotheses can be met *)
Definition empty_heap : heap := mkheap 0%nat (fun _ => None).
Definition no_data : pdata := mkpdata [] [] FFundefined.
Definition own_preader : preader := mkpreader (rd_name ex_reader) false None None.

Example C94_hypotheses_met :
  abstracts own_preader ex_reader /\ regular empty_heap /\ holds empty_heap no_data (mkdata [] [] FFundefined) /\ sound empty_heap no_data /\
  rd_open ex_reader = false /\ rd_active ex_reader = false /\
  (exists v' dv', Read ex_platform (ex_fs ex_file) ex_reader (Some (mkdata [] [] FFundefined)) = Ok (v', Some dv', true)) /\
  (exists h' r' d', pRead ex_platform (ex_fs ex_file) own_preader empty_heap (Some no_data) = Ok (h', r', Some d', true) /\
     owned h' d' = [0; 1; 2; 3; 7]%nat /\ h_cell h' 5%nat = None /\ h_cell h' 6%nat <> None /\ h_cell h' 8%nat = None) /\
  (exists ls, file_says ex_file ex_contents /\ file_lines ex_file ls /\ titles ls 1).
Proof.
  split. { split; [reflexivity|]. split; [reflexivity|]. split; [intros _; split; reflexivity|discriminate]. }
  split; [intros a _; reflexivity|]. split. { split; [reflexivity|]. split; [reflexivity|]. constructor. }
  split. { split; constructor. }
  split; [reflexivity|]. split; [reflexivity|].
  split. { eexists _, _. vm_compute. reflexivity. }
  split. { eexists _, _, _. split; [vm_compute; reflexivity|]. split; [vm_compute; reflexivity|]. split; [vm_compute; reflexivity|]. split; [vm_compute; discriminate|vm_compute; reflexivity]. }
  destruct ex_says as (ls & F & _). exists ls. split; [exact ex_says|]. split; [exact F|].
  rewrite <- (getlines_lines _ _ F). change (getlines [] ex_file) with
    [lit "VERSION 8.21" ++ [return_char]; lit "BB(0,0,100,200)" ++ [return_char]; lit "REC(10,20,30,40,ME)"; lit "REC(5,6,7,8,XX)";
     lit "TITLE 12 13  #REC"; lit "REC( 50, 60,10,10, PO) thin"].
  assert (W : forall l, ~ In return_char l -> without_returns l l /\ without_returns (l ++ [return_char]) l).
  { induction l as [|c l IH]; intros H; [split; repeat constructor|]. cbn in H. destruct IH as (A & B); [tauto|].
    split; cbn [app]; constructor; (first [congruence|assumption|intuition]). }
  eapply titles_no; [apply W; vm_compute; intuition discriminate|intros (t & Q); discriminate Q|].
  eapply titles_no; [apply W; vm_compute; intuition discriminate|intros (t & Q); discriminate Q|].
  eapply titles_no; [apply W; vm_compute; intuition discriminate|intros (t & Q); discriminate Q|].
  eapply titles_no; [apply W; vm_compute; intuition discriminate|intros (t & Q); discriminate Q|].
  eapply titles_yes; [apply W; vm_compute; intuition discriminate|eexists; reflexivity|].
  eapply titles_no; [apply W; vm_compute; intuition discriminate|intros (t & Q); discriminate Q|constructor].
Qed.

(** A shared geometry, a destroyed copy. *)
Example C93_hypotheses_met :
  let h := mkheap 3%nat (fun a => match a with
    | 0%nat => Some (CellLibrary (mkplibrary [] [Some 1%nat; None] [] (mkcoord 0 0) (mkcoord 0 0)))
    | 1%nat => Some (CellElement (mkpelement [] [Some 2%nat] (mkcoord 0 0) (mkcoord 0 0)))
    | 2%nat => Some (CellGeometry new_rectangle)
    | _ => None end) in
  let d := mkpdata [] [None; Some 0%nat] FFmsk in
  sound h d /\ targets (pd_libraries d) <> [] /\ (exists h1, destroy_data h d = Ok h1) /\ ~ sound h (mkpdata [] [Some 0%nat; Some 0%nat] FFmsk).
Proof.
  intros h d. assert (S : sound h d).
  { apply C92_defined. eexists. vm_compute. reflexivity. }
  split; [exact S|]. split; [discriminate|]. split; [apply C92_defined; exact S|].
  intros (_ & N). vm_compute in N. inversion N as [|? ? Q _]; subst. apply Q. right. right. left. reflexivity.
Qed.

Print Assumptions C92_defined.
Print Assumptions C92_undefined.
Print Assumptions C92_releases.
Print Assumptions C93_copied_layout.
Print Assumptions C93_copied_library.
Print Assumptions C93_copied_element.
Print Assumptions C94_read.
Print Assumptions C94_lost.
Print Assumptions C94_failed.
Print Assumptions C94_undefined.
Print Assumptions C94_twice.
