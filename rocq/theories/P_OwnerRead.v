(** Lemmas about Read at the level of pointers. *)
From Coq Require Import Permutation.
From Verif Require Import Prelude P_Prelude M_LayoutData M_Scanf M_Msk M_Ownership S_Msk S_Ownership P_Ownership.
Local Open Scope Z_scope.

(** The geometries of the first heap are in the second. *)
Definition keeps (h h' : heap) : Prop := forall a g, h_cell h a = Some (CellGeometry g) -> h_cell h' a = Some (CellGeometry g).

Lemma keeps_refl h : keeps h h.
Proof. intros a g H. exact H. Qed.
Lemma keeps_trans h1 h2 h3 : keeps h1 h2 -> keeps h2 h3 -> keeps h1 h3.
Proof. intros A B a g H. exact (B a g (A a g H)). Qed.
Lemma keeps_store h a c : ~ is_geometry h a -> keeps h (store h a c).
Proof. intros N x g H. unfold store. cbn [h_cell]. destruct (Nat.eqb_spec x a) as [->|_]; [exfalso; apply N; exists g; exact H|exact H]. Qed.

Lemma Forall2_imp {A B} (P Q : A -> B -> Prop) l1 l2 : (forall a b, P a b -> Q a b) -> Forall2 P l1 l2 -> Forall2 Q l1 l2.
Proof. intros H F. induction F; constructor; auto. Qed.

Lemma keeps_geometry h h' p g : keeps h h' -> holds_geometry h p g -> holds_geometry h' p g.
Proof. intros K. destruct p as [a|]; destruct g as [g|]; cbn; auto. Qed.
Lemma keeps_geometries h h' ps gs : keeps h h' -> Forall2 (holds_geometry h) ps gs -> Forall2 (holds_geometry h') ps gs.
Proof. intros K. apply Forall2_imp. intros a b. apply keeps_geometry. exact K. Qed.
Lemma keeps_layer h h' l v : keeps h h' -> holds_layer h l v -> holds_layer h' l v.
Proof. intros K (A & B & C & D). split; [exact A|]. split; [exact B|]. split; [exact C|]. exact (keeps_geometries h h' _ _ K D). Qed.
Lemma keeps_layers h h' l v : keeps h h' -> Forall2 (holds_layer h) l v -> Forall2 (holds_layer h') l v.
Proof. intros K. apply Forall2_imp. intros a b. apply keeps_layer. exact K. Qed.

(** The library and the element under construction. *)
Definition under (h0 h : heap) (st : building) (gs texts : list address) : Prop :=
  let lib := h_next h0 in
  let el := S (h_next h0) in
  exists ls,
    h_cell h lib = Some (CellLibrary (mkplibrary (lib_name (fst st)) [] ls (lib_min (fst st)) (lib_max (fst st)))) /\
    lib_elements (fst st) = [] /\
    h_cell h el = Some (CellElement (mkpelement (e_name (snd st)) (map Some gs) (e_min (snd st)) (e_max (snd st)))) /\
    Forall2 (holds_geometry h) (map Some gs) (e_geometries (snd st)) /\
    Forall2 (holds_layer h) ls (lib_layers (fst st)) /\
    Permutation (concat (map py_geometries ls)) (map Some gs) /\
    NoDup (gs ++ texts) /\ Forall (fun a => S el <= a < h_next h)%nat (gs ++ texts) /\ Forall (is_geometry h) texts /\
    (forall a, h_cell h a <> None -> (a < h_next h0)%nat \/ a = lib \/ a = el \/ In a (gs ++ texts)) /\
    (forall a, (a < h_next h0)%nat -> h_cell h a = h_cell h0 a) /\ (S (S (h_next h0)) <= h_next h)%nat.

(** A new object at the end of the heap. *)
Lemma fresh_cell h c a : h_cell (snd (allocate h c)) a = if Nat.eqb a (h_next h) then Some c else h_cell h a.
Proof. reflexivity. Qed.

Lemma under_next h0 h st gs texts : under h0 h st gs texts -> h_cell h (h_next h) = None.
Proof.
  intros (ls & _ & _ & _ & _ & _ & _ & _ & R & _ & L & _ & M). destruct (h_cell h (h_next h)) as [c|] eqn:E; [|reflexivity]. exfalso.
  destruct (L (h_next h)) as [Q|[Q|[Q|Q]]]; [rewrite E; discriminate|lia|lia|lia|].
  rewrite Forall_forall in R. specialize (R _ Q). cbv beta in R. lia.
Qed.

(** A failed section leaves no trace. *)
Lemma under_dropped h0 h st gs texts c : under h0 h st gs texts ->
  under h0 (release (snd (allocate h c)) (h_next h)) st gs texts.
Proof.
  intros U. pose proof (under_next _ _ _ _ _ U) as Fr. set (h' := release _ _).
  assert (E : forall a, h_cell h' a = h_cell h a).
  { intros a. unfold h', release. cbn [h_cell]. rewrite fresh_cell. destruct (Nat.eqb_spec a (h_next h)) as [->|_]; [symmetry; exact Fr|reflexivity]. }
  assert (K : keeps h h') by (intros a g Q; rewrite E; exact Q).
  destruct U as (ls & U1 & U2 & U3 & U4 & U5 & U6 & U7 & U8 & U9 & U10 & U11 & U12). exists ls. cbv zeta in *. rewrite !E.
  split; [exact U1|]. split; [exact U2|]. split; [exact U3|]. split; [exact (keeps_geometries h h' _ _ K U4)|]. split; [exact (keeps_layers h h' _ _ K U5)|].
  split; [exact U6|]. split; [exact U7|]. split; [eapply Forall_impl; [|exact U8]; cbn; intros a Q; lia|].
  split; [eapply Forall_impl; [|exact U9]; intros a (g & G); exists g; rewrite E; exact G|].
  split; [intros a Q; apply U10; rewrite <- E; exact Q|]. split; [intros a Q; rewrite E; exact (U11 a Q)|]. cbn. lia.
Qed.

Lemma not_geometry_lib h a b : h_cell h a = Some (CellLibrary b) -> ~ is_geometry h a.
Proof. intros E (g & G). congruence. Qed.
Lemma not_geometry_el h a b : h_cell h a = Some (CellElement b) -> ~ is_geometry h a.
Proof. intros E (g & G). congruence. Qed.

Lemma under_pushed h0 h st gs texts c g f F : under h0 h st gs texts ->
  (forall h' ls vs, Forall2 (holds_layer h') ls vs -> h_cell h' (h_next h) = Some (CellGeometry g) ->
     Forall2 (holds_layer h') (f ls) (F vs) /\ Permutation (concat (map py_geometries (f ls))) (concat (map py_geometries ls) ++ [Some (h_next h)])) ->
  exists h', push (store (snd (allocate h c)) (h_next h) (CellGeometry g)) (Some (h_next h0)) (Some (S (h_next h0))) f (Some (h_next h)) = Ok h' /\
    under h0 h' (set_layers (fst st) (F (lib_layers (fst st))), add_geometry (snd st) g) (gs ++ [h_next h]) texts.
Proof.
  intros U Hf. pose proof (under_next _ _ _ _ _ U) as Fr.
  destruct U as (ls & U1 & U2 & U3 & U4 & U5 & U6 & U7 & U8 & U9 & U10 & U11 & U12). cbv zeta in *.
  set (a := h_next h) in *. set (lib := h_next h0) in *. set (el := S lib) in *.
  assert (Na : a <> lib /\ a <> el) by (unfold a, el in *; lia). destruct Na as (Nal & Nae).
  unfold push, load_library, load_element, store. cbn [h_cell h_next]. rewrite !fresh_cell. fold a.
  replace (Nat.eqb lib a) with false by (symmetry; apply Nat.eqb_neq; congruence). rewrite U1. cbn [bind pb_name pb_elements pb_layers pb_min pb_max].
  replace (Nat.eqb el lib) with false by (symmetry; apply Nat.eqb_neq; unfold el; lia).
  replace (Nat.eqb el a) with false by (symmetry; apply Nat.eqb_neq; congruence). rewrite U3. cbn [bind pe_name pe_geometries pe_min pe_max].
  eexists. split; [reflexivity|].
  match goal with |- under h0 ?H _ _ _ => set (h' := H) end.
  assert (El : h_cell h' lib = Some (CellLibrary (mkplibrary (lib_name (fst st)) [] (f ls) (lib_min (fst st)) (lib_max (fst st))))).
  { cbn [h_cell h']. unfold h'. cbn [h_cell]. replace (Nat.eqb lib el) with false by (symmetry; apply Nat.eqb_neq; unfold el; lia). rewrite Nat.eqb_refl. reflexivity. }
  assert (Ee : h_cell h' el = Some (CellElement (mkpelement (e_name (snd st)) (map Some gs ++ [Some a]) (e_min (snd st)) (e_max (snd st))))).
  { unfold h'. cbn [h_cell]. rewrite Nat.eqb_refl. reflexivity. }
  assert (Ea : h_cell h' a = Some (CellGeometry g)).
  { unfold h'. cbn [h_cell]. replace (Nat.eqb a el) with false by (symmetry; apply Nat.eqb_neq; exact Nae).
    replace (Nat.eqb a lib) with false by (symmetry; apply Nat.eqb_neq; exact Nal). rewrite Nat.eqb_refl. reflexivity. }
  assert (Eo : forall x, x <> a -> x <> lib -> x <> el -> h_cell h' x = h_cell h x).
  { intros x X1 X2 X3. unfold h'. cbn [h_cell]. apply Nat.eqb_neq in X1, X2, X3. rewrite fresh_cell. fold a. rewrite X1, X2, X3. reflexivity. }
  assert (K : keeps h h').
  { intros x y Q. rewrite Eo; [exact Q| | |]; intros ->; congruence. }
  destruct (Hf h' ls (lib_layers (fst st)) (keeps_layers _ _ _ _ K U5) Ea) as (L1 & L2).
  exists (f ls). cbv zeta. fold lib. fold el. cbn [fst snd set_layers add_geometry lib_name lib_elements lib_layers lib_min lib_max e_name e_geometries e_min e_max].
  rewrite map_app. cbn [map].
  split; [exact El|]. split; [exact U2|]. split; [exact Ee|].
  split. { apply Forall2_app; [exact (keeps_geometries _ _ _ _ K U4)|]. constructor; [exact Ea|constructor]. }
  split; [exact L1|]. split; [rewrite L2; apply Permutation_app_tail; exact U6|].
  assert (Pm : Permutation ((gs ++ [a]) ++ texts) (a :: gs ++ texts)).
  { rewrite <- app_assoc. cbn [app]. symmetry. apply Permutation_middle. }
  split. { eapply Permutation_NoDup; [symmetry; exact Pm|]. constructor; [|exact U7]. intros I. rewrite Forall_forall in U8. specialize (U8 a I). cbv beta in U8. unfold a in U8. lia. }
  split. { eapply Permutation_Forall; [symmetry; exact Pm|]. cbn [h' h_next]. unfold h'. cbn [h_next]. constructor; [cbn; unfold a, el in *; lia|]. eapply Forall_impl; [|exact U8]. cbn. unfold a, el. intros x X. lia. }
  split. { eapply Forall_impl; [|exact U9]. intros x (y & Y). exists y. apply K. exact Y. }
  split. { intros x X. destruct (Nat.eq_dec x a) as [->|X1]; [right; right; right; apply in_app_iff; left; apply in_app_iff; right; left; reflexivity|].
    destruct (Nat.eq_dec x lib) as [->|X2]; [right; left; reflexivity|]. destruct (Nat.eq_dec x el) as [->|X3]; [right; right; left; reflexivity|].
    rewrite Eo in X by assumption. destruct (U10 x X) as [Q|[Q|[Q|Q]]]; [left; exact Q|contradiction|contradiction|].
    right. right. right. apply in_app_iff in Q. rewrite !in_app_iff. destruct Q as [Q|Q]; [left; left; exact Q|right; exact Q]. }
  split. { intros x X. rewrite Eo; [exact (U11 x X)| | |]; unfold a, el, lib in *; lia. }
  unfold h'. cbn [h_next snd allocate]. unfold el, a, lib in *. lia.
Qed.

Lemma insert_sim h' pl num name a g vs : forall ls pos, Forall2 (holds_layer h') ls vs -> h_cell h' a = Some (CellGeometry g) ->
  Forall2 (holds_layer h') (pinsert_layer pl pos ls num name (Some a)) (insert_layer pl pos vs num name g) /\
  Permutation (concat (map py_geometries (pinsert_layer pl pos ls num name (Some a)))) (concat (map py_geometries ls) ++ [Some a]).
Proof.
  induction vs as [|v vs IH]; intros ls pos H Ea; inversion H as [|l ? lt ? Hl Ht]; subst; cbn [pinsert_layer insert_layer].
  - split; [|cbn; reflexivity]. constructor; [|constructor]. unfold holds_layer. cbn. repeat split. constructor; [exact Ea|constructor].
  - destruct Hl as (A & B & C & D). rewrite A. destruct (num =? l_layer v).
    + split.
      * constructor; [|exact Ht]. unfold holds_layer. cbn [py_layer py_dataType py_name py_geometries l_layer l_dataType l_name l_geometries].
        split; [reflexivity|]. split; [exact B|]. split; [exact C|]. apply Forall2_app; [exact D|]. constructor; [exact Ea|constructor].
      * cbn [map concat py_geometries]. rewrite <- !app_assoc. apply Permutation_app_head. cbn [app]. apply Permutation_cons_append.
    + destruct (IH lt (S pos) Ht Ea) as (I1 & I2). split.
      * constructor; [split; [exact A|split; [exact B|split; [exact C|exact D]]]|exact I1].
      * cbn [map concat]. rewrite <- app_assoc. apply Permutation_app_head. exact I2.
Qed.

Lemma delete_new h c g : c = CellGeometry g ->
  delete_geometry (snd (allocate h c)) (Some (h_next h)) = Ok (release (snd (allocate h c)) (h_next h)).
Proof. intros ->. unfold delete_geometry, load_geometry. rewrite fresh_cell, Nat.eqb_refl. reflexivity. Qed.

(** One section at the level of values and of pointers. *)
Lemma rect_sim h0 h st gs texts pl l : under h0 h st gs texts ->
  match ReadSectionRectangle pl l st with
  | Ok st' => exists h' gs', pReadSectionRectangle pl l (Some (h_next h0)) (Some (S (h_next h0))) h = Ok h' /\ under h0 h' st' gs' texts
  | Throw _ => False
  | UB u => pReadSectionRectangle pl l (Some (h_next h0)) (Some (S (h_next h0))) h = UB u
  end.
Proof.
  intros U. unfold ReadSectionRectangle, pReadSectionRectangle. destruct st as (lib, el).
  destruct (allocate h (CellGeometry new_rectangle)) as (a, h1) eqn:EA.
  assert (a = h_next h /\ h1 = snd (allocate h (CellGeometry new_rectangle))) as (-> & ->) by (rewrite EA; injection EA as <- _; split; reflexivity). clear EA.
  assert (Drop : exists h' gs', delete_geometry (snd (allocate h (CellGeometry new_rectangle))) (Some (h_next h)) = Ok h' /\ under h0 h' (lib, el) gs' texts).
  { eexists _, gs. split; [apply (delete_new h _ new_rectangle); reflexivity|]. apply under_dropped. exact U. }
  destruct (ParseRecLine l) as [[((lb, rt), name)|]|e|u]; cbn [bind swallow]; [|exact Drop|exact Drop|reflexivity].
  cbv zeta. destruct (LayerNameToLayerNum name =? g_undefinedLayerNum); cbn [bind swallow]; [exact Drop|].
  destruct (FillBox new_rectangle lb rt (LayerNameToLayerNum name)) as [g|e|u]; cbn [bind swallow]; [|exact Drop|reflexivity].
  destruct (under_pushed h0 h (lib, el) gs texts (CellGeometry new_rectangle) g
    (fun ls => pinsert_layer pl 0 ls (LayerNameToLayerNum name) name (Some (h_next h)))
    (fun vs => insert_layer pl 0 vs (LayerNameToLayerNum name) name g) U) as (h' & E & U').
  { intros h' ls vs A B. apply insert_sim; [exact A|exact B]. }
  exists h', (gs ++ [h_next h]). split; [exact E|exact U'].
Qed.

Lemma bb_sim h0 h st gs texts pl l : under h0 h st gs texts ->
  match ReadSectionBoundingBox pl l st with
  | Ok st' => exists h' gs', pReadSectionBoundingBox pl l (Some (h_next h0)) (Some (S (h_next h0))) h = Ok h' /\ under h0 h' st' gs' texts
  | Throw _ => False
  | UB u => pReadSectionBoundingBox pl l (Some (h_next h0)) (Some (S (h_next h0))) h = UB u
  end.
Proof.
  intros U. unfold ReadSectionBoundingBox, pReadSectionBoundingBox. destruct st as (lib, el).
  destruct (allocate h (CellGeometry new_rectangle)) as (a, h1) eqn:EA.
  assert (a = h_next h /\ h1 = snd (allocate h (CellGeometry new_rectangle))) as (-> & ->) by (rewrite EA; injection EA as <- _; split; reflexivity). clear EA.
  assert (Drop : exists h' gs', delete_geometry (snd (allocate h (CellGeometry new_rectangle))) (Some (h_next h)) = Ok h' /\ under h0 h' (lib, el) gs' texts).
  { eexists _, gs. split; [apply (delete_new h _ new_rectangle); reflexivity|]. apply under_dropped. exact U. }
  destruct (sscanf l (lit "BB(%d,%d,%d,%d)")) as [(n, vs)|e|u]; cbn [bind swallow]; [|exact Drop|reflexivity].
  destruct (n =? 0); cbn [bind swallow]; [exact Drop|]. cbv zeta.
  destruct (FillBox new_rectangle (mkcoord (int_arg vs 0 0) (int_arg vs 1 0)) (mkcoord (int_arg vs 2 0) (int_arg vs 3 0)) (LayerNameToLayerNum (lit "BB"))) as [g|e|u];
    cbn [bind swallow]; [|exact Drop|reflexivity].
  destruct (under_pushed h0 h (lib, el) gs texts (CellGeometry new_rectangle) g
    (fun ls => ls ++ [mkplayer (LayerNameToLayerNum (lit "BB")) (uninitialised pl (length ls)) (lit "BB") [Some (h_next h)]])
    (fun vs => vs ++ [mklayer (LayerNameToLayerNum (lit "BB")) (uninitialised pl (length vs)) (lit "BB") [Some g]]) U) as (h' & E & U').
  { intros h' ls vs' A B. assert (Ln : length ls = length vs') by (clear - A; induction A; cbn; congruence).
    split.
    - apply Forall2_app; [exact A|]. constructor; [|constructor]. unfold holds_layer. rewrite Ln. cbn. repeat split. constructor; [exact B|constructor].
    - rewrite map_app, concat_app. cbn. reflexivity. }
  exists h', (gs ++ [h_next h]). split; [exact E|exact U'].
Qed.

(** Whether the section leaves its object behind. *)
Definition title_lost (l : list byte) : bool :=
  match sscanf l (lit "TITLE %d %d  #%s") with Ok (n, _) => negb (n =? 0) | _ => false end.

Lemma title_sim h0 h st gs texts l : under h0 h st gs texts ->
  match ReadSectionTitle l st with
  | Ok st' => st' = st /\ exists h' texts', pReadSectionTitle l h = Ok h' /\ under h0 h' st gs texts' /\
      length texts' = (length texts + if title_lost l then 1 else 0)%nat
  | Throw _ => False
  | UB u => pReadSectionTitle l h = UB u
  end.
Proof.
  intros U. unfold ReadSectionTitle, pReadSectionTitle, title_lost.
  set (c := CellGeometry (new_geom GTtext (CText 0 0 []))).
  destruct (allocate h c) as (a, h1) eqn:EA.
  assert (a = h_next h /\ h1 = snd (allocate h c)) as (-> & ->) by (rewrite EA; injection EA as <- _; split; reflexivity). clear EA.
  assert (Drop : exists h' texts', delete_geometry (snd (allocate h c)) (Some (h_next h)) = Ok h' /\ under h0 h' st gs texts' /\ length texts' = (length texts + 0)%nat).
  { eexists _, texts. split; [apply (delete_new h _ (new_geom GTtext (CText 0 0 []))); reflexivity|]. split; [apply under_dropped; exact U|lia]. }
  destruct (sscanf l (lit "TITLE %d %d  #%s")) as [(n, vs)|e|u]; cbn [bind swallow]; [|split; [reflexivity|exact Drop]|reflexivity].
  unfold fits_buffer. destruct (length (str_arg vs 2) <? 64)%nat; cbn [bind swallow]; [|reflexivity].
  destruct (n =? 0); cbn [bind swallow negb]; [split; [reflexivity|exact Drop]|]. clear Drop. cbv zeta. split; [reflexivity|].
  match goal with |- context [store ?H ?A ?C] => set (h' := store H A C) end.
  exists h', (h_next h :: texts). split; [reflexivity|]. split; [|cbn [length]; lia].
  pose proof (under_next _ _ _ _ _ U) as Fr.
  destruct U as (ls & U1 & U2 & U3 & U4 & U5 & U6 & U7 & U8 & U9 & U10 & U11 & U12). cbv zeta in *.
  assert (Eo : forall x, x <> h_next h -> h_cell h' x = h_cell h x).
  { intros x X. unfold h', store. cbn [h_cell]. apply Nat.eqb_neq in X. rewrite X, fresh_cell, X. reflexivity. }
  assert (Ea : exists g, h_cell h' (h_next h) = Some (CellGeometry g)).
  { eexists. unfold h', store. cbn [h_cell]. rewrite Nat.eqb_refl. reflexivity. }
  assert (K : keeps h h') by (intros x y Q; rewrite Eo; [exact Q|intros ->; congruence]).
  exists ls. cbv zeta. rewrite !Eo by lia.
  split; [exact U1|]. split; [exact U2|]. split; [exact U3|]. split; [exact (keeps_geometries _ _ _ _ K U4)|].
  split; [exact (keeps_layers _ _ _ _ K U5)|]. split; [exact U6|].
  assert (Pm : Permutation (gs ++ h_next h :: texts) (h_next h :: gs ++ texts)) by (symmetry; apply Permutation_middle).
  split. { eapply Permutation_NoDup; [symmetry; exact Pm|]. constructor; [|exact U7]. intros I. rewrite Forall_forall in U8. specialize (U8 _ I). cbv beta in U8. lia. }
  split. { eapply Permutation_Forall; [symmetry; exact Pm|]. unfold h'. cbn [h_next store snd allocate]. constructor; [lia|]. eapply Forall_impl; [|exact U8]. cbn. intros x X. lia. }
  split. { constructor; [exact Ea|]. eapply Forall_impl; [|exact U9]. intros x (y & Y). exists y. apply K. exact Y. }
  split. { intros x X. destruct (Nat.eq_dec x (h_next h)) as [->|X1].
    - right. right. right. apply in_app_iff. right. left. reflexivity.
    - rewrite Eo in X by assumption. destruct (U10 x X) as [Q|[Q|[Q|Q]]]; [left; exact Q|right; left; exact Q|right; right; left; exact Q|].
      right. right. right. apply in_app_iff in Q. rewrite in_app_iff. destruct Q as [Q|Q]; [left; exact Q|right; right; exact Q]. }
  split. { intros x X. rewrite Eo by lia. exact (U11 x X). }
  unfold h'. cbn. lia.
Qed.

(** One line, and all lines. *)
Definition cleaned (line : list byte) : list byte :=
  filter (fun c => negb (beqb c "010")) (filter (fun c => negb (beqb c "013")) line).
Definition line_lost (line : list byte) : bool := contains (lit "TITLE") (cleaned line) && title_lost (cleaned line).
Fixpoint lost (lines : list (list byte)) : nat :=
  match lines with [] => 0%nat | l :: t => ((if line_lost l then 1 else 0) + lost t)%nat end.

Lemma line_sim h0 h st gs texts pl line : under h0 h st gs texts ->
  match ReadLine pl st line with
  | Ok st' => exists h' gs' texts', pReadLine pl (Some (h_next h0)) (Some (S (h_next h0))) h line = Ok h' /\ under h0 h' st' gs' texts' /\
      length texts' = (length texts + if line_lost line then 1 else 0)%nat
  | Throw _ => False
  | UB u => pReadLine pl (Some (h_next h0)) (Some (S (h_next h0))) h line = UB u
  end.
Proof.
  intros U. unfold ReadLine, pReadLine, line_lost. cbv zeta. fold (cleaned line). set (fl := cleaned line).
  assert (S1 : match (if contains (lit "BB") fl then ReadSectionBoundingBox pl fl st else Ok st) with
    | Ok st' => exists h' gs', (if contains (lit "BB") fl then pReadSectionBoundingBox pl fl (Some (h_next h0)) (Some (S (h_next h0))) h else Ok h) = Ok h' /\ under h0 h' st' gs' texts
    | Throw _ => False
    | UB u => (if contains (lit "BB") fl then pReadSectionBoundingBox pl fl (Some (h_next h0)) (Some (S (h_next h0))) h else Ok h) = UB u end).
  { destruct (contains (lit "BB") fl); [apply bb_sim with (gs := gs) (texts := texts); exact U|]. exists h, gs. split; [reflexivity|exact U]. }
  destruct (if contains (lit "BB") fl then ReadSectionBoundingBox pl fl st else Ok st) as [st1|e|u]; cbn [bind]; [|destruct S1|rewrite S1; reflexivity].
  destruct S1 as (h1 & gs1 & -> & U1). cbn [bind].
  assert (S2 : match (if contains (lit "REC") fl then ReadSectionRectangle pl fl st1 else Ok st1) with
    | Ok st' => exists h' gs', (if contains (lit "REC") fl then pReadSectionRectangle pl fl (Some (h_next h0)) (Some (S (h_next h0))) h1 else Ok h1) = Ok h' /\ under h0 h' st' gs' texts
    | Throw _ => False
    | UB u => (if contains (lit "REC") fl then pReadSectionRectangle pl fl (Some (h_next h0)) (Some (S (h_next h0))) h1 else Ok h1) = UB u end).
  { destruct (contains (lit "REC") fl); [apply rect_sim with (gs := gs1) (texts := texts); exact U1|]. exists h1, gs1. split; [reflexivity|exact U1]. }
  destruct (if contains (lit "REC") fl then ReadSectionRectangle pl fl st1 else Ok st1) as [st2|e|u]; cbn [bind]; [|destruct S2|rewrite S2; reflexivity].
  destruct S2 as (h2 & gs2 & -> & U2). cbn [bind].
  destruct (contains (lit "TITLE") fl); cbn [andb].
  - pose proof (title_sim h0 h2 st2 gs2 texts fl U2) as S3. destruct (ReadSectionTitle fl st2) as [st3|e|u]; [|exact S3|exact S3].
    destruct S3 as (-> & h3 & texts3 & E & U3 & Ln). exists h3, gs2, texts3. split; [exact E|]. split; [exact U3|exact Ln].
  - exists h2, gs2, texts. split; [reflexivity|]. split; [exact U2|lia].
Qed.

Lemma lines_sim h0 pl lines : forall h st gs texts, under h0 h st gs texts ->
  match for_each lines st (ReadLine pl) with
  | Ok st' => exists h' gs' texts', for_each lines h (pReadLine pl (Some (h_next h0)) (Some (S (h_next h0)))) = Ok h' /\ under h0 h' st' gs' texts' /\
      length texts' = (length texts + lost lines)%nat
  | Throw _ => False
  | UB u => for_each lines h (pReadLine pl (Some (h_next h0)) (Some (S (h_next h0)))) = UB u
  end.
Proof.
  induction lines as [|l t IH]; intros h st gs texts U; cbn [for_each lost].
  - exists h, gs, texts. split; [reflexivity|]. split; [exact U|lia].
  - pose proof (line_sim h0 h st gs texts pl l U) as S. destruct (ReadLine pl st l) as [st1|e|u]; [|destruct S|rewrite S; reflexivity].
    destruct S as (h1 & gs1 & texts1 & -> & U1 & Ln). pose proof (IH h1 st1 gs1 texts1 U1) as I.
    destruct (for_each t st1 (ReadLine pl)) as [st2|e|u]; [|exact I|exact I].
    destruct I as (h2 & gs2 & texts2 & E & U2 & Ln2). exists h2, gs2, texts2. split; [exact E|]. split; [exact U2|lia].
Qed.
