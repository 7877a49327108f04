(** Read at the level of pointers and at the level of values. *)
From Coq Require Import Permutation.
From Verif Require Import Prelude P_Prelude M_LayoutData M_Scanf M_Msk M_Ownership S_Msk S_Ownership P_Ownership P_OwnerRead.
Local Open Scope Z_scope.

(** Two heaps that differ in members of elements other than their geometries. *)
Definition alike (h h' : heap) : Prop :=
  forall a, match h_cell h a, h_cell h' a with
            | Some (CellElement e), Some (CellElement e') => pe_geometries e = pe_geometries e'
            | c, c' => c = c'
            end.

Lemma alike_element h h' a : alike h h' -> owned_by_element h' a = owned_by_element h a.
Proof.
  intros A. unfold owned_by_element. specialize (A a).
  destruct (h_cell h a) as [[g|e|b]|]; destruct (h_cell h' a) as [[g'|e'|b']|]; try discriminate A; try reflexivity; congruence.
Qed.
Lemma alike_library h h' a : alike h h' -> owned_by_library h' a = owned_by_library h a.
Proof.
  intros A. unfold owned_by_library. pose proof (A a) as Aa.
  destruct (h_cell h a) as [[g|e|b]|]; destruct (h_cell h' a) as [[g'|e'|b']|]; try discriminate Aa; try reflexivity.
  injection Aa as <-. f_equal. f_equal. apply map_ext. intros t. apply alike_element. exact A.
Qed.
Lemma alike_libraries h h' l : alike h h' -> map (owned_by_library h') l = map (owned_by_library h) l.
Proof. intros A. apply map_ext. intros a. apply alike_library. exact A. Qed.
Lemma alike_none h h' a : alike h h' -> (h_cell h' a = None <-> h_cell h a = None).
Proof. intros A. specialize (A a). destruct (h_cell h a) as [[g|e|b]|]; destruct (h_cell h' a) as [[g'|e'|b']|]; split; congruence. Qed.
Lemma alike_keeps h h' : alike h h' -> keeps h h'.
Proof. intros A a g E. specialize (A a). rewrite E in A. destruct (h_cell h' a) as [[g'|e'|b']|]; congruence. Qed.

(** What a layout is known to be, when its value is known. *)
Lemma held_geometries h ps gs : Forall2 (holds_geometry h) ps gs -> Forall (is_geometry h) (targets ps).
Proof.
  intros F. induction F as [|p g ps gs H F IH]; [constructor|]. rewrite targets_cons. destruct p as [a|]; [|exact IH].
  constructor; [|exact IH]. destruct g as [g|]; [exists g; exact H|destruct H].
Qed.
Lemma held_element h p v : holds_element h p v -> exists a, p = Some a /\ is_element h a.
Proof. intros (a & ps & -> & E & F). exists a. split; [reflexivity|]. eexists. split; [exact E|]. cbn. exact (held_geometries h _ _ F). Qed.
Lemma held_elements h ps vs : Forall2 (holds_element h) ps vs -> Forall (is_element h) (targets ps).
Proof.
  intros F. induction F as [|p v ps vs H F IH]; [constructor|]. destruct (held_element h p v H) as (a & -> & I). rewrite targets_cons. constructor; assumption.
Qed.
Lemma held_library h p v : holds_library h p v -> exists a, p = Some a /\ is_library h a.
Proof. intros (a & es & ls & -> & E & F & _). exists a. split; [reflexivity|]. eexists. split; [exact E|]. cbn. exact (held_elements h _ _ F). Qed.
Lemma held_libraries h ps vs : Forall2 (holds_library h) ps vs -> Forall (is_library h) (targets ps).
Proof.
  intros F. induction F as [|p v ps vs H F IH]; [constructor|]. destruct (held_library h p v H) as (a & -> & I). rewrite targets_cons. constructor; assumption.
Qed.

(** A heap that has grown. *)
Definition grown (h h' : heap) : Prop := forall a c, h_cell h a = Some c -> h_cell h' a = Some c.
Lemma grown_keeps h h' : grown h h' -> keeps h h'.
Proof. intros G a g E. exact (G a _ E). Qed.
Lemma grown_element h h' p v : grown h h' -> holds_element h p v -> holds_element h' p v.
Proof. intros G (a & ps & -> & E & F). exists a, ps. split; [reflexivity|]. split; [exact (G _ _ E)|]. exact (keeps_geometries h h' _ _ (grown_keeps _ _ G) F). Qed.
Lemma grown_library h h' p v : grown h h' -> holds_library h p v -> holds_library h' p v.
Proof.
  intros G (a & es & ls & -> & E & F & L). exists a, es, ls. split; [reflexivity|]. split; [exact (G _ _ E)|].
  split; [eapply Forall2_imp; [|exact F]; intros; apply grown_element with h; assumption|exact (keeps_layers h h' _ _ (grown_keeps _ _ G) L)].
Qed.
Lemma grown_owned h h' a : grown h h' -> is_library h a -> owned_by_library h' a = owned_by_library h a.
Proof.
  intros G I. apply library_local; [exact I|]. intros x Q. apply (library_live h a x I) in Q. destruct (h_cell h x) as [c|] eqn:E; [exact (G x c E)|contradiction].
Qed.
Lemma grown_owneds h h' l : grown h h' -> Forall (is_library h) l -> map (owned_by_library h') l = map (owned_by_library h) l.
Proof. intros G F. apply map_ext_in. intros a I. rewrite Forall_forall in F. apply grown_owned; [exact G|exact (F a I)]. Qed.

(** One element gets other bounds. *)
Lemma other_element h a0 c p v : holds_element h p v -> p <> Some a0 -> ~ is_geometry h a0 -> holds_element (store h a0 c) p v.
Proof.
  intros (a & ps & -> & E & F) N G. exists a, ps. split; [reflexivity|]. split.
  - unfold store. cbn [h_cell]. destruct (Nat.eqb_spec a a0) as [->|_]; [congruence|exact E].
  - exact (keeps_geometries _ _ _ _ (keeps_store h a0 c G) F).
Qed.

Lemma in_targets a ps : In (Some a) ps -> In a (targets ps).
Proof. intros I. unfold targets. apply in_concat. exists [a]. split; [|left; reflexivity]. apply in_map_iff. exists (Some a). split; [reflexivity|exact I]. Qed.

Lemma other_library h a0 e0 c p v : holds_library h p v -> h_cell h a0 = Some (CellElement e0) ->
  (forall a, p = Some a -> ~ In a0 (owned_by_library h a)) -> holds_library (store h a0 c) p v.
Proof.
  intros (a & es & ls & -> & E & F & L) E0 N. specialize (N a eq_refl). exists a, es, ls. split; [reflexivity|].
  assert (G : ~ is_geometry h a0) by (intros (g & Q); congruence).
  split; [unfold store; cbn [h_cell]; destruct (Nat.eqb_spec a a0) as [->|_]; [congruence|exact E]|].
  split; [|exact (keeps_layers _ _ _ _ (keeps_store h a0 c G) L)].
  assert (N' : forall x, In (Some x) es -> x <> a0).
  { intros x I ->. apply N. unfold owned_by_library. rewrite E. cbn [pb_elements]. right. apply in_concat. exists (owned_by_element h a0).
    split; [apply in_map, in_targets; exact I|left; reflexivity]. }
  clear - F N' G. induction F as [|p w es ws H F IH]; [constructor|]. constructor.
  - apply other_element; [exact H| |exact G]. intros ->. apply (N' a0); [left; reflexivity|reflexivity].
  - apply IH. intros x I. apply N'. right. exact I.
Qed.

(** The loop over the geometries. *)
Lemma loop_sim h : forall ps gs mm, Forall2 (holds_geometry h) ps gs ->
  for_each ps mm (fun mm p =>
    let* g := load_geometry h p in
    let '(mn, mx) := mm in
    Ok (mkcoord (if cx (g_min g) <? cx mn then cx (g_min g) else cx mn)
                (if cy (g_min g) <? cy mn then cy (g_min g) else cy mn),
        mkcoord (if cx mx <? cx (g_max g) then cx (g_max g) else cx mx)
                (if cy mx <? cy (g_max g) then cy (g_max g) else cy mx))) =
  for_each gs mm (fun mm g =>
        match g with
        | None => UB NullDeref
        | Some g =>
            let '(mn, mx) := mm in
            Ok (mkcoord (if cx (g_min g) <? cx mn then cx (g_min g) else cx mn)
                        (if cy (g_min g) <? cy mn then cy (g_min g) else cy mn),
                mkcoord (if cx mx <? cx (g_max g) then cx (g_max g) else cx mx)
                        (if cy mx <? cy (g_max g) then cy (g_max g) else cy mx))
        end).
Proof.
  intros ps gs mm F. revert mm. induction F as [|p g ps gs H F IH]; intros mm; cbn [for_each]; [reflexivity|].
  destruct p as [a|]; destruct g as [g|]; cbn in H; try contradiction; [|reflexivity].
  unfold load_geometry at 1. rewrite H. cbn [bind]. destruct mm as (mn, mx). apply IH.
Qed.

Lemma bound_sim h ps vs : Forall2 (holds_library h) ps vs -> NoDup (concat (map (owned_by_library h) (targets ps))) ->
  match bound_first vs with
  | Ok vs' => exists h', pbound_first h ps = Ok h' /\ Forall2 (holds_library h') ps vs' /\ alike h h' /\ h_next h' = h_next h /\
      (forall a, ~ In a (concat (map (owned_by_library h) (targets ps))) -> h_cell h' a = h_cell h a)
  | Throw _ => False
  | UB u => pbound_first h ps = UB u
  end.
Proof.
  intros F N. unfold bound_first, pbound_first. destruct F as [|p v ps vs H F]; [reflexivity|]. cbn [at_ nth_error bind].
  pose proof H as (a & es & ls & -> & E & Fe & L). unfold load_library. rewrite E. cbn [bind pb_elements].
  rewrite targets_cons in N. cbn [map concat] in N.
  destruct (lib_elements v) as [|w ws] eqn:Ev; inversion Fe as [|q ? es' ? He Fe']; subst; [reflexivity|]. cbn [at_ nth_error bind].
  pose proof He as (a0 & gp & -> & E0 & Fg). unfold load_element. rewrite E0. cbn [bind pe_geometries pe_name].
  unfold bound_element. destruct (e_geometries w) as [|g gs] eqn:Eg; inversion Fg as [|gq ? gp' ? Hg Fg']; subst; [reflexivity|]. cbn [at_ nth_error bind tl].
  destruct gq as [ag|]; destruct g as [g|]; cbn in Hg; try contradiction; [|reflexivity].
  assert (EP : load_geometry h (Some ag) = Ok g) by (unfold load_geometry; rewrite Hg; reflexivity).
  rewrite EP. cbn [bind]. rewrite (loop_sim h gp' gs _ Fg').
  match goal with |- context [for_each gs ?m ?f] => destruct (for_each gs m f) as [mm|x|u] eqn:EL end; cbn [bind].
  2:{ clear - EL. revert EL. generalize (g_min g, g_max g). induction gs as [|[g1|] gs IH]; intros mm; cbn [for_each]; [discriminate| |discriminate].
      destruct mm. apply IH. }
  2:{ reflexivity. }
  match goal with |- context [store h a0 ?C] => set (c := C); set (h' := store h a0 c) end.
  assert (G : ~ is_geometry h a0) by (intros (y & Q); congruence).
  assert (Al : alike h h').
  { intros x. unfold h', store. cbn [h_cell]. destruct (Nat.eqb_spec x a0) as [->|_]; [rewrite E0; reflexivity|]. destruct (h_cell h x) as [[| |]|]; reflexivity. }
  assert (N0 : a <> a0) by (intros ->; congruence).
  assert (I0 : In a0 (owned_by_library h a)).
  { unfold owned_by_library. rewrite E. cbn [pb_elements]. rewrite targets_cons. cbn [map concat]. right. left. reflexivity. }
  apply NoDup_app_iff in N. destruct N as (N1 & N2 & N3).
  exists h'. split; [reflexivity|]. split.
  - cbn [upd]. constructor.
    + exists a, (Some a0 :: es'), ls. split; [reflexivity|]. cbn [lib_name lib_elements lib_layers lib_min lib_max].
      split; [unfold h', store; cbn [h_cell]; apply Nat.eqb_neq in N0; rewrite N0; exact E|].
      split; [|exact (keeps_layers _ _ _ _ (alike_keeps _ _ Al) L)].
      constructor.
      * exists a0, (Some ag :: gp'). split; [reflexivity|]. cbn [e_name e_geometries e_min e_max].
        split; [unfold h', store; cbn [h_cell]; rewrite Nat.eqb_refl; reflexivity|].
        exact (keeps_geometries _ _ _ _ (alike_keeps _ _ Al) Fg).
      * unfold owned_by_library in N1. rewrite E in N1. cbn [pb_elements] in N1. rewrite targets_cons in N1. cbn [map concat] in N1.
        apply NoDup_cons_iff in N1. destruct N1 as (_ & N1). unfold owned_by_element at 1 in N1. cbn [app] in N1. apply NoDup_cons_iff in N1. destruct N1 as (N1 & _).
        clear - Fe' N1 G. induction Fe' as [|p w1 es ws H F IH]; [constructor|]. constructor.
        { apply other_element; [exact H| |exact G]. intros ->. apply N1. apply in_app_iff. right. rewrite targets_cons. cbn [map concat]. left. reflexivity. }
        apply IH. intros Q. apply N1. apply in_app_iff in Q. apply in_app_iff. destruct Q as [Q|Q]; [left; exact Q|right].
        rewrite targets_cons. destruct p; [|exact Q]. cbn [map concat]. apply in_app_iff. right. exact Q.
    + clear - F N3 I0 E0. assert (N : ~ In a0 (concat (map (owned_by_library h) (targets ps)))) by (apply N3; exact I0). clear N3 I0.
      induction F as [|p v1 ps vs H F IH]; [constructor|]. rewrite targets_cons in N. constructor.
      * apply (other_library h a0 _ c p v1 H E0). intros x -> Q. apply N. cbn [map concat]. apply in_app_iff. left. exact Q.
      * apply IH. destruct p; [|exact N]. intros Q. apply N. cbn [map concat]. apply in_app_iff. right. exact Q.
  - split; [exact Al|]. split; [reflexivity|]. intros x X. unfold h', store. cbn [h_cell]. destruct (Nat.eqb_spec x a0) as [->|_]; [|reflexivity].
    exfalso. apply X. rewrite targets_cons. cbn [map concat]. apply in_app_iff. left. exact I0.
Qed.

Lemma utf8_no_ub pl c u : utf8_char pl c <> UB u.
Proof. unfold utf8_char. repeat match goal with |- context [if ?b then _ else _] => destruct b end; discriminate. Qed.
Lemma wcs_no_ub pl w u : WcsStrToUtf8 pl w <> UB u.
Proof.
  unfold WcsStrToUtf8. generalize (@nil byte). induction w as [|c t IH]; intros out; cbn [for_each]; [discriminate|].
  destruct (utf8_char pl c) as [b|e|x] eqn:E; cbn [bind]; [apply IH|discriminate|]. exfalso. exact (utf8_no_ub pl c x E).
Qed.
Lemma elem_no_ub pl w u : GetElemName pl w <> UB u.
Proof. unfold GetElemName. destruct (find_last_of 47 w); apply wcs_no_ub. Qed.

(** A read that gets at the file. *)
Lemma opened_sim pl fs r v h d dv text : abstracts r v -> regular h -> holds h d dv -> sound h d ->
  (if rd_open v then Some [] else fs (narrow (rd_name v))) = Some text ->
  match ReadOpened pl (rd_name v) text dv with
  | Ok dv' => exists h' gs texts ls b,
      let lib := h_next h in let el := S (h_next h) in
      let d' := mkpdata (rd_name v) (pd_libraries d ++ [Some lib]) FFmsk in
      pRead pl fs r h (Some d) = Ok (h', mkpreader (rd_name v) false (Some lib) (Some el), Some d', true) /\
      holds h' d' dv' /\ sound h' d' /\ regular h' /\ owned h' d' = owned h d ++ lib :: el :: gs /\
      NoDup (lib :: el :: gs ++ texts) /\ length texts = lost (getlines [] text) /\
      (forall a, In a (lib :: el :: gs ++ texts) -> h_cell h a = None) /\ Forall (is_geometry h') texts /\
      (forall a, h_cell h' a <> None <-> h_cell h a <> None \/ In a (lib :: el :: gs ++ texts)) /\
      (forall a, h_cell h a <> None -> ~ In a (owned h d) -> h_cell h' a = h_cell h a) /\
      h_cell h' lib = Some (CellLibrary b) /\ pb_layers b = ls /\ pb_elements b = [Some el] /\
      (exists e, h_cell h' el = Some (CellElement e) /\ targets (pe_geometries e) = gs) /\ Permutation (targets (concat (map py_geometries ls))) gs
  | Throw _ => exists h', pRead pl fs r h (Some d) = Ok (h', mkpreader (rd_name v) false None None, Some (mkpdata (rd_name v) (pd_libraries d) FFundefined), false) /\
      (forall a, h_cell h' a = h_cell h a) /\ (h_next h <= h_next h')%nat
  | UB u => pRead pl fs r h (Some d) = UB u
  end.
Proof.
  intros (An & Ao & _) Rg (Hn & Hf & HL) (SL & SN) T. unfold ReadOpened, pRead. rewrite An, Ao, T.
  set (lib := h_next h). set (el := S lib).
  cbn [allocate h_next h_cell pr_name]. fold lib. fold el. cbn [pd_name pd_libraries pd_format].
  set (c1 := CellLibrary _). set (c2 := CellElement (mkpelement [] [] _ _)).
  match goal with |- context [pread_failed _ ?H _] => set (h2 := H) end.
  assert (Failed : exists h', pread_failed (mkpreader (rd_name v) false (Some lib) (Some el)) h2 (mkpdata (rd_name v) (pd_libraries d) (pd_format d)) =
      Ok (h', mkpreader (rd_name v) false None None, Some (mkpdata (rd_name v) (pd_libraries d) FFundefined), false) /\
      (forall a, h_cell h' a = h_cell h a) /\ (lib <= h_next h')%nat).
  { unfold pread_failed. cbn [pr_element pr_library pr_name].
    assert (Ee : h_cell h2 el = Some c2) by (unfold h2; cbn [h_cell]; rewrite Nat.eqb_refl; reflexivity).
    assert (El : h_cell (release h2 el) lib = Some c1).
    { unfold release, h2. cbn [h_cell]. replace (Nat.eqb lib el) with false by (symmetry; apply Nat.eqb_neq; unfold el; lia). rewrite Nat.eqb_refl. reflexivity. }
    unfold delete_element, load_element. rewrite Ee. unfold c2. cbn [bind pe_geometries for_each].
    unfold delete_library, load_library. rewrite El. unfold c1. cbn [bind pb_elements for_each].
    eexists. split; [reflexivity|]. split; [|unfold release, h2; cbn [h_next]; unfold el, lib; lia]. intros a. unfold release, h2. cbn [h_cell].
    destruct (Nat.eqb_spec a lib) as [->|N1]; [symmetry; apply Rg; unfold lib; lia|].
    destruct (Nat.eqb_spec a el) as [->|N2]; [symmetry; apply Rg; unfold el, lib; lia|]. reflexivity. }
  destruct (GetElemName pl (rd_name v)) as [en|x|u] eqn:Een; cbn [bind]; [|exact Failed|exfalso; exact (elem_no_ub _ _ _ Een)].
  destruct (WcsStrToUtf8 pl (rd_name v)) as [ln|x|u] eqn:Eln; cbn [bind]; [|exact Failed|exfalso; exact (wcs_no_ub _ _ _ Eln)].
  clear Failed. cbv zeta.
  match goal with |- context [for_each (getlines [] text) (store ?H lib ?C) _] => set (h3 := store H lib C) end.
  assert (U : under h h3 (new_library ln, new_element en) [] []).
  { exists []. cbv zeta. fold lib. fold el. cbn [fst snd new_library new_element lib_name lib_elements lib_layers lib_min lib_max e_name e_geometries e_min e_max map concat app].
    split; [unfold h3, store; cbn [h_cell]; rewrite Nat.eqb_refl; reflexivity|]. split; [reflexivity|].
    split. { unfold h3, store. cbn [h_cell]. replace (Nat.eqb el lib) with false by (symmetry; apply Nat.eqb_neq; unfold el; lia). rewrite Nat.eqb_refl. reflexivity. }
    split; [constructor|]. split; [constructor|]. split; [constructor|]. split; [constructor|]. split; [constructor|]. split; [constructor|].
    split. { intros a Q. unfold h3, store, h2 in Q. cbn [h_cell] in Q. destruct (Nat.eqb_spec a lib) as [N1|N1]; [right; left; exact N1|].
      destruct (Nat.eqb_spec a el) as [N2|N2]; [right; right; left; exact N2|]. left.
      destruct (Nat.lt_ge_cases a (h_next h)) as [X|X]; [exact X|exfalso; apply Q, Rg, X]. }
    split. { intros a Q. unfold h3, store, h2. cbn [h_cell]. replace (Nat.eqb a lib) with false by (symmetry; apply Nat.eqb_neq; unfold lib; lia).
      replace (Nat.eqb a el) with false by (symmetry; apply Nat.eqb_neq; unfold el, lib; lia). reflexivity. }
    unfold h3, store, h2. cbn [h_next]. unfold el, lib. lia. }
  pose proof (lines_sim h pl (getlines [] text) h3 _ [] [] U) as Sim. fold lib in Sim. fold el in Sim. unfold building in Sim.
  destruct (for_each (getlines [] text) (new_library ln, new_element en) (ReadLine pl)) as [(L, E)|x|u]; cbn [bind];
    [|destruct Sim|].
  2:{ match goal with |- context [@for_each ?A ?B ?l ?s ?f] => replace (@for_each A B l s f) with (@UB heap u) by (symmetry; exact Sim) end. reflexivity. }
  destruct Sim as (h4 & gs & texts & E4 & U4 & Len).
  match goal with |- context [@for_each ?A ?B ?l h3 ?f] => replace (@for_each A B l h3 f) with (@Ok heap h4) by (symmetry; exact E4) end. clear E4. cbn [bind]. cbn [length Nat.add] in Len.
  destruct U4 as (ls & U1 & U2 & U3 & Ug & Ul & Up & Und & Ur & Ut & Ulive & Uold & Unx). cbv zeta in *. fold lib in U1, Ulive, Uold, Unx. fold el in U3, Ulive, Ur. cbn [fst snd] in *.
  assert (LL : load_library h4 (Some lib) = Ok (mkplibrary (lib_name L) [] ls (lib_min L) (lib_max L))) by (unfold load_library; rewrite U1; reflexivity).
  rewrite LL. cbn [bind pb_name pb_elements pb_layers pb_min pb_max app].
  match goal with |- context [store h4 lib ?C] => set (c5 := C); set (h5 := store h4 lib c5) end.
  assert (E5l : h_cell h5 lib = Some c5) by (unfold h5, store; cbn [h_cell]; rewrite Nat.eqb_refl; reflexivity).
  assert (E5o : forall a, a <> lib -> h_cell h5 a = h_cell h4 a).
  { intros a N. unfold h5, store. cbn [h_cell]. apply Nat.eqb_neq in N. rewrite N. reflexivity. }
  assert (K45 : keeps h4 h5) by (intros a g Q; rewrite E5o; [exact Q|intros ->; congruence]).
  assert (G : grown h h5).
  { intros a c Q. assert (X : (a < lib)%nat) by (unfold lib; destruct (Nat.lt_ge_cases a (h_next h)) as [X|X]; [exact X|rewrite (Rg a X) in Q; discriminate]).
    rewrite E5o by lia. rewrite (Uold a X). exact Q. }
  assert (E5e : h_cell h5 el = Some (CellElement (mkpelement (e_name E) (map Some gs) (e_min E) (e_max E)))) by (rewrite E5o by (unfold el; lia); exact U3).
  assert (Tg : targets (map Some gs) = gs) by (clear; unfold targets; induction gs as [|x t IH]; cbn; [reflexivity|f_equal; exact IH]).
  assert (Own : owned_by_library h5 lib = lib :: el :: gs).
  { unfold owned_by_library. rewrite E5l. unfold c5. cbn [pb_elements targets map concat app]. unfold owned_by_element. rewrite E5e. cbn [pe_geometries]. rewrite Tg, app_nil_r. reflexivity. }
  assert (HL5 : Forall2 (holds_library h5) (pd_libraries d ++ [Some lib]) (ld_libraries dv ++ [mklibrary (lib_name L) (lib_elements L ++ [E]) (lib_layers L) (lib_min L) (lib_max L)])).
  { apply Forall2_app.
    - eapply Forall2_imp; [|exact HL]. intros p w. apply grown_library. exact G.
    - constructor; [|constructor]. exists lib, [Some el], ls. split; [reflexivity|]. cbn [lib_name lib_elements lib_layers lib_min lib_max].
      split; [exact E5l|]. rewrite U2. cbn [app]. split; [|exact (keeps_layers _ _ _ _ K45 Ul)]. constructor; [|constructor].
      exists el, (map Some gs). split; [reflexivity|]. split; [exact E5e|]. exact (keeps_geometries _ _ _ _ K45 Ug). }
  assert (Own5 : map (owned_by_library h5) (targets (pd_libraries d ++ [Some lib])) = map (owned_by_library h) (targets (pd_libraries d)) ++ [lib :: el :: gs]).
  { rewrite targets_app, map_app. cbn [targets map concat app]. rewrite Own. f_equal. apply grown_owneds; [exact G|exact SL]. }
  assert (New : forall a, In a (lib :: el :: gs ++ texts) -> (lib <= a)%nat).
  { intros a [<-|[<-|Q]]; [lia|unfold el; lia|]. rewrite Forall_forall in Ur. specialize (Ur a Q). cbv beta in Ur. unfold el in Ur. lia. }
  assert (Fresh : forall a, In a (lib :: el :: gs ++ texts) -> h_cell h a = None) by (intros a Q; apply Rg, New; exact Q).
  assert (NDn : NoDup (lib :: el :: gs ++ texts)).
  { constructor; [|constructor; [|exact Und]].
    - intros [Q|Q]; [unfold el in Q; lia|]. rewrite Forall_forall in Ur. specialize (Ur lib Q). cbv beta in Ur. unfold el in Ur. lia.
    - intros Q. rewrite Forall_forall in Ur. specialize (Ur el Q). cbv beta in Ur. lia. }
  assert (Live : forall a, In a (owned h d) -> h_cell h a <> None).
  { intros a Q. unfold owned in Q. apply in_concat in Q. destruct Q as (l & Il & Ia). apply in_map_iff in Il. destruct Il as (t & <- & It).
    rewrite Forall_forall in SL. exact (library_live h t a (SL t It) Ia). }
  assert (ND5 : NoDup (concat (map (owned_by_library h5) (targets (pd_libraries d ++ [Some lib]))))).
  { rewrite Own5, concat_app. cbn [concat]. rewrite app_nil_r. apply NoDup_app_iff. split; [exact SN|]. split.
    - change (lib :: el :: gs) with ([lib; el] ++ gs). change (lib :: el :: gs ++ texts) with (([lib; el] ++ gs) ++ texts) in NDn. apply NoDup_app_iff in NDn. apply NDn.
    - intros a Q Q'. apply (Live a Q). apply Fresh. destruct Q' as [<-|[<-|Q']]; [left; reflexivity|right; left; reflexivity|]. right. right. apply in_app_iff. left. exact Q'. }
  pose proof (bound_sim h5 _ _ HL5 ND5) as B.
  destruct (bound_first (ld_libraries dv ++ [mklibrary (lib_name L) (lib_elements L ++ [E]) (lib_layers L) (lib_min L) (lib_max L)])) as [vs'|x|u]; cbn [bind]; [|destruct B|].
  2:{ match goal with |- context [pbound_first h5 ?l] => replace (pbound_first h5 l) with (@UB heap u) by (symmetry; exact B) end. reflexivity. }
  destruct B as (h6 & E6 & HL6 & Al & Nx6 & Out).
  match goal with |- context [pbound_first h5 ?l] => replace (pbound_first h5 l) with (@Ok heap h6) by (symmetry; exact E6) end. cbn [bind]. clear E6.
  assert (Own6 : map (owned_by_library h6) (targets (pd_libraries d ++ [Some lib])) = map (owned_by_library h5) (targets (pd_libraries d ++ [Some lib]))) by (apply alike_libraries; exact Al).
  assert (L6 : forall a, h_cell h6 a <> None <-> h_cell h a <> None \/ In a (lib :: el :: gs ++ texts)).
  { intros a. rewrite (alike_none h5 h6 a Al). split.
    - intros Q. destruct (Nat.eq_dec a lib) as [->|N]; [right; left; reflexivity|]. rewrite E5o in Q by exact N.
      destruct (Ulive a Q) as [X|[X|[X|X]]]; [left; rewrite <- (Uold a X); exact Q|contradiction|right; right; left; symmetry; exact X|right; right; right; exact X].
    - intros [Q|Q].
      + destruct (h_cell h a) as [c|] eqn:Ec; [|contradiction]. rewrite (G a c Ec). discriminate.
      + destruct Q as [<-|[<-|Q]]; [rewrite E5l; discriminate|rewrite E5e; discriminate|].
        apply in_app_iff in Q. destruct Q as [Q|Q].
        * pose proof (held_geometries h4 _ _ Ug) as HG. rewrite Tg in HG. rewrite Forall_forall in HG. destruct (HG a Q) as (g & Eg). rewrite (K45 a g Eg). discriminate.
        * rewrite Forall_forall in Ut. destruct (Ut a Q) as (g & Eg). rewrite (K45 a g Eg). discriminate. }
  assert (C6 : h_cell h6 lib = Some c5).
  { pose proof (Al lib) as Q. rewrite E5l in Q. unfold c5 in *. destruct (h_cell h6 lib) as [[| |]|]; congruence. }
  exists h6, gs, texts, ls. unfold c5 in C6. eexists. cbv zeta. fold lib. fold el.
  split; [reflexivity|]. split; [split; [reflexivity|split; [reflexivity|exact HL6]]|].
  split; [split; [exact (held_libraries h6 _ _ HL6)|unfold owned; cbn [pd_libraries]; rewrite Own6; exact ND5]|].
  split. { intros a Q. destruct (h_cell h6 a) as [c|] eqn:Ec; [|reflexivity]. exfalso. assert (X : h_cell h6 a <> None) by congruence.
    rewrite Nx6 in Q. cbn [h5 store h_next] in Q. unfold h5 in Q. cbn [store h_next] in Q. apply L6 in X. destruct X as [X|X].
    - apply X. apply Rg. unfold el, lib in *. lia.
    - destruct X as [X|[X|X]]; [unfold el in *; lia|unfold el in *; lia|]. rewrite Forall_forall in Ur. specialize (Ur a X). cbv beta in Ur. lia. }
  split. { unfold owned. cbn [pd_libraries]. rewrite Own6, Own5, concat_app. cbn [concat]. rewrite app_nil_r. reflexivity. }
  split; [exact NDn|]. split; [exact Len|]. split; [exact Fresh|].
  split. { eapply Forall_impl; [|exact Ut]. intros a (g & Eg). exists g. apply (alike_keeps _ _ Al), K45, Eg. }
  split; [exact L6|].
  split. { intros a Q N. rewrite Out.
    - destruct (h_cell h a) as [c|] eqn:Ec; [exact (G a c Ec)|contradiction].
    - rewrite Own5, concat_app. cbn [concat]. rewrite app_nil_r. intros X. apply in_app_iff in X. destruct X as [X|X]; [exact (N X)|].
      apply Q, Fresh. destruct X as [<-|[<-|X]]; [left; reflexivity|right; left; reflexivity|]. right. right. apply in_app_iff. left. exact X. }
  split; [exact C6|]. split; [reflexivity|]. split; [reflexivity|].
  split. { pose proof (Al el) as Q. rewrite E5e in Q. destruct (h_cell h6 el) as [[|e|]|]; try discriminate Q. cbn [pe_geometries] in Q.
    exists e. split; [reflexivity|]. rewrite <- Q. exact Tg. }
  cbn [pb_layers]. rewrite <- Tg. clear - Up. unfold targets. generalize dependent (concat (map py_geometries ls)). intros x P.
  induction P as [|p l l' P IH|p q l|l l' l'' P1 IH1 P2 IH2]; cbn [map concat].
  - reflexivity.
  - apply Permutation_app_head. exact IH.
  - rewrite !app_assoc. apply Permutation_app_tail. apply Permutation_app_comm.
  - etransitivity; eassumption.
Qed.
