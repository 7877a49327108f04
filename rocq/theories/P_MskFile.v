(** Lemmas about whole MSK files. *)
From Coq Require Import Permutation.
From Verif Require Import Prelude P_Prelude M_LayoutData M_Converter S_Converter P_Converter M_Scanf M_Msk S_Msk P_Scanf P_Msk.
Local Open Scope Z_scope.

Definition apply_content (pl : platform) (st : building) (c : content) : building :=
  match c with
  | Nothing => st
  | Bounding p q => add_bounding pl (box (-5) p q) st
  | Rect name p q =>
      if LayerNameToLayerNum name =? g_undefinedLayerNum then st
      else add_rect pl name (box (LayerNameToLayerNum name) p q) st
  end.

Lemma says_sections pl st l c : says l c -> sections pl st l = Ok (apply_content pl st c).
Proof.
  intros S. destruct S.
  - apply line_bb; assumption.
  - rewrite (line_rec pl st a b w h) by assumption. cbn [apply_content]. destruct (_ =? _); reflexivity.
  - rewrite (line_title pl st a b) by assumption. assert ((length text <=? 63)%nat = true) as -> by (apply Nat.leb_le; assumption). reflexivity.
  - apply sections_other; assumption.
Qed.

Lemma lines_read pl ls : forall cs st, Forall (fun l => ~ In newline l) ls ->
  Forall2 (fun l c => exists l', without_returns l l' /\ says l' c) ls cs ->
  for_each ls st (ReadLine pl) = Ok (fold_left (apply_content pl) cs st).
Proof.
  intros cs st N F. revert st N. induction F as [|l c ls cs (l' & W & S) F IH]; intros st N; [reflexivity|].
  inversion N; subst. cbn [for_each fold_left]. rewrite ReadLine_sections, (clean_returns l l') by assumption.
  rewrite (says_sections pl st l' c S). apply IH. assumption.
Qed.

Lemma file_read pl text cs st : file_says text cs ->
  for_each (getlines [] text) st (ReadLine pl) = Ok (fold_left (apply_content pl) cs st).
Proof.
  intros (ls & F & S). rewrite (getlines_lines _ _ F). apply lines_read; [exact (lines_no_newline _ _ F)|exact S].
Qed.

Lemma lines_fatal pl text u st : (forall st l, fatal l u -> sections pl st l = UB u) -> file_fatal text u ->
  for_each (getlines [] text) st (ReadLine pl) = UB u.
Proof.
  intros Hu (ls & l & l' & more & cs & F & S & W & X). rewrite (getlines_lines _ _ F). apply lines_no_newline in F.
  apply Forall_app in F. destruct F as (F1 & F2). inversion F2; subst.
  rewrite for_each_app, (lines_read pl ls cs st F1 S). cbn [bind for_each].
  rewrite ReadLine_sections, (clean_returns l l') by assumption. rewrite (Hu _ _ X). reflexivity.
Qed.

(** ** Shapes *)
Definition shape_geom (s : Z * coord * coord) : option geom := let '(n, p, q) := s in Some (box n p q).

Lemma shapes_geometries pl cs l : shapes cs l -> forall st,
  e_geometries (snd (fold_left (apply_content pl) cs st)) = e_geometries (snd st) ++ map shape_geom l.
Proof.
  induction 1 as [|t l S IH|p q t l S IH|name n p q t l Hn S IH|name p q t l Hn S IH]; intros st; cbn [fold_left apply_content map].
  - rewrite app_nil_r. reflexivity.
  - apply IH.
  - rewrite IH. destruct st as [lib el]. cbn [add_bounding snd add_geometry e_geometries shape_geom]. rewrite <- app_assoc. reflexivity.
  - destruct (lookup_msk _ _ Hn) as (-> & N). apply Z.eqb_neq in N. rewrite N, IH.
    destruct st as [lib el]. cbn [add_rect snd add_geometry e_geometries shape_geom]. rewrite <- app_assoc. reflexivity.
  - rewrite (lookup_unknown _ Hn), Z.eqb_refl. apply IH.
Qed.

Lemma shapes_total cs : exists l, shapes cs l.
Proof.
  induction cs as [|c cs (l & IH)]; [exists []; constructor|]. destruct c as [|p q|name p q].
  - exists l. constructor; exact IH.
  - exists ((-5, p, q) :: l). constructor; exact IH.
  - destruct (Z.eq_dec (LayerNameToLayerNum name) g_undefinedLayerNum) as [E|N].
    + exists l. apply shapes_unknown; [|exact IH]. intros n Hn. destruct (lookup_msk _ _ Hn). congruence.
    + eexists. eapply shapes_known; [apply lookup_known, N|exact IH].
Qed.

Lemma depicts_all l : Forall2 depicts l (map shape_geom l).
Proof. induction l as [|((n, p), q) l IH]; [constructor|]. constructor; [apply box_depicts|exact IH]. Qed.

(** Names and elements are untouched. *)
Lemma fold_frame pl cs : forall st,
  let st' := fold_left (apply_content pl) cs st in
  lib_name (fst st') = lib_name (fst st) /\ lib_elements (fst st') = lib_elements (fst st) /\
  e_name (snd st') = e_name (snd st) /\ e_min (snd st') = e_min (snd st) /\ e_max (snd st') = e_max (snd st).
Proof.
  induction cs as [|c cs IH]; intros st; cbn [fold_left]; [auto|]. cbv zeta in *.
  destruct (IH (apply_content pl st c)) as (-> & -> & -> & -> & ->). destruct st as [lib el].
  destruct c as [|p q|name p q]; cbn [apply_content]; [auto|auto|]. destruct (_ =? _); auto.
Qed.

(** ** Any line at all *)
Inductive step (pl : platform) : building -> building -> Prop :=
| step_same st : step pl st st
| step_bounding p q st : step pl st (add_bounding pl (box (-5) p q) st)
| step_rect name n p q st : In (name, n) msk_layers -> step pl st (add_rect pl name (box n p q) st).

Lemma chk32_inv z r : chk32 z = Ok r -> r = z.
Proof. destruct (chk32_spec z) as [(_ & ->)|(_ & ->)]; congruence. Qed.

Lemma FillBox_ok p q n g : FillBox new_rectangle p q n = Ok g -> g = box n p q.
Proof.
  unfold FillBox, CalcDelta, sub32. intros H.
  destruct (chk32 (cx q - cx p)) as [dx| |] eqn:E1; cbn [bind] in H; try discriminate.
  destruct (chk32 (cy q - cy p)) as [dy| |] eqn:E2; cbn [bind] in H; try discriminate.
  destruct (chk32 (cx q - dx)) as [x| |] eqn:E3; cbn [bind] in H; try discriminate.
  destruct (chk32 (cy q - dy)) as [y| |] eqn:E4; cbn [bind] in H; try discriminate.
  apply chk32_inv in E1, E2, E3, E4. replace x with (cx p) in H by lia. replace y with (cy p) in H by lia.
  cbn [new_rectangle new_geom g_coords app at_ nth_error bind tl] in H.
  destruct (fold_left widen _ _) as [mn mx] eqn:F. apply widen_bbox in F. injection H as <-.
  destruct p as [px py], q as [qx qy]. cbn [cx cy] in *.
  destruct (bounding_unique _ _ _ _ _ F (box_bounds (mkcoord px py) (mkcoord qx qy))) as (A & B).
  unfold box. cbn [cx cy] in *. rewrite A, B. reflexivity.
Qed.

Lemma bb_step pl l st st' : ReadSectionBoundingBox pl l st = Ok st' -> step pl st st'.
Proof.
  unfold ReadSectionBoundingBox. destruct st as [lib el].
  destruct (sscanf l _) as [(n, vs)| |]; cbn [bind swallow]; [|intros [= <-]; constructor|discriminate].
  destruct (n =? 0); cbn [swallow]; [intros [= <-]; constructor|].
  change (LayerNameToLayerNum (lit "BB")) with (-5).
  destruct (FillBox new_rectangle _ _ (-5)) as [g| |] eqn:E; cbn [bind swallow]; [|intros [= <-]; constructor|discriminate].
  apply FillBox_ok in E. subst g. intros [= <-]. exact (step_bounding pl _ _ (lib, el)).
Qed.
Lemma rec_step pl l st st' : ReadSectionRectangle pl l st = Ok st' -> step pl st st'.
Proof.
  unfold ReadSectionRectangle. destruct st as [lib el].
  destruct (ParseRecLine l) as [[((p, q), name)|]| |]; cbn [bind swallow]; [|intros [= <-]; constructor|intros [= <-]; constructor|discriminate].
  destruct (Z.eqb_spec (LayerNameToLayerNum name) g_undefinedLayerNum) as [E|N]; cbn [swallow]; [intros [= <-]; constructor|].
  destruct (FillBox new_rectangle _ _ _) as [g| |] eqn:E; cbn [bind swallow]; [|intros [= <-]; constructor|discriminate].
  apply FillBox_ok in E. subst g. intros [= <-]. exact (step_rect pl name _ _ _ (lib, el) (lookup_known name N)).
Qed.
Lemma title_same l st st' : ReadSectionTitle l st = Ok st' -> st' = st.
Proof.
  unfold ReadSectionTitle. destruct (sscanf l _) as [(n, vs)| |]; cbn [bind swallow]; [|congruence|discriminate].
  unfold fits_buffer. destruct (_ <? _)%nat; cbn [bind swallow]; [|discriminate]. destruct (n =? 0); cbn [swallow]; congruence.
Qed.

Lemma lines_invariant pl (P : building -> Prop) : (forall st st', step pl st st' -> P st -> P st') ->
  forall ls st st', P st -> for_each ls st (ReadLine pl) = Ok st' -> P st'.
Proof.
  intros HP. induction ls as [|l ls IH]; intros st st' Hst; cbn [for_each]; [intros [= <-]; exact Hst|].
  rewrite ReadLine_sections. destruct (sections pl st (clean l)) as [st1| |] eqn:E; try discriminate.
  apply IH. unfold sections in E.
  destruct (if contains (lit "BB") (clean l) then ReadSectionBoundingBox pl (clean l) st else Ok st) as [sa| |] eqn:E1; cbn [bind] in E; try discriminate.
  assert (Pa : P sa).
  { destruct (contains (lit "BB") (clean l)); [apply bb_step in E1; exact (HP _ _ E1 Hst)|injection E1 as <-; exact Hst]. }
  destruct (if contains (lit "REC") (clean l) then ReadSectionRectangle pl (clean l) sa else Ok sa) as [sb| |] eqn:E2; cbn [bind] in E; try discriminate.
  assert (Pb : P sb).
  { destruct (contains (lit "REC") (clean l)); [apply rec_step in E2; exact (HP _ _ E2 Pa)|injection E2 as <-; exact Pa]. }
  destruct (contains (lit "TITLE") (clean l)); [apply title_same in E; subst; exact Pb|injection E as <-; exact Pb].
Qed.

(** No section throws. *)
Lemma lines_no_throw pl ls e : forall st, for_each ls st (ReadLine pl) <> Throw e.
Proof.
  induction ls as [|l ls IH]; intros st; cbn [for_each]; [discriminate|].
  rewrite ReadLine_sections. destruct (sections pl st (clean l)) as [st1|e1|u] eqn:E; [apply IH| |discriminate].
  exfalso. unfold sections in E.
  assert (N : forall (x : res building) o e, swallow x o <> Throw e) by (intros [| |]; discriminate).
  assert (N1 : forall st e, ReadSectionBoundingBox pl (clean l) st <> Throw e) by (intros [a b] e0; apply N).
  assert (N2 : forall st e, ReadSectionRectangle pl (clean l) st <> Throw e) by (intros [a b] e0; apply N).
  assert (N3 : forall st e, ReadSectionTitle (clean l) st <> Throw e) by (intros st0 e0; apply N).
  destruct (if contains (lit "BB") (clean l) then ReadSectionBoundingBox pl (clean l) st else Ok st) as [sa| |] eqn:E1; cbn [bind] in E; try discriminate.
  2: { destruct (contains (lit "BB") (clean l)); [exact (N1 _ _ E1)|discriminate]. }
  destruct (if contains (lit "REC") (clean l) then ReadSectionRectangle pl (clean l) sa else Ok sa) as [sb| |] eqn:E2; cbn [bind] in E; try discriminate.
  2: { destruct (contains (lit "REC") (clean l)); [exact (N2 _ _ E2)|discriminate]. }
  destruct (contains (lit "TITLE") (clean l)); [exact (N3 _ _ E)|discriminate].
Qed.

(** ** The layers *)

Definition partitioned (st : building) : Prop :=
  let '(lib, el) := st in
  Permutation (concat (map l_geometries (lib_layers lib))) (e_geometries el) /\
  (forall ly o, In ly (lib_layers lib) -> In o (l_geometries ly) -> exists g, o = Some g /\ g_layer g = l_layer ly) /\
  (forall i j a b, nth_error (lib_layers lib) i = Some a -> nth_error (lib_layers lib) j = Some b -> l_layer a = l_layer b -> i <> j -> l_layer a = -5) /\
  (forall ly, In ly (lib_layers lib) -> l_layer ly <> -5 -> l_geometries ly = filter (on_layer (l_layer ly)) (e_geometries el)) /\
  (forall ly, In ly (lib_layers lib) -> In (l_name ly, l_layer ly) msk_layers).

Lemma insert_spec pl num name g ls : forall pos,
  (exists pre l post, ls = pre ++ l :: post /\ l_layer l = num /\ (forall x, In x pre -> l_layer x <> num) /\
     insert_layer pl pos ls num name g = pre ++ mklayer (l_layer l) (l_dataType l) (l_name l) (l_geometries l ++ [Some g]) :: post) \/
  ((forall x, In x ls -> l_layer x <> num) /\
   insert_layer pl pos ls num name g = ls ++ [mklayer num (uninitialised pl (pos + length ls)) name [Some g]]).
Proof.
  induction ls as [|l ls IH]; intros pos; cbn [insert_layer].
  - right. split; [intros x []|]. cbn. rewrite Nat.add_0_r. reflexivity.
  - destruct (Z.eqb_spec num (l_layer l)) as [E|N].
    + left. exists [], l, ls. repeat split; [congruence|intros x []].
    + destruct (IH (S pos)) as [(pre & l0 & post & -> & E0 & Hp & ->)|(Hn & ->)].
      * left. exists (l :: pre), l0, post. split; [reflexivity|]. split; [exact E0|].
        split; [intros x [<-|Q]; [congruence|apply Hp, Q]|reflexivity].
      * right. split; [intros x [<-|Q]; [congruence|apply Hn, Q]|]. cbn [app length].
        replace (S pos + length ls)%nat with (pos + S (length ls))%nat by lia. reflexivity.
Qed.

Lemma filter_snoc {A} (f : A -> bool) l x : filter f (l ++ [x]) = filter f l ++ (if f x then [x] else []).
Proof. rewrite filter_app. reflexivity. Qed.

(** appending one layer with one geometry *)
Lemma part_new lib el num dt name g : partitioned (lib, el) -> g_layer g = num -> In (name, num) msk_layers ->
  (num <> -5 -> forall x, In x (lib_layers lib) -> l_layer x <> num) ->
  (forall o, In o (e_geometries el) -> exists g, o = Some g) ->
  partitioned (set_layers lib (lib_layers lib ++ [mklayer num dt name [Some g]]), add_geometry el g).
Proof.
  intros (P1 & P2 & P3 & P4 & P5) Hg Hm Hn Ho. cbn [partitioned set_layers lib_layers add_geometry e_geometries].
  split; [|split; [|split; [|split]]].
  - rewrite map_app, concat_app. cbn [map concat l_geometries app]. apply Permutation_app; [exact P1|reflexivity].
  - intros ly o Hl Hin. apply in_app_or in Hl. destruct Hl as [Hl|[<-|[]]]; [exact (P2 ly o Hl Hin)|].
    cbn in Hin. destruct Hin as [<-|[]]. exists g. auto.
  - intros i j a b Hi Hj E Nij. destruct (Z.eq_dec (l_layer a) (-5)) as [Q|Q]; [exact Q|].
    assert (Hlen : forall k x, nth_error (lib_layers lib ++ [mklayer num dt name [Some g]]) k = Some x ->
      (nth_error (lib_layers lib) k = Some x) \/ (k = length (lib_layers lib) /\ l_layer x = num)).
    { intros k x Hk. destruct (Nat.lt_ge_cases k (length (lib_layers lib))) as [L|L].
      - rewrite nth_error_app1 in Hk by exact L. left. exact Hk.
      - rewrite nth_error_app2 in Hk by exact L. destruct (k - length (lib_layers lib))%nat as [|m] eqn:Em; cbn in Hk.
        + injection Hk as <-. right. split; [lia|reflexivity].
        + destruct m; discriminate. }
    destruct (Hlen i a Hi) as [Ai|(Ai & Ea)]; destruct (Hlen j b Hj) as [Bj|(Bj & Eb)].
    + exact (P3 i j a b Ai Bj E Nij).
    + exfalso. apply (Hn ltac:(congruence) a (nth_error_In _ _ Ai)). congruence.
    + exfalso. apply (Hn ltac:(congruence) b (nth_error_In _ _ Bj)). congruence.
    + lia.
  - intros ly Hl Hne. rewrite filter_snoc. apply in_app_or in Hl. destruct Hl as [Hl|[<-|[]]].
    + assert (on_layer (l_layer ly) (Some g) = false) as ->.
      { cbn. apply Z.eqb_neq. intros Q. apply (Hn ltac:(congruence) ly Hl). congruence. }
      rewrite app_nil_r. apply P4; assumption.
    + cbn [l_geometries l_layer on_layer]. rewrite Hg, Z.eqb_refl.
      assert (filter (on_layer num) (e_geometries el) = []) as ->; [|reflexivity].
      cbn [l_layer] in Hne. specialize (Hn Hne).
      destruct (filter (on_layer num) (e_geometries el)) as [|o t] eqn:F; [reflexivity|exfalso].
      assert (Hin : In o (filter (on_layer num) (e_geometries el))) by (rewrite F; left; reflexivity).
      apply filter_In in Hin. destruct Hin as (Hin & Hon).
      apply (Permutation_in o (Permutation_sym P1)) in Hin. apply in_concat in Hin. destruct Hin as (gs & Hgs & Hin).
      apply in_map_iff in Hgs. destruct Hgs as (ly & <- & Hly). destruct (P2 ly o Hly Hin) as (g' & -> & Eg).
      cbn in Hon. apply Z.eqb_eq in Hon. apply (Hn ly Hly). congruence.
  - intros ly Hl. apply in_app_or in Hl. destruct Hl as [Hl|[<-|[]]]; [apply P5, Hl|exact Hm].
Qed.

Lemma part_step pl st st' : step pl st st' ->
  partitioned st /\ (forall o, In o (e_geometries (snd st)) -> exists g, o = Some g) ->
  partitioned st' /\ (forall o, In o (e_geometries (snd st')) -> exists g, o = Some g).
Proof.
  intros S (P & Ho).
  assert (Hadd : forall el g, (forall o, In o (e_geometries el) -> exists g, o = Some g) ->
    forall o, In o (e_geometries (add_geometry el g)) -> exists g, o = Some g).
  { intros el g H o Q. cbn [add_geometry e_geometries] in Q. apply in_app_or in Q. destruct Q as [Q|[<-|[]]]; [apply H, Q|eauto]. }
  destruct S as [st|p q st|name n p q st Hin]; [auto| |]; destruct st as [lib el]; cbn [snd] in Ho.
  - split; [|cbn [add_bounding snd]; apply Hadd, Ho]. cbn [add_bounding].
    apply part_new; [exact P|reflexivity|unfold msk_layers; cbn [In]; tauto|congruence|exact Ho].
  - split; [|cbn [add_rect snd]; apply Hadd, Ho]. cbn [add_rect]. cbn [box g_layer].
    destruct (insert_spec pl n name (box n p q) (lib_layers lib) 0) as [(pre & l & post & E & El & Hp & ->)|(Hn & ->)].
    2: { apply part_new; [exact P|reflexivity|exact Hin|intros _; exact Hn|exact Ho]. }
    destruct P as (P1 & P2 & P3 & P4 & P5). cbn [partitioned set_layers lib_layers add_geometry e_geometries].
    rewrite E in *.
    split; [|split; [|split; [|split]]].
    + rewrite map_app, concat_app in *. cbn [map concat l_geometries] in *. rewrite <- app_assoc. cbn [app].
      rewrite <- P1. rewrite <- !app_assoc. apply Permutation_app_head. apply Permutation_app_head. apply Permutation_cons_append.
    + intros ly o Hl Hino. apply in_app_or in Hl. destruct Hl as [Hl|[<-|Hl]].
      * apply (P2 ly o); [apply in_or_app; left; exact Hl|exact Hino].
      * cbn [l_geometries l_layer] in *. apply in_app_or in Hino. destruct Hino as [Hino|[<-|[]]].
        -- apply (P2 l o); [apply in_or_app; right; left; reflexivity|exact Hino].
        -- exists (box n p q). split; [reflexivity|]. cbn. congruence.
      * apply (P2 ly o); [apply in_or_app; right; right; exact Hl|exact Hino].
    + set (l' := mklayer _ _ _ _).
      assert (T : forall k x, nth_error (pre ++ l' :: post) k = Some x -> exists y, nth_error (pre ++ l :: post) k = Some y /\ l_layer y = l_layer x).
      { intros k x Hk. destruct (Nat.lt_ge_cases k (length pre)) as [L|L].
        - rewrite nth_error_app1 in * by exact L. eauto.
        - rewrite nth_error_app2 in * by exact L. destruct (k - length pre)%nat as [|m]; cbn in *; [injection Hk as <-; eauto|eauto]. }
      intros i j a b Hi Hj Eab Nij. apply T in Hi, Hj. destruct Hi as (a' & Hi & Ea), Hj as (b' & Hj & Eb).
      rewrite <- Ea. apply (P3 i j a' b' Hi Hj); congruence.
    + intros ly Hl Hne. rewrite filter_snoc. apply in_app_or in Hl. destruct Hl as [Hl|[<-|Hl]].
      * assert (on_layer (l_layer ly) (Some (box n p q)) = false) as -> by (cbn; apply Z.eqb_neq; intros Q; apply (Hp ly Hl); congruence).
        rewrite app_nil_r. apply P4; [apply in_or_app; left; exact Hl|exact Hne].
      * cbn [l_geometries l_layer] in *. cbn [on_layer box g_layer]. rewrite El, Z.eqb_refl. f_equal.
        rewrite <- El. apply P4; [apply in_or_app; right; left; reflexivity|exact Hne].
      * assert (l_layer ly <> n).
        { intros Q. apply Hne. apply In_nth_error in Hl. destruct Hl as (k & Hk).
          apply (P3 (length pre + S k)%nat (length pre) ly l); [| |congruence|lia].
          - rewrite nth_error_app2 by lia. replace (length pre + S k - length pre)%nat with (S k) by lia. exact Hk.
          - rewrite nth_error_app2 by lia. rewrite Nat.sub_diag. reflexivity. }
        assert (on_layer (l_layer ly) (Some (box n p q)) = false) as -> by (cbn; apply Z.eqb_neq; congruence).
        rewrite app_nil_r. apply P4; [apply in_or_app; right; right; exact Hl|exact Hne].
    + intros ly Hl. apply in_app_or in Hl. destruct Hl as [Hl|[<-|Hl]].
      * apply P5, in_or_app. left. exact Hl.
      * cbn. apply (P5 l). apply in_or_app. right. left. reflexivity.
      * apply P5, in_or_app. right. right. exact Hl.
Qed.

(** ** The bounding box *)
Lemma bounding_join l1 a1 b1 l2 a2 b2 : bounding_box l1 a1 b1 -> bounding_box l2 a2 b2 ->
  bounding_box (l1 ++ l2)
    (mkcoord (if cx a2 <? cx a1 then cx a2 else cx a1) (if cy a2 <? cy a1 then cy a2 else cy a1))
    (mkcoord (if cx b1 <? cx b2 then cx b2 else cx b1) (if cy b1 <? cy b2 then cy b2 else cy b1)).
Proof.
  intros (H1 & (u1 & I1 & E1) & (u2 & I2 & E2) & (u3 & I3 & E3) & (u4 & I4 & E4))
         (G1 & (v1 & J1 & F1) & (v2 & J2 & F2) & (v3 & J3 & F3) & (v4 & J4 & F4)).
  split.
  - intros c Hc. apply in_app_or in Hc. destruct Hc as [Hc|Hc]; [apply H1 in Hc|apply G1 in Hc]; cbn [cx cy];
      destruct (Z.ltb_spec (cx a2) (cx a1)); destruct (Z.ltb_spec (cy a2) (cy a1));
      destruct (Z.ltb_spec (cx b1) (cx b2)); destruct (Z.ltb_spec (cy b1) (cy b2)); lia.
  - cbn [cx cy]. repeat split.
    + destruct (Z.ltb_spec (cx a2) (cx a1)); [exists v1|exists u1]; (split; [apply in_or_app; auto|lia]).
    + destruct (Z.ltb_spec (cx b1) (cx b2)); [exists v2|exists u2]; (split; [apply in_or_app; auto|lia]).
    + destruct (Z.ltb_spec (cy a2) (cy a1)); [exists v3|exists u3]; (split; [apply in_or_app; auto|lia]).
    + destruct (Z.ltb_spec (cy b1) (cy b2)); [exists v4|exists u4]; (split; [apply in_or_app; auto|lia]).
Qed.

Definition boxed (o : option geom) : Prop := exists g, o = Some g /\ bounding_box (g_coords g) (g_min g) (g_max g).

Lemma bound_element_spec e : Forall boxed (e_geometries e) -> e_geometries e <> [] ->
  exists mn mx, bound_element e = Ok (mkelement (e_name e) (e_geometries e) mn mx) /\ bounding_box (points (e_geometries e)) mn mx.
Proof.
  intros F N. unfold bound_element. destruct (e_geometries e) as [|o os]; [congruence|].
  inversion F as [|? ? (g & -> & B) F']; subst. cbn [at_ nth_error bind tl].
  set (body := fun _ _ => _).
  assert (G : forall os l mn mx, Forall boxed os -> bounding_box l mn mx ->
    exists mm, for_each os (mn, mx) body = Ok mm /\ bounding_box (l ++ points os) (fst mm) (snd mm)).
  { clear. induction os as [|o os IH]; intros l mn mx F B.
    - exists (mn, mx). split; [reflexivity|]. cbn. rewrite app_nil_r. exact B.
    - inversion F as [|? ? (g & -> & Bg) F']; subst. cbn [for_each]. unfold body at 1.
      destruct (IH (l ++ g_coords g) _ _ F' (bounding_join l mn mx (g_coords g) (g_min g) (g_max g) B Bg)) as (mm & E & Bm).
      exists mm. split; [exact E|]. unfold points in *. cbn [map concat]. rewrite app_assoc. exact Bm. }
  destruct (G os (g_coords g) (g_min g) (g_max g) F' B) as (mm & -> & Bm). cbn [bind].
  exists (fst mm), (snd mm). split; [reflexivity|]. exact Bm.
Qed.

Lemma boxed_step pl st st' : step pl st st' -> Forall boxed (e_geometries (snd st)) -> Forall boxed (e_geometries (snd st')).
Proof.
  assert (B : forall n p q, boxed (Some (box n p q))) by (intros n p q; exists (box n p q); split; [reflexivity|apply box_bounds]).
  intros S F. destruct S as [st|p q st|name n p q st Hin]; [exact F| |]; destruct st as [lib el];
    cbn [add_bounding add_rect snd add_geometry e_geometries] in *; apply Forall_app; (split; [exact F|constructor; [apply B|constructor]]).
Qed.

(** ** Names *)
Lemma utf8_ok pl c : 0 <= c < 55296 \/ 57344 <= c < 1114112 -> exists b, utf8_char pl c = Ok b.
Proof.
  intros H. unfold utf8_char.
  destruct ((0 <=? c) && (c <? 128)) eqn:E1; [eauto|]. destruct ((128 <=? c) && (c <? 2048)) eqn:E2; [eauto|].
  assert ((55296 <=? c) && (c <? 57344) = false) as -> by lia. cbn [andb].
  destruct ((2048 <=? c) && (c <? 65536)) eqn:E3; [eauto|]. destruct ((65536 <=? c) && (c <? 1114112)) eqn:E4; [eauto|]. lia.
Qed.
Lemma Wcs_ok pl w : encodable w -> exists b, WcsStrToUtf8 pl w = Ok b.
Proof.
  unfold WcsStrToUtf8. intros H. generalize (@nil byte). induction H as [|c w Hc H IH]; intros acc; cbn [for_each]; [eauto|].
  destruct (utf8_ok pl c Hc) as (b & ->). cbn [bind]. apply IH.
Qed.
Lemma encodable_part a b w : encodable w -> encodable (firstn a w) /\ encodable (skipn b w).
Proof.
  intros H. unfold encodable in *. split.
  - rewrite <- (firstn_skipn a w) in H. apply Forall_app in H. tauto.
  - rewrite <- (firstn_skipn b w) in H. apply Forall_app in H. tauto.
Qed.
Lemma GetElemName_ok pl w : encodable w -> exists b, GetElemName pl w = Ok b.
Proof.
  intros H. unfold GetElemName. destruct (find_last_of 47 w) as [s|]; destruct (find_last_of 46 w) as [d|].
  - destruct (s <? d)%nat; apply Wcs_ok; [apply (proj1 (encodable_part (d - s - 1) 0 _ (proj2 (encodable_part 0 (S s) w H))))|].
    apply (proj2 (encodable_part 0 (S s) w H)).
  - apply Wcs_ok. apply (proj2 (encodable_part 0 (S s) w H)).
  - apply Wcs_ok. apply (proj1 (encodable_part d 0 w H)).
  - apply Wcs_ok. exact H.
Qed.

(** ** Read *)
(** A layout without libraries. *)
Definition blank_data (d : layout_data) : Prop := ld_libraries d = [].

Lemma read_text pl name text d en ln lib el : GetElemName pl name = Ok en -> WcsStrToUtf8 pl name = Ok ln ->
  for_each (getlines [] text) (new_library ln, new_element en) (ReadLine pl) = Ok (lib, el) ->
  ReadOpened pl name text d =
    (let* libs := bound_first (ld_libraries d ++ [mklibrary (lib_name lib) (lib_elements lib ++ [el]) (lib_layers lib) (lib_min lib) (lib_max lib)]) in
     Ok (mkdata name libs FFmsk)).
Proof. intros E1 E2 E3. unfold ReadOpened. rewrite E1. cbn [bind]. rewrite E2. cbn [bind]. rewrite E3. reflexivity. Qed.
