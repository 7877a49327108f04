(** Lemmas about the MSK reader. *)
From Coq Require Import Permutation.
From Verif Require Import Prelude P_Prelude M_LayoutData M_Converter S_Converter P_Converter M_Scanf M_Msk S_Msk P_Scanf.
Local Open Scope Z_scope.

(** ** Boxes *)
Definition box (n : Z) (p q : coord) : geom :=
  mkgeom GTrectangle n (outline p q)
    (mkcoord (Z.min (cx p) (cx q)) (Z.min (cy p) (cy q))) (mkcoord (Z.max (cx p) (cx q)) (Z.max (cy p) (cy q))) (CRectangle 0).

Lemma box_bounds p q : bounding_box (outline p q) (mkcoord (Z.min (cx p) (cx q)) (Z.min (cy p) (cy q)))
  (mkcoord (Z.max (cx p) (cx q)) (Z.max (cy p) (cy q))).
Proof.
  unfold bounding_box, outline. cbn [cx cy]. split.
  - intros c H. cbn [In] in H. repeat destruct H as [<-|H]; try contradiction; cbn [cx cy]; lia.
  - repeat split.
    + destruct (Z.min_spec (cx p) (cx q)) as [(_ & ->)|(_ & ->)]; [exists p|exists q]; cbn; tauto.
    + destruct (Z.max_spec (cx p) (cx q)) as [(_ & ->)|(_ & ->)]; [exists q|exists p]; cbn; tauto.
    + destruct (Z.min_spec (cy p) (cy q)) as [(_ & ->)|(_ & ->)]; [exists p|exists q]; cbn; tauto.
    + destruct (Z.max_spec (cy p) (cy q)) as [(_ & ->)|(_ & ->)]; [exists q|exists p]; cbn; tauto.
Qed.

Lemma box_depicts n p q : depicts (n, p, q) (Some (box n p q)).
Proof. unfold depicts. exists (box n p q). do 5 (split; [reflexivity|]). apply box_bounds. Qed.
Lemma scan_space ds s acc : scan (DSpace :: ds) s acc = scan ds (skip_space s) acc.
Proof. reflexivity. Qed.

Lemma bounding_unique l a b a' b' : bounding_box l a b -> bounding_box l a' b' -> a = a' /\ b = b'.
Proof.
  intros (H1 & (u1 & I1 & E1) & (u2 & I2 & E2) & (u3 & I3 & E3) & (u4 & I4 & E4))
         (G1 & (v1 & J1 & F1) & (v2 & J2 & F2) & (v3 & J3 & F3) & (v4 & J4 & F4)).
  pose proof (G1 u1 I1). pose proof (G1 u2 I2). pose proof (G1 u3 I3). pose proof (G1 u4 I4).
  pose proof (H1 v1 J1). pose proof (H1 v2 J2). pose proof (H1 v3 J3). pose proof (H1 v4 J4).
  split; apply coord_eq; lia.
Qed.

Lemma depicts_box n p q o : depicts (n, p, q) o -> o = Some (box n p q).
Proof.
  intros (g & -> & H1 & H2 & H3 & H4 & H5). destruct (bounding_unique _ _ _ _ _ H5 (box_bounds p q)) as (A & B).
  destruct g as [t l cs mn mx k]. cbn in *. subst. reflexivity.
Qed.

Lemma FillBox_spec p q n :
  (int32 (cx q - cx p) /\ int32 (cy q - cy p) /\ coord32 p -> FillBox new_rectangle p q n = Ok (box n p q)) /\
  (coord32 p -> ~ (int32 (cx q - cx p) /\ int32 (cy q - cy p)) -> FillBox new_rectangle p q n = UB SignedOverflow).
Proof.
  unfold FillBox, CalcDelta, sub32. split.
  - intros (H1 & H2 & H3 & H4).
    rewrite (chk32_ok _ H1). cbn [bind]. rewrite (chk32_ok _ H2). cbn [bind].
    replace (cx q - (cx q - cx p)) with (cx p) by lia. replace (cy q - (cy q - cy p)) with (cy p) by lia.
    rewrite (chk32_ok _ H3). cbn [bind]. rewrite (chk32_ok _ H4). cbn [bind new_rectangle new_geom g_coords app].
    cbn [at_ nth_error bind tl].
    destruct (fold_left widen _ _) as [mn mx] eqn:F. apply widen_bbox in F.
    destruct p as [px py], q as [qx qy]. cbn [cx cy] in *.
    destruct (bounding_unique _ _ _ _ _ F (box_bounds (mkcoord px py) (mkcoord qx qy))) as (A & B).
    unfold box. cbn [cx cy] in *. rewrite A, B. reflexivity.
  - intros _ H. destruct (chk32_spec (cx q - cx p)) as [(A & ->)|(A & ->)]; [|reflexivity]. cbn [bind].
    destruct (chk32_spec (cy q - cy p)) as [(B & ->)|(B & ->)]; [|reflexivity]. tauto.
Qed.

(** ** Lines of a text *)
Lemma getlines_cur text : forall cur ls, ~ In newline cur -> file_lines text ls ->
  getlines cur text = match ls with [] => match cur with [] => [] | _ => [cur] end | l :: t => (cur ++ l) :: t end.
Proof.
  induction text as [|c text IH]; intros cur ls Hc F.
  - inversion F as [E|l Hl Hn E|l t ls' Hn F' E]; subst; [reflexivity|congruence|destruct l; discriminate].
  - cbn [getlines]. change ("010"%byte) with newline.
    destruct (beqb c newline) eqn:B.
    + apply beqb_eq in B. subst c. inversion F as [E|l Hl Hn E|l t ls' Hn F' E]; subst.
      * exfalso. apply Hn. left. reflexivity.
      * destruct l as [|x l]; [|injection E as E1 _; exfalso; apply Hn; left; exact E1].
        injection E as E1. subst t. rewrite app_nil_r. f_equal.
        rewrite (IH [] ls' (fun Q => Q) F'). destruct ls'; reflexivity.
    + apply beqb_neq in B. 
      assert (Hc' : ~ In newline (cur ++ [c])) by (rewrite in_app_iff; cbn; intuition congruence).
      inversion F as [E|l Hl Hn E|l t ls' Hn F' E]; subst.
      * rewrite (IH (cur ++ [c]) (match text with [] => [] | _ => [text] end) Hc').
        { destruct text; [destruct cur; reflexivity|]. rewrite <- app_assoc. reflexivity. }
        destruct text as [|y text]; [constructor|]. constructor; [discriminate|]. intros Q. apply Hn. right. exact Q.
      * destruct l as [|x l]; [injection E as E1 _; congruence|]. injection E as E1 E. subst x.
        rewrite (IH (cur ++ [c]) (l :: ls') Hc'); [rewrite <- app_assoc; reflexivity|].
        rewrite <- E. constructor; [|exact F']. intros Q. apply Hn. right. exact Q.
Qed.

Lemma getlines_lines text ls : file_lines text ls -> getlines [] text = ls.
Proof. intros F. rewrite (getlines_cur text [] ls (fun Q => Q) F). destruct ls; reflexivity. Qed.

Lemma lines_no_newline text ls : file_lines text ls -> Forall (fun l => ~ In newline l) ls.
Proof. induction 1; auto. Qed.

Lemma lines_exist text : exists ls, file_lines text ls.
Proof.
  induction text as [|c t (ls & F)]; [exists []; constructor|].
  destruct (Byte.byte_eq_dec c newline) as [->|N].
  - exists ([] :: ls). apply (lines_more [] t ls); [intros []|exact F].
  - inversion F; subst.
    + exists [[c]]. constructor; [discriminate|]. intros [Q|[]]. congruence.
    + exists [c :: t]. constructor; [discriminate|]. intros [Q|Q]; [congruence|]. auto.
    + exists ((c :: l) :: ls0). apply (lines_more (c :: l) t0 ls0); [|assumption]. intros [Q|Q]; [congruence|]. auto.
Qed.

Definition clean (line : list byte) : list byte :=
  filter (fun c => negb (beqb c "010")) (filter (fun c => negb (beqb c "013")) line).

Lemma clean_returns l l' : ~ In newline l -> without_returns l l' -> clean l = l'.
Proof.
  intros N W. unfold clean. induction W as [|l l' W IH|c l l' Hc W IH].
  - reflexivity.
  - apply IH. intros Q. apply N. right. exact Q.
  - cbn [filter]. apply beqb_neq in Hc. change ("013"%byte) with return_char at 1. rewrite Hc. cbn [negb filter].
    assert (beqb c "010" = false) as -> by (apply beqb_neq; intros ->; apply N; left; reflexivity).
    cbn [negb]. f_equal. apply IH. intros Q. apply N. right. exact Q.
Qed.

Lemma returns_exist l : exists l', without_returns l l'.
Proof.
  induction l as [|c l (l' & IH)]; [exists []; constructor|].
  destruct (Byte.byte_eq_dec c return_char) as [->|N]; [exists l'; constructor; exact IH|exists (c :: l'); constructor; assumption].
Qed.

(** ** Keywords *)
Lemma prefixb_begins p s : prefixb p s = true <-> begins p s.
Proof.
  revert s; induction p as [|a p IH]; intros s; cbn [prefixb].
  - split; [intros _; exists s; reflexivity|reflexivity].
  - destruct s as [|b s]; [split; [discriminate|intros (t & Q); discriminate]|].
    rewrite andb_true_iff, beqb_eq, IH. split.
    + intros (-> & t & ->). exists t. reflexivity.
    + intros (t & Q). injection Q as -> ->. split; [reflexivity|exists t; reflexivity].
Qed.
Lemma contains_begins p s : begins p s -> contains p s = true.
Proof. intros H. apply prefixb_begins in H. destruct s; cbn [contains]; rewrite H; reflexivity. Qed.
Lemma contains_length p s : contains p s = true -> (length p <= length s)%nat.
Proof.
  induction s as [|b s IH]; cbn [contains]; rewrite orb_true_iff; intros [H|H].
  - apply prefixb_begins in H. destruct H as (t & Q). symmetry in Q. apply app_eq_nil in Q. destruct Q as (-> & _). cbn. lia.
  - discriminate.
  - apply prefixb_begins in H. destruct H as (t & Q). rewrite Q, app_length. lia.
  - apply IH in H. cbn [length]. lia.
Qed.

(** A format that begins with the characters p, on an input of at least as many characters that
    does not begin with p: nothing is read. *)
Lemma scan_no_prefix p : forall ds s, ~ begins p s -> (length p <= length s)%nat -> scan (map DLit p ++ ds) s [] = Ok ([], false).
Proof.
  induction p as [|a p IH]; intros ds s H L; [exfalso; apply H; exists s; reflexivity|].
  destruct s as [|b s]; [cbn in L; lia|]. cbn [map app scan].
  destruct (beqb b a) eqn:E; [|reflexivity]. apply beqb_eq in E. subst b. apply IH.
  - intros (t & ->). apply H. exists t. reflexivity.
  - cbn [length] in L. lia.
Qed.

Definition rec_dirs := [DInt; DLit ","%byte; DInt; DLit ","%byte; DInt; DLit ","%byte; DInt; DLit ","%byte; DStr; DLit ")"%byte].
Definition bb_dirs := [DInt; DLit ","%byte; DInt; DLit ","%byte; DInt; DLit ","%byte; DInt; DLit ")"%byte].
Definition title_dirs := [DSpace; DInt; DSpace; DInt; DSpace; DSpace; DLit "#"%byte; DStr].
Lemma rec_format : directives (lit "REC(%d,%d,%d,%d,%s)") = map DLit (lit "REC") ++ (DLit "("%byte :: rec_dirs).
Proof. reflexivity. Qed.
Lemma bb_format : directives (lit "BB(%d,%d,%d,%d)") = map DLit (lit "BB") ++ (DLit "("%byte :: bb_dirs).
Proof. reflexivity. Qed.
Lemma title_format : directives (lit "TITLE %d %d  #%s") = map DLit (lit "TITLE") ++ title_dirs.
Proof. reflexivity. Qed.

Lemma sscanf_no_prefix fmt p ds s : directives fmt = map DLit p ++ ds ->
  ~ begins p (c_str s) -> (length p <= length (c_str s))%nat -> sscanf s fmt = Ok (0, []).
Proof. intros E H L. unfold sscanf. rewrite E, (scan_no_prefix p ds _ H L). reflexivity. Qed.

(** The first character decides. *)
Lemma sscanf_first fmt b ds c s : directives fmt = DLit b :: ds -> c <> b -> c <> x00 -> sscanf (c :: s) fmt = Ok (0, []).
Proof.
  intros E H N. unfold sscanf. rewrite E.
  assert (exists t, c_str (c :: s) = c :: t) as (t & ->).
  { exists (c_str s). apply (c_str_app [c] s). intros [Q|[]]. congruence. }
  rewrite (scan_first_mismatch b ds c t [] H). reflexivity.
Qed.

Lemma first_bb c s : c <> "B"%byte -> c <> x00 -> sscanf (c :: s) (lit "BB(%d,%d,%d,%d)") = Ok (0, []).
Proof. apply (sscanf_first _ "B"%byte (map DLit (lit "B(") ++ bb_dirs)). vm_compute. reflexivity. Qed.
Lemma first_rec c s : c <> "R"%byte -> c <> x00 -> sscanf (c :: s) (lit "REC(%d,%d,%d,%d,%s)") = Ok (0, []).
Proof. apply (sscanf_first _ "R"%byte (map DLit (lit "EC(") ++ rec_dirs)). vm_compute. reflexivity. Qed.
Lemma first_title c s : c <> "T"%byte -> c <> x00 -> sscanf (c :: s) (lit "TITLE %d %d  #%s") = Ok (0, []).
Proof. apply (sscanf_first _ "T"%byte (map DLit (lit "ITLE") ++ title_dirs)). vm_compute. reflexivity. Qed.

(** ** Sections *)
Lemma bb_zero pl s st : sscanf s (lit "BB(%d,%d,%d,%d)") = Ok (0, []) -> ReadSectionBoundingBox pl s st = Ok st.
Proof. intros E. unfold ReadSectionBoundingBox. destruct st. rewrite E. reflexivity. Qed.
Lemma rec_zero pl s st : sscanf s (lit "REC(%d,%d,%d,%d,%s)") = Ok (0, []) -> ReadSectionRectangle pl s st = Ok st.
Proof. intros E. unfold ReadSectionRectangle, ParseRecLine. destruct st. rewrite E. reflexivity. Qed.
Lemma title_zero s st : sscanf s (lit "TITLE %d %d  #%s") = Ok (0, []) -> ReadSectionTitle s st = Ok st.
Proof. intros E. unfold ReadSectionTitle. rewrite E. reflexivity. Qed.

(** The three tests, on a line already cleaned. *)
Definition sections (pl : platform) (st : building) (l : list byte) : res building :=
  let* st := if contains (lit "BB") l then ReadSectionBoundingBox pl l st else Ok st in
  let* st := if contains (lit "REC") l then ReadSectionRectangle pl l st else Ok st in
  if contains (lit "TITLE") l then ReadSectionTitle l st else Ok st.
Lemma ReadLine_sections pl st line : ReadLine pl st line = sections pl st (clean line).
Proof. reflexivity. Qed.

Lemma sections_B pl st s : sections pl st ("B"%byte :: s) =
  if contains (lit "BB") ("B"%byte :: s) then ReadSectionBoundingBox pl ("B"%byte :: s) st else Ok st.
Proof.
  unfold sections. destruct (contains (lit "BB") _); [destruct (ReadSectionBoundingBox _ _ _) as [st'| |]|]; cbn [bind]; try reflexivity.
  all: rewrite rec_zero by (apply first_rec; discriminate);
       destruct (contains (lit "REC") _); cbn [bind];
       rewrite title_zero by (apply first_title; discriminate);
       destruct (contains (lit "TITLE") _); reflexivity.
Qed.
Lemma sections_R pl st s : sections pl st ("R"%byte :: s) =
  if contains (lit "REC") ("R"%byte :: s) then ReadSectionRectangle pl ("R"%byte :: s) st else Ok st.
Proof.
  unfold sections. rewrite bb_zero by (apply first_bb; discriminate).
  assert (forall b : bool, (if b then Ok st else Ok st) = Ok st) as -> by (intros []; reflexivity). cbn [bind].
  destruct (contains (lit "REC") _); [destruct (ReadSectionRectangle _ _ _) as [st'| |]|]; cbn [bind]; try reflexivity.
  all: rewrite title_zero by (apply first_title; discriminate);
       destruct (contains (lit "TITLE") _); reflexivity.
Qed.
Lemma sections_T pl st s : sections pl st ("T"%byte :: s) =
  if contains (lit "TITLE") ("T"%byte :: s) then ReadSectionTitle ("T"%byte :: s) st else Ok st.
Proof.
  unfold sections. rewrite bb_zero by (apply first_bb; discriminate).
  assert (forall b : bool, (if b then Ok st else Ok st) = Ok st) as -> by (intros []; reflexivity). cbn [bind].
  rewrite rec_zero by (apply first_rec; discriminate).
  assert (forall b : bool, (if b then Ok st else Ok st) = Ok st) as -> by (intros []; reflexivity). reflexivity.
Qed.

Lemma sections_other pl st l : ~ In x00 l -> ~ begins (lit "BB") l -> ~ begins (lit "REC") l -> ~ begins (lit "TITLE") l ->
  sections pl st l = Ok st.
Proof.
  intros N B R T. unfold sections.
  assert (E1 : contains (lit "BB") l = true -> ReadSectionBoundingBox pl l st = Ok st).
  { intros C. apply bb_zero. apply (sscanf_no_prefix _ (lit "BB") (DLit "("%byte :: bb_dirs)); [reflexivity| |]; rewrite c_str_id by exact N; [exact B|].
    apply contains_length, C. }
  assert (E2 : contains (lit "REC") l = true -> ReadSectionRectangle pl l st = Ok st).
  { intros C. apply rec_zero. apply (sscanf_no_prefix _ (lit "REC") (DLit "("%byte :: rec_dirs)); [reflexivity| |]; rewrite c_str_id by exact N; [exact R|].
    apply contains_length, C. }
  assert (E3 : contains (lit "TITLE") l = true -> ReadSectionTitle l st = Ok st).
  { intros C. apply title_zero. apply (sscanf_no_prefix _ (lit "TITLE") title_dirs); [reflexivity| |]; rewrite c_str_id by exact N; [exact T|].
    apply contains_length, C. }
  destruct (contains (lit "BB") l); [rewrite E1 by reflexivity|]; cbn [bind];
  destruct (contains (lit "REC") l); try (rewrite E2 by reflexivity); cbn [bind];
  destruct (contains (lit "TITLE") l); try (rewrite E3 by reflexivity); reflexivity.
Qed.

(** ** What the lines of the specification do *)
Lemma lookup_msk name n : In (name, n) msk_layers -> LayerNameToLayerNum name = n /\ n <> g_undefinedLayerNum.
Proof.
  intros H. cbn [In msk_layers] in H.
  repeat (destruct H as [H|H]; [injection H as <- <-; split; [reflexivity|discriminate]|]). destruct H.
Qed.
Lemma lookup_in m k v : lookup m k = Some v -> In (k, v) m.
Proof.
  induction m as [|[a b] m IH]; cbn [lookup]; [discriminate|]. destruct (streqb a k) eqn:E; [|intros H; right; apply IH, H].
  apply streqb_eq in E. subst. intros [= ->]. left. reflexivity.
Qed.
Lemma table_same name n : In (name, n) g_layerMap <-> In (name, n) msk_layers.
Proof. unfold g_layerMap, msk_layers. cbn [In]. tauto. Qed.
Lemma lookup_unknown name : (forall n, ~ In (name, n) msk_layers) -> LayerNameToLayerNum name = g_undefinedLayerNum.
Proof.
  intros H. unfold LayerNameToLayerNum. destruct (lookup g_layerMap name) as [v|] eqn:E; [|reflexivity].
  apply lookup_in, table_same in E. destruct (H v E).
Qed.
Lemma lookup_known name : LayerNameToLayerNum name <> g_undefinedLayerNum -> In (name, LayerNameToLayerNum name) msk_layers.
Proof.
  unfold LayerNameToLayerNum. destruct (lookup g_layerMap name) as [v|] eqn:E; [|congruence].
  intros _. apply table_same, lookup_in, E.
Qed.

Definition add_bounding (pl : platform) (g : geom) (st : building) : building :=
  let '(lib, el) := st in
  (set_layers lib (lib_layers lib ++ [mklayer (-5) (uninitialised pl (length (lib_layers lib))) (lit "BB") [Some g]]), add_geometry el g).
Definition add_rect (pl : platform) (name : list byte) (g : geom) (st : building) : building :=
  let '(lib, el) := st in
  (set_layers lib (insert_layer pl 0 (lib_layers lib) (g_layer g) name g), add_geometry el g).

Lemma number_int32 s z : number s z -> int32 z.
Proof. intros (_ & H). exact H. Qed.
Lemma number_no_nul s z : number s z -> ~ In x00 s.
Proof. intros (H & _). exact (numeral_no_nul s z H). Qed.

Ltac no_nul := solve [eapply number_no_nul; eassumption | apply white_no_nul; assumption | apply word_no_nul; assumption |
  apply lit_no_nul; reflexivity].

Lemma comma : lit "," = [","%byte]. Proof. reflexivity. Qed.
Lemma paren : lit ")" = [")"%byte]. Proof. reflexivity. Qed.
Lemma hash : lit "#" = ["#"%byte]. Proof. reflexivity. Qed.

Lemma scan_bb a b c d s1 s2 s3 s4 rest : number s1 a -> number s2 b -> number s3 c -> number s4 d ->
  sscanf (lit "BB(" ++ s1 ++ lit "," ++ s2 ++ lit "," ++ s3 ++ lit "," ++ s4 ++ lit ")" ++ rest) (lit "BB(%d,%d,%d,%d)") =
  Ok (4, [VInt a; VInt b; VInt c; VInt d]).
Proof.
  intros H1 H2 H3 H4. unfold sscanf.
  rewrite !c_str_app by no_nul.
  change (directives (lit "BB(%d,%d,%d,%d)")) with (map DLit (lit "BB(") ++ bb_dirs).
  rewrite scan_lit, comma, paren. unfold bb_dirs.
  rewrite (scan_number _ s1 a _ _ H1) by reflexivity. cbn [app]. rewrite scan_lit1.
  rewrite (scan_number _ s2 b _ _ H2) by reflexivity. cbn [app]. rewrite scan_lit1.
  rewrite (scan_number _ s3 c _ _ H3) by reflexivity. cbn [app]. rewrite scan_lit1.
  rewrite (scan_number _ s4 d _ _ H4) by reflexivity. cbn [app]. rewrite scan_lit1. reflexivity.
Qed.

Lemma line_bb pl st a b c d s1 s2 s3 s4 rest :
  number s1 a -> number s2 b -> number s3 c -> number s4 d -> int32 (c - a) -> int32 (d - b) ->
  sections pl st (lit "BB(" ++ s1 ++ lit "," ++ s2 ++ lit "," ++ s3 ++ lit "," ++ s4 ++ lit ")" ++ rest) =
  Ok (add_bounding pl (box (-5) (mkcoord a b) (mkcoord c d)) st).
Proof.
  intros H1 H2 H3 H4 H5 H6.
  pose proof (scan_bb a b c d s1 s2 s3 s4 rest H1 H2 H3 H4) as E.
  set (l := lit "BB(" ++ _) in *.
  assert (exists t, l = "B"%byte :: t) as (t & L) by (eexists; reflexivity).
  rewrite L, sections_B, <- L. 
  assert (contains (lit "BB") l = true) as -> by (apply contains_begins; eexists; reflexivity).
  unfold ReadSectionBoundingBox. destruct st as [lib el]. rewrite E. cbn [bind]. 
  change (4 =? 0) with false. cbv iota. cbn [int_arg nth_error].
  change (LayerNameToLayerNum (lit "BB")) with (-5).
  rewrite (proj1 (FillBox_spec (mkcoord a b) (mkcoord c d) (-5))); [reflexivity|].
  cbn [cx cy]. split; [exact H5|]. split; [exact H6|]. split; [exact (number_int32 _ _ H1)|exact (number_int32 _ _ H2)].
Qed.

Lemma scan_rec a b w h s1 s2 s3 s4 ws tok rest : number s1 a -> number s2 b -> number s3 w -> number s4 h ->
  Forall white ws -> word tok -> tok <> [] -> ends_word rest ->
  sscanf (lit "REC(" ++ s1 ++ lit "," ++ s2 ++ lit "," ++ s3 ++ lit "," ++ s4 ++ lit "," ++ ws ++ tok ++ rest) (lit "REC(%d,%d,%d,%d,%s)") =
  Ok (5, [VInt a; VInt b; VInt w; VInt h; VStr tok]).
Proof.
  intros H1 H2 H3 H4 Hws Ht Hn Hr. unfold sscanf.
  rewrite !c_str_app by no_nul.
  change (directives (lit "REC(%d,%d,%d,%d,%s)")) with (map DLit (lit "REC(") ++ rec_dirs).
  rewrite scan_lit, comma. unfold rec_dirs.
  rewrite (scan_number _ s1 a _ _ H1) by reflexivity. cbn [app]. rewrite scan_lit1.
  rewrite (scan_number _ s2 b _ _ H2) by reflexivity. cbn [app]. rewrite scan_lit1.
  rewrite (scan_number _ s3 w _ _ H3) by reflexivity. cbn [app]. rewrite scan_lit1.
  rewrite (scan_number _ s4 h _ _ H4) by reflexivity. cbn [app]. rewrite scan_lit1.
  rewrite scan_str by (first [assumption|apply c_str_stops; assumption]). cbn [app scan].
  destruct (c_str rest) as [|x t]; [reflexivity|]. destruct (beqb x ")"); reflexivity.
Qed.

Lemma removelast_snoc {A} (l : list A) x : removelast (l ++ [x]) = l.
Proof. apply removelast_last. Qed.

Lemma at_last {A} (l : list A) d : l <> [] -> at_ l (length l - 1) = Ok (last l d).
Proof.
  intros H. destruct (exists_last H) as (l' & x & ->). rewrite app_length, last_last. cbn [length].
  apply at_ok. rewrite nth_error_app2 by lia. replace (length l' + 1 - 1 - length l')%nat with 0%nat by lia. reflexivity.
Qed.

Lemma ParseRecLine_spec a b w h s1 s2 s3 s4 ws name close rest :
  number s1 a -> number s2 b -> number s3 w -> number s4 h -> int32 (a + w) -> int32 (b + h) ->
  Forall white ws -> word name -> (length (name ++ close) <= 7)%nat ->
  (close = lit ")" \/ (close = [] /\ name <> [] /\ last name x00 <> ")"%byte)) -> ends_word rest ->
  ParseRecLine (lit "REC(" ++ s1 ++ lit "," ++ s2 ++ lit "," ++ s3 ++ lit "," ++ s4 ++ lit "," ++ ws ++ name ++ close ++ rest) =
  Ok (Some (mkcoord a b, mkcoord (a + w) (b + h), name)).
Proof.
  intros H1 H2 H3 H4 H5 H6 Hws Hn Hl Hc Hr.
  assert (Ht : word (name ++ close) /\ name ++ close <> []).
  { destruct Hc as [->|(-> & N & _)].
    - split; [|destruct name; discriminate]. apply Forall_app. split; [exact Hn|]. repeat constructor; [unfold white; cbn; lia|discriminate].
    - rewrite app_nil_r. auto. }
  destruct Ht as (Ht & Htn).
  pose proof (scan_rec a b w h s1 s2 s3 s4 ws (name ++ close) rest H1 H2 H3 H4 Hws Ht Htn Hr) as E.
  unfold ParseRecLine. rewrite <- (app_assoc name) in E. rewrite E. cbn [bind str_arg nth_error].
  unfold fits_buffer. assert ((length (name ++ close) <? 8)%nat = true) as -> by (apply Nat.ltb_lt; lia). cbn [bind].
  change (5 =? 0) with false. cbv iota. cbn [int_arg nth_error cx cy].
  assert ((match name ++ close with [] => UB OobIndex | _ => at_ (name ++ close) (length (name ++ close) - 1) end) =
          Ok (last (name ++ close) x00)) as ->.
  { rewrite <- (at_last (name ++ close) x00 Htn). destruct (name ++ close); [congruence|reflexivity]. }
  cbn [bind].
  assert ((if beqb ")" (last (name ++ close) x00) then removelast (name ++ close) else name ++ close) = name) as ->.
  { destruct Hc as [->|(-> & N & L)].
    - change (lit ")") with [")"%byte]. rewrite last_last, removelast_last. reflexivity.
    - rewrite app_nil_r. assert (beqb ")" (last name x00) = false) as -> by (apply beqb_neq; congruence). reflexivity. }
  unfold add32. rewrite (chk32_ok _ H5). cbn [bind]. rewrite (chk32_ok _ H6). reflexivity.
Qed.

Lemma line_rec pl st a b w h s1 s2 s3 s4 ws name close rest :
  number s1 a -> number s2 b -> number s3 w -> number s4 h -> int32 (a + w) -> int32 (b + h) ->
  Forall white ws -> word name -> (length (name ++ close) <= 7)%nat ->
  (close = lit ")" \/ (close = [] /\ name <> [] /\ last name x00 <> ")"%byte)) -> ends_word rest ->
  sections pl st (lit "REC(" ++ s1 ++ lit "," ++ s2 ++ lit "," ++ s3 ++ lit "," ++ s4 ++ lit "," ++ ws ++ name ++ close ++ rest) =
  Ok (if LayerNameToLayerNum name =? g_undefinedLayerNum then st
      else add_rect pl name (box (LayerNameToLayerNum name) (mkcoord a b) (mkcoord (a + w) (b + h))) st).
Proof.
  intros H1 H2 H3 H4 H5 H6 Hws Hn Hl Hc Hr.
  pose proof (ParseRecLine_spec a b w h s1 s2 s3 s4 ws name close rest H1 H2 H3 H4 H5 H6 Hws Hn Hl Hc Hr) as E.
  set (l := lit "REC(" ++ _) in *.
  assert (exists t, l = "R"%byte :: t) as (t & L) by (eexists; reflexivity).
  rewrite L, sections_R, <- L.
  assert (contains (lit "REC") l = true) as -> by (apply contains_begins; eexists; reflexivity).
  unfold ReadSectionRectangle. destruct st as [lib el]. rewrite E. cbn [bind].
  destruct (LayerNameToLayerNum name =? g_undefinedLayerNum); [reflexivity|].
  rewrite (proj1 (FillBox_spec (mkcoord a b) (mkcoord (a + w) (b + h)) (LayerNameToLayerNum name))); [reflexivity|].
  apply number_int32 in H1, H2, H3, H4. cbn [cx cy]. replace (a + w - a) with w by lia. replace (b + h - b) with h by lia.
  split; [exact H3|]. split; [exact H4|]. split; [exact H1|exact H2].
Qed.

Lemma skip_number s z rest : numeral s z -> numeral (skip_space s) z /\ skip_space (s ++ rest) = skip_space s ++ rest.
Proof.
  intros (ws & sg & dg & n & Hws & Hd & -> & Hz).
  replace ((ws ++ sg ++ dg) ++ rest) with (ws ++ sg ++ dg ++ rest) by (rewrite <- !app_assoc; reflexivity).
  rewrite (skip_white ws (sg ++ dg) Hws), (skip_white ws (sg ++ dg ++ rest) Hws).
  assert (G : skip_space (sg ++ dg) = sg ++ dg /\ skip_space (sg ++ dg ++ rest) = sg ++ dg ++ rest).
  { pose proof (digits_nonempty _ _ Hd) as Hn. pose proof (digits_all _ _ Hd) as Ha.
    destruct Hz as [(-> & _)|[(-> & _)|(-> & _)]]; [|split; reflexivity|split; reflexivity].
    destruct dg as [|d dg]; [congruence|]. inversion Ha as [|? ? Hd0 _]; subst. apply not_digit_white in Hd0.
    cbn [app]. split; apply skip_stop; exact Hd0. }
  destruct G as (-> & ->). split; [|rewrite <- app_assoc; reflexivity].
  exists [], sg, dg, n. split; [constructor|]. split; [exact Hd|]. split; [reflexivity|exact Hz].
Qed.

Lemma title_scan a b s1 s2 sp ws ws' text rest :
  number s1 a -> number s2 b -> white sp -> Forall white ws -> Forall white ws' -> word text -> text <> [] -> ends_word rest ->
  sscanf (lit "TITLE" ++ s1 ++ sp :: s2 ++ ws ++ lit "#" ++ ws' ++ text ++ rest) (lit "TITLE %d %d  #%s") =
  Ok (3, [VInt a; VInt b; VStr text]).
Proof.
  intros H1 H2 Hsp Hws Hws' Ht Hn Hr.
  unfold sscanf. change (sp :: s2 ++ ws ++ lit "#" ++ ws' ++ text ++ rest) with ([sp] ++ s2 ++ ws ++ lit "#" ++ ws' ++ text ++ rest).
    assert (Nsp : ~ In x00 [sp]) by (apply white_no_nul; constructor; [exact Hsp|constructor]).
    rewrite !c_str_app by (first [exact Nsp|no_nul]).
    rewrite title_format, scan_lit. unfold title_dirs.
    rewrite scan_space.
    destruct (skip_number s1 a ([sp] ++ s2 ++ ws ++ lit "#" ++ ws' ++ text ++ c_str rest) (proj1 H1)) as (N1 & E1). rewrite E1.
    assert (D1 : isdigit sp = false) by (destruct (isdigit sp) eqn:Q; [apply not_digit_white in Q; contradiction|reflexivity]).
    rewrite (scan_number _ (skip_space s1) a) by (first [exact D1|split; [exact N1|exact (proj2 H1)]]). cbn [app].
    rewrite scan_space. change (sp :: s2 ++ ?x) with ([sp] ++ s2 ++ x). 
    destruct (skip_number s2 b (ws ++ lit "#" ++ ws' ++ text ++ c_str rest) (proj1 H2)) as (N2 & E2).
    rewrite (skip_white [sp]) by (constructor; [exact Hsp|constructor]). rewrite E2.
    assert (D2 : no_digit (ws ++ lit "#" ++ ws' ++ text ++ c_str rest)).
    { destruct Hws as [|c t Hc _]; [reflexivity|]. cbn. destruct (isdigit c) eqn:Q; [apply not_digit_white in Q; contradiction|reflexivity]. }
    rewrite (scan_number _ (skip_space s2) b) by (first [exact D2|split; [exact N2|exact (proj2 H2)]]). cbn [app].
    rewrite !scan_space, skip_white by exact Hws. rewrite hash. cbn [app].
    rewrite !skip_stop by (unfold white; cbn; lia). rewrite scan_lit1.
    rewrite scan_str by (first [assumption|apply c_str_stops; assumption]). reflexivity.
Qed.

Lemma line_title pl st a b s1 s2 sp ws ws' text rest :
  number s1 a -> number s2 b -> white sp -> Forall white ws -> Forall white ws' -> word text -> text <> [] -> ends_word rest ->
  sections pl st (lit "TITLE" ++ s1 ++ sp :: s2 ++ ws ++ lit "#" ++ ws' ++ text ++ rest) =
  if (length text <=? 63)%nat then Ok st else UB BufferOverflow.
Proof.
  intros H1 H2 Hsp Hws Hws' Ht Hn Hr.
  assert (E := title_scan a b s1 s2 sp ws ws' text rest H1 H2 Hsp Hws Hws' Ht Hn Hr).
  set (l := lit "TITLE" ++ _) in *.
  assert (exists t, l = "T"%byte :: t) as (t & L) by (eexists; reflexivity).
  rewrite L, sections_T, <- L.
  assert (contains (lit "TITLE") l = true) as -> by (apply contains_begins; eexists; reflexivity).
  unfold ReadSectionTitle. rewrite E. cbn [bind str_arg nth_error]. unfold fits_buffer.
  change (3 =? 0) with false. cbv iota.
  destruct (Nat.ltb_spec (length text) 64); destruct (Nat.leb_spec (length text) 63); try lia; reflexivity.
Qed.
