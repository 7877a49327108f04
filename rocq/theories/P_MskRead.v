(** Lemmas about Read and GetReader. *)
From Coq Require Import Permutation.
From Verif Require Import Prelude P_Prelude M_LayoutData M_Converter S_Converter P_Converter M_Scanf M_Msk S_Msk P_Scanf P_Msk P_MskFile P_MskFatal.
Local Open Scope Z_scope.

Lemma read_opened pl fs r d text : rd_open r = false -> fs (narrow (rd_name r)) = Some text ->
  Read pl fs r (Some d) =
  match ReadOpened pl (rd_name r) text d with
  | Ok d' => Ok (mkreader (rd_name r) false true, Some d', true)
  | Throw _ => Ok (mkreader (rd_name r) false false, Some (mkdata (rd_name r) (ld_libraries d) FFundefined), false)
  | UB u => UB u
  end.
Proof. intros O F. unfold Read. rewrite O, F. reflexivity. Qed.

(** Everything known about a read that goes through the lines of the text. *)
Lemma opened_cases pl name text d : encodable name ->
  exists ln en, GetElemName pl name = Ok en /\ WcsStrToUtf8 pl name = Ok ln /\
  ((exists u, for_each (getlines [] text) (new_library ln, new_element en) (ReadLine pl) = UB u /\ ReadOpened pl name text d = UB u) \/
   (exists lib el, for_each (getlines [] text) (new_library ln, new_element en) (ReadLine pl) = Ok (lib, el) /\
      lib_name lib = ln /\ lib_elements lib = [] /\ e_name el = en /\ e_min el = mkcoord (-1) (-1) /\ e_max el = mkcoord (-1) (-1) /\
      layers_hold (lib_layers lib) (e_geometries el) /\ Forall boxed (e_geometries el))).
Proof.
  intros He. destruct (Wcs_ok pl name He) as (ln & E1). destruct (GetElemName_ok pl name He) as (en & E2).
  exists ln, en. split; [exact E2|]. split; [exact E1|].
  destruct (for_each (getlines [] text) (new_library ln, new_element en) (ReadLine pl)) as [(lib, el)|e|u] eqn:E.
  - right. exists lib, el. split; [reflexivity|].
    assert (P := lines_invariant pl (fun st => lib_name (fst st) = ln /\ lib_elements (fst st) = [] /\ e_name (snd st) = en /\
      e_min (snd st) = mkcoord (-1) (-1) /\ e_max (snd st) = mkcoord (-1) (-1))).
    assert (P0 : forall st st', step pl st st' ->
      lib_name (fst st) = ln /\ lib_elements (fst st) = [] /\ e_name (snd st) = en /\ e_min (snd st) = mkcoord (-1) (-1) /\ e_max (snd st) = mkcoord (-1) (-1) ->
      lib_name (fst st') = ln /\ lib_elements (fst st') = [] /\ e_name (snd st') = en /\ e_min (snd st') = mkcoord (-1) (-1) /\ e_max (snd st') = mkcoord (-1) (-1)).
    { intros st st' S H. destruct S as [st|p q st|nm n p q st Hin]; [exact H| |]; destruct st as [a b]; exact H. }
    destruct (P P0 (getlines [] text) (new_library ln, new_element en) (lib, el)) as (A1 & A2 & A3 & A4 & A5); [repeat split|exact E|].
    cbn [fst snd] in *.
    split; [exact A1|]. split; [exact A2|]. split; [exact A3|]. split; [exact A4|]. split; [exact A5|].
    split.
    + assert (Q := lines_invariant pl (fun st => partitioned st /\ (forall o, In o (e_geometries (snd st)) -> exists g, o = Some g)) (part_step pl)).
      destruct (Q (getlines [] text) (new_library ln, new_element en) (lib, el)) as (Q1 & _); [|exact E|exact Q1].
      split; [|intros o []]. cbn. split; [constructor|]. split; [intros ly o []|]. split; [intros [|i] j a b; discriminate|]. split; intros ly [].
    + assert (Q := lines_invariant pl (fun st => Forall boxed (e_geometries (snd st))) (boxed_step pl)).
      exact (Q (getlines [] text) (new_library ln, new_element en) (lib, el) (Forall_nil _) E).
  - exfalso. exact (lines_no_throw pl _ e _ E).
  - left. exists u. split; [reflexivity|]. unfold ReadOpened. rewrite E2. cbn [bind]. rewrite E1. cbn [bind]. rewrite E. reflexivity.
Qed.

(** Into a layout without libraries. *)
Lemma read_blank pl name text d ln en lib el : ld_libraries d = [] ->
  GetElemName pl name = Ok en -> WcsStrToUtf8 pl name = Ok ln ->
  for_each (getlines [] text) (new_library ln, new_element en) (ReadLine pl) = Ok (lib, el) ->
  lib_elements lib = [] -> Forall boxed (e_geometries el) ->
  (e_geometries el = [] -> ReadOpened pl name text d = UB OobIndex) /\
  (e_geometries el <> [] -> exists mn mx, bounding_box (points (e_geometries el)) mn mx /\
    ReadOpened pl name text d = Ok (mkdata name
      [mklibrary (lib_name lib) [mkelement (e_name el) (e_geometries el) mn mx] (lib_layers lib) (lib_min lib) (lib_max lib)] FFmsk)).
Proof.
  intros D E1 E2 E3 El Fb. rewrite (read_text pl name text d en ln lib el E1 E2 E3), D, El.
  cbn [app]. unfold bound_first. cbn [at_ nth_error bind lib_elements]. split; intros H.
  - unfold bound_element. rewrite H. reflexivity.
  - destruct (bound_element_spec el Fb H) as (mn & mx & -> & B). exists mn, mx. split; [exact B|]. reflexivity.
Qed.

(** Format detection *)
Lemma is_word_char c : is_word c = true <-> word_char c.
Proof.
  unfold is_word, word_char, isdigit. rewrite !orb_true_iff, beqb_eq. pose proof (b2z_range c).
  split; intros H0; repeat destruct H0 as [H0|H0]; try (right; right; right; exact H0); lia || tauto.
Qed.
Lemma to_lower_spec c d : to_lower c = d <-> lower_case c d.
Proof.
  unfold to_lower, lower_case. pose proof (b2z_range c). destruct ((65 <=? b2z c) && (b2z c <=? 90)) eqn:E.
  - assert (B : b2z (z2b (b2z c + 32)) = b2z c + 32) by (apply b2z_z2b_small; lia).
    split; [intros <-; left; lia|]. intros [(_ & Q)|(Q & _)]; [|lia]. apply b2z_inj. lia.
  - split; [intros <-; right; split; [lia|reflexivity]|]. intros [(Q & _)|(_ & Q)]; [lia|congruence].
Qed.
Lemma lower_map s t : map to_lower s = t <-> Forall2 lower_case s t.
Proof.
  revert t; induction s as [|c s IH]; intros t; cbn [map].
  - split; [intros <-; constructor|]. inversion 1. reflexivity.
  - split.
    + intros <-. constructor; [apply to_lower_spec; reflexivity|apply IH; reflexivity].
    + inversion 1; subst. f_equal; [apply to_lower_spec; assumption|apply IH; assumption].
Qed.
Lemma match_here_spec s : match_here s = true <->
  exists w c ext, s = w ++ c :: ext /\ Forall word_char w /\ word_char c /\ Forall2 lower_case ext (lit ".msk").
Proof.
  induction s as [|c s IH]; cbn [match_here].
  - split; [discriminate|]. intros (w & c & ext & Q & _). destruct w; discriminate.
  - rewrite andb_true_iff, orb_true_iff, is_word_char, streqb_eq, lower_map, IH. split.
    + intros (Hc & [He|(w & c' & ext & -> & Hw & Hc' & He)]).
      * exists [], c, s. split; [reflexivity|]. auto.
      * exists (c :: w), c', ext. split; [reflexivity|]. auto.
    + intros (w & c' & ext & Q & Hw & Hc' & He). destruct w as [|x w].
      * injection Q as -> ->. auto.
      * injection Q as -> ->. inversion Hw; subst. split; [assumption|]. right. exists w, c', ext. auto.
Qed.
Lemma regex_spec s : regex_search s = true <-> msk_name s.
Proof.
  unfold msk_name. induction s as [|c s IH].
  - cbn. split; [discriminate|]. intros (pre & c & ext & Q & _). destruct pre; discriminate.
  - change (regex_search (c :: s)) with (match_here (c :: s) || regex_search s). rewrite orb_true_iff, match_here_spec, IH. split.
    + intros [(w & x & ext & -> & Hw & Hx & He)|(pre & x & ext & -> & Hx & He)]; [exists w, x, ext; auto|exists (c :: pre), x, ext; auto].
    + intros (pre & x & ext & Q & Hx & He). destruct pre as [|y pre].
      * injection Q as -> ->. left. exists [], x, ext. auto.
      * injection Q as -> ->. right. exists pre, x, ext. auto.
Qed.

Lemma version_first text ls l : file_lines text (l :: ls) ->
  ((if (length l <? 7)%nat then false else streqb (firstn 7 l) (lit "VERSION")) = true <-> begins (lit "VERSION") text).
Proof.
  intros F.
  assert (B : (if (length l <? 7)%nat then false else streqb (firstn 7 l) (lit "VERSION")) = true <-> begins (lit "VERSION") l).
  { split.
    - destruct (Nat.ltb_spec (length l) 7); [discriminate|]. rewrite streqb_eq. intros Q. exists (skipn 7 l). rewrite <- Q. symmetry. apply firstn_skipn.
    - intros (t & ->). rewrite app_length. destruct (Nat.ltb_spec (length (lit "VERSION") + length t) 7) as [L|L]; [cbn in L; lia|].
      rewrite firstn_app. change (7 - length (lit "VERSION"))%nat with 0%nat. cbn [firstn]. rewrite app_nil_r. reflexivity. }
  rewrite B. inversion F; subst.
  - reflexivity.
  - split; [intros (x & ->); exists (x ++ newline :: t); rewrite <- app_assoc; reflexivity|].
    intros (x & Q). revert Q.
    assert (G : forall p l' x', ~ In newline p -> l' ++ newline :: t = p ++ x' -> begins p l').
    { induction p as [|a p IH]; intros l' x' Hp Q; [exists l'; reflexivity|].
      destruct l' as [|b l']; [injection Q as <- _; exfalso; apply Hp; left; reflexivity|].
      injection Q as -> Q. destruct (IH l' x' (fun Z => Hp (or_intror Z)) Q) as (y & ->). exists y. reflexivity. }
    apply G. cbn. intuition discriminate.
Qed.
