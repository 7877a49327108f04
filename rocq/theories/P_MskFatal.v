(** Lemmas about malformed MSK lines. *)
From Verif Require Import Prelude P_Prelude M_LayoutData M_Converter S_Converter P_Converter M_Scanf M_Msk S_Msk P_Scanf P_Msk P_MskFile.
Local Open Scope Z_scope.

Fixpoint num_dirs (k : nat) : list directive :=
  match k with O => [] | S k => DInt :: DLit ","%byte :: num_dirs k end.

Lemma scan_begun k s : begun_args k s -> exists vs, length vs = k /\
  forall ds rest acc, scan (num_dirs k ++ ds) (s ++ rest) acc = scan ds rest (acc ++ map VInt vs).
Proof.
  induction 1 as [|k s z t Hs B (vs & L & IH)].
  - exists []. split; [reflexivity|]. intros. cbn. rewrite app_nil_r. reflexivity.
  - exists (z :: vs). split; [cbn; congruence|]. intros ds rest acc. rewrite comma.
    replace ((s ++ [","%byte] ++ t) ++ rest) with (s ++ ","%byte :: t ++ rest) by (rewrite <- !app_assoc; reflexivity).
    cbn [num_dirs app]. rewrite (scan_number _ s z _ _ Hs) by reflexivity. rewrite scan_lit1, IH, <- app_assoc. reflexivity.
Qed.
Lemma begun_no_nul k s : begun_args k s -> ~ In x00 s.
Proof.
  induction 1 as [|k s z t Hs B IH]; [intros []|]. rewrite !in_app_iff. intros [Q|[Q|Q]].
  - exact (number_no_nul _ _ Hs Q).
  - cbn in Q. destruct Q as [Q|[]]. discriminate.
  - exact (IH Q).
Qed.
Lemma cut_no_nul k s vs : cut_args k s vs -> ~ In x00 s.
Proof.
  induction 1 as [k ws Hw|k s z Hs|k s z t vs Hs B IH]; [apply white_no_nul, Hw|exact (number_no_nul _ _ Hs)|].
  rewrite !in_app_iff. intros [Q|[Q|Q]].
  - exact (number_no_nul _ _ Hs Q).
  - cbn in Q. destruct Q as [Q|[]]. discriminate.
  - exact (IH Q).
Qed.

Lemma number_alone ds s z acc : number s z -> scan (DInt :: ds) s acc = scan ds [] (acc ++ [VInt z]).
Proof. intros H. rewrite <- (app_nil_r s) at 1. rewrite (scan_number ds s z [] acc H) by exact I. reflexivity. Qed.

Lemma scan_cut_rec k s vs : cut_args k s vs -> forall acc,
  scan (num_dirs k ++ [DStr; DLit ")"%byte]) s acc = Ok (acc ++ map VInt vs, true).
Proof.
  induction 1 as [k ws Hw|k s z Hs|k s z t vs Hs B IH]; intros acc.
  - cbn [map]. rewrite app_nil_r. destruct k; cbn [num_dirs app scan]; rewrite (skip_all ws Hw); reflexivity.
  - cbn [num_dirs app]. rewrite (number_alone _ s z _ Hs). reflexivity.
  - rewrite comma. cbn [num_dirs app]. rewrite (scan_number _ s z _ _ Hs) by reflexivity. cbn [app].
    rewrite scan_lit1, IH, <- app_assoc. reflexivity.
Qed.

Fixpoint bdirs (k : nat) : list directive :=
  match k with O => [] | S O => [DInt; DLit ")"%byte] | S k => DInt :: DLit ","%byte :: bdirs k end.
Lemma scan_cut_bb k s vs : cut_args k s vs -> forall acc,
  exists ended, scan (bdirs k) s acc = Ok (acc ++ map VInt vs, ended) /\ (vs = [] -> k <> O -> ended = true).
Proof.
  induction 1 as [k ws Hw|k s z Hs|k s z t vs Hs B IH]; intros acc.
  - cbn [map]. rewrite app_nil_r. destruct k as [|[|k]]; cbn [bdirs scan]; [exists false; split; [reflexivity|congruence]| |];
      rewrite (skip_all ws Hw); exists true; auto.
  - cbn [bdirs]. destruct k as [|k]; rewrite (number_alone _ s z _ Hs); (eexists; split; [reflexivity|discriminate]).
  - rewrite comma. cbn [bdirs app]. destruct k as [|k]; rewrite (scan_number _ s z _ _ Hs) by reflexivity; cbn [app].
    + cbn [scan]. assert (beqb "," ")" = false) as -> by reflexivity. exists false. split; [|discriminate].
      inversion B; subst. reflexivity.
    + rewrite scan_lit1. destruct (IH (acc ++ [VInt z])) as (ended & E & _). rewrite E, <- app_assoc. exists ended. split; [reflexivity|discriminate].
Qed.

Lemma cut_length k s vs : cut_args k s vs -> (length vs <= k)%nat.
Proof. induction 1; cbn; lia. Qed.

Lemma rec_begins pl st s u : ReadSectionRectangle pl (lit "REC" ++ s) st = UB u -> sections pl st (lit "REC" ++ s) = UB u.
Proof.
  intros H. change (lit "REC" ++ s) with ("R"%byte :: (lit "EC" ++ s)) at 1. rewrite sections_R.
  change ("R"%byte :: (lit "EC" ++ s)) with (lit "REC" ++ s).
  assert (contains (lit "REC") (lit "REC" ++ s) = true) as -> by (apply contains_begins; eexists; reflexivity). exact H.
Qed.
Lemma bb_begins pl st s x : ReadSectionBoundingBox pl (lit "BB" ++ s) st = x -> sections pl st (lit "BB" ++ s) = x.
Proof.
  intros H. change (lit "BB" ++ s) with ("B"%byte :: (lit "B" ++ s)) at 1. rewrite sections_B.
  change ("B"%byte :: (lit "B" ++ s)) with (lit "BB" ++ s).
  assert (contains (lit "BB") (lit "BB" ++ s) = true) as -> by (apply contains_begins; eexists; reflexivity). exact H.
Qed.

Lemma rec_parse_ub pl st l u : ParseRecLine l = UB u -> ReadSectionRectangle pl l st = UB u.
Proof. intros E. unfold ReadSectionRectangle. destruct st. rewrite E. reflexivity. Qed.

Lemma vint_no_str vs i : str_arg (map VInt vs) i = [].
Proof. unfold str_arg. rewrite nth_error_map. destruct (nth_error vs i); reflexivity. Qed.

Lemma after_number_c_str rest : after_number rest -> no_digit (c_str rest).
Proof.
  intros [->|(c & t & -> & H)]; [exact I|]. unfold c_str. cbn [span]. destruct (beqb c x00); cbn [negb].
  - exact I.
  - destruct (span _ t). cbn. unfold isdigit. lia.
Qed.

Lemma scan_range ds t z rest acc : numeral t z -> ~ int32 z -> after_number rest -> scan (DInt :: ds) (t ++ c_str rest) acc = UB Unparsable.
Proof.
  intros Ht Hz Hr. rewrite (scan_numeral ds t z _ acc Ht (after_number_c_str rest Hr)).
  unfold int32 in Hz. assert ((- 2 ^ 31 <=? z) && (z <? 2 ^ 31) = false) as -> by lia. reflexivity.
Qed.

Lemma fatal_sections pl st l u : fatal l u -> sections pl st l = UB u.
Proof.
  intros F. destruct F as [s ws name rest B Hw Hn Hl Hr|s1 s2 a b sp ws ws' text rest H1 H2 Hsp Hw Hw' Ht Hl Hr| |s vs C|
    p k s t z rest Hp Hk B Ht Hz Hr|s1 s2 s3 s4 a b c d rest H1 H2 H3 H4 Hd|s1 s2 s3 s4 a b w h ws name rest H1 H2 H3 H4 Hd Hw Hn Hne Hl Hr].
  - change (lit "REC(" ++ s ++ ws ++ name ++ rest) with (lit "REC" ++ (lit "(" ++ s ++ ws ++ name ++ rest)).
    apply rec_begins. apply rec_parse_ub. change (lit "REC" ++ (lit "(" ++ ?x)) with (lit "REC(" ++ x).
    destruct (scan_begun 4 s B) as (vs & L & E).
    assert (S : sscanf (lit "REC(" ++ s ++ ws ++ name ++ rest) (lit "REC(%d,%d,%d,%d,%s)") = Ok (5, map VInt vs ++ [VStr name])).
    { unfold sscanf. assert (Nb := begun_no_nul _ _ B). rewrite !c_str_app by (first [exact Nb|no_nul]).
      change (directives (lit "REC(%d,%d,%d,%d,%s)")) with (map DLit (lit "REC(") ++ (num_dirs 4 ++ [DStr; DLit ")"%byte])).
      rewrite scan_lit, E. rewrite scan_str; [|exact Hw|exact Hn|intros ->; cbn in Hl; lia|apply c_str_stops, Hr].
      cbn [app scan].
      assert (Q : forall e : bool, (let* (vs0, ended) := Ok (map VInt vs ++ [VStr name], e) in
         Ok (if ended && (length vs0 =? 0)%nat then -1 else Z.of_nat (length vs0), vs0)) = Ok (5, map VInt vs ++ [VStr name])).
      { intros e. cbn [bind]. rewrite app_length, map_length, L. destruct e; reflexivity. }
      destruct (c_str rest) as [|x t]; [apply Q|]. destruct (beqb x ")"); [|apply Q]. apply (Q false). }
    unfold ParseRecLine. rewrite S. cbn [bind].
    assert (str_arg (map VInt vs ++ [VStr name]) 4 = name) as ->.
    { unfold str_arg. rewrite nth_error_app2 by (rewrite map_length; lia). rewrite map_length, L. reflexivity. }
    unfold fits_buffer. assert ((length name <? 8)%nat = false) as -> by (apply Nat.ltb_ge; exact Hl). reflexivity.
  - rewrite (line_title pl st a b) by (first [assumption|intros ->; cbn in Hl; lia]).
    assert ((length text <=? 63)%nat = false) as -> by (apply Nat.leb_gt; lia). reflexivity.
  - apply (rec_begins pl st []). apply rec_parse_ub. reflexivity.
  - change (lit "REC(" ++ s) with (lit "REC" ++ (lit "(" ++ s)). apply rec_begins, rec_parse_ub. change (lit "REC" ++ (lit "(" ++ s)) with (lit "REC(" ++ s).
    assert (S : sscanf (lit "REC(" ++ s) (lit "REC(%d,%d,%d,%d,%s)") = Ok (if (length vs =? 0)%nat then -1 else Z.of_nat (length vs), map VInt vs)).
    { unfold sscanf. assert (Nb := cut_no_nul _ _ _ C). rewrite c_str_app by no_nul. rewrite (c_str_id s) by exact Nb.
      change (directives (lit "REC(%d,%d,%d,%d,%s)")) with (map DLit (lit "REC(") ++ (num_dirs 4 ++ [DStr; DLit ")"%byte])).
      rewrite scan_lit, (scan_cut_rec _ _ _ C). cbn [bind app andb]. rewrite map_length. reflexivity. }
    unfold ParseRecLine. rewrite S. cbn [bind]. rewrite vint_no_str. cbn [fits_buffer length Nat.ltb Nat.leb bind].
    assert ((if (length vs =? 0)%nat then -1 else Z.of_nat (length vs)) =? 0 = false) as ->; [|reflexivity].
    destruct (Nat.eqb_spec (length vs) 0); [reflexivity|]. apply Z.eqb_neq. lia.
  - assert (S : forall fmt, (fmt = lit "REC(%d,%d,%d,%d,%s)" /\ p = lit "REC(") \/ (fmt = lit "BB(%d,%d,%d,%d)" /\ p = lit "BB(") ->
      sscanf (p ++ s ++ t ++ rest) fmt = UB Unparsable).
    { intros fmt Hf. unfold sscanf. assert (Nb := begun_no_nul _ _ B).
      assert (Np : ~ In x00 p) by (destruct Hp as [->| ->]; no_nul). assert (Nt := numeral_no_nul _ _ Ht).
      rewrite !c_str_app by assumption.
      assert (exists ds, directives fmt = map DLit p ++ (num_dirs k ++ DInt :: ds)) as (ds & ->).
      { destruct Hf as [(-> & ->)|(-> & ->)].
        - change (directives (lit "REC(%d,%d,%d,%d,%s)")) with (map DLit (lit "REC(") ++ (num_dirs 4 ++ [DStr; DLit ")"%byte])).
          destruct k as [|[|[|[|k]]]]; [| | | |lia]; eexists; reflexivity.
        - change (directives (lit "BB(%d,%d,%d,%d)")) with (map DLit (lit "BB(") ++ (num_dirs 3 ++ [DInt; DLit ")"%byte])).
          destruct k as [|[|[|[|k]]]]; [| | | |lia]; eexists; reflexivity. }
      destruct (scan_begun k s B) as (vs & L & E). rewrite scan_lit, E, (scan_range _ t z rest _ Ht Hz Hr). reflexivity. }
    destruct Hp as [->| ->].
    + change (lit "REC(" ++ s ++ t ++ rest) with (lit "REC" ++ (lit "(" ++ s ++ t ++ rest)). apply rec_begins, rec_parse_ub.
      change (lit "REC" ++ (lit "(" ++ ?x)) with (lit "REC(" ++ x). unfold ParseRecLine. rewrite S by (left; split; reflexivity). reflexivity.
    + change (lit "BB(" ++ s ++ t ++ rest) with (lit "BB" ++ (lit "(" ++ s ++ t ++ rest)). apply bb_begins.
      change (lit "BB" ++ (lit "(" ++ ?x)) with (lit "BB(" ++ x). unfold ReadSectionBoundingBox. destruct st.
      rewrite S by (right; split; reflexivity). reflexivity.
  - pose proof (scan_bb a b c d s1 s2 s3 s4 rest H1 H2 H3 H4) as E.
    change (lit "BB(" ++ ?x) with (lit "BB" ++ (lit "(" ++ x)). apply bb_begins. change (lit "BB" ++ (lit "(" ++ ?x)) with (lit "BB(" ++ x).
    unfold ReadSectionBoundingBox. destruct st. rewrite E. cbn [bind]. change (4 =? 0) with false. cbv iota. cbn [int_arg nth_error].
    rewrite (proj2 (FillBox_spec (mkcoord a b) (mkcoord c d) _)); [reflexivity| |exact Hd].
    split; [exact (number_int32 _ _ H1)|exact (number_int32 _ _ H2)].
  - pose proof (scan_rec a b w h s1 s2 s3 s4 ws name rest H1 H2 H3 H4 Hw Hn Hne Hr) as E.
    change (lit "REC(" ++ ?x) with (lit "REC" ++ (lit "(" ++ x)). apply rec_begins, rec_parse_ub. change (lit "REC" ++ (lit "(" ++ ?x)) with (lit "REC(" ++ x).
    unfold ParseRecLine. rewrite E. cbn [bind str_arg nth_error]. unfold fits_buffer.
    assert ((length name <? 8)%nat = true) as -> by (apply Nat.ltb_lt; lia). cbn [bind].
    change (5 =? 0) with false. cbv iota. cbn [int_arg nth_error cx cy].
    assert ((match name with [] => UB OobIndex | _ => at_ name (length name - 1) end) = Ok (last name x00)) as ->.
    { rewrite <- (at_last name x00 Hne). destruct name; [congruence|reflexivity]. }
    cbn [bind]. unfold add32. destruct (chk32_spec (a + w)) as [(A & ->)|(A & ->)]; [|reflexivity]. cbn [bind].
    destruct (chk32_spec (b + h)) as [(A' & ->)|(A' & ->)]; [|reflexivity]. tauto.
Qed.

(** A bounding box that ends early. *)
Lemma cut_bb_sections pl st s vs : cut_args 4 s vs ->
  let p := mkcoord (nth 0 vs 0) (nth 1 vs 0) in let q := mkcoord (nth 2 vs 0) (nth 3 vs 0) in
  coord32 p -> int32 (cx q - cx p) -> int32 (cy q - cy p) ->
  sections pl st (lit "BB(" ++ s) = Ok (add_bounding pl (box (-5) p q) st).
Proof.
  intros C p q Hp H1 H2. change (lit "BB(" ++ s) with (lit "BB" ++ (lit "(" ++ s)). apply bb_begins.
  change (lit "BB" ++ (lit "(" ++ s)) with (lit "BB(" ++ s).
  destruct (scan_cut_bb 4 s vs C []) as (ended & E & He). 
  assert (S : sscanf (lit "BB(" ++ s) (lit "BB(%d,%d,%d,%d)") = Ok (if ended && (length vs =? 0)%nat then -1 else Z.of_nat (length vs), map VInt vs)).
  { unfold sscanf. assert (Nb := cut_no_nul _ _ _ C). rewrite c_str_app by no_nul. rewrite (c_str_id s) by exact Nb.
    change (directives (lit "BB(%d,%d,%d,%d)")) with (map DLit (lit "BB(") ++ bdirs 4).
    rewrite scan_lit, E. cbn [bind app]. rewrite map_length. reflexivity. }
  unfold ReadSectionBoundingBox. destruct st as [lib el]. rewrite S. cbn [bind].
  assert ((if ended && (length vs =? 0)%nat then -1 else Z.of_nat (length vs)) =? 0 = false) as ->.
  { destruct vs as [|v vs]; [rewrite He by (reflexivity || discriminate); reflexivity|].
    cbn [length Nat.eqb]. rewrite andb_false_r. apply Z.eqb_neq. lia. }
  assert (A : forall i, int_arg (map VInt vs) i 0 = nth i vs 0).
  { intros i. unfold int_arg. rewrite nth_error_map. rewrite <- (nth_default_eq i vs 0). unfold nth_default. destruct (nth_error vs i); reflexivity. }
  rewrite !A. change (LayerNameToLayerNum (lit "BB")) with (-5). fold p q.
  rewrite (proj1 (FillBox_spec p q (-5))) by auto. reflexivity.
Qed.

Lemma just_bb_sections pl st : sections pl st (lit "BB") = Ok (add_bounding pl (box (-5) (mkcoord 0 0) (mkcoord 0 0)) st).
Proof. destruct st as [lib el]. reflexivity. Qed.

Lemma cut_int32 k s vs : cut_args k s vs -> Forall int32 vs.
Proof. induction 1 as [k ws Hw|k s z Hs|k s z t vs Hs B IH]; repeat constructor; try exact IH; exact (proj2 (number_int32 _ _ Hs)) || exact (proj1 (number_int32 _ _ Hs)). Qed.
Lemma short_sections pl st l p q : short_bb l p q -> sections pl st l = Ok (add_bounding pl (box (-5) p q) st).
Proof.
  intros [|s vs C H1 H2]; [apply just_bb_sections|].
  apply (cut_bb_sections pl st s vs C); [|exact H1|exact H2].
  pose proof (cut_int32 _ _ _ C) as F.
  assert (A : forall i, int32 (nth i vs 0)).
  { intros i. destruct (nth_in_or_default i vs 0) as [Q|Q]; [rewrite Forall_forall in F; exact (F _ Q)|rewrite Q; unfold int32; lia]. }
  split; apply A.
Qed.
