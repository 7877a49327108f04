(** Lemmas about MSK files that end early. *)
From Verif Require Import Prelude P_Prelude M_LayoutData M_Converter S_Converter P_Converter M_Scanf M_Msk S_Msk P_Scanf P_Msk P_MskFile P_MskFatal P_MskRead S_Cut.
Local Open Scope Z_scope.

Lemma begins_app x a b : begins x (a ++ b) -> (begins x a) \/ (exists x', x = a ++ x' /\ x' <> [] /\ begins x' b).
Proof.
  intros (t & E). revert a E. induction x as [|c x IH]; intros a E; [left; now exists a|].
  destruct a as [|c' a].
  - right. exists (c :: x). split; [reflexivity|]. split; [discriminate|]. exists t. exact E.
  - cbn [app] in E. injection E as <- E. destruct (IH a E) as [(u & ->)|(x' & -> & N & B)].
    + left. exists u. reflexivity.
    + right. exists x'. split; [reflexivity|]. split; assumption.
Qed.
Lemma begins_no p x l : ~ begins p l -> begins x l -> ~ begins p x.
Proof. intros N (t & ->) (u & ->). apply N. exists (u ++ t). now rewrite app_assoc. Qed.
Lemma begins_forall P x l : Forall P l -> begins x l -> Forall P x.
Proof. intros F (t & ->). now apply Forall_app in F. Qed.
Lemma begins_not_in c x l : ~ In c l -> begins x l -> ~ In c x.
Proof. intros N (t & ->) H. apply N, in_or_app. now left. Qed.

Lemma digits_prefix ds n : digits ds n -> forall x, x <> [] -> begins x ds -> exists j, digits x (n / 10 ^ Z.of_nat j).
Proof.
  induction 1 as [c v Hv E|s n c v D IH Hv E]; intros x N B.
  - destruct B as (t & B). destruct x as [|a x]; [congruence|]. cbn in B. injection B as <- B. destruct x; [|discriminate].
    exists 0%nat. change (10 ^ Z.of_nat 0) with 1. rewrite Z.div_1_r. now constructor.
  - destruct (begins_app x s [c] B) as [B'|(x' & -> & N' & (t & B'))].
    + destruct (IH x N B') as (j & Hj). exists (S j).
      replace ((10 * n + v) / 10 ^ Z.of_nat (S j)) with (n / 10 ^ Z.of_nat j); [exact Hj|].
      rewrite Nat2Z.inj_succ, Z.pow_succ_r by lia. rewrite <- Z.div_div by lia.
      f_equal. rewrite Z.add_comm, Z.mul_comm, Z.div_add by lia. rewrite (Z.div_small v 10) by lia. lia.
    + destruct x' as [|a x']; [congruence|]. cbn in B'. injection B' as <- B'. destruct x'; [|discriminate].
      exists 0%nat. change (10 ^ Z.of_nat 0) with 1. rewrite Z.div_1_r. now constructor.
Qed.

Lemma quot_int32 z j : int32 z -> int32 (Z.quot z (10 ^ Z.of_nat j)).
Proof.
  unfold int32. intros H. assert (P : 0 < 10 ^ Z.of_nat j) by (apply Z.pow_pos_nonneg; lia).
  assert (A : Z.abs (Z.quot z (10 ^ Z.of_nat j)) <= Z.abs z).
  { rewrite <- Z.quot_abs by lia. rewrite (Z.abs_eq (10 ^ _)) by lia. apply Z.quot_le_upper_bound; [lia|]. nia. }
  assert (S : 0 <= z -> 0 <= Z.quot z (10 ^ Z.of_nat j)) by (intros; apply Z.quot_pos; lia).
  assert (T : z <= 0 -> Z.quot z (10 ^ Z.of_nat j) <= 0).
  { intros. rewrite <- (Z.opp_involutive z), Z.quot_opp_l by lia. assert (0 <= Z.quot (-z) (10 ^ Z.of_nat j)) by (apply Z.quot_pos; lia). lia. }
  lia.
Qed.

Lemma number_prefix s z x : number s z -> begins x s ->
  Forall white x \/
  (exists ws sg, x = ws ++ [sg] /\ Forall white ws /\ (sg = "+"%byte \/ sg = "-"%byte)) \/
  (exists j, number x (Z.quot z (10 ^ Z.of_nat j))).
Proof.
  intros ((ws & sg & ds & n & Hw & Hd & -> & Hz) & R) B.
  pose proof (digits_nonneg _ _ Hd) as Hn.
  assert (Q : forall j, Z.quot n (10 ^ Z.of_nat j) = n / 10 ^ Z.of_nat j).
  { intros j. apply Z.quot_div_nonneg; [exact Hn|]. apply Z.pow_pos_nonneg; lia. }
  destruct (begins_app x ws (sg ++ ds) B) as [B1|(x1 & -> & N1 & B1)]; [left; exact (begins_forall _ _ _ Hw B1)|].
  destruct (begins_app x1 sg ds B1) as [B2|(x2 & -> & N2 & B2)].
  - right; left. assert (G : forall c, sg = [c] -> x1 = [c]).
    { intros c ->. destruct B2 as (t & B2). destruct x1 as [|a [|b x1]]; [congruence| |discriminate]. now injection B2 as ->. }
    destruct Hz as [(-> & _)|[(-> & _)|(-> & _)]].
    + destruct B2 as (t & B2). destruct x1; [congruence|discriminate].
    + rewrite (G "+"%byte eq_refl). exists ws, "+"%byte. auto.
    + rewrite (G "-"%byte eq_refl). exists ws, "-"%byte. auto.
  - right; right. destruct (digits_prefix ds n Hd x2 N2 B2) as (j & Dj). exists j.
    split; [|apply quot_int32; exact R].
    exists ws, sg, x2, (n / 10 ^ Z.of_nat j). split; [exact Hw|]. split; [exact Dj|]. split; [reflexivity|].
    destruct Hz as [(-> & ->)|[(-> & ->)|(-> & ->)]].
    + left. split; [reflexivity|apply Q].
    + right; left. split; [reflexivity|apply Q].
    + right; right. split; [reflexivity|]. rewrite Z.quot_opp_l by (apply Z.pow_nonzero; lia). now rewrite Q.
Qed.

(** Numbers, each followed by a comma. *)
Inductive args : list Z -> list byte -> Prop :=
| args_nil : args [] []
| args_more v vs s t : number s v -> args vs t -> args (v :: vs) (s ++ lit "," ++ t).

Lemma args_prefix vs s : args vs s -> forall t x, begins x (s ++ t) ->
  (exists us e, torn_args (length vs) x us e /\ (length us <= length vs)%nat /\ shortened vs (us ++ repeat 0 (length vs - length us))) \/
  (exists x', x = s ++ x' /\ begins x' t).
Proof.
  induction 1 as [|v vs s t Hs A IH]; intros rest x B.
  - right. exists x. split; [reflexivity|exact B].
  - replace ((s ++ lit "," ++ t) ++ rest) with (s ++ lit "," ++ (t ++ rest)) in B by (rewrite <- !app_assoc; reflexivity).
    destruct (begins_app _ _ _ B) as [B1|(x1 & -> & N1 & B1)].
    + left. destruct (number_prefix s v x Hs B1) as [W|[(ws & sg & -> & W & Sg)|(j & J)]].
      * exists [], true. split; [now constructor|]. split; [cbn; lia|]. cbn [app length]. rewrite Nat.sub_0_r. apply (short_stop (v :: vs)).
      * exists [], false. split; [cbn [length]; now constructor|]. split; [cbn; lia|]. cbn [app length]. rewrite Nat.sub_0_r. apply (short_stop (v :: vs)).
      * exists [Z.quot v (10 ^ Z.of_nat j)], true. split; [cbn [length]; now constructor|]. split; [cbn; lia|].
        cbn [app length Nat.sub]. rewrite Nat.sub_0_r. constructor.
    + rewrite comma in B1. destruct x1 as [|c x1]; [congruence|]. destruct B1 as (y & B1). cbn [app] in B1. injection B1 as <- B1.
      destruct (IH rest x1 (ex_intro _ y B1)) as [(us & e & T & L & Sh)|(x' & -> & B')].
      * left. exists (v :: us), e. split; [cbn [length]; change (","%byte :: x1) with (lit "," ++ x1); now constructor|].
        split; [cbn [length]; lia|]. cbn [length app Nat.sub]. now constructor.
      * right. exists x'. split; [|exact B']. now rewrite <- !app_assoc.
Qed.
Lemma torn_after vs s : args vs s -> forall k x us e, torn_args k x us e -> torn_args (length vs + k) (s ++ x) (vs ++ us) e.
Proof.
  induction 1 as [|v vs s t Hs A IH]; intros k x us e T; [exact T|].
  cbn [length Nat.add app]. rewrite <- !app_assoc. constructor; [exact Hs|]. apply IH, T.
Qed.
Lemma shortened_after vs us ws : shortened us ws -> shortened (vs ++ us) (vs ++ ws).
Proof. intros H. induction vs; [exact H|]. cbn [app]. now constructor. Qed.
Lemma args_no_nul vs s : args vs s -> ~ In x00 s.
Proof.
  induction 1 as [|v vs s t Hs A IH]; [intros []|]. rewrite !in_app_iff. intros [Q|[Q|Q]]; [exact (number_no_nul _ _ Hs Q)| |exact (IH Q)].
  cbn in Q. destruct Q as [Q|[]]. discriminate.
Qed.

Lemma sign_no_space sg : sg = "+"%byte \/ sg = "-"%byte -> ~ white sg /\ sg <> x00.
Proof. intros [-> | ->]; (split; [unfold white; cbn; lia|discriminate]). Qed.
Lemma torn_no_nul k s vs e : torn_args k s vs e -> ~ In x00 s.
Proof.
  induction 1 as [k ws Hw|k ws sg Hw Hs|k s z Hs|k s z t vs e Hs B IH]; [apply white_no_nul, Hw| |exact (number_no_nul _ _ Hs)|].
  - rewrite in_app_iff. intros [Q|[Q|[]]]; [exact (white_no_nul _ Hw Q)|]. now apply (sign_no_space sg Hs).
  - rewrite !in_app_iff. intros [Q|[Q|Q]]; [exact (number_no_nul _ _ Hs Q)| |exact (IH Q)].
    cbn in Q. destruct Q as [Q|[]]. discriminate.
Qed.
Lemma scan_sign ds ws sg acc : Forall white ws -> sg = "+"%byte \/ sg = "-"%byte -> scan (DInt :: ds) (ws ++ [sg]) acc = Ok (acc, false).
Proof.
  intros W S. cbn [scan]. rewrite (skip_white ws [sg] W), (skip_stop sg []) by apply (sign_no_space sg S).
  destruct S as [-> | ->]; reflexivity.
Qed.
Lemma scan_torn_rec k s vs e : torn_args k s vs e -> forall acc,
  scan (num_dirs k ++ [DStr; DLit ")"%byte]) s acc = Ok (acc ++ map VInt vs, e).
Proof.
  induction 1 as [k ws Hw|k ws sg Hw Hs|k s z Hs|k s z t vs e Hs B IH]; intros acc.
  - cbn [map]. rewrite app_nil_r. destruct k; cbn [num_dirs app scan]; rewrite (skip_all ws Hw); reflexivity.
  - cbn [num_dirs map]. rewrite app_nil_r. apply (scan_sign _ _ _ _ Hw Hs).
  - cbn [num_dirs app]. rewrite (number_alone _ s z _ Hs). reflexivity.
  - rewrite comma. cbn [num_dirs app]. rewrite (scan_number _ s z _ _ Hs) by reflexivity. cbn [app].
    rewrite scan_lit1, IH, <- app_assoc. reflexivity.
Qed.
Lemma scan_torn_bb k s vs e : torn_args k s vs e -> forall acc,
  exists ended, scan (bdirs k) s acc = Ok (acc ++ map VInt vs, ended) /\ (vs = [] -> k <> O -> ended = e).
Proof.
  induction 1 as [k ws Hw|k ws sg Hw Hs|k s z Hs|k s z t vs e Hs B IH]; intros acc.
  - cbn [map]. rewrite app_nil_r. destruct k as [|[|k]]; cbn [bdirs scan]; [exists false; split; [reflexivity|congruence]| |];
      rewrite (skip_all ws Hw); exists true; auto.
  - cbn [map]. rewrite app_nil_r. exists false. split; [|reflexivity]. destruct k as [|k]; cbn [bdirs]; apply (scan_sign _ _ _ _ Hw Hs).
  - cbn [bdirs]. destruct k as [|k]; rewrite (number_alone _ s z _ Hs); (eexists; split; [reflexivity|discriminate]).
  - rewrite comma. cbn [bdirs app]. destruct k as [|k]; rewrite (scan_number _ s z _ _ Hs) by reflexivity; cbn [app].
    + cbn [scan]. assert (beqb "," ")" = false) as -> by reflexivity. exists false. split; [|discriminate].
      inversion B; subst. reflexivity.
    + rewrite scan_lit1. destruct (IH (acc ++ [VInt z])) as (ended & E & _). rewrite E, <- app_assoc. exists ended. split; [reflexivity|discriminate].
Qed.
Lemma torn_int32 k s vs e : torn_args k s vs e -> Forall int32 vs.
Proof.
  induction 1 as [k ws Hw|k ws sg Hw Hs|k s z Hs|k s z t vs e Hs B IH].
  - constructor.
  - constructor.
  - constructor; [exact (number_int32 _ _ Hs)|constructor].
  - constructor; [exact (number_int32 _ _ Hs)|exact IH].
Qed.

Lemma torn_rec pl st s vs e : torn_args 4 s vs e ->
  sections pl st (lit "REC(" ++ s) = if (length vs =? 0)%nat && negb e then Ok st else UB OobIndex.
Proof.
  intros T.
  assert (S : sscanf (lit "REC(" ++ s) (lit "REC(%d,%d,%d,%d,%s)") = Ok (if e && (length vs =? 0)%nat then -1 else Z.of_nat (length vs), map VInt vs)).
  { unfold sscanf. assert (Nb := torn_no_nul _ _ _ _ T). rewrite c_str_app by no_nul. rewrite (c_str_id s) by exact Nb.
    change (directives (lit "REC(%d,%d,%d,%d,%s)")) with (map DLit (lit "REC(") ++ (num_dirs 4 ++ [DStr; DLit ")"%byte])).
    rewrite scan_lit, (scan_torn_rec _ _ _ _ T). cbn [bind app]. rewrite map_length. reflexivity. }
  change (lit "REC(" ++ s) with ("R"%byte :: (lit "EC(" ++ s)). rewrite sections_R.
  change ("R"%byte :: (lit "EC(" ++ s)) with (lit "REC(" ++ s).
  assert (contains (lit "REC") (lit "REC(" ++ s) = true) as -> by (apply contains_begins; eexists; reflexivity).
  assert (P : ParseRecLine (lit "REC(" ++ s) = if (length vs =? 0)%nat && negb e then Ok None else UB OobIndex).
  { unfold ParseRecLine. rewrite S. cbn [bind]. rewrite vint_no_str. cbn [fits_buffer length Nat.ltb Nat.leb bind].
    destruct vs as [|v vs]; [destruct e; reflexivity|]. cbn [length Nat.eqb]. rewrite andb_false_r. cbn [andb].
    assert (Z.of_nat (Datatypes.S (length vs)) =? 0 = false) as -> by (apply Z.eqb_neq; lia). reflexivity. }
  unfold ReadSectionRectangle. destruct st. rewrite P. destruct ((length vs =? 0)%nat && negb e); reflexivity.
Qed.

Lemma torn_bb pl st s vs e : torn_args 4 s vs e ->
  let p := mkcoord (nth 0 vs 0) (nth 1 vs 0) in let q := mkcoord (nth 2 vs 0) (nth 3 vs 0) in
  ((vs <> [] \/ e = true) -> int32 (cx q - cx p) /\ int32 (cy q - cy p) -> sections pl st (lit "BB(" ++ s) = Ok (add_bounding pl (box (-5) p q) st)) /\
  ((vs <> [] \/ e = true) -> ~ (int32 (cx q - cx p) /\ int32 (cy q - cy p)) -> sections pl st (lit "BB(" ++ s) = UB SignedOverflow) /\
  (vs = [] -> e = false -> sections pl st (lit "BB(" ++ s) = Ok st).
Proof.
  intros T p q.
  assert (Hp : coord32 p).
  { pose proof (torn_int32 _ _ _ _ T) as F.
    assert (A : forall i, int32 (nth i vs 0)).
    { intros i. destruct (nth_in_or_default i vs 0) as [Q|Q]; [rewrite Forall_forall in F; exact (F _ Q)|rewrite Q; unfold int32; lia]. }
    split; apply A. }
  destruct (scan_torn_bb 4 s vs e T []) as (ended & E & He).
  assert (S : sscanf (lit "BB(" ++ s) (lit "BB(%d,%d,%d,%d)") = Ok (if ended && (length vs =? 0)%nat then -1 else Z.of_nat (length vs), map VInt vs)).
  { unfold sscanf. assert (Nb := torn_no_nul _ _ _ _ T). rewrite c_str_app by no_nul. rewrite (c_str_id s) by exact Nb.
    change (directives (lit "BB(%d,%d,%d,%d)")) with (map DLit (lit "BB(") ++ bdirs 4).
    rewrite scan_lit, E. cbn [bind app]. rewrite map_length. reflexivity. }
  assert (A : forall i, int_arg (map VInt vs) i 0 = nth i vs 0).
  { intros i. unfold int_arg. rewrite nth_error_map. rewrite <- (nth_default_eq i vs 0). unfold nth_default. destruct (nth_error vs i); reflexivity. }
  assert (G : ReadSectionBoundingBox pl (lit "BB(" ++ s) st =
    if (length vs =? 0)%nat && negb e then Ok st else
      match FillBox new_rectangle p q (-5) with Ok b => Ok (add_bounding pl b st) | Throw x => Ok st | UB u => UB u end).
  { unfold ReadSectionBoundingBox. destruct st as [lib el]. rewrite S. cbn [bind].
    assert ((if ended && (length vs =? 0)%nat then -1 else Z.of_nat (length vs)) =? 0 = (length vs =? 0)%nat && negb e) as ->.
    { destruct vs as [|v vs].
      - rewrite He by (reflexivity || discriminate). destruct e; reflexivity.
      - cbn [length Nat.eqb]. rewrite andb_false_r. apply Z.eqb_neq. lia. }
    destruct ((length vs =? 0)%nat && negb e); [reflexivity|].
    rewrite !A. change (LayerNameToLayerNum (lit "BB")) with (-5). fold p q.
    destruct (FillBox new_rectangle p q (-5)); reflexivity. }
  assert (C : forall x, ReadSectionBoundingBox pl (lit "BB(" ++ s) st = x -> sections pl st (lit "BB(" ++ s) = x).
  { intros x Hx. change (lit "BB(" ++ s) with (lit "BB" ++ (lit "(" ++ s)). apply bb_begins. exact Hx. }
  assert (F : vs <> [] \/ e = true -> (length vs =? 0)%nat && negb e = false).
  { intros [N| ->]; [destruct vs; [congruence|reflexivity]|apply andb_false_r]. }
  split; [|split]; intros H1 H2; apply C; rewrite G.
  - rewrite F by exact H1. rewrite (proj1 (FillBox_spec p q (-5))) by tauto. reflexivity.
  - rewrite F by exact H1. rewrite (proj2 (FillBox_spec p q (-5))) by tauto. reflexivity.
  - rewrite H1, H2. reflexivity.
Qed.

(** ** Titles *)
Lemma title_ints pl st l n vs : begins (lit "TITLE") l -> sscanf l (lit "TITLE %d %d  #%s") = Ok (n, map VInt vs) -> sections pl st l = Ok st.
Proof.
  intros (t & ->) E. change (lit "TITLE" ++ t) with ("T"%byte :: (lit "ITLE" ++ t)). rewrite sections_T.
  change ("T"%byte :: (lit "ITLE" ++ t)) with (lit "TITLE" ++ t).
  assert (contains (lit "TITLE") (lit "TITLE" ++ t) = true) as -> by (apply contains_begins; eexists; reflexivity).
  unfold ReadSectionTitle. rewrite E. cbn [bind]. rewrite vint_no_str. cbn [fits_buffer length Nat.ltb Nat.leb bind].
  destruct (n =? 0); reflexivity.
Qed.

Lemma skip_number_prefix s z x : number s z -> begins x s -> forall ds acc,
  (exists e, scan (DSpace :: DInt :: ds) x acc = Ok (acc, e)) \/ (exists v, scan (DSpace :: DInt :: ds) x acc = scan ds [] (acc ++ [VInt v])).
Proof.
  intros Hs B ds acc. rewrite scan_space. destruct (number_prefix s z x Hs B) as [W|[(ws & sg & -> & W & S)|(j & J)]].
  - left. rewrite (skip_all x W). exists true. reflexivity.
  - left. exists false. rewrite (skip_white ws [sg] W), (skip_stop sg []) by apply (sign_no_space sg S).
    apply (scan_sign ds [] sg acc (Forall_nil _) S).
  - right. exists (Z.quot z (10 ^ Z.of_nat j)). destruct (skip_number x _ [] (proj1 J)) as (N & _).
    apply number_alone. split; [exact N|exact (proj2 J)].
Qed.

Lemma title_prefix a b s1 s2 sp ws ws' text rest x :
  number s1 a -> number s2 b -> white sp -> Forall white ws -> Forall white ws' -> word text -> text <> [] -> (length text <= 63)%nat ->
  ends_word rest -> begins x (s1 ++ sp :: s2 ++ ws ++ lit "#" ++ ws' ++ text ++ rest) ->
  forall pl st, sections pl st (lit "TITLE" ++ x) = Ok st.
Proof.
  intros H1 H2 Hsp Hw Hw' Ht Nt Lt Hr B pl st.
  replace (s1 ++ sp :: s2 ++ ws ++ lit "#" ++ ws' ++ text ++ rest) with ((s1 ++ sp :: s2 ++ ws ++ lit "#" ++ ws') ++ text ++ rest) in B
    by (rewrite <- ?app_assoc; cbn [app]; rewrite <- ?app_assoc; reflexivity).
  assert (NN : ~ In x00 (s1 ++ sp :: s2 ++ ws ++ lit "#" ++ ws')).
  { rewrite in_app_iff. cbn [In]. rewrite !in_app_iff. intros [Q|[Q|[Q|[Q|[Q|Q]]]]].
    - exact (number_no_nul _ _ H1 Q).
    - subst. unfold white in Hsp. cbn in Hsp. lia.
    - exact (number_no_nul _ _ H2 Q).
    - exact (white_no_nul _ Hw Q).
    - cbn in Q. destruct Q as [Q|[]]. discriminate.
    - exact (white_no_nul _ Hw' Q). }
  destruct (begins_app _ _ _ B) as [B1|(x1 & -> & N1 & B1)].
  - assert (Nx := begins_not_in _ _ _ NN B1).
    assert (E : exists vs e, scan title_dirs x [] = Ok (map VInt vs, e)).
    { unfold title_dirs. destruct (begins_app _ _ _ B1) as [B2|(x2 & -> & N2 & B2)].
      - destruct (skip_number_prefix s1 a x H1 B2 [DSpace; DInt; DSpace; DSpace; DLit "#"%byte; DStr] []) as [(e & ->)|(v & ->)].
        + exists [], e. reflexivity.
        + exists [v]. eexists. reflexivity.
      - destruct x2 as [|c x2]; [congruence|]. destruct B2 as (y & B2). cbn [app] in B2. injection B2 as <- B2.
        rewrite scan_space. destruct (skip_number s1 a (sp :: x2) (proj1 H1)) as (Q1 & E1). rewrite E1.
        assert (D1 : isdigit sp = false) by (destruct (isdigit sp) eqn:Q; [apply not_digit_white in Q; contradiction|reflexivity]).
        rewrite (scan_number _ (skip_space s1) a) by (first [exact D1|split; [exact Q1|exact (proj2 H1)]]). cbn [app].
        rewrite scan_space. change (sp :: x2) with ([sp] ++ x2). rewrite (skip_white [sp]) by (constructor; [exact Hsp|constructor]).
        rewrite <- (scan_space (DInt :: [DSpace; DSpace; DLit "#"%byte; DStr])).
        destruct (begins_app x2 s2 (ws ++ lit "#" ++ ws')) as [B3|(x3 & -> & N3 & B3)].
        { exists y. exact B2. }
        + destruct (skip_number_prefix s2 b x2 H2 B3 [DSpace; DSpace; DLit "#"%byte; DStr] [VInt a]) as [(e & ->)|(v & ->)].
          * exists [a], e. reflexivity.
          * exists [a; v]. eexists. reflexivity.
        + rewrite scan_space. destruct (skip_number s2 b x3 (proj1 H2)) as (Q2 & E2). rewrite E2.
          assert (D2 : no_digit x3).
          { destruct x3 as [|c x3]; [exact I|]. destruct B3 as (z & B3). cbn [app] in B3.
            assert (Hc : isdigit c = false); [|exact Hc].
            destruct ws as [|w ws]; cbn [app] in B3; injection B3 as <- _; [reflexivity|].
            inversion Hw; subst. destruct (isdigit w) eqn:Q; [apply not_digit_white in Q; contradiction|reflexivity]. }
          rewrite (scan_number _ (skip_space s2) b) by (first [exact D2|split; [exact Q2|exact (proj2 H2)]]). cbn [app].
          exists [a; b]. destruct (begins_app _ _ _ B3) as [B4|(x4 & -> & N4 & B4)].
          * rewrite !scan_space. rewrite (skip_all x3 (begins_forall _ _ _ Hw B4)). exists true. reflexivity.
          * rewrite !scan_space, skip_white by exact Hw. rewrite hash in B4. destruct x4 as [|c x4]; [congruence|].
            destruct B4 as (z & B4). cbn [app] in B4. injection B4 as <- B4.
            rewrite !skip_stop by (unfold white; cbn; lia). rewrite scan_lit1. cbn [scan].
            rewrite (skip_all x4) by (apply (begins_forall white x4 ws' Hw'); now exists z). exists true. reflexivity. }
    destruct E as (vs & e & E).
    eapply (title_ints pl st _ _ vs); [eexists; reflexivity|].
    unfold sscanf. rewrite c_str_app by no_nul. rewrite (c_str_id x) by exact Nx.
    rewrite title_format, scan_lit, E. cbn [bind]. reflexivity.
  - assert (S : says (lit "TITLE" ++ (s1 ++ sp :: s2 ++ ws ++ lit "#" ++ ws') ++ x1) Nothing).
    { destruct (begins_app _ _ _ B1) as [B2|(x2 & -> & N2 & B2)].
      - pose proof (says_title s1 s2 a b sp ws ws' x1 [] H1 H2 Hsp Hw Hw' (begins_forall _ _ _ Ht B2) N1) as Q.
        rewrite app_nil_r in Q.
        replace ((s1 ++ sp :: s2 ++ ws ++ lit "#" ++ ws') ++ x1) with (s1 ++ sp :: s2 ++ ws ++ lit "#" ++ ws' ++ x1)
          by (rewrite <- ?app_assoc; cbn [app]; rewrite <- ?app_assoc; reflexivity).
        apply Q; [|left; reflexivity]. destruct B2 as (z & ->). rewrite app_length in Lt. lia.
      - replace ((s1 ++ sp :: s2 ++ ws ++ lit "#" ++ ws') ++ text ++ x2) with (s1 ++ sp :: s2 ++ ws ++ lit "#" ++ ws' ++ text ++ x2)
          by (rewrite <- ?app_assoc; cbn [app]; rewrite <- ?app_assoc; reflexivity).
        apply (says_title s1 s2 a b); try assumption.
        right. destruct Hr as [->|(c & t & -> & Hc)].
        + destruct B2 as (z & B2). destruct x2; [congruence|discriminate].
        + destruct B2 as (z & B2). destruct x2 as [|c' x2]; [congruence|]. cbn in B2. injection B2 as <- _. exists c, x2. auto. }
    apply (says_sections pl st _ _ S).
Qed.

(** ** One line *)
Definition outcome (pl : platform) (st : building) (o : content + ub) : res building :=
  match o with inl c => Ok (apply_content pl st c) | inr u => UB u end.

Definition classified (x : list byte) (c : content) : Prop :=
  exists o, remains x o /\ left_of c o /\ forall pl st, sections pl st x = outcome pl st o.

Lemma by_says x c c' : says x c' -> left_of c (inl c') -> classified x c.
Proof. intros S L. exists (inl c'). split; [now constructor|]. split; [exact L|]. intros. apply says_sections, S. Qed.

Lemma short_other x : ~ In x00 x -> ~ begins (lit "BB") x -> ~ begins (lit "REC") x -> ~ begins (lit "TITLE") x -> forall c, classified x c.
Proof. intros N B R T c. apply (by_says x c Nothing); [now constructor|constructor]. Qed.

Ltac not_begin := intros (? & ?H); discriminate H || (cbn in H; discriminate H).

Lemma torn_pad us k : (length us <= 4)%nat -> k = (4 - length us)%nat -> us ++ repeat 0 k = [nth 0 us 0; nth 1 us 0; nth 2 us 0; nth 3 us 0].
Proof.
  intros L ->. destruct us as [|a [|b [|c [|d [|e us]]]]]; try reflexivity. cbn in L. lia.
Qed.

Lemma classify_bb s1 s2 s3 s4 a b c d rest x :
  number s1 a -> number s2 b -> number s3 c -> number s4 d -> int32 (c - a) -> int32 (d - b) ->
  begins x (lit "BB(" ++ s1 ++ lit "," ++ s2 ++ lit "," ++ s3 ++ lit "," ++ s4 ++ lit ")" ++ rest) ->
  classified x (Bounding (mkcoord a b) (mkcoord c d)).
Proof.
  intros H1 H2 H3 H4 I1 I2 B. destruct (begins_app _ _ _ B) as [B1|(x1 & -> & N1 & B1)].
  - destruct B1 as (t & B1). destruct x as [|c0 [|c1 [|c2 [|c3 x]]]].
    + apply short_other; [intros []|not_begin..].
    + injection B1 as <- _. apply short_other; [intros [Q|[]]; discriminate|not_begin..].
    + injection B1 as <- <- _. exists (inl (Bounding (mkcoord 0 0) (mkcoord 0 0))). split; [exact remains_bb|]. split.
      * apply left_box. apply (short_stop [a; b; c; d]).
      * intros. apply just_bb_sections.
    + injection B1 as <- <- <- _.
      assert (T : torn_args 4 [] [] true) by (constructor; constructor).
      exists (inl (Bounding (mkcoord 0 0) (mkcoord 0 0))). split.
      * apply (remains_box [] [] true T); [now right|unfold int32; cbn [nth]; lia..].
      * split; [apply left_box; apply (short_stop [a; b; c; d])|]. intros.
        apply (torn_bb pl st [] [] true T); [now right|unfold int32; cbn [nth cx cy]; lia].
    + discriminate.
  - set (s := s1 ++ lit "," ++ s2 ++ lit "," ++ s3 ++ lit "," ++ []).
    assert (A : args [a; b; c] s) by (unfold s; repeat (constructor; [assumption|]); constructor).
    replace (s1 ++ lit "," ++ s2 ++ lit "," ++ s3 ++ lit "," ++ s4 ++ lit ")" ++ rest) with (s ++ s4 ++ lit ")" ++ rest) in B1
      by (unfold s; rewrite <- !app_assoc; reflexivity).
    assert (G : forall us e, torn_args 4 x1 us e -> (length us <= 4)%nat -> shortened [a; b; c; d] (us ++ repeat 0 (4 - length us)) ->
      classified (lit "BB(" ++ x1) (Bounding (mkcoord a b) (mkcoord c d))).
    { intros us e T L Sh. rewrite (torn_pad us _ L eq_refl) in Sh.
      pose proof (fun pl st => torn_bb pl st x1 us e T) as S.
      assert (E : (us <> [] \/ e = true) \/ (us = [] /\ e = false)).
      { destruct us; [|left; left; discriminate]. destruct e; [left; now right|now right]. }
      destruct E as [E|(-> & ->)].
      - assert (D : int32 (nth 2 us 0 - nth 0 us 0) /\ int32 (nth 3 us 0 - nth 1 us 0) \/
                  ~ (int32 (nth 2 us 0 - nth 0 us 0) /\ int32 (nth 3 us 0 - nth 1 us 0))) by (unfold int32; lia).
        destruct D as [D|D].
        + eexists. split; [apply (remains_box x1 us e T E); apply D|]. split; [now apply left_box|].
          intros. apply (S pl st); [exact E|exact D].
        + exists (inr SignedOverflow). split; [exact (breaks_box x1 us e T E D)|]. split; [constructor|].
          intros. apply (S pl st); [exact E|exact D].
      - exists (inl Nothing). split; [apply (remains_sign _ x1); [now right|exact T]|]. split; [constructor|].
        intros. now apply (S pl st). }
    destruct (args_prefix _ _ A _ _ B1) as [(us & e & T & L & Sh)|(x2 & -> & B2)].
    + cbn [length] in *. apply (G us e); [|lia|].
      * clear -T L. (* three numbers suffice *)
        assert (W : forall k s us e, torn_args k s us e -> torn_args (S k) s us e).
        { clear. intros k s us e T. induction T; [constructor|constructor|constructor|constructor]; assumption. }
        apply W. exact T.
      * destruct (Nat.eq_dec (length us) 3) as [E3|N3].
        -- rewrite E3 in *. cbn [Nat.sub] in *. cbn [repeat] in *. rewrite app_nil_r in Sh.
           change [a; b; c; d] with ([a; b; c] ++ [d]).
           assert (W : forall vs us ws, shortened vs us -> shortened (vs ++ ws) (us ++ repeat 0 (length ws))).
           { clear. intros vs us ws H. induction H.
             - rewrite <- repeat_app, <- app_length. constructor.
             - cbn [app]. rewrite <- repeat_app, <- app_length. constructor.
             - cbn [app]. now constructor. }
           exact (W _ _ [d] Sh).
        -- change [a; b; c; d] with ([a; b; c] ++ [d]).
           assert (W : forall vs us ws, shortened vs us -> shortened (vs ++ ws) (us ++ repeat 0 (length ws))).
           { clear. intros vs us ws H. induction H.
             - rewrite <- repeat_app, <- app_length. constructor.
             - cbn [app]. rewrite <- repeat_app, <- app_length. constructor.
             - cbn [app]. now constructor. }
           specialize (W _ _ [d] Sh). rewrite <- app_assoc, <- repeat_app in W. cbn [length] in W.
           replace (3 - length us + 1)%nat with (4 - length us)%nat in W by lia. exact W.
    + destruct (begins_app _ _ _ B2) as [B3|(x3 & -> & N3 & B3)].
      * assert (Q : exists us e, torn_args 1 x2 us e /\ (length us <= 1)%nat /\ shortened [d] (us ++ repeat 0 (1 - length us))).
        { destruct (number_prefix s4 d x2 H4 B3) as [W|[(ws & sg & -> & W & Sg)|(j & J)]].
          - exists [], true. split; [now constructor|]. split; [cbn; lia|]. apply (short_stop [d]).
          - exists [], false. split; [now constructor|]. split; [cbn; lia|]. apply (short_stop [d]).
          - exists [Z.quot d (10 ^ Z.of_nat j)], true. split; [now constructor|]. split; [cbn; lia|]. apply (short_digits d []). }
        destruct Q as (us & e & T & L & Sh).
        apply (G ([a; b; c] ++ us) e).
        -- exact (torn_after _ _ A 1 x2 us e T).
        -- rewrite app_length. cbn [length]. lia.
        -- rewrite app_length, <- app_assoc. apply (shortened_after [a; b; c] [d]). cbn [length].
           replace (4 - (3 + length us))%nat with (1 - length us)%nat by lia. exact Sh.
      * destruct B3 as (z & B3). rewrite paren in B3. destruct x3 as [|c3 x3]; [congruence|]. cbn [app] in B3. injection B3 as <- B3.
        apply (by_says _ _ (Bounding (mkcoord a b) (mkcoord c d))); [|constructor].
        replace (lit "BB(" ++ s ++ s4 ++ ")"%byte :: x3) with
          (lit "BB(" ++ s1 ++ lit "," ++ s2 ++ lit "," ++ s3 ++ lit "," ++ s4 ++ lit ")" ++ x3) by (unfold s; rewrite <- !app_assoc; reflexivity).
        constructor; assumption.
Qed.

Lemma tok_cut name close x : word (name ++ close) -> (length (name ++ close) <= 7)%nat ->
  (close = lit ")" \/ (close = [] /\ name <> [] /\ last name x00 <> ")"%byte)) -> x <> [] -> begins x (name ++ close) ->
  exists name' close', x = name' ++ close' /\ begins name' name /\ word name' /\ (length (name' ++ close') <= 7)%nat /\
    (close' = lit ")" \/ (close' = [] /\ name' <> [] /\ last name' x00 <> ")"%byte)).
Proof.
  intros W L C N B.
  assert (Wx := begins_forall _ _ _ W B). assert (Lx : (length x <= 7)%nat) by (destruct B as (t & E); rewrite E, app_length in L; lia).
  destruct (exists_last N) as (y & e & E). subst x.
  assert (D : e = ")"%byte \/ e <> ")"%byte) by (destruct (byte_eq_dec e ")"); auto).
  destruct D as [->|D].
  - exists y, (lit ")"). split; [reflexivity|]. split.
    + destruct (begins_app _ _ _ B) as [(t & B1)|(x' & E & Nx & (t & B1))].
      * exists ([")"%byte] ++ t). rewrite app_assoc. exact B1.
      * destruct C as [->|(-> & _)].
        -- destruct x' as [|c x']; [congruence|]. cbn in B1. injection B1 as <- B1. destruct x'; [|discriminate].
           apply app_inj_tail in E. destruct E as (-> & _). exists []. now rewrite app_nil_r.
        -- destruct x'; [congruence|discriminate].
    + split; [now apply Forall_app in Wx|]. split; [exact Lx|]. now left.
  - exists (y ++ [e]), []. rewrite app_nil_r. split; [reflexivity|]. split.
    + destruct (begins_app _ _ _ B) as [B1|(x' & E & Nx & (t & B1))]; [exact B1|].
      destruct C as [->|(-> & _)].
      * destruct x' as [|c x']; [congruence|]. cbn in B1. injection B1 as <- B1. destruct x'; [|discriminate].
        apply app_inj_tail in E. destruct E as (_ & ->). congruence.
      * destruct x'; [congruence|discriminate].
    + split; [exact Wx|]. split; [exact Lx|]. right. split; [reflexivity|]. split; [exact N|]. rewrite last_last. exact D.
Qed.

Lemma ends_word_prefix x r : x <> [] -> ends_word r -> begins x r -> ends_word x.
Proof.
  intros N [->|(c & t & -> & H)] (y & B); [destruct x; [congruence|discriminate]|].
  destruct x as [|c' x]; [congruence|]. injection B as <- _. right. exists c, x. auto.
Qed.

Lemma classify_rec s1 s2 s3 s4 a b w h ws name close rest x :
  number s1 a -> number s2 b -> number s3 w -> number s4 h -> int32 (a + w) -> int32 (b + h) ->
  Forall white ws -> word name -> (length (name ++ close) <= 7)%nat ->
  (close = lit ")" \/ (close = [] /\ name <> [] /\ last name x00 <> ")"%byte)) -> ends_word rest ->
  begins x (lit "REC(" ++ s1 ++ lit "," ++ s2 ++ lit "," ++ s3 ++ lit "," ++ s4 ++ lit "," ++ ws ++ name ++ close ++ rest) ->
  classified x (Rect name (mkcoord a b) (mkcoord (a + w) (b + h))).
Proof.
  intros H1 H2 H3 H4 I1 I2 Hw Hn L C Hr B. destruct (begins_app _ _ _ B) as [B1|(x1 & -> & N1 & B1)].
  - destruct B1 as (t & B1). destruct x as [|c0 [|c1 [|c2 [|c3 [|c4 x]]]]].
    + apply short_other; [intros []|not_begin..].
    + injection B1 as <- _. apply short_other; [intros [Q|[]]; discriminate|not_begin..].
    + injection B1 as <- <- _. apply short_other; [intros [Q|[Q|[]]]; discriminate|not_begin..].
    + injection B1 as <- <- <- _. exists (inr OobIndex). split; [exact breaks_keyword|]. split; [constructor|].
      intros. apply (fatal_sections pl st _ _ fatal_rec).
    + injection B1 as <- <- <- <- _. exists (inr OobIndex).
      assert (T : torn_args 4 [] [] true) by (constructor; constructor).
      split; [apply (breaks_rec [] [] true T); now right|]. split; [constructor|]. intros. apply (torn_rec pl st [] [] true T).
    + discriminate.
  - set (s := s1 ++ lit "," ++ s2 ++ lit "," ++ s3 ++ lit "," ++ s4 ++ lit "," ++ []).
    assert (A : args [a; b; w; h] s) by (unfold s; repeat (constructor; [assumption|]); constructor).
    replace (s1 ++ lit "," ++ s2 ++ lit "," ++ s3 ++ lit "," ++ s4 ++ lit "," ++ ws ++ name ++ close ++ rest)
      with (s ++ ws ++ (name ++ close) ++ rest) in B1 by (unfold s; rewrite <- !app_assoc; reflexivity).
    assert (G : forall us e, torn_args 4 x1 us e -> classified (lit "REC(" ++ x1) (Rect name (mkcoord a b) (mkcoord (a + w) (b + h)))).
    { intros us e T. pose proof (fun pl st => torn_rec pl st x1 us e T) as S.
      assert (E : (us <> [] \/ e = true) \/ (us = [] /\ e = false)).
      { destruct us; [|left; left; discriminate]. destruct e; [left; now right|now right]. }
      destruct E as [E|(-> & ->)].
      - exists (inr OobIndex). split; [exact (breaks_rec x1 us e T E)|]. split; [constructor|]. intros. rewrite (S pl st).
        destruct E as [E| ->]; [destruct us; [congruence|reflexivity]|now rewrite andb_false_r].
      - exists (inl Nothing). split; [apply (remains_sign _ x1); [now left|exact T]|]. split; [constructor|]. intros. apply (S pl st). }
    destruct (args_prefix _ _ A _ _ B1) as [(us & e & T & _)|(x2 & -> & B2)]; [exact (G us e T)|].
    destruct (begins_app _ _ _ B2) as [B3|(x3 & -> & N3 & B3)].
    + assert (T : torn_args 0 x2 [] true) by (constructor; exact (begins_forall _ _ _ Hw B3)).
      apply (G ([a; b; w; h] ++ []) true). exact (torn_after _ _ A 0 x2 [] true T).
    + assert (W : word (name ++ close)).
      { apply Forall_app. split; [exact Hn|]. destruct C as [->|(-> & _)]; [|constructor]. constructor; [|constructor].
        split; [unfold white; cbn; lia|discriminate]. }
      assert (Y : forall n c r, (length (n ++ c) <= 7)%nat -> word n -> (c = lit ")" \/ (c = [] /\ n <> [] /\ last n x00 <> ")"%byte)) -> ends_word r ->
        begins n name -> classified (lit "REC(" ++ s ++ ws ++ (n ++ c) ++ r) (Rect name (mkcoord a b) (mkcoord (a + w) (b + h)))).
      { intros n c r Ln Wn Cn Er Bn. apply (by_says _ _ (Rect n (mkcoord a b) (mkcoord (a + w) (b + h)))); [|now constructor].
        replace (lit "REC(" ++ s ++ ws ++ (n ++ c) ++ r) with
          (lit "REC(" ++ s1 ++ lit "," ++ s2 ++ lit "," ++ s3 ++ lit "," ++ s4 ++ lit "," ++ ws ++ n ++ c ++ r)
          by (unfold s; rewrite <- !app_assoc; reflexivity).
        constructor; assumption. }
      destruct (begins_app _ _ _ B3) as [B4|(x4 & -> & N4 & B4)].
      * destruct (tok_cut name close x3 W L C N3 B4) as (n' & c' & -> & Bn & Wn & Ln & Cn).
        specialize (Y n' c' [] Ln Wn Cn (or_introl eq_refl) Bn). rewrite app_nil_r in Y. exact Y.
      * apply Y; try assumption; [exact (ends_word_prefix _ _ N4 Hr B4)|]. exists []. now rewrite app_nil_r.
Qed.

Lemma classify l c x : says l c -> begins x l -> classified x c.
Proof.
  intros S B. destruct S as [s1 s2 s3 s4 a b c d rest|s1 s2 s3 s4 a b w h ws name close rest|s1 s2 a b sp ws ws' text rest|line N1 N2 N3 N4].
  - eapply classify_bb; eassumption.
  - eapply classify_rec; eassumption.
  - destruct (begins_app _ _ _ B) as [B1|(x1 & -> & Nx & B1)].
    + destruct (list_eq_dec byte_eq_dec x (lit "TITLE")) as [->|N].
      * exists (inl Nothing). split; [apply remains_title; exists []; reflexivity|]. split; [constructor|].
        intros. rewrite <- (app_nil_r (lit "TITLE")).
        eapply (title_prefix a b s1 s2 sp ws ws' text rest []); try eassumption. eexists; reflexivity.
      * destruct B1 as (t & B1).
        assert (Lx : (length x < 5)%nat).
        { apply (f_equal (@length byte)) in B1 as L. rewrite app_length in L. cbn [lit length] in L.
          destruct (Nat.lt_ge_cases (length x) 5); [assumption|]. exfalso. apply N.
          assert (Lt : length t = 0%nat) by (change (length (lit "TITLE")) with 5%nat in L; lia).
          destruct t; [|discriminate]. rewrite app_nil_r in B1. now symmetry. }
        apply short_other.
        -- intros Q. assert (Q' : In x00 (lit "TITLE")) by (rewrite B1; apply in_or_app; now left). cbn in Q'.
           repeat (destruct Q' as [Q'|Q']; [discriminate|]). destruct Q'.
        -- intros (u & ->). cbn in B1. discriminate.
        -- intros (u & ->). cbn in B1. discriminate.
        -- intros (u & ->). rewrite app_length in Lx. cbn [lit length] in Lx. change (length (lit "TITLE")) with 5%nat in Lx. lia.
    + exists (inl Nothing). split; [apply remains_title; exists x1; reflexivity|]. split; [constructor|].
      intros. apply (title_prefix a b s1 s2 sp ws ws' text rest x1); assumption.
  - apply short_other; [exact (begins_not_in _ _ _ N1 B)|exact (begins_no _ _ _ N2 B)|exact (begins_no _ _ _ N3 B)|exact (begins_no _ _ _ N4 B)].
Qed.

(** ** Files *)
Lemma returns_prefix l l' : without_returns l l' -> forall x, begins x l -> exists x', without_returns x x' /\ begins x' l'.
Proof.
  induction 1 as [|l l' W IH|c l l' Nc W IH]; intros x (t & E).
  - destruct x; [|discriminate]. exists []. split; [constructor|]. now exists [].
  - destruct x as [|c x]; [exists []; split; [constructor|now exists l']|]. injection E as <- E.
    destruct (IH x (ex_intro _ t E)) as (x' & Wx & Bx). exists x'. split; [now constructor|exact Bx].
  - destruct x as [|c' x]; [exists []; split; [constructor|now exists (c :: l')]|]. injection E as <- E.
    destruct (IH x (ex_intro _ t E)) as (x' & Wx & (t' & ->)). exists (c :: x'). split; [now constructor|]. now exists t'.
Qed.

Lemma count_none (l : list byte) : ~ In newline l -> count_occ byte_eq_dec l newline = 0%nat.
Proof. intros H. now apply count_occ_not_In. Qed.

Lemma lines_prefix text ls : file_lines text ls -> forall cut, begins cut text ->
  let n := count_occ byte_eq_dec cut newline in
  exists pre x, cut = pre ++ x /\ (pre = [] \/ last pre x00 = newline) /\ ~ In newline x /\
    ((x = [] /\ file_lines cut (firstn n ls)) \/
     (x <> [] /\ exists l, nth_error ls n = Some l /\ begins x l /\ file_lines cut (firstn n ls ++ [x]))).
Proof.
  induction 1 as [|l Nl Hl|l t ls Hl F IH]; intros cut B.
  - destruct B as (y & B). destruct cut; [|discriminate]. exists [], []. split; [reflexivity|]. split; [now left|]. split; [intros []|].
    left. split; [reflexivity|constructor].
  - cbv zeta. assert (Nc := begins_not_in _ _ _ Hl B). rewrite (count_none cut Nc). exists [], cut.
    split; [reflexivity|]. split; [now left|]. split; [exact Nc|]. destruct cut as [|c cut].
    + left. split; [reflexivity|constructor].
    + right. split; [discriminate|]. exists l. split; [reflexivity|]. split; [exact B|]. cbn [firstn app].
      constructor; [discriminate|]. exact Nc.
  - cbv zeta. destruct (begins_app _ _ _ B) as [B1|(x & -> & Nx & (y & B1))].
    + assert (Nc := begins_not_in _ _ _ Hl B1). rewrite (count_none cut Nc). exists [], cut.
      split; [reflexivity|]. split; [now left|]. split; [exact Nc|]. destruct cut as [|c cut].
      * left. split; [reflexivity|constructor].
      * right. split; [discriminate|]. exists l. split; [reflexivity|]. split; [exact B1|]. cbn [firstn app].
        constructor; [discriminate|]. exact Nc.
    + destruct x as [|c x]; [congruence|]. cbn [app] in B1. injection B1 as <- B1.
      assert (E : count_occ byte_eq_dec (l ++ newline :: x) newline = S (count_occ byte_eq_dec x newline)).
      { rewrite count_occ_app, (count_none l Hl). cbn [count_occ Nat.add]. destruct (byte_eq_dec newline newline); [reflexivity|congruence]. }
      rewrite E. cbn [firstn nth_error]. destruct (IH x (ex_intro _ y B1)) as (pre & x1 & Ex & Lp & Nx1 & C).
      exists (l ++ newline :: pre), x1. split; [rewrite Ex, <- app_assoc; reflexivity|]. split.
      { right. destruct pre as [|c pre]; [apply last_last|]. destruct Lp as [Lp|Lp]; [discriminate|].
        change (newline :: c :: pre) with ([newline] ++ c :: pre). rewrite app_assoc. transitivity (last (c :: pre) x00); [|exact Lp]. clear.
        generalize (l ++ [newline]). intros m. induction m as [|d m IHm]; [reflexivity|]. cbn [app]. rewrite <- IHm.
        destruct (m ++ c :: pre) eqn:Q; [destruct m; discriminate|reflexivity]. }
      split; [exact Nx1|]. destruct C as [(-> & F1)|(N1 & l1 & E1 & Bx & F1)].
      * left. split; [reflexivity|]. now constructor.
      * right. split; [exact N1|]. exists l1. split; [exact E1|]. split; [exact Bx|]. cbn [app]. now constructor.
Qed.

Lemma forall2_firstn {A B} (R : A -> B -> Prop) l m : Forall2 R l m -> forall n, Forall2 R (firstn n l) (firstn n m).
Proof. induction 1; intros [|n]; cbn [firstn]; constructor; auto. Qed.
Lemma forall2_nth {A B} (R : A -> B -> Prop) l m : Forall2 R l m -> forall n a, nth_error l n = Some a ->
  exists b, nth_error m n = Some b /\ R a b.
Proof.
  induction 1 as [|a b l m H F IH]; intros [|n] a'; cbn [nth_error]; try discriminate.
  - intros [= <-]. eauto.
  - apply IH.
Qed.

(** The lines of a file that ends early. *)
Lemma cut_read text cs cut : file_says text cs -> begins cut text ->
  let n := count_occ byte_eq_dec cut newline in
  exists pre x x' o, cut = pre ++ x /\ (pre = [] \/ last pre x00 = newline) /\ ~ In newline x /\ without_returns x x' /\
    remains x' o /\ left_of (nth n cs Nothing) o /\
    forall pl st, for_each (getlines [] cut) st (ReadLine pl) = outcome pl (fold_left (apply_content pl) (firstn n cs) st) o.
Proof.
  intros (ls & F & S) B n. destruct (lines_prefix text ls F cut B) as (pre & x & E & Lp & Nx & C). fold n in C.
  assert (S1 := forall2_firstn _ _ _ S n). destruct C as [(-> & F1)|(N1 & l & El & Bx & F1)].
  - exists pre, [], [], (inl Nothing). split; [exact E|]. split; [exact Lp|]. split; [exact Nx|]. split; [constructor|]. split.
    { apply remains_says, says_other; [intros []|intros (u & Q); discriminate..]. }
    split; [constructor|]. intros pl st. rewrite (getlines_lines _ _ F1). cbn [outcome apply_content].
    apply lines_read; [exact (lines_no_newline _ _ F1)|exact S1].
  - destruct (forall2_nth _ _ _ S n l El) as (c & Ec & l' & W & Sl).
    destruct (returns_prefix l l' W x Bx) as (x' & Wx & Bx').
    destruct (classify l' c x' Sl Bx') as (o & R & L & Sec).
    exists pre, x, x', o. split; [exact E|]. split; [exact Lp|]. split; [exact Nx|]. split; [exact Wx|]. split; [exact R|]. split.
    { rewrite (nth_error_nth _ _ _ Ec). exact L. }
    intros pl st. rewrite (getlines_lines _ _ F1). pose proof (lines_no_newline _ _ F1) as NN. apply Forall_app in NN. destruct NN as (NN & _).
    rewrite for_each_app, (lines_read pl _ _ st NN S1). cbn [bind for_each].
    rewrite ReadLine_sections, (clean_returns x x' Nx Wx), Sec. destruct o; reflexivity.
Qed.

(** Reading when the lines are known. *)
Lemma read_contents pl fs r d text cs : rd_open r = false -> fs (narrow (rd_name r)) = Some text -> encodable (rd_name r) -> ld_libraries d = [] ->
  (forall st, for_each (getlines [] text) st (ReadLine pl) = Ok (fold_left (apply_content pl) cs st)) ->
  forall l, shapes cs l ->
  (l = [] -> Read pl fs r (Some d) = UB OobIndex) /\
  (l <> [] -> exists r' d' lib el, Read pl fs r (Some d) = Ok (r', Some d', true) /\ ld_libraries d' = [lib] /\ lib_elements lib = [el] /\
    ld_format d' = FFmsk /\ ld_name d' = rd_name r /\ Forall2 depicts l (e_geometries el)).
Proof.
  intros O F He D RL l Sh.
  destruct (opened_cases pl (rd_name r) text d He) as (ln & en & E1 & E2 & [(u & Eu & _)|(lib & el & E & Hn & Hel & Hen & Hmn & Hmx & HL & HB)]).
  - rewrite RL in Eu. discriminate.
  - pose proof (eq_trans (eq_sym E) (RL (new_library ln, new_element en))) as E'. injection E' as E'.
    pose proof (shapes_geometries pl cs l Sh (new_library ln, new_element en)) as G. rewrite <- E' in G. cbn [snd new_element e_geometries app] in G.
    destruct (read_blank pl (rd_name r) text d ln en lib el D E1 E2 E Hel HB) as (R0 & R1).
    rewrite (read_opened pl fs r d text O F). split.
    + intros ->. rewrite (R0 G). reflexivity.
    + intros N. destruct R1 as (mn & mx & _ & R). { rewrite G. destruct l; [congruence|discriminate]. }
      rewrite R. eexists _, _, _, _. do 5 (split; [reflexivity|]). cbn [e_geometries]. rewrite G. apply depicts_all.
Qed.
Lemma read_breaks pl fs r d text u : rd_open r = false -> fs (narrow (rd_name r)) = Some text -> encodable (rd_name r) ->
  (forall st, for_each (getlines [] text) st (ReadLine pl) = UB u) -> Read pl fs r (Some d) = UB u.
Proof.
  intros O F He RL.
  destruct (opened_cases pl (rd_name r) text d He) as (ln & en & E1 & E2 & [(u' & Eu & Eo)|(lib & el & E & _)]).
  - rewrite RL in Eu. injection Eu as <-. rewrite (read_opened pl fs r d text O F), Eo. reflexivity.
  - rewrite RL in E. discriminate.
Qed.
