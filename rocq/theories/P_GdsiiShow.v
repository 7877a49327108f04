(** A well-formed file is shown by the layout. *)
From Coq Require Import Permutation Sorted Reals.
From Flocq Require Import IEEE754.BinarySingleNaN.
From Verif Require Import Prelude P_Prelude M_LayoutData M_Double S_Double S_Converter M_Msk M_GdsiiHelpers S_Gdsii P_GdsiiInt P_GdsiiReal M_Gdsii P_GdsiiLoop S_GdsiiFile P_GdsiiFile P_GdsiiPost P_GdsiiRead.
Local Open Scope Z_scope.

Lemma read_library_clean b g : read_library b g -> clean_lib g.
Proof.
  intros (_ & _ & _ & R & H1 & H2 & H3). split; [|auto]. clear - R. induction R as [|s e ss es H R IH]; constructor; [|exact IH]. destruct H as (_ & _ & _ & _ & _ & H). exact H.
Qed.
Lemma Forall2_nth {A B} (P : A -> B -> Prop) l l' : Forall2 P l l' -> forall i, match nth_error l i, nth_error l' i with Some x, Some y => P x y | None, None => True | _, _ => False end.
Proof. induction 1 as [|x y l l' H R IH]; intros [|i]; cbn; auto. apply IH. Qed.

Lemma forall2_length {A B} (P : A -> B -> Prop) l l' : Forall2 P l l' -> length l = length l'.
Proof. induction 1; cbn; congruence. Qed.

Lemma named_resolve b g n j : read_library b g -> (first_named (lb_structures b) n j <-> resolve_name n [g] = Some (0%nat, j)).
Proof.
  intros R. rewrite <- first_element_resolve. destruct R as (_ & _ & _ & R & _). pose proof (Forall2_nth _ _ _ R) as N.
  assert (AT : forall i e, element_at [g] 0 i e <-> nth_error (b_elements g) i = Some e).
  { intros i e. split; [intros (b' & Q & H); cbn in Q; injection Q as <-; exact H|intros H; exists g; auto]. }
  split.
  - intros (s & H1 & H2 & H3). specialize (N j) as Nj. rewrite H1 in Nj. destruct (nth_error (b_elements g) j) as [e|] eqn:E; [|contradiction].
    split; [exists e; split; [apply AT, E|rewrite (proj1 Nj); exact H2]|]. intros i' j' e' L He. destruct L as [L|(-> & L)]; [lia|]. apply AT in He. specialize (N j').
    destruct (nth_error (lb_structures b) j') as [s'|] eqn:E'; rewrite He in N; [|contradiction]. rewrite (proj1 N). exact (H3 j' s' L E').
  - intros ((e & He & Hn) & H). apply AT in He. specialize (N j) as Nj. rewrite He in Nj. destruct (nth_error (lb_structures b) j) as [s|] eqn:E; [|contradiction].
    exists s. split; [exact E|]. split; [rewrite <- (proj1 Nj); exact Hn|]. intros i s' L Es. specialize (N i). rewrite Es in N. destruct (nth_error (b_elements g) i) as [e'|] eqn:E'; [|contradiction].
    rewrite <- (proj1 N). apply (H 0%nat i e'); [lia|apply AT, E'].
Qed.
Lemma resolve_zero n g i j : resolve_name n [g] = Some (i, j) -> i = 0%nat.
Proof. cbn [resolve_name]. destruct (find_index _ _); [intros Q; injection Q as <- <-; reflexivity|discriminate]. Qed.

(** The references of the library and those of what was read *)
Lemma srefs b g n : read_library b g -> (refers_to [g] n <-> exists s e t xy, In s (lb_structures b) /\ In e (st_elements s) /\ el_shape e = Sref n t xy).
Proof.
  intros (_ & _ & _ & R & _). split.
  - intros (i & j & e & o & p & m & (b' & Q & He) & Ho & Hc). destruct i as [|i]; [|destruct i; discriminate]. cbn in Q. injection Q as <-.
    pose proof (Forall2_nth _ _ _ R j) as N. rewrite He in N. destruct (nth_error (lb_structures b) j) as [s|] eqn:E; [|contradiction]. destruct N as (_ & N & _).
    apply In_nth_error in Ho. destruct Ho as (k & Ho). pose proof (Forall2_nth _ _ _ N k) as K. rewrite Ho in K. destruct (nth_error (st_elements s) k) as [el|] eqn:Ek; [|contradiction].
    destruct K as (_ & _ & _ & _ & K). rewrite Hc in K. exists s, el. unfold read_class in K. destruct (el_shape el) eqn:S; try discriminate; try (destruct K as (? & K & _); discriminate).
    destruct K as (m' & K & _). injection K as -> _ _. exists trans, xy. split; [exact (nth_error_In _ _ E)|]. split; [exact (nth_error_In _ _ Ek)|reflexivity].
  - intros (s & el & t & xy & Hs & He & S). apply In_nth_error in Hs. destruct Hs as (j & Hs). pose proof (Forall2_nth _ _ _ R j) as N. rewrite Hs in N. destruct (nth_error (b_elements g) j) as [e|] eqn:E; [|contradiction].
    destruct N as (_ & N & _). apply In_nth_error in He. destruct He as (k & He). pose proof (Forall2_nth _ _ _ N k) as K. rewrite He in K. destruct (nth_error (s_objs e) k) as [o|] eqn:Ek; [|contradiction].
    destruct K as (_ & _ & _ & _ & K). rewrite S in K. destruct K as (m & K & _). exists 0%nat, j, e, o, None, m. split; [exists g; auto|]. split; [exact (nth_error_In _ _ Ek)|exact K].
Qed.

Lemma post_resolvable b g L ok : read_library b g -> PostProcessLayout [g] = (L, ok) -> (ok = true <-> resolvable (lb_structures b)).
Proof.
  intros R E. rewrite (post_ok [g] L ok E). destruct (post_names [g] L ok E) as (HN & _).
  assert (X : forall n, (exists i j e, element_at L i j e /\ s_name e = n) <-> exists j, first_named (lb_structures b) n j).
  { intros n. split.
    - intros (i & j & e & H1 & H2). destruct (resolve_name n [g]) as [[x y]|] eqn:Q.
      + exists y. apply (named_resolve b g n y R). rewrite Q. f_equal. f_equal. exact (resolve_zero _ _ _ _ Q).
      + rewrite <- (resolve_name_names n L [g] HN) in Q. exfalso. exact (proj1 (unresolved L n) Q i j e H1 H2).
    - intros (j & H). apply (named_resolve b g n j R) in H. rewrite <- (resolve_name_names n L [g] HN) in H. apply first_element_resolve in H. destruct H as ((e & He & Hn) & _). eauto. }
  split.
  - intros H s e n t xy Hs He S. apply X, H. apply (refers_to_post [g] L ok n E). apply (srefs b g n R). exists s, e, t, xy. auto.
  - intros H n Hn. apply X. apply (refers_to_post [g] L ok n E), (srefs b g n R) in Hn. destruct Hn as (s & e & t & xy & Hs & He & S). exact (H s e n t xy Hs He S).
Qed.

Lemma shows_ro b g e o : read_library b g -> resolvable (lb_structures b) -> (exists s, In s (lb_structures b) /\ In e (st_elements s)) ->
  read_as e o -> shows 0 (lb_structures b) e (ro [g] o).
Proof.
  intros R HR (s & Hs & He) (H1 & H2 & H3 & H4 & H5). unfold read_class in H5.
  destruct (el_shape e) eqn:S; unfold ro; try (rewrite H5; unfold shows, shows_class; rewrite S; auto; fail).
  - pose proof H5 as H6. destruct H6 as (m & E & M). rewrite E. unfold shows, shows_class. rewrite S. repeat (split; [assumption|]). exists m. auto.
  - destruct H5 as (m & E & M). rewrite E. destruct (HR s e sname trans xy Hs He S) as (j & J). pose proof (proj1 (named_resolve b g sname j R) J) as Q. rewrite Q.
    unfold shows, shows_class. rewrite S. cbn [set_class o_layer o_coords o_min o_max o_props o_class]. repeat (split; [assumption|]). exists j, m. auto.
Qed.

Lemma post_shows b g L : read_library b g -> resolvable (lb_structures b) -> PostProcessLayout [g] = (L, true) -> exists g', L = [g'] /\ shows_library 0 b g'.
Proof.
  intros R HR E. assert (HC : Forall clean_lib [g]) by (constructor; [exact (read_library_clean b g R)|constructor]).
  destruct (post_names [g] L true E) as (HN & _). destruct L as [|g' [|g'' L]]; try discriminate HN. exists g'. split; [reflexivity|].
  destruct (post_libraries [g] HC [g'] 0 g' E eq_refl) as (g0 & Q & B1 & B2 & B3 & _). cbn in Q. injection Q as <-.
  pose proof R as (R1 & R2 & R3 & R4 & _). unfold shows_library. rewrite B1, B2, B3. split; [exact R1|]. split; [exact R2|]. split; [exact R3|].
  assert (AT : forall j, nth_error (b_elements g') j = option_map (resolved_struc [g] 0 j) (nth_error (b_elements g) j)) by (intros j; exact (post_elements [g] [g'] 0 j E)).
  split.
  - assert (length (b_elements g') = length (b_elements g)) as ->; [|symmetry; exact (forall2_length _ _ _ R4)].
    unfold names in HN. cbn in HN. injection HN as HN. rewrite <- (map_length s_name (b_elements g')), HN, map_length. reflexivity.
  - intros j s e Hs He. rewrite AT in He. pose proof (Forall2_nth _ _ _ R4 j) as N. rewrite Hs in N. destruct (nth_error (b_elements g) j) as [e0|] eqn:E0; [|contradiction].
    cbn in He. injection He as <-. destruct N as (N1 & N2 & N3 & N4 & N5 & N6). unfold shows_structure. cbn [resolved_struc s_name s_objs s_flat s_min s_max].
    split; [exact N1|]. split.
    { assert (HI : forall x, In x (st_elements s) -> exists s, In s (lb_structures b) /\ In x (st_elements s)) by (intros x I; exists s; split; [exact (nth_error_In _ _ Hs)|exact I]).
      clear - N2 HI R HR. induction N2 as [|x o l l' H N2 IH]; cbn [map]; constructor.
      - apply shows_ro; auto. apply HI. left. reflexivity.
      - apply IH. intros y I. apply HI. right. exact I. }
    split; [exact N3|]. split; [exact N4|]. split; [exact N5|].
    change (s_nested _ || _) with (s_nested (resolved_struc [g] 0 j e0)).
    assert (EA : element_at [g'] 0 j (resolved_struc [g] 0 j e0)) by (exists g'; split; [reflexivity|rewrite AT, E0; reflexivity]).
    rewrite (post_nested [g] HC [g'] E 0 j _ EA). split.
    + intros (n & Hn & Hf). apply (refers_to_post [g] [g'] true n E), (srefs b g n R) in Hn. destruct Hn as (s1 & e1 & t & xy & I1 & I2 & S1).
      apply first_element_resolve in Hf. rewrite (resolve_name_names n [g'] [g] HN) in Hf. apply (named_resolve b g n j R) in Hf. exists s1, e1, n, t, xy. auto.
    + intros (s1 & e1 & n & t & xy & I1 & I2 & S1 & Hf). exists n. split.
      * apply (refers_to_post [g] [g'] true n E), (srefs b g n R). exists s1, e1, t, xy. auto.
      * apply first_element_resolve. rewrite (resolve_name_names n [g'] [g] HN). apply (named_resolve b g n j R). exact Hf.
Qed.

Theorem file_shown b k fs r nm ff : library_ok b -> gr_data r = true -> fs (narrow (gr_name r)) = Some (library_bytes b ++ repeat x00 k) ->
  exists g ok, gRead fs r (Some (mkgdata nm [] ff)) = Ok (r, Some (mkgdata (gr_name r) [g] FFgdsii_bin), ok) /\
    (ok = true <-> resolvable (lb_structures b)) /\ (ok = true -> shows_library 0 b g).
Proof.
  intros H D F. destruct (file_read b k [] H) as (g & s & R & E). rewrite (gRead_run fs r _ _ D F). cbn [gd_libraries]. rewrite E. cbn [bind set_stream g_libs outside app].
  destruct (PostProcessLayout [g]) as [L ok] eqn:P. pose proof (post_resolvable b g L ok R P) as RE.
  destruct (post_names [g] L ok P) as (HN & _). destruct L as [|g' [|g'' L]]; try discriminate HN.
  exists g', ok. split; [destruct r as [? dd]; cbn in D |- *; rewrite D; reflexivity|]. split; [exact RE|]. intros ->. destruct (post_shows b g [g'] R (proj1 RE eq_refl) P) as (g1 & Q & S). injection Q as ->. exact S.
Qed.

(** ** A new reader *)
Lemma used_null r : used r -> gr_data r = false.
Proof.
  induction 1 as [|fs r name r' b U IH E|fs r d r' d' b U IH E]; [reflexivity| |].
  - unfold gIsMyFormat in E. destruct (negb _); [injection E as <- <-; exact IH|]. destruct (fs _) as [text|]; [|injection E as <- <-; exact IH].
    destruct (sread 4 _) as [rec s]. destruct (header_ok rec 0 2) as [ok|?|?]; cbn [bind] in E; try discriminate. destruct (negb ok); [injection E as <- <-; exact IH|].
    destruct (read_over _ _) as [rec' s']. destruct (header_ok rec' 1 24) as [ok'|?|?]; cbn [bind] in E; try discriminate. injection E as <- <-. exact IH.
  - unfold gRead in E. rewrite IH in E. cbn [negb] in E. injection E as <- _ _. exact IH.
Qed.
Theorem never_reads r fs d : used r -> gRead fs r d = Ok (r, d, false).
Proof. intros U. unfold gRead. rewrite (used_null r U). reflexivity. Qed.

(** ** IsMyFormat *)
Lemma find_last_of_spec c w : match find_last_of c w with
  | None => ~ In c w
  | Some i => exists base rest, w = base ++ [c] ++ rest /\ length base = i /\ ~ In c rest end.
Proof.
  induction w as [|x t IH]; cbn [find_last_of]; [intros []|]. destruct (find_last_of c t) as [i|].
  - destruct IH as (base & rest & -> & H & N). exists (x :: base), rest. cbn. auto.
  - destruct (Z.eqb_spec x c) as [->|NE].
    + exists [], t. auto.
    + intros [H|H]; [congruence|exact (IH H)].
Qed.
Lemma extension_spec name ext : ~ In 46 ext -> (extension name = ext <-> has_extension name ext).
Proof.
  intros NE. unfold extension, has_extension. pose proof (find_last_of_spec 46 name) as F. destruct (find_last_of 46 name) as [i|].
  - destruct F as (base & rest & -> & <- & N). replace (skipn (S (length base)) (base ++ [46] ++ rest)) with rest.
    2: { change ([46] ++ rest) with (46 :: rest). rewrite skipn_app, skipn_all2 by lia. replace (S (length base) - length base)%nat with 1%nat by lia. reflexivity. }
    split.
    + intros ->. right. split; [exact N|]. exists base. reflexivity.
    + intros [(H & _)|(_ & base' & Q)]; [exfalso; apply H; apply in_or_app; right; left; reflexivity|].
      assert (R : rev rest ++ 46 :: rev base = rev ext ++ 46 :: rev base').
      { apply (f_equal (@rev Z)) in Q. rewrite !rev_app_distr in Q. cbn [rev app] in Q. rewrite <- !app_assoc in Q. exact Q. }
      assert (G : forall (a b u v : list Z), ~ In 46 a -> ~ In 46 b -> a ++ 46 :: u = b ++ 46 :: v -> a = b).
      { clear. induction a as [|x a IH]; intros [|y b] u v Na Nb E; cbn in *; [reflexivity| | |].
        - injection E as E _. exfalso. apply Nb. left. auto.
        - injection E as E _. exfalso. apply Na. left. auto.
        - injection E as -> E. f_equal. apply (IH b u v); [tauto|tauto|exact E]. }
      apply G in R; [|rewrite <- in_rev; assumption..]. rewrite <- (rev_involutive rest), R. apply rev_involutive.
  - split.
    + intros <-. left. auto.
    + intros [(_ & H)|(_ & base & ->)]; [exact H|]. exfalso. apply F. apply in_or_app. right. left. reflexivity.
Qed.
Lemma zeqb_eq a b : zeqb a b = true <-> a = b.
Proof.
  unfold zeqb. revert b. induction a as [|x a IH]; intros [|y b]; cbn; try (split; [discriminate|discriminate]); [tauto|].
  rewrite andb_true_iff, Z.eqb_eq, IH. split; [intros (-> & ->); reflexivity|intros Q; injection Q; auto].
Qed.
Lemma gds_name_spec name : (zeqb (extension name) (map b2z (lit "gds")) || zeqb (extension name) (map b2z (lit "gdsii"))) = true <-> gds_name name.
Proof.
  unfold gds_name. rewrite orb_true_iff, !zeqb_eq. change (map b2z (lit "gds")) with [103; 100; 115]. change (map b2z (lit "gdsii")) with [103; 100; 115; 105; 105].
  rewrite !extension_spec by (cbn; lia). reflexivity.
Qed.

Lemma schar_inj t k : schar t = schar k -> t = k.
Proof.
  unfold schar. intros H. apply b2z_inj. pose proof (b2z_range t). pose proof (b2z_range k). revert H. destruct (Z.ltb_spec (b2z t) 128), (Z.ltb_spec (b2z k) 128); lia.
Qed.
Lemma schar_eqb t k : (schar t =? schar k) = true <-> t = k.
Proof. rewrite Z.eqb_eq. split; [apply schar_inj|intros ->; reflexivity]. Qed.
Lemma length_eq l0 l1 n : 0 <= n < 2 ^ 8 - 4 -> ((big_endian [l0; l1] - 4) mod 2 ^ 16 =? n) = true <-> l0 = x00 /\ l1 = z2b (n + 4).
Proof.
  intros H. rewrite Z.eqb_eq. replace (big_endian [l0; l1]) with ((0 * 256 + b2z l0) * 256 + b2z l1) by (cbn; lia). pose proof (b2z_range l0). pose proof (b2z_range l1). split.
  - intros Q. assert (b2z l0 = 0 /\ b2z l1 = n + 4) as (Q0 & Q1).
    { pose proof (Z.div_mod ((0 * 256 + b2z l0) * 256 + b2z l1 - 4) (2 ^ 16) ltac:(lia)) as D. rewrite Q in D. nia. }
    split; apply b2z_inj; [exact Q0|rewrite b2z_z2b, Z.mod_small by lia; exact Q1].
  - intros (-> & ->). rewrite b2z_z2b, (Z.mod_small (n + 4)) by lia. change (b2z x00) with 0. rewrite Z.mod_small; lia.
Qed.
Lemma header_exact l0 l1 t d rest ty len : 0 <= len < 2 ^ 8 - 4 ->
  exists ok, header_ok (l0 :: l1 :: t :: d :: rest) (schar ty) len = Ok ok /\ (ok = true <-> l0 = x00 /\ l1 = z2b (len + 4) /\ t = ty /\ d = x02).
Proof.
  intros H. unfold header_ok. rewrite record_length_ok. cbn [bind]. pose proof (length_eq l0 l1 len H) as L. pose proof (schar_eqb t ty) as T. pose proof (schar_eqb d x02) as D. change (schar x02) with 2 in D.
  destruct (schar t =? schar ty); cbn [negb].
  - eexists. split; [reflexivity|]. rewrite andb_true_iff, D, L. pose proof (proj1 T eq_refl). tauto.
  - exists false. split; [reflexivity|]. split; [discriminate|]. intros (_ & _ & Q & _). exact (proj2 T Q).
Qed.

Theorem format_exact fs r name text : gds_name name -> fs (narrow name) = Some text -> (4 <= length text)%nat ->
  exists b, gIsMyFormat fs r name = Ok (mkgreader name (gr_data r), b) /\ (b = true <-> gds_begin text).
Proof.
  intros N F L. unfold gIsMyFormat. rewrite (proj2 (gds_name_spec name) N). cbn [negb]. rewrite F.
  destruct text as [|l0 [|l1 [|t [|d rest]]]]; cbn [length] in L; try lia.
  change (sread 4 (mkstream (l0 :: l1 :: t :: d :: rest) true false)) with ([l0; l1; t; d], mkstream rest true false). cbv iota beta.
  destruct (header_exact l0 l1 t d [] x00 2 ltac:(lia)) as (ok & E & H). change (schar x00) with 0 in E. rewrite E. cbn [bind]. change (z2b (2 + 4)) with x06 in H.
  destruct ok; cbn [negb].
  2: { exists false. split; [reflexivity|]. split; [discriminate|]. intros (v0 & v1 & [(r' & Q)|Q]); [cbn [app] in Q|]; injection Q as -> -> -> -> _; discriminate (proj2 H (conj eq_refl (conj eq_refl (conj eq_refl eq_refl)))). }
  destruct (proj1 H eq_refl) as (-> & -> & -> & ->). clear H E. change (le_bytes 2 2 ++ skipn 2 [x00; x06; x00; x02]) with [x02; x00; x00; x02].
  assert (Short : forall rec : list byte, (exists a b c, rec = a :: b :: x00 :: c) -> header_ok rec 1 24 = Ok false).
  { intros rec (a & b & c & ->). unfold header_ok. rewrite record_length_ok. reflexivity. }
  destruct rest as [|v0 [|v1 [|m0 [|m1 [|t2 [|d2 rest]]]]]].
  1-5: unfold sseek, read_over, sread; cbn [negb s_good s_rest skipn firstn length Nat.ltb Nat.leb app]; rewrite Short by eauto; cbn [bind]; exists false; (split; [reflexivity|]); (split; [discriminate|]);
    intros (w0 & w1 & [(r' & Q)|Q]); discriminate Q.
  - unfold sseek, read_over, sread; cbn [negb s_good s_rest skipn firstn length Nat.ltb Nat.leb app].
    destruct (header_exact m0 m1 t2 x02 [] x01 24 ltac:(lia)) as (ok & E & H). change (schar x01) with 1 in E. rewrite E. cbn [bind]. exists ok. split; [reflexivity|]. rewrite H. change (z2b (24 + 4)) with x1c. split.
    + intros (-> & -> & -> & _). exists v0, v1. right. reflexivity.
    + intros (w0 & w1 & [(r' & Q)|Q]); [discriminate Q|]. injection Q as -> -> -> -> ->. auto.
  - unfold sseek, read_over, sread; cbn [negb s_good s_rest skipn firstn length Nat.ltb Nat.leb app].
    destruct (header_exact m0 m1 t2 d2 [] x01 24 ltac:(lia)) as (ok & E & H). change (schar x01) with 1 in E. rewrite E. cbn [bind]. exists ok. split; [reflexivity|]. rewrite H. change (z2b (24 + 4)) with x1c. split.
    + intros (-> & -> & -> & ->). exists v0, v1. left. exists rest. reflexivity.
    + intros (w0 & w1 & [(r' & Q)|Q]); [|discriminate Q]. cbn [app] in Q. injection Q as -> -> -> -> -> -> ->. auto.
Qed.
Theorem format_other fs r name : ~ gds_name name \/ fs (narrow name) = None -> gIsMyFormat fs r name = Ok (mkgreader name (gr_data r), false).
Proof.
  intros H. unfold gIsMyFormat. pose proof (gds_name_spec name) as N. destruct (_ || _); cbn [negb]; [|reflexivity]. destruct H as [H|H]; [exfalso; apply H, N; reflexivity|]. rewrite H. reflexivity.
Qed.
Theorem format_short fs r name text : gds_name name -> fs (narrow name) = Some text -> (length text < 4)%nat ->
  gIsMyFormat fs r name = (match text with [_; _; t] => if beqb t x00 then UB Indeterminate else Ok (mkgreader name (gr_data r), false) | _ => UB Indeterminate end).
Proof.
  intros N F L. unfold gIsMyFormat. rewrite (proj2 (gds_name_spec name) N). cbn [negb]. rewrite F.
  destruct text as [|l0 [|l1 [|t [|d rest]]]]; cbn [length] in L; try lia; unfold sread; cbn [negb s_good s_rest length Nat.ltb Nat.leb]; try reflexivity.
  - unfold header_ok. rewrite record_length_ok. reflexivity.
  - unfold header_ok. rewrite record_length_ok. cbn [bind]. pose proof (schar_eqb t x00) as T. change (schar x00) with 0 in T. destruct (schar t =? 0); cbn [negb].
    + rewrite (proj1 T eq_refl). reflexivity.
    + destruct (beqb t x00) eqn:B; [|reflexivity]. unfold beqb in B. apply Byte.byte_dec_bl in B. discriminate (proj2 T B).
Qed.
