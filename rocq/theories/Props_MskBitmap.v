(** C83: from an MSK file to the bitmap. *)
From Coq Require Import Reals Lra Lia Permutation.
From Verif Require Import Prelude P_Prelude M_LayoutData M_Converter S_Converter M_Vector2D M_BitMatrix S_Matrix
  M_Zond S_Zond M_Generator S_Generator P_Generator Props_Generator S_EndToEnd P_EndToEnd Props_EndToEnd
  M_Scanf M_Msk S_Msk P_Scanf P_Msk P_MskFile P_MskFatal P_MskRead Props_Msk S_MskBitmap.
Local Open Scope Z_scope.

Lemma covering_meets mn mx r c lt rb i j : fine_box mn mx r c -> (i < r)%nat -> (j < c)%nat ->
  covers_centre mn mx r c lt rb i j ->
  cx lt <= cx mx /\ cx mn <= cx rb /\ cy mn <= cy lt /\ cy rb <= cy mx.
Proof.
  intros (_ & _ & Hw & Hh & Hr & Hc) Hi Hj ((A1 & A2) & (B1 & B2)).
  assert (M : (0 < margin)%R) by (unfold margin; apply Rinv_0_lt_compat, IZR_lt; lia).
  assert (Ji : (INR j + 1 <= INR c)%R) by (rewrite <- S_INR; apply le_INR; lia).
  assert (Ii : (INR i + 1 <= INR r)%R) by (rewrite <- S_INR; apply le_INR; lia).
  pose proof (pos_INR i) as Pi. pose proof (pos_INR j) as Pj.
  assert (W : (0 < IZR (cx mx - cx mn))%R) by (apply IZR_lt; lia).
  assert (H : (0 < IZR (cy mx - cy mn))%R) by (apply IZR_lt; lia).
  assert (P : forall a b n : R, (0 < b)%R -> (1 <= n)%R -> (a * n / b < n)%R -> (a < b)%R).
  { intros a b n Pb Pn Q. apply (Rmult_lt_compat_r b) in Q; [|exact Pb]. replace (a * n / b * b)%R with (a * n)%R in Q by (field; lra).
    apply (Rmult_lt_reg_r n); [lra|]. lra. }
  assert (P' : forall a b n : R, (0 < b)%R -> (1 <= n)%R -> (0 < a * n / b)%R -> (0 < a)%R).
  { intros a b n Pb Pn Q. apply (Rmult_lt_compat_r b) in Q; [|exact Pb]. replace (a * n / b * b)%R with (a * n)%R in Q by (field; lra).
    rewrite Rmult_0_l in Q. apply (Rmult_lt_reg_r n); lra. }
  unfold columns, rows in *.
  assert (Q1 : (IZR (cx lt - cx mn) < IZR (cx mx - cx mn))%R) by (apply (P _ _ (INR c)); lra).
  assert (Q2 : (0 < IZR (cx rb - cx mn))%R) by (apply (P' _ (IZR (cx mx - cx mn)) (INR c)); lra).
  assert (Q3 : (IZR (cy mx - cy lt) < IZR (cy mx - cy mn))%R) by (apply (P _ _ (INR r)); lra).
  assert (Q4 : (0 < IZR (cy mx - cy rb))%R) by (apply (P' _ (IZR (cy mx - cy mn)) (INR r)); lra).
  apply lt_IZR in Q1, Q2, Q3, Q4. lia.
Qed.

(** The objects on layer n that the generator finds. *)
Lemma msk_candidates n lib os : n <> -5 -> layers_hold (lib_layers lib) os ->
  exists items, candidates [n] [lib] items /\
    forall o, In o items <-> In o os /\ exists g, o = Some g /\ g_layer g = n.
Proof.
  intros Hn (HP & HL & HD & HF & _).
  assert (D : (exists ly, In ly (lib_layers lib) /\ l_layer ly = n) \/ (forall ly, In ly (lib_layers lib) -> l_layer ly <> n)).
  { induction (lib_layers lib) as [|ly ls IH].
    - right. intros ly [].
    - destruct (Z.eq_dec (l_layer ly) n) as [E|E]; [left; exists ly; split; [left; reflexivity|exact E]|].
      destruct (List.Exists_dec (fun l => l_layer l = n) ls) as [X|X]; [intros x; apply Z.eq_dec| |].
      + left. apply Exists_exists in X. destruct X as (x & X1 & X2). exists x. split; [right; exact X1|exact X2].
      + right. intros x [<-|Hx] Q; [exact (E Q)|]. apply X, Exists_exists. eauto. }
  destruct D as [(ly & Hly & E)|N].
  - destruct (in_split ly (lib_layers lib) Hly) as (a & b & Es).
    assert (U : forall l', In l' a -> l_layer l' <> n).
    { intros l' H' Q. destruct (In_nth_error a l' H') as (k & Hk).
      apply Hn. rewrite <- E. apply (HD (length a) k ly l').
      - rewrite Es, nth_error_app2, Nat.sub_diag by lia. reflexivity.
      - rewrite Es, nth_error_app1; [exact Hk|]. apply nth_error_Some. congruence.
      - congruence.
      - assert (k < length a)%nat by (apply nth_error_Some; congruence). lia. }
    exists (l_geometries ly ++ []). split.
    + apply candidates_some; [|constructor]. exists a, b. split; [exact Es|]. split; [left; symmetry; exact E|].
      intros l' H' [Q|[]]. exact (U l' H' (eq_sym Q)).
    + rewrite app_nil_r. rewrite (HF ly Hly) by congruence. intros o. rewrite filter_In, E. unfold on_layer.
      split; intros (A & B); (split; [exact A|]).
      * destruct o as [g|]; [|discriminate B]. exists g. split; [reflexivity|lia].
      * destruct B as (g & -> & B). lia.
  - exists []. split.
    + apply candidates_none; [|constructor]. intros l Hl [Q|[]]. exact (N l Hl (eq_sym Q)).
    + intros o. split; [intros []|]. intros (A & g & -> & B).
      apply (Permutation_in _ (Permutation_sym HP)) in A. apply in_concat in A. destruct A as (gs & A & A').
      apply in_map_iff in A. destruct A as (ly & <- & A). destruct (HL ly _ A A') as (g' & [= <-] & Q).
      apply (N ly A). congruence.
Qed.

Lemma forall2_in_l {A B} (P : A -> B -> Prop) l l' x : Forall2 P l l' -> In x l -> exists y, In y l' /\ P x y.
Proof. induction 1 as [|a b l l' H F IH]; intros []; [subst; exists b; split; [left; reflexivity|exact H]|]. destruct (IH H0) as (y & Y1 & Y2). exists y. split; [right; exact Y1|exact Y2]. Qed.
Lemma forall2_in_r {A B} (P : A -> B -> Prop) l l' y : Forall2 P l l' -> In y l' -> exists x, In x l /\ P x y.
Proof. induction 1 as [|a b l l' H F IH]; intros []; [subst; exists a; split; [left; reflexivity|exact H]|]. destruct (IH H0) as (x & X1 & X2). exists x. split; [right; exact X1|exact X2]. Qed.

Lemma depicted_box n p q o : depicts (n, p, q) o -> o = Some (box n p q).
Proof.
  intros (g & -> & T & C & L & Cs & B). f_equal. destruct (bounding_unique _ _ _ _ _ B (box_bounds p q)) as (E1 & E2).
  destruct g as [ty la co mn mx cl]. cbn in *. subst. unfold box. reflexivity.
Qed.

Lemma box_overlaps n p q mn mx : overlaps (box_workspace mn mx) (box n p q) <->
  Z.min (cx p) (cx q) <= cx mx /\ cx mn <= Z.max (cx p) (cx q) /\ cy mn <= Z.max (cy p) (cy q) /\ Z.min (cy p) (cy q) <= cy mx.
Proof. unfold overlaps, box, box_workspace. cbn. reflexivity. Qed.
Lemma overlaps_meets n p q mn mx r c : fine_box mn mx r c -> overlaps (box_workspace mn mx) (box n p q) -> meets mn mx p q.
Proof.
  intros (_ & _ & Hw & Hh & _) H. apply box_overlaps in H.
  exists (Z.max (cx mn) (Z.min (cx p) (cx q))), (Z.max (cy mn) (Z.min (cy p) (cy q))). lia.
Qed.

(** ** C83 *)
(** An MSK file is opened with GetReader, read into an empty layout, and layer n (any but the
    bounding boxes, -5) is drawn over the box from mn to mx in r rows and c columns: when the
    rectangles of that layer that meet the box do not begin left of or above it, the bitmap is
    made; every cell whose centre lies in a rectangle of the file (a 2^20th of a cell away from
    its edges) is set, and every cell that is set has its centre within one cell of one. *)
Theorem C83_from_file_to_bitmap : forall pl fs name rd text cs l n heap mn mx v al stack r c,
  GetReader fs name = Some rd -> encodable name -> fs (narrow name) = Some text ->
  file_says text cs -> shapes cs l -> l <> [] -> n <> -5 ->
  memory_ok al r c -> fine_box mn mx r c ->
  (forall p q, In (n, p, q) l -> meets mn mx p q ->
     manageable mn mx r c (left_top p q) (right_bottom p q) /\ starts_inside mn mx (left_top p q)) ->
  exists rd' d g m, Read pl fs rd (Some no_layout) = Ok (rd', Some d, true) /\
    Init gen_new (Some (mklayout heap (ld_libraries d))) [n] mn mx = (g, Ok tt) /\
    result (Process (Some v) al stack g r c) = (m, Ok true) /\
    forall i j, (i < r)%nat -> (j < c)%nat ->
      (forall p q, In (n, p, q) l -> covers_centre mn mx r c (left_top p q) (right_bottom p q) i j -> Get m i j = Ok true) /\
      (Get m i j = Ok true ->
       exists p q, In (n, p, q) l /\ meets mn mx p q /\ near_centre mn mx r c (left_top p q) (right_bottom p q) i j).
Proof.
  intros pl fs name rd text cs l n heap mn mx v al stack r c G He F S Sh Hl Hn Hm FB HD.
  apply C62_format_detection in G. destruct G as (-> & _ & _).
  destruct (C58_well_formed_files pl fs (mkreader name false false) no_layout text cs l eq_refl F He eq_refl S Sh Hl)
    as (rd' & d & lib & el & R & D1 & D2 & _ & _ & DP).
  destruct (C59_layers_hold_the_objects pl fs (mkreader name false false) no_layout text rd' d eq_refl F eq_refl R) as (lib' & el' & D1' & D2' & LH).
  rewrite D1 in D1'. injection D1' as <-. rewrite D2 in D2'. injection D2' as <-.
  destruct (msk_candidates n lib _ Hn LH) as (items & HC & HI).
  set (lay := mklayout heap (ld_libraries d)).
  assert (OB : ordered_box mn mx) by (destruct FB as (_ & _ & Hw & Hh & _); unfold ordered_box; lia).
  destruct (Init gen_new (Some lay) [n] mn mx) as (g & o) eqn:EI.
  assert (Eo : o = Ok tt).
  { unfold Init in EI. cbn [gen_new gen_fragments V_not orb] in EI. unfold SetAngleCoords in EI. cbn [cx cy] in EI.
    destruct OB as (O1 & O2). destruct (Z.ltb_spec (cx mx) (cx mn)) as [Q|_]; [lia|]. destruct (Z.ltb_spec (cy mx) (cy mn)) as [Q|_]; [lia|].
    cbn [orb] in EI. apply (f_equal snd) in EI. cbn [snd] in EI. symmetry. exact EI. }
  subst o.
  set (M := mkmachine (Some v) al stack).
  assert (HH : history M gen_new [CInit (Some lay) [n] mn mx] = Some g) by (cbn [history]; rewrite EI; reflexivity).
  assert (HF : in_force [CInit (Some lay) [n] mn mx] (Live lay [n] mn mx)).
  { apply (in_force_next [] Fresh); [constructor|]. apply next_init; [discriminate|exact OB]. }
  assert (IT : forall item, In (Some item) items <-> exists p q, In (n, p, q) l /\ item = box n p q).
  { intros item. rewrite HI. split.
    - intros (A & g' & [= <-] & B). destruct (forall2_in_r _ _ _ _ DP A) as (((n', p), q) & X & Y). pose proof (depicted_box _ _ _ _ Y) as Z. injection Z as ->.
      cbn in B. subst n'. eauto.
    - intros (p & q & X & ->). destruct (forall2_in_l _ _ _ _ DP X) as (o & A & Y). pose proof (depicted_box _ _ _ _ Y). subst o.
      split; [exact A|]. exists (box n p q). split; reflexivity. }
  destruct (picture M [CInit (Some lay) [n] mn mx] g heap (ld_libraries d) [n] mn mx v al stack r c items HH HF Hm
    ltac:(rewrite D1; exact HC) FB) as (m & EP & CELLS).
  - intros item Hi _. apply IT in Hi. destruct Hi as (p & q & _ & ->). exact I.
  - intros item s Hi Td Ts. apply IT in Hi. destruct Hi as (p & q & Hpq & ->).
    destruct Td as (Ov & _ & [(_ & ->)|[(wd & (Q & _) & _)|(Q & _)]]); [|discriminate Q|discriminate Q].
    destruct (HD p q Hpq (overlaps_meets _ _ _ _ _ _ _ FB Ov)) as (Mg & SI).
    exists (left_top p q), (right_bottom p q). split; [split; reflexivity|]. split; assumption.
  - exists rd', d, g, m. split; [exact R|]. split; [exact EI|]. split; [exact EP|].
    intros i j Hi Hj. destruct (CELLS i j Hi Hj) as (C1 & C2). split.
    + intros p q Hpq Cv. apply (C1 (box n p q) (box n p q) (left_top p q) (right_bottom p q)).
      * apply IT. eauto.
      * assert (Ov : overlaps (box_workspace mn mx) (box n p q)).
        { apply box_overlaps. destruct (covering_meets mn mx r c _ _ i j FB Hi Hj Cv) as (A & B & C & D). unfold left_top, right_bottom in *. cbn [cx cy] in *. lia. }
        split; [exact Ov|]. split; [exact Ov|]. left. split; [left; reflexivity|reflexivity].
      * reflexivity.
      * split; reflexivity.
      * exact Cv.
    + intros Hg. destruct (C2 Hg) as (item & s & lt & rb & Hit & Td & Ts & Co & Nr). apply IT in Hit. destruct Hit as (p & q & Hpq & ->).
      destruct Td as (Ov & _ & [(_ & ->)|[(wd & (Q & _) & _)|(Q & _)]]); [|discriminate Q|discriminate Q].
      destruct Co as (Co1 & Co2). cbn in Co1, Co2. injection Co1 as <-. injection Co2 as <-.
      exists p, q. split; [exact Hpq|]. split; [exact (overlaps_meets _ _ _ _ _ _ _ FB Ov)|exact Nr].
Qed.

(** The file of Props_Msk: metal (23) is one rectangle, from (10, 20) to (40, 60). *)
Example C83_hypotheses_met :
  let mn := mkcoord 0 0 in let mx := mkcoord 100 100 in let p := mkcoord 10 20 in let q := mkcoord 40 60 in
  GetReader (ex_fs ex_file) ex_name = Some ex_reader /\ encodable ex_name /\ ex_fs ex_file (narrow ex_name) = Some ex_file /\
  file_says ex_file ex_contents /\ shapes ex_contents ex_shapes /\ ex_shapes <> [] /\ 23 <> -5 /\
  memory_ok infinite_memory 10 10 /\ fine_box mn mx 10 10 /\ In (23, p, q) ex_shapes /\ meets mn mx p q /\
  (forall p q, In (23, p, q) ex_shapes -> meets mn mx p q ->
     manageable mn mx 10 10 (left_top p q) (right_bottom p q) /\ starts_inside mn mx (left_top p q)) /\
  covers_centre mn mx 10 10 (left_top p q) (right_bottom p q) 5 2 /\
  ~ near_centre mn mx 10 10 (left_top p q) (right_bottom p q) 5 6.
Proof.
  intros mn mx p q. pose proof margin_small as MS.
  split; [vm_compute; reflexivity|]. split; [exact ex_encodable|]. split; [reflexivity|]. split; [exact ex_says|].
  split; [exact ex_shapes_ok|]. split; [discriminate|]. split; [discriminate|]. split; [vm_compute; auto|]. split; [exact ex_fine|].
  split; [right; left; reflexivity|]. split; [exists 10, 20; cbn; lia|]. split.
  - intros p' q' [Q|[Q|[Q|[]]]] _; [discriminate Q| |discriminate Q]. injection Q as <- <-.
    split; [|unfold starts_inside; cbn; lia].
    unfold manageable, coord32, int32, differences_fit, left_top, right_bottom. cbn [box_workspace mn mx leftTop rightBot cx cy]. unfold int32.
    split; [lia|]. split; [lia|]. split; [lia|]. split; [lia|]. split; [lia|].
    unfold columns, rows. cbn [cx cy mn mx]. rewrite !INR_IZR_INZ. change (Z.of_nat 10) with 10.
    change (40 - 0) with 40. change (100 - 0) with 100. change (100 - 20) with 80.
    assert (IZR (2 ^ 30) >= 1000)%R by (apply Rle_ge, (IZR_le 1000); lia). lra.
  - unfold covers_centre, near_centre, columns, rows, left_top, right_bottom. cbn [cx cy mn mx p q]. rewrite !INR_IZR_INZ.
    change (40 - 0) with 40. change (10 - 0) with 10. change (100 - 0) with 100. change (100 - 20) with 80. change (100 - 60) with 40.
    change (Z.of_nat 10) with 10. change (Z.of_nat 5) with 5. change (Z.of_nat 2) with 2. change (Z.of_nat 6) with 6. split; [|intros Q]; lra.
Qed.

Print Assumptions C83_from_file_to_bitmap.
