(** C91: blank bitmaps; what a GDSII layout would look like. *)
From Coq Require Import Lia.
From Verif Require Import Prelude P_Prelude M_Double S_Double P_Double M_LayoutData M_Vector2D M_BitMatrix S_Matrix P_BitMatrix M_Zond S_Zond P_Zond
  M_Generator S_Generator P_Generator M_Gdsii S_Blank Props_Fragment Props_Generator.
Local Open Scope Z_scope.

Lemma prepared_total mn mx r c : sides_fit mn mx -> exists z, prepared (box_workspace mn mx) (dlit 1 (10 ^ 13)) r c = Ok z.
Proof.
  intros (S1 & S2). unfold prepared, box_workspace, CalcDelta. cbn [leftTop rightBot cx cy].
  rewrite !sub32_ok by assumption. cbn [bind].
  assert (N : forall a n, int32 a -> dgt (dz 0) (ddiv (dz (Z.abs a)) (dz (n mod 2 ^ 32))) = false).
  { intros a n Q. unfold int32 in Q. apply delta_nonneg; [lia|]. pose proof (Z.mod_pos_bound n (2 ^ 32) ltac:(lia)). lia. }
  rewrite !N by assumption. cbn [orb]. eexists. reflexivity.
Qed.

Lemma gather_none heap stack w items : (forall g, In (Some g) items -> ~ overlaps w g) -> gather heap stack w items = Ok ([], []).
Proof.
  induction items as [|i t IH]; intros H; [reflexivity|]. cbn [gather]. rewrite IH by (intros g Hg; apply H; right; exact Hg).
  unfold contrib. destruct (Intersects w i) eqn:E; [|reflexivity]. destruct i as [g|]; [|discriminate E].
  exfalso. apply (H g); [left; reflexivity|]. apply Intersects_overlaps. exact E.
Qed.

(** Nothing that is selected meets the box: the bitmap is blank, whatever else the layout
    holds. *)
Theorem C91_nothing_in_the_box : forall M calls g heap libs L mn mx v al stack r c items,
  history M gen_new calls = Some g -> in_force calls (Live (mklayout heap libs) L mn mx) ->
  memory_ok al r c -> (0 < r)%nat -> (0 < c)%nat -> sides_fit mn mx -> candidates L libs items ->
  (forall o, In (Some o) items -> ~ overlaps (box_workspace mn mx) o) ->
  exists m, result (Process (Some v) al stack g r c) = (m, Ok true) /\ shows m (azero r c).
Proof.
  intros M calls g heap libs L mn mx v al stack r c items Hh Hf Hm Hr Hc SF Ci No.
  rewrite (live_process v al stack g r c _ _ _ _ (in_force_agrees M calls _ g Hf Hh) Hr Hc Hm).
  unfold core. destruct (prepared_total mn mx r c SF) as (z & ->). rewrite InitItems.
  apply candidates_items in Ci. rewrite <- Ci, PG_blank, (gather_none _ _ _ _ No). cbn [app zond_all].
  eexists. split; [reflexivity|]. apply shows_new.
Qed.

(** A box with a side that does not fit in 32 bits: undefined behaviour, whatever the layout. *)
Theorem C91_box_too_large : forall M calls g d L mn mx v al stack r c,
  history M gen_new calls = Some g -> in_force calls (Live d L mn mx) ->
  memory_ok al r c -> (0 < r)%nat -> (0 < c)%nat -> ~ sides_fit mn mx ->
  snd (Process (Some v) al stack g r c) = UB SignedOverflow.
Proof.
  intros M calls g d L mn mx v al stack r c Hh Hf Hm Hr Hc SF.
  pose proof (live_process v al stack g r c _ _ _ _ (in_force_agrees M calls _ g Hf Hh) Hr Hc Hm) as P.
  unfold result in P. apply (f_equal snd) in P. cbn [snd] in P. rewrite P. clear P.
  assert (U : prepared (box_workspace mn mx) (dlit 1 (10 ^ 13)) r c = UB SignedOverflow).
  { unfold prepared, box_workspace, CalcDelta. cbn [leftTop rightBot cx cy]. unfold sides_fit, int32 in SF. unfold sub32, chk32.
    destruct (Z.leb_spec (- 2 ^ 31) (cx mx - cx mn)), (Z.ltb_spec (cx mx - cx mn) (2 ^ 31)); cbn [andb bind]; try reflexivity.
    destruct (Z.leb_spec (- 2 ^ 31) (cy mn - cy mx)), (Z.ltb_spec (cy mn - cy mx) (2 ^ 31)); cbn [andb bind]; try reflexivity. lia. }
  unfold core. rewrite U. reflexivity.
Qed.

(** So the bitmap of a layout as the GDSII reader leaves it is blank, for every file, every
    selection of layers and every box. *)
Theorem C91_gdsii_layouts_are_blank : forall M calls g heap (d : gdata) libs L mn mx v al stack r c,
  Forall2 from_gdsii (gd_libraries d) libs ->
  history M gen_new calls = Some g -> in_force calls (Live (mklayout heap libs) L mn mx) ->
  memory_ok al r c -> (0 < r)%nat -> (0 < c)%nat -> sides_fit mn mx ->
  exists m, result (Process (Some v) al stack g r c) = (m, Ok true) /\ shows m (azero r c).
Proof.
  intros M calls g heap d libs L mn mx v al stack r c FG Hh Hf Hm Hr Hc SF.
  apply (C91_nothing_in_the_box M calls g heap libs L mn mx v al stack r c (items_of L libs) Hh Hf Hm Hr Hc SF); [apply candidates_items; reflexivity|].
  assert (E : items_of L libs = []).
  { clear - FG. induction FG as [|b lib bs libs F _ IH]; [reflexivity|]. cbn [items_of].
    destruct (first_layer L (lib_layers lib)) as [l|] eqn:Q; [|exact IH]. rewrite IH, app_nil_r.
    apply first_layer_some in Q. destruct Q as (pre & post & Q & _). unfold from_gdsii in F.
    assert (K : forall ys ls, Forall2 (fun y l => l_layer l = y_layer y /\ l_geometries l = []) ys ls -> In l ls -> l_geometries l = []).
    { intros ys ls K. induction K as [|y x ys ls (_ & Hx) _ IHK]; [intros []|]. intros [->|H]; [exact Hx|exact (IHK H)]. }
    apply (K _ _ F). rewrite Q. apply in_app_iff. right. left. reflexivity. }
  rewrite E. intros o [].
Qed.

Example C91_hypotheses_met :
  let lib := mklibrary [] [] [mklayer 5 0 [] []] (mkcoord 0 0) (mkcoord 0 0) in
  let calls := [CInit (Some (mklayout [] [lib])) [5] (mkcoord 0 0) (mkcoord 100 100)] in
  from_gdsii (mkglib [] (dz 1) (dz 1) [] [mkglayer 5 0] (mkcoord 0 0) (mkcoord 0 0)) lib /\
  (exists g, history (mkmachine (Some 3) infinite_memory 10) gen_new calls = Some g) /\
  in_force calls (Live (mklayout [] [lib]) [5] (mkcoord 0 0) (mkcoord 100 100)) /\ memory_ok infinite_memory 10 10 /\
  sides_fit (mkcoord 0 0) (mkcoord 100 100) /\ ~ sides_fit (mkcoord (- 2 ^ 31) 0) (mkcoord 0 10) /\
  ~ overlaps (box_workspace (mkcoord 0 0) (mkcoord 100 100)) (mkgeom GTpath 5 [] (mkcoord 101 0) (mkcoord 200 100) CGeometry).
Proof.
  intros lib calls. split; [constructor; [split; reflexivity|constructor]|]. split; [eexists; reflexivity|].
  split. { apply (in_force_next [] Fresh _ _ in_force_start). constructor; [discriminate|]. unfold ordered_box. cbn. lia. }
  split; [reflexivity|]. split; [unfold sides_fit, int32; cbn [cx cy]; lia|]. split; [unfold sides_fit, int32; cbn [cx cy]; lia|].
  unfold overlaps, box_workspace. cbn [cx cy g_min g_max leftTop rightBot]. lia.
Qed.

Print Assumptions C91_nothing_in_the_box.
Print Assumptions C91_box_too_large.
Print Assumptions C91_gdsii_layouts_are_blank.
