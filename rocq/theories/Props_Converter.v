(** C53-C57: conversion of paths, expansion of references, boxes. *)
From Verif Require Import Prelude P_Prelude M_LayoutData M_Converter S_Converter P_Converter P_Split.
Local Open Scope Z_scope.

(** C53. A path of n points becomes n-1 boxes without extent at (0,0), on the path's layer,
    wherever the path lies and however wide it is. *)
Theorem C53_paths_collapse_to_the_origin : forall g w,
  path_width g w -> g_coords g <> [] -> roomy (g_coords g) (Z.quot w 2) ->
  exists l, PathToRectList (Some g) = Ok l /\ length l = (length (g_coords g) - 1)%nat /\
    Forall (point_box (mkcoord 0 0) (g_layer g)) l.
Proof.
  intros g w (Ht & dt & pt & Hc) Hn Hr. unfold PathToRectList, InGetType. rewrite Ht, Hc.
  cbn [gt_eqb negb].
  destruct (path_boxes_spec (g_coords g) (Z.quot w 2) (g_layer g))
    as [(E & _)|[(_ & _ & ->)|(_ & Hb & _)]]; [contradiction| |destruct Hb; apply roomy_fits; exact Hr].
  eexists. split; [reflexivity|]. split; [apply repeat_length | apply repeat_boxes].
Qed.

(** Exactly: the call returns if and only if the path has a point and the values computed (and
    discarded) for its segments fit; it never returns anything else. *)
Theorem C53_exactly : forall g w l,
  path_width g w ->
  (PathToRectList (Some g) = Ok l <->
   g_coords g <> [] /\ path_fits (g_coords g) (Z.quot w 2) /\
   length l = (length (g_coords g) - 1)%nat /\ Forall (point_box (mkcoord 0 0) (g_layer g)) l).
Proof.
  intros g w l (Ht & dt & pt & Hc). unfold PathToRectList, InGetType. rewrite Ht, Hc.
  cbn [gt_eqb negb].
  destruct (path_boxes_spec (g_coords g) (Z.quot w 2) (g_layer g))
    as [(E & ->)|[(Hn & Hf & ->)|(Hn & Hb & ->)]].
  - split; [discriminate | tauto].
  - split.
    + intros [= <-]. split; [exact Hn|]. split; [exact Hf|]. split; [apply repeat_length | apply repeat_boxes].
    + intros (_ & _ & Hl & F). f_equal. symmetry. apply boxes_eq; assumption.
  - split; [discriminate | tauto].
Qed.

(** A null pointer, and an object that is not a path, are rejected. *)
Theorem C53_rejects_everything_else :
  PathToRectList None = Throw InvalidArgument /\
  (forall g, g_type g <> GTpath -> PathToRectList (Some g) = Throw InvalidArgument).
Proof.
  split; [reflexivity|]. intros g H. unfold PathToRectList, InGetType.
  destruct (g_type g); try reflexivity. congruence.
Qed.

(** A path without points is undefined behaviour. *)
Theorem C53_empty_path_undefined : forall g w,
  path_width g w -> g_coords g = [] -> PathToRectList (Some g) = UB OobIndex.
Proof.
  intros g w (Ht & dt & pt & Hc) Hn. unfold PathToRectList, InGetType. rewrite Ht, Hc, Hn. reflexivity.
Qed.

(** The natural claim - the box of the only segment of a path contains the segment - fails for
    every path that does not consist of the point (0,0). *)
Theorem C53_boxes_surround_the_path_refuted : forall g w l p,
  path_width g w -> PathToRectList (Some g) = Ok l -> In p (g_coords g) -> p <> mkcoord 0 0 ->
  forall b, In b l -> ~ (cx (g_min b) <= cx p <= cx (g_max b) /\ cy (g_min b) <= cy p <= cy (g_max b)).
Proof.
  intros g w l p Hp H Hin Hne b Hb. apply (C53_exactly g w l Hp) in H. destruct H as (_ & _ & _ & F).
  rewrite Forall_forall in F. destruct (F b Hb) as (_ & _ & _ & _ & -> & ->). cbn [cx cy].
  intros (Hx & Hy). apply Hne. apply coord_eq; cbn [cx cy]; lia.
Qed.

Example C53_hypotheses_met :
  let g := mkgeom GTpath 7 [mkcoord 10 20; mkcoord 100 20; mkcoord 100 90] (mkcoord 8 18) (mkcoord 102 92)
             (CPath 0 0 4) in
  path_width g 4 /\ roomy (g_coords g) 2 /\
  exists l, PathToRectList (Some g) = Ok l /\ length l = 2%nat /\ map g_layer l = [7; 7] /\
    map g_coords l = [repeat (mkcoord 0 0) 5; repeat (mkcoord 0 0) 5].
Proof.
  cbv zeta. split; [split; [reflexivity | eexists _, _; reflexivity]|]. split.
  - intros c [<-|[<-|[<-|[]]]]; unfold int32; cbn [cx cy]; lia.
  - run_example.
Qed.

(** C54. The discarded values matter all the same: when half the width beyond the first point of
    a segment of some length leaves the 32-bit range, the call is undefined behaviour. *)
Theorem C54_discarded_values_overflow : forall g w i b e,
  path_width g w ->
  nth_error (g_coords g) i = Some b -> nth_error (g_coords g) (i + 1) = Some e -> b <> e ->
  ~ int32 (cx b - Z.quot w 2) \/ ~ int32 (cx b + Z.quot w 2) ->
  PathToRectList (Some g) = UB SignedOverflow.
Proof.
  intros g w i b e (Ht & dt & pt & Hc) Hb He Hne Ho. unfold PathToRectList, InGetType. rewrite Ht, Hc.
  cbn [gt_eqb negb].
  destruct (path_boxes_spec (g_coords g) (Z.quot w 2) (g_layer g))
    as [(E & _)|[(_ & Hf & _)|(_ & _ & ->)]]; [| |reflexivity].
  - rewrite E in Hb. destruct i; discriminate.
  - exfalso. destruct (Hf i b e Hb He) as [|(H1 & H2 & _)]; [contradiction | tauto].
Qed.

(** Exactly: for a path with a point, the call is undefined behaviour if and only if some value
    computed for a segment does not fit. *)
Theorem C54_exactly : forall g w,
  path_width g w -> g_coords g <> [] ->
  (PathToRectList (Some g) = UB SignedOverflow <-> ~ path_fits (g_coords g) (Z.quot w 2)).
Proof.
  intros g w (Ht & dt & pt & Hc) Hn. unfold PathToRectList, InGetType. rewrite Ht, Hc.
  cbn [gt_eqb negb].
  destruct (path_boxes_spec (g_coords g) (Z.quot w 2) (g_layer g))
    as [(E & _)|[(_ & Hf & ->)|(_ & Hf & ->)]]; [contradiction | |].
  - split; [discriminate | tauto].
  - tauto.
Qed.

(** Repeated points compute nothing: such a path is defined whatever its width. *)
Theorem C54_points_do_not_overflow : forall g w p n,
  path_width g w -> g_coords g = repeat p (S n) ->
  exists l, PathToRectList (Some g) = Ok l /\ length l = n.
Proof.
  intros g w p n Hp Hc.
  exists (repeat (pbox origin (g_layer g)) n). split; [|apply repeat_length].
  apply (C53_exactly g w _ Hp). rewrite Hc. split; [discriminate|]. split; [|split].
  - intros i b e Hb He. left. apply nth_error_In, repeat_spec in Hb. apply nth_error_In, repeat_spec in He. congruence.
  - rewrite !repeat_length. lia.
  - apply repeat_boxes.
Qed.

Example C54_hypotheses_met :
  let g := mkgeom GTpath 7 [mkcoord (2 ^ 31 - 2) 0; mkcoord (2 ^ 31 - 2) 50] (mkcoord 0 0) (mkcoord 0 0)
             (CPath 0 0 4) in
  path_width g 4 /\ ~ int32 (2 ^ 31 - 2 + Z.quot 4 2) /\ PathToRectList (Some g) = UB SignedOverflow.
Proof.
  cbv zeta. split; [split; [reflexivity | eexists _, _; reflexivity]|]. split.
  - unfold int32. lia.
  - vm_compute. reflexivity.
Qed.

(** C55. Expansion of a reference is the depth-first expansion of the structure it names: with
    enough stack the call returns exactly the list the specification describes, and whatever it
    returns is that list. *)
Theorem C55_flattening_is_the_specification : forall heap off r k l,
  refers_to r k ->
  (expands heap off k l <->
   exists depth0, forall depth, (depth0 <= depth)%nat -> SplitSref heap depth (Some r) off = Ok l).
Proof.
  intros heap off r k l Hr. split.
  - intros H. destruct (proj1 (expands_runs heap) off k l H) as (d0 & E). exists d0. intros d Hd.
    apply E; assumption.
  - intros (d0 & E). destruct (runs_expands heap d0 r off l (E d0 (Nat.le_refl _))) as (k' & Hr' & He).
    destruct Hr as (n & Hn). destruct Hr' as (n' & Hn'). assert (k' = k) by congruence. subst. exact He.
Qed.

Theorem C55_any_result_is_the_expansion : forall heap depth r off l,
  SplitSref heap depth (Some r) off = Ok l -> exists k, refers_to r k /\ expands heap off k l.
Proof. intros heap depth r off l. apply runs_expands. Qed.

(** Acyclic, well-formed structures whose results fit in 32 bits always have an expansion. *)
Theorem C55_acyclic_structures_expand : forall heap off r k,
  acyclic heap -> sound_heap heap -> refers_to r k -> (k < length heap)%nat ->
  fits_everywhere heap off k ->
  exists l depth0, forall depth, (depth0 <= depth)%nat -> SplitSref heap depth (Some r) off = Ok l.
Proof.
  intros heap off r k (rank & Hrank) Hs Hr Hk Hf.
  destruct (expands_exists heap rank Hrank Hs (rank k) k off (Nat.le_refl _) Hk Hf) as (l & He).
  exists l. apply (C55_flattening_is_the_specification heap off r k l Hr). exact He.
Qed.

(** Every shape in the result is a shape of a structure on the way, translated by the sum of the
    minimum corners of the structures from the first to its own; a path yields point boxes at
    that sum.  Nothing else is in the result and nothing is missing. *)
Theorem C55_shapes_and_their_offsets : forall heap depth r k off l s,
  refers_to r k -> SplitSref heap depth (Some r) off = Ok l ->
  (In s l <-> occurs_in heap off k s).
Proof.
  intros heap depth r k off l s (n & Hn) H. destruct (runs_expands heap depth r off l H) as (k' & (n' & Hn') & He).
  assert (k' = k) by congruence. subst. apply (proj1 (expands_occurs heap) off k l He s).
Qed.

(** The placement stored in the reference itself - its coordinates, its box, its layer - has no
    influence: only the structure it points to matters. *)
Theorem C55_placement_is_ignored : forall heap depth r r' n n' k off,
  g_class r = CReference n (Some k) -> g_class r' = CReference n' (Some k) ->
  SplitSref heap depth (Some r) off = SplitSref heap depth (Some r') off.
Proof.
  intros heap [|depth] r r' n n' k off H H'; [reflexivity|].
  rewrite (Split_S heap depth r off n k H), (Split_S heap depth r' off n' k H'). reflexivity.
Qed.

(** A null reference gives nothing; no call throws. *)
Theorem C55_null_is_empty : forall heap depth off, SplitSref heap (S depth) None off = Ok [].
Proof. reflexivity. Qed.

Theorem C55_never_throws : forall heap depth o off e, SplitSref heap depth o off <> Throw e.
Proof. intros heap depth o off e. apply Split_no_throw. Qed.

(** A structure used twice, with a nested one: element 1 (minimum (5,5)) holds a rectangle;
    element 0 (minimum (100,0)) refers to it and holds a polygon. *)
Example C55_hypotheses_met :
  let rect := mkgeom GTrectangle 3 [mkcoord 0 4; mkcoord 4 4; mkcoord 4 0; mkcoord 0 0; mkcoord 0 4]
                (mkcoord 0 0) (mkcoord 4 4) (CRectangle 0) in
  let poly := mkgeom GTpolygon 4 [mkcoord 1 1] (mkcoord 1 1) (mkcoord 1 1) (CPolygon 0) in
  let ref k := mkgeom GTreference 0 [mkcoord 77 88] (mkcoord 0 0) (mkcoord 0 0) (CReference [] (Some k)) in
  let heap := [mkelement [] [Some (ref 1%nat); Some poly; None] (mkcoord 100 0) (mkcoord 0 0);
               mkelement [] [Some rect] (mkcoord 5 5) (mkcoord 0 0)] in
  SplitSref heap 3 (Some (ref 0%nat)) (mkcoord 0 0) =
    Ok [shift (mkcoord 105 5) rect; shift (mkcoord 100 0) poly] /\
  acyclic heap /\ expands heap (mkcoord 0 0) 0 [shift (mkcoord 105 5) rect; shift (mkcoord 100 0) poly].
Proof.
  cbv zeta. match goal with |- ?a /\ _ => assert (E : a) by (vm_compute; reflexivity) end.
  split; [exact E|]. split.
  - exists (fun k => 1 - k)%nat. intros k k' (el & g & Ek & Hin & Ht & n & Hr).
    destruct k as [|[|[|k]]]; cbn [nth_error] in Ek; try discriminate.
    + injection Ek as <-. cbn [e_geometries In] in Hin. destruct Hin as [E1|[E1|[E1|[]]]].
      * injection E1 as <-. cbn [g_class] in Hr. injection Hr as _ <-. cbn. lia.
      * injection E1 as <-. discriminate Ht.
      * discriminate E1.
    + injection Ek as <-. cbn [e_geometries In] in Hin. destruct Hin as [E1|[]].
      injection E1 as <-. discriminate Ht.
  - apply runs_expands in E. destruct E as (k & (n & Hn) & H). cbn [g_class] in Hn.
    injection Hn as <- <-. exact H.
Qed.

(** C56. A set of structures each of which refers to one of the set: expanding a reference into
    it returns for no stack depth, and does not throw either. *)
Theorem C56_cycles_never_return : forall heap (S : nat -> Prop) k r off depth,
  endless heap S -> S k -> refers_to r k ->
  exists u, SplitSref heap depth (Some r) off = UB u.
Proof.
  intros heap S k r off depth He Hk Hr.
  destruct (SplitSref heap depth (Some r) off) as [l|e|u] eqn:E; [| |eauto].
  - exfalso. exact (endless_never heap S He depth k off r Hk Hr l E).
  - exfalso. exact (Split_no_throw heap depth _ _ _ E).
Qed.

(** When nothing else is wrong, what gives way is the stack - at every depth. *)
Theorem C56_the_stack_is_exhausted : forall heap (S : nat -> Prop) k r off depth,
  endless heap S -> S k -> refers_to r k -> (k < length heap)%nat ->
  sound_heap heap -> fits_everywhere heap off k ->
  SplitSref heap depth (Some r) off = UB StackOverflow.
Proof.
  intros heap S k r off depth He Hk Hr Hlt Hs Hf.
  destruct (only_stack heap Hs depth k off r Hlt Hr Hf) as [(l & E)|E]; [|exact E].
  exfalso. exact (endless_never heap S He depth k off r Hk Hr l E).
Qed.

(** Only cycles do that: well-formed acyclic structures return for all large enough depths
    (C55), and whenever a call returns, a deeper stack gives the same result. *)
Theorem C56_deeper_stacks_agree : forall heap d d' r off l,
  SplitSref heap d (Some r) off = Ok l -> (d <= d')%nat -> SplitSref heap d' (Some r) off = Ok l.
Proof.
  intros heap d. induction d as [|d IH]; intros d' r off l H Hd; [discriminate|].
  destruct d' as [|d']; [lia|].
  destruct (g_class r) as [| | | | |n pe] eqn:Er;
    [cbn [SplitSref] in H; rewrite Er in H; discriminate ..|].
  destruct pe as [k|]; [|cbn [SplitSref] in H; rewrite Er in H; discriminate].
  rewrite (Split_S heap d r off n k Er) in H. rewrite (Split_S heap d' r off n k Er).
  destruct (at_ heap k) as [el| |]; cbn [bind] in *; try discriminate.
  destruct (add_coord off (e_min el)) as [off'| |]; cbn [bind] in *; try discriminate.
  apply concatM_ok in H. apply concatM_ok. destruct H as (rs & F & ->). exists rs. split; [|reflexivity].
  clear - F IH Hd. induction F as [|o y t ys Hoy Ft IHt]; constructor; [|exact IHt].
  revert Hoy. unfold piece. destruct o as [g|]; [|auto].
  destruct (g_type g); auto. intros E. apply IH; [exact E | lia].
Qed.

Example C56_hypotheses_met :
  let ref k := mkgeom GTreference 0 [] (mkcoord 0 0) (mkcoord 0 0) (CReference [] (Some k)) in
  let heap := [mkelement [] [Some (ref 1%nat)] (mkcoord 0 0) (mkcoord 0 0);
               mkelement [] [None; Some (ref 0%nat)] (mkcoord 0 0) (mkcoord 0 0)] in
  endless heap (fun k => (k < 2)%nat) /\
  SplitSref heap 100 (Some (ref 0%nat)) (mkcoord 3 4) = UB StackOverflow.
Proof.
  cbv zeta. split; [|vm_compute; reflexivity].
  intros [|[|k]] Hk; [| |lia].
  - exists 1%nat. split; [lia|]. eexists _, _. split; [reflexivity|]. split; [left; reflexivity|].
    split; [reflexivity | eexists; reflexivity].
  - exists 0%nat. split; [lia|]. eexists _, _. split; [reflexivity|]. split; [right; left; reflexivity|].
    split; [reflexivity | eexists; reflexivity].
Qed.

(** C57. A new box filled from two corners, in any orientation: its outline, layer and bounding
    box. *)
Theorem C57_converter_boxes : forall p q lay,
  coord32 p -> coord32 q -> int32 (cx q - cx p) -> int32 (cy q - cy p) ->
  exists g, InFillBox (Some new_rectangle) p q lay = Ok g /\
    g_type g = GTrectangle /\ g_class g = CRectangle 0 /\ g_layer g = lay /\
    g_coords g = outline p q /\ bounding_box (g_coords g) (g_min g) (g_max g).
Proof.
  intros p q lay (Hp1 & Hp2) (Hq1 & Hq2) Hx Hy. unfold InFillBox, InCalcDelta, sub32.
  cbn [new_rectangle new_geom g_type g_class g_coords gt_eqb negb app].
  rewrite (chk32_ok _ Hx). cbn [bind]. rewrite (chk32_ok _ Hy). cbn [bind].
  replace (cx q - (cx q - cx p)) with (cx p) by lia. replace (cy q - (cy q - cy p)) with (cy p) by lia.
  rewrite (chk32_ok _ Hp1), (chk32_ok _ Hp2). cbn [bind].
  change (at_ (mkcoord (cx p) (cy q) :: _) 0) with (Ok (mkcoord (cx p) (cy q))). cbn [bind tl].
  replace (mkcoord (cx p) (cy p)) with p by (destruct p; reflexivity).
  match goal with |- context[fold_left widen ?t ?i] => destruct (fold_left widen t i) as [mn mx] eqn:E end.
  eexists. split; [reflexivity|]. cbn [g_type g_class g_layer g_coords g_min g_max].
  repeat (split; [reflexivity|]). apply widen_bbox in E. exact E.
Qed.

(** Only a rectangle can be filled. *)
Theorem C57_converter_boxes_reject : forall p q lay,
  InFillBox None p q lay = Throw InvalidArgument /\
  (forall g, g_type g <> GTrectangle -> InFillBox (Some g) p q lay = Throw InvalidArgument).
Proof.
  intros p q lay. split; [reflexivity|]. intros g H. unfold InFillBox.
  destruct (g_type g); try reflexivity. congruence.
Qed.

Example C57_hypotheses_met :
  int32 (30 - 10) /\
  (exists g, InFillBox (Some new_rectangle) (mkcoord 10 20) (mkcoord 30 5) 9 = Ok g /\
    g_min g = mkcoord 10 5 /\ g_max g = mkcoord 30 20).
Proof. split; [unfold int32; lia | run_example]. Qed.

Print Assumptions C53_exactly.
Print Assumptions C54_exactly.
Print Assumptions C55_flattening_is_the_specification.
Print Assumptions C55_acyclic_structures_expand.
Print Assumptions C55_shapes_and_their_offsets.
Print Assumptions C56_the_stack_is_exhausted.
Print Assumptions C57_converter_boxes.
Print Assumptions C53_paths_collapse_to_the_origin.
Print Assumptions C53_rejects_everything_else.
Print Assumptions C53_empty_path_undefined.
Print Assumptions C53_boxes_surround_the_path_refuted.
Print Assumptions C54_discarded_values_overflow.
Print Assumptions C54_points_do_not_overflow.
Print Assumptions C55_any_result_is_the_expansion.
Print Assumptions C55_placement_is_ignored.
Print Assumptions C55_null_is_empty.
Print Assumptions C55_never_throws.
Print Assumptions C56_cycles_never_return.
Print Assumptions C56_deeper_stacks_agree.
Print Assumptions C57_converter_boxes_reject.
