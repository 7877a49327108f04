(** Proofs about the expansion of references. *)
From Verif Require Import Prelude P_Prelude M_LayoutData M_Converter S_Converter P_Converter.
Local Open Scope Z_scope.

Scheme expands_mind := Minimality for expands Sort Prop
  with contents_mind := Minimality for contents Sort Prop.
Combined Scheme expands_contents_ind from expands_mind, contents_mind.

Lemma shift_list_spec d cs :
  (Forall coord32 (map (shift_coord d) cs) /\
   concatM (fun c => let* c' := add_coord c d in Ok [c']) cs = Ok (map (shift_coord d) cs)) \/
  (~ Forall coord32 (map (shift_coord d) cs) /\
   concatM (fun c => let* c' := add_coord c d in Ok [c']) cs = UB SignedOverflow).
Proof.
  induction cs as [|c t IH]; cbn [concatM map].
  - left. split; [constructor | reflexivity].
  - destruct (add_coord_spec c d) as [(H & ->)|(H & ->)]; cbn [bind].
    + destruct IH as [(F & ->)|(F & ->)]; cbn [bind].
      * left. split; [constructor; assumption | reflexivity].
      * right. split; [|reflexivity]. intros K. inversion K. contradiction.
    + right. split; [|reflexivity]. intros K. inversion K. contradiction.
Qed.

Lemma InAddCoordValue_spec g d :
  (geom32 (shift d g) /\ InAddCoordValue g d = Ok (shift d g)) \/
  (~ geom32 (shift d g) /\ InAddCoordValue g d = UB SignedOverflow).
Proof.
  unfold InAddCoordValue, geom32, shift; cbn [g_min g_max g_coords].
  destruct (add_coord_spec (g_min g) d) as [(H1 & ->)|(H1 & ->)]; cbn [bind]; [|right; tauto].
  destruct (add_coord_spec (g_max g) d) as [(H2 & ->)|(H2 & ->)]; cbn [bind]; [|right; tauto].
  rewrite (for_each_concat (fun c => let* c' := add_coord c d in Ok [c'])).
  2:{ intros acc x _. destruct (add_coord x d); reflexivity. }
  destruct (shift_list_spec d (g_coords g)) as [(H3 & ->)|(H3 & ->)]; cbn [bind app];
    [left | right]; tauto.
Qed.

Lemma InAddCoordValue_ok g d : geom32 (shift d g) -> InAddCoordValue g d = Ok (shift d g).
Proof. destruct (InAddCoordValue_spec g d) as [(H & E)|(H & E)]; tauto. Qed.

Lemma shift_pbox off lay : shift off (pbox origin lay) = pbox off lay.
Proof.
  unfold shift, pbox; cbn [g_type g_layer g_coords g_min g_max g_class map].
  replace (shift_coord off origin) with off; [reflexivity|].
  destruct off as [u v]. unfold shift_coord, origin; cbn [cx cy]. f_equal; lia.
Qed.

Lemma geom32_pbox off lay : coord32 off -> geom32 (pbox off lay).
Proof. intros H. unfold geom32, pbox; cbn [g_min g_max g_coords]. auto 10. Qed.

(** what one object contributes *)
Definition piece (heap : list element) (depth : nat) (off : coord) (o : option geom) : res (list geom) :=
  match o with
  | None => Ok []
  | Some g =>
      match g_type g with
      | GTpolygon =>
          match g_class g with
          | CPolygon _ => let* s := InAddCoordValue g off in Ok [s]
          | _ => UB TypeConfusion
          end
      | GTpath =>
          let* arr := PathToRectList (Some g) in
          concatM (fun p => let* s := InAddCoordValue p off in Ok [s]) arr
      | GTrectangle =>
          match g_class g with
          | CRectangle _ => let* s := InAddCoordValue g off in Ok [s]
          | _ => UB TypeConfusion
          end
      | GTreference => SplitSref heap depth (Some g) off
      | _ => Ok []
      end
  end.

Lemma Split_S heap depth r off n k :
  g_class r = CReference n (Some k) ->
  SplitSref heap (S depth) (Some r) off =
  let* el := at_ heap k in
  let* off' := add_coord off (e_min el) in
  concatM (piece heap depth off') (e_geometries el).
Proof.
  intros E. cbn [SplitSref]. rewrite E. destruct (at_ heap k) as [el| |]; cbn [bind]; try reflexivity.
  destruct (add_coord off (e_min el)) as [off'| |]; cbn [bind]; try reflexivity.
  rewrite (for_each_concat (piece heap depth off')).
  2:{ intros acc o _. unfold piece. destruct o as [g|]; [|cbn [bind]; rewrite app_nil_r; reflexivity].
      destruct (g_type g); cbn [bind]; try (rewrite app_nil_r; reflexivity).
      - destruct (g_class g); try reflexivity. destruct (InAddCoordValue g off'); reflexivity.
      - destruct (PathToRectList (Some g)) as [arr| |]; cbn [bind]; try reflexivity.
        apply for_each_concat. intros acc' p _. destruct (InAddCoordValue p off'); reflexivity.
      - destruct (g_class g); try reflexivity. destruct (InAddCoordValue g off'); reflexivity.
      - reflexivity. }
  destruct (concatM _ _); reflexivity.
Qed.

Lemma shift_boxes off lay n : coord32 off ->
  concatM (fun p => let* s := InAddCoordValue p off in Ok [s]) (repeat (pbox origin lay) n) =
  Ok (repeat (pbox off lay) n).
Proof.
  intros H. induction n as [|n IH]; cbn [repeat concatM]; [reflexivity|].
  rewrite InAddCoordValue_ok by (rewrite shift_pbox; apply geom32_pbox; exact H).
  rewrite shift_pbox. cbn [bind]. rewrite IH. reflexivity.
Qed.

Lemma path_piece heap depth off g w :
  coord32 off -> path_width g w -> g_coords g <> [] -> path_fits (g_coords g) (Z.quot w 2) ->
  piece heap depth off (Some g) = Ok (repeat (pbox off (g_layer g)) (length (g_coords g) - 1)).
Proof.
  intros Ho (Ht & dt & pt & Hc) Hn Hf. unfold piece. rewrite Ht.
  unfold PathToRectList, InGetType. rewrite Ht. cbn [gt_eqb negb]. rewrite Hc.
  destruct (path_boxes_spec (g_coords g) (Z.quot w 2) (g_layer g))
    as [(E & _)|[(_ & _ & ->)|(_ & Hb & _)]]; [contradiction| |contradiction].
  cbn [bind]. apply shift_boxes. exact Ho.
Qed.

Lemma boxes_eq p lay boxes n :
  length boxes = n -> Forall (point_box p lay) boxes -> boxes = repeat (pbox p lay) n.
Proof.
  intros <- F. induction F as [|b t Hb Ht IH]; cbn [length repeat]; [reflexivity|].
  apply point_box_eq in Hb. subst b. f_equal. exact IH.
Qed.

Lemma repeat_boxes p lay n : Forall (point_box p lay) (repeat (pbox p lay) n).
Proof.
  apply Forall_forall. intros x Hx. apply repeat_spec in Hx. subst. apply point_box_eq. reflexivity.
Qed.

(** ** From the specification to the code *)
Lemma expands_runs heap :
  (forall off k l, expands heap off k l ->
     exists d0, forall d r, (d0 <= d)%nat -> refers_to r k -> SplitSref heap d (Some r) off = Ok l) /\
  (forall off os l, contents heap off os l -> coord32 off ->
     exists d0, forall d, (d0 <= d)%nat -> concatM (piece heap d off) os = Ok l).
Proof.
  apply expands_contents_ind.
  - intros off k el l Hk H32 Hc IH. destruct (IH H32) as (d0 & H).
    exists (S d0). intros [|d] r Hd (n & Hr); [lia|].
    rewrite (Split_S heap d r off n k Hr). unfold at_. rewrite Hk. cbn [bind].
    rewrite add_coord_ok by exact H32. cbn [bind]. apply H. lia.
  - intros off H32. exists 0%nat. reflexivity.
  - intros off o t l Hi Hc IH H32. destruct (IH H32) as (d0 & H). exists d0. intros d Hd.
    cbn [concatM]. assert (E : piece heap d off o = Ok []).
    { unfold piece. destruct o as [g|]; [|reflexivity]. destruct Hi as [-> | ->]; reflexivity. }
    rewrite E. cbn [bind]. rewrite (H d Hd). reflexivity.
  - intros off g t l Hs Hg Hc IH H32. destruct (IH H32) as (d0 & H). exists d0. intros d Hd.
    cbn [concatM]. assert (E : piece heap d off (Some g) = Ok [shift off g]).
    { unfold piece. destruct Hs as [(Ht & x & Hx)|(Ht & x & Hx)]; rewrite Ht, Hx;
        rewrite InAddCoordValue_ok by exact Hg; reflexivity. }
    rewrite E. cbn [bind]. rewrite (H d Hd). reflexivity.
  - intros off g w t boxes l Hp Hn Hf Hl Hb Hc IH H32. destruct (IH H32) as (d0 & H). exists d0. intros d Hd.
    cbn [concatM]. rewrite (path_piece heap d off g w H32 Hp Hn Hf). cbn [bind]. rewrite (H d Hd). cbn [bind].
    rewrite (boxes_eq _ _ _ _ Hl Hb). reflexivity.
  - intros off g k t l1 l2 Ht Hr He IHe Hc IH H32.
    destruct IHe as (d1 & H1). destruct (IH H32) as (d2 & H2). exists (Nat.max d1 d2). intros d Hd.
    cbn [concatM]. unfold piece at 1. rewrite Ht. rewrite (H1 d g) by (try lia; exact Hr). cbn [bind].
    rewrite H2 by lia. reflexivity.
Qed.

(** ** From the code to the specification *)
Lemma runs_expands heap d : forall r off l,
  SplitSref heap d (Some r) off = Ok l -> exists k, refers_to r k /\ expands heap off k l.
Proof.
  induction d as [|d IH]; intros r off l; [discriminate|].
  destruct (g_class r) as [| | | | |n pe] eqn:Er;
    [cbn [SplitSref]; rewrite Er; discriminate ..|].
  destruct pe as [k|]; [|cbn [SplitSref]; rewrite Er; discriminate].
  rewrite (Split_S heap d r off n k Er). unfold at_.
  destruct (nth_error heap k) as [el|] eqn:Ek; [|discriminate]. cbn [bind].
  destruct (add_coord_spec off (e_min el)) as [(H32 & ->)|(H32 & ->)]; [|discriminate].
  cbn [bind]. intros H. exists k. split; [exists n; exact Er|].
  apply (expands_intro heap off k el l Ek H32).
  revert l H. generalize (shift_coord (e_min el) off) H32. clear off H32. intros off H32.
  induction (e_geometries el) as [|o t IHt]; intros l; cbn [concatM].
  - intros [= <-]. constructor.
  - destruct (piece heap d off o) as [a| |] eqn:Ep; cbn [bind]; try discriminate.
    destruct (concatM (piece heap d off) t) as [b| |]; cbn [bind]; try discriminate.
    intros [= <-]. specialize (IHt b eq_refl).
    unfold piece in Ep. destruct o as [g|].
    2:{ injection Ep as <-. apply contents_ignored; [exact I | exact IHt]. }
    destruct (g_type g) eqn:Et.
    + injection Ep as <-. apply contents_ignored; [right; exact Et | exact IHt].
    + destruct (g_class g) eqn:Ec; try discriminate.
      destruct (InAddCoordValue_spec g off) as [(Hg & E)|(Hg & E)]; rewrite E in Ep; [|discriminate].
      injection Ep as <-. apply contents_shape; [left; eauto | exact Hg | exact IHt].
    + unfold PathToRectList, InGetType in Ep. rewrite Et in Ep. cbn [gt_eqb negb] in Ep.
      destruct (g_class g) as [| |dt pt w| | |] eqn:Ec; try discriminate.
      destruct (path_boxes_spec (g_coords g) (Z.quot w 2) (g_layer g))
        as [(_ & E)|[(Hn & Hf & E)|(_ & Hb & E)]]; rewrite E in Ep; try discriminate.
      cbn [bind] in Ep. rewrite shift_boxes in Ep by exact H32. injection Ep as <-.
      apply contents_path with (w := w); auto.
      * split; [exact Et | eauto].
      * apply repeat_length.
      * apply repeat_boxes.
    + injection Ep as <-. apply contents_ignored; [left; exact Et | exact IHt].
    + destruct (g_class g) eqn:Ec; try discriminate.
      destruct (InAddCoordValue_spec g off) as [(Hg & E)|(Hg & E)]; rewrite E in Ep; [|discriminate].
      injection Ep as <-. apply contents_shape; [right; eauto | exact Hg | exact IHt].
    + destruct (IH g off a Ep) as (k' & Hr & He). eapply contents_ref; eauto.
Qed.

Lemma expands_unique heap off k l1 l2 :
  expands heap off k l1 -> expands heap off k l2 -> l1 = l2.
Proof.
  intros H1 H2. destruct (expands_runs heap) as (R & _).
  destruct (R off k l1 H1) as (d1 & E1). destruct (R off k l2 H2) as (d2 & E2).
  set (r := mkgeom GTreference 0 [] (mkcoord 0 0) (mkcoord 0 0) (CReference [] (Some k))).
  assert (Hr : refers_to r k) by (eexists; reflexivity).
  specialize (E1 (Nat.max d1 d2) r ltac:(lia) Hr). specialize (E2 (Nat.max d1 d2) r ltac:(lia) Hr).
  congruence.
Qed.

(** ** Existence for ranked structures *)
Lemma expands_exists heap rank :
  (forall k k', uses heap k k' -> (rank k' < rank k)%nat) -> sound_heap heap ->
  forall n k off, (rank k <= n)%nat -> (k < length heap)%nat -> fits_everywhere heap off k ->
  exists l, expands heap off k l.
Proof.
  intros Hrank Hsound. induction n as [n IH] using (well_founded_induction lt_wf).
  intros k off Hn Hk (Hf1 & Hf2).
  destruct (nth_error heap k) as [el|] eqn:Ek; [|apply nth_error_None in Ek; lia].
  pose proof (reached_here heap off k el Ek) as Hhere.
  assert (H32 : coord32 (shift_coord (e_min el) off)) by (eapply Hf1; eauto).
  assert (G : forall t, incl t (e_geometries el) ->
            exists l, contents heap (shift_coord (e_min el) off) t l).
  { induction t as [|o t IHt]; intros Ht; [eexists; constructor|].
    destruct IHt as (l & Hl); [intros x Hx; apply Ht; right; exact Hx|].
    destruct o as [g|]; [|exists l; apply contents_ignored; [exact I | exact Hl]].
    assert (Hin : In (Some g) (e_geometries el)) by (apply Ht; left; reflexivity).
    assert (Hs : sound_object heap g) by (eapply Hsound; [eapply nth_error_In; eauto | exact Hin]).
    assert (Hpl : placed heap off k g (shift_coord (e_min el) off)) by (exists k, el; auto).
    unfold sound_object in Hs. destruct (g_type g) eqn:Et.
    - exists l. apply contents_ignored; [right; exact Et | exact Hl].
    - eexists. apply contents_shape; eauto.
    - destruct Hs as (w & Hp & Hne & Hfit). eexists.
      apply (contents_path heap _ g w t (repeat (pbox (shift_coord (e_min el) off) (g_layer g)) (length (g_coords g) - 1)) l);
        auto using repeat_length, repeat_boxes.
    - exists l. apply contents_ignored; [left; exact Et | exact Hl].
    - eexists. apply contents_shape; eauto.
    - destruct Hs as (k' & Hr & Hk').
      assert (Hu : uses heap k k') by (exists el, g; auto).
      destruct (IH (rank k') (Nat.lt_le_trans _ _ _ (Hrank _ _ Hu) Hn) k'
                   (shift_coord (e_min el) off) (Nat.le_refl _) Hk') as (l1 & H1).
      { split.
        - intros d k1 Hre. apply (Hf1 d k1). eapply reached_below; eauto.
        - intros g1 d (k1 & el1 & Hre & Hel & Hg1). apply Hf2. exists k1, el1.
          split; [eapply reached_below; eauto | auto]. }
      eexists. eapply contents_ref; eauto. }
  destruct (G (e_geometries el) (incl_refl _)) as (l & Hl).
  exists l. eapply expands_intro; eauto.
Qed.

(** ** What occurs in the expansion *)
Lemma expands_occurs heap :
  (forall off k l, expands heap off k l -> forall s, In s l <-> occurs_in heap off k s) /\
  (forall off os l, contents heap off os l -> forall s,
     In s l <-> exists g, In (Some g) os /\
       (plain_shape g /\ s = shift off g \/
        (exists w, path_width g w /\ (2 <= length (g_coords g))%nat /\ point_box off (g_layer g) s) \/
        (g_type g = GTreference /\ exists k, refers_to g k /\ occurs_in heap off k s))).
Proof.
  assert (Hplain_not : forall g, plain_shape g -> forall w, ~ path_width g w).
  { intros g [(E & _)|(E & _)] w (E' & _); congruence. }
  apply expands_contents_ind.
  - intros off k el l Hk H32 Hc IH s. rewrite IH. split.
    + intros (g & Hg & [(Hp & ->)|[(w & Hw & Hl & Hb)|(Ht & k' & Hr & Ho)]]).
      * left. exists g, (shift_coord (e_min el) off). split; [|auto]. exists k, el.
        split; [apply reached_here; exact Hk | auto].
      * right. exists g, (shift_coord (e_min el) off), w. split; [|auto]. exists k, el.
        split; [apply reached_here; exact Hk | auto].
      * destruct Ho as [(g' & d & (k1 & el1 & P1 & P2 & P3) & Q)|(g' & d & w & (k1 & el1 & P1 & P2 & P3) & Q)].
        -- left. exists g', d. split; [|exact Q]. exists k1, el1.
           split; [eapply reached_below; eauto | auto].
        -- right. exists g', d, w. split; [|exact Q]. exists k1, el1.
           split; [eapply reached_below; eauto | auto].
    + assert (Hsplit : forall g d, placed heap off k g d ->
        (In (Some g) (e_geometries el) /\ d = shift_coord (e_min el) off) \/
        exists r k', In (Some r) (e_geometries el) /\ g_type r = GTreference /\ refers_to r k' /\
          placed heap (shift_coord (e_min el) off) k' g d).
      { intros g d (k1 & el1 & P1 & P2 & P3). inversion P1 as [? ? el' E'|? ? el' r k2 ? ? E' Hin Ht Hr Hre]; subst.
        - left. assert (el' = el) by congruence. assert (el1 = el) by congruence. subst. auto.
        - right. assert (el' = el) by congruence. subst. exists r, k2. repeat (split; [assumption|]).
          exists k1, el1. auto. }
      intros [(g & d & P & Q & ->)|(g & d & w & P & Q & R & T)].
      * destruct (Hsplit g d P) as [(Hin & ->)|(r & k' & Hin & Ht & Hr & P')].
        -- exists g. split; [exact Hin|]. left. auto.
        -- exists r. split; [exact Hin|]. right. right. split; [exact Ht|]. exists k'. split; [exact Hr|].
           left. exists g, d. auto.
      * destruct (Hsplit g d P) as [(Hin & ->)|(r & k' & Hin & Ht & Hr & P')].
        -- exists g. split; [exact Hin|]. right. left. eauto.
        -- exists r. split; [exact Hin|]. right. right. split; [exact Ht|]. exists k'. split; [exact Hr|].
           right. exists g, d, w. auto.
  - intros off s. split; [intros [] | intros (g & [] & _)].
  - intros off o t l Hi Hc IH s. rewrite IH. split.
    + intros (g & Hg & Q). exists g. split; [right; exact Hg | exact Q].
    + intros (g & [->|Hg] & Q); [|exists g; auto]. exfalso. cbn [ignored] in Hi.
      destruct Q as [([(E & _)|(E & _)] & _)|[(w & (E & _) & _)|(E & _)]]; destruct Hi; congruence.
  - intros off g t l Hs H32 Hc IH s. cbn [In]. rewrite IH. split.
    + intros [<-|(g' & Hg & Q)].
      * exists g. split; [left; reflexivity | left; auto].
      * exists g'. split; [right; exact Hg | exact Q].
    + intros (g' & [[= ->]|Hg] & Q); [|right; exists g'; auto].
      destruct Q as [(_ & ->)|[(w & Hw & _)|(E & _)]]; [left; reflexivity | |].
      * exfalso. eapply Hplain_not; eauto.
      * exfalso. destruct Hs as [(E' & _)|(E' & _)]; congruence.
  - intros off g w t boxes l Hw Hn Hf Hl Hb Hc IH s. rewrite in_app_iff, IH.
    rewrite (boxes_eq _ _ _ _ Hl Hb). split.
    + intros [Hx|(g' & Hg & Q)].
      * exists g. split; [left; reflexivity|]. right. left. exists w. split; [exact Hw|]. split.
        -- destruct (length (g_coords g) - 1)%nat as [|m] eqn:E; [destruct Hx | lia].
        -- apply repeat_spec in Hx. subst s. apply point_box_eq. reflexivity.
      * exists g'. split; [right; exact Hg | exact Q].
    + intros (g' & [[= ->]|Hg] & Q); [|right; exists g'; auto].
      destruct Q as [(Hp & ->)|[(w' & Hw' & Hlen & Hpb)|(E & _)]].
      * exfalso. eapply Hplain_not; eauto.
      * left. apply point_box_eq in Hpb. subst s.
        destruct (length (g_coords g') - 1)%nat as [|m] eqn:E; [lia|]. left. reflexivity.
      * exfalso. destruct Hw as (E' & _). congruence.
  - intros off g k t l1 l2 Ht Hr He IHe Hc IH s. rewrite in_app_iff, IHe, IH. split.
    + intros [Ho|(g' & Hg & Q)].
      * exists g. split; [left; reflexivity|]. right. right. eauto.
      * exists g'. split; [right; exact Hg | exact Q].
    + intros (g' & [[= ->]|Hg] & Q); [|right; exists g'; auto].
      destruct Q as [([(E & _)|(E & _)] & _)|[(w & (E & _) & _)|(_ & k' & Hr' & Ho)]]; try congruence.
      left. destruct Hr as (n & E). destruct Hr' as (n' & E'). assert (k' = k) by congruence. subst. exact Ho.
Qed.

(** ** Endless structures *)
Lemma concatM_some_ub {A B} (f : A -> res (list B)) l x :
  (forall y, In y l -> forall e, f y <> Throw e) ->
  In x l -> (forall r, f x <> Ok r) -> exists u, concatM f l = UB u.
Proof.
  induction l as [|y t IH]; intros Ht Hin Hx; [destruct Hin|]. cbn [concatM].
  destruct (f y) as [a|e|u] eqn:Ey; cbn [bind].
  - destruct Hin as [->|Hin]; [exfalso; eapply Hx; eauto|].
    destruct IH as (u & ->); [intros z Hz; apply Ht; right; exact Hz | exact Hin | exact Hx|].
    exists u. reflexivity.
  - exfalso. exact (Ht y (or_introl eq_refl) e Ey).
  - eauto.
Qed.

Lemma concatM_no_throw {A B} (f : A -> res (list B)) l :
  (forall y, In y l -> forall e, f y <> Throw e) -> forall e, concatM f l <> Throw e.
Proof.
  induction l as [|y t IH]; intros Ht e; cbn [concatM]; [discriminate|].
  destruct (f y) as [a|e'|u] eqn:Ey; cbn [bind]; [|exfalso; exact (Ht y (or_introl eq_refl) e' Ey)|discriminate].
  specialize (IH (fun z Hz => Ht z (or_intror Hz))).
  destruct (concatM f t) as [b|e'|u] eqn:Eb; cbn [bind]; try discriminate.
  exfalso. exact (IH e' eq_refl).
Qed.

Lemma add_no_throw g d e : InAddCoordValue g d <> Throw e.
Proof. destruct (InAddCoordValue_spec g d) as [(_ & ->)|(_ & ->)]; discriminate. Qed.

Lemma Split_no_throw heap d : forall o off e, SplitSref heap d o off <> Throw e.
Proof.
  induction d as [|d IH]; intros o off e; [discriminate|].
  destruct o as [r|]; [|discriminate].
  destruct (g_class r) as [| | | | |n pe] eqn:Er; try (cbn [SplitSref]; rewrite Er; discriminate).
  destruct pe as [k|]; [|cbn [SplitSref]; rewrite Er; discriminate].
  rewrite (Split_S heap d r off n k Er). unfold at_.
  destruct (nth_error heap k) as [el|]; [|discriminate]. cbn [bind].
  destruct (add_coord_spec off (e_min el)) as [(_ & ->)|(_ & ->)]; [|discriminate]. cbn [bind].
  apply concatM_no_throw. intros y _ e'. unfold piece. destruct y as [g|]; [|discriminate].
  destruct (g_type g) eqn:Et; try discriminate.
  - destruct (g_class g); try discriminate. destruct (InAddCoordValue_spec g (shift_coord (e_min el) off)) as [(_ & ->)|(_ & ->)]; discriminate.
  - unfold PathToRectList, InGetType. rewrite Et. cbn [gt_eqb negb].
    destruct (g_class g); try discriminate.
    destruct (path_boxes_spec (g_coords g) (Z.quot width 2) (g_layer g)) as [(_ & ->)|[(_ & _ & ->)|(_ & _ & ->)]];
      try discriminate. cbn [bind].
    apply concatM_no_throw. intros p _ e''.
    destruct (InAddCoordValue_spec p (shift_coord (e_min el) off)) as [(_ & ->)|(_ & ->)]; discriminate.
  - destruct (g_class g); try discriminate. destruct (InAddCoordValue_spec g (shift_coord (e_min el) off)) as [(_ & ->)|(_ & ->)]; discriminate.
  - apply IH.
Qed.

Lemma endless_never heap (S0 : nat -> Prop) : endless heap S0 ->
  forall d k off r, S0 k -> refers_to r k -> forall l, SplitSref heap d (Some r) off <> Ok l.
Proof.
  intros He. induction d as [|d IH]; intros k off r Hk (n & Er) l; [discriminate|].
  rewrite (Split_S heap d r off n k Er). unfold at_.
  destruct (He k Hk) as (k' & Hk' & el & g & Eel & Hin & Ht & Hr). rewrite Eel. cbn [bind].
  destruct (add_coord_spec off (e_min el)) as [(_ & ->)|(_ & ->)]; [|discriminate]. cbn [bind].
  intros H. apply concatM_ok in H. destruct H as (rs & F & _).
  assert (G : exists y, piece heap d (shift_coord (e_min el) off) (Some g) = Ok y).
  { clear - F Hin. induction F as [|x y t ys Hxy Ft IHt]; [destruct Hin|].
    destruct Hin as [->|Hin]; [eauto | apply IHt; exact Hin]. }
  destruct G as (y & Ey). unfold piece in Ey. rewrite Ht in Ey. exact (IH k' _ g Hk' Hr y Ey).
Qed.

(** On well-formed structures with 32-bit results the only failure is the stack. *)
Lemma only_stack heap : sound_heap heap -> forall d k off r,
  (k < length heap)%nat -> refers_to r k -> fits_everywhere heap off k ->
  (exists l, SplitSref heap d (Some r) off = Ok l) \/ SplitSref heap d (Some r) off = UB StackOverflow.
Proof.
  intros Hsound. induction d as [|d IH]; intros k off r Hk (n & Er) (Hf1 & Hf2); [right; reflexivity|].
  rewrite (Split_S heap d r off n k Er). unfold at_.
  destruct (nth_error heap k) as [el|] eqn:Ek; [|apply nth_error_None in Ek; lia]. cbn [bind].
  assert (H32 : coord32 (shift_coord (e_min el) off)) by (eapply Hf1; apply reached_here; exact Ek).
  rewrite add_coord_ok by exact H32. cbn [bind].
  assert (G : forall t, incl t (e_geometries el) ->
     (exists l, concatM (piece heap d (shift_coord (e_min el) off)) t = Ok l) \/
     concatM (piece heap d (shift_coord (e_min el) off)) t = UB StackOverflow).
  { induction t as [|o t IHt]; intros Hi; cbn [concatM]; [left; eexists; reflexivity|].
    destruct IHt as [(l & ->)| ->]; [intros x Hx; apply Hi; right; exact Hx| |].
    all: assert (P : (exists l, piece heap d (shift_coord (e_min el) off) o = Ok l) \/
               piece heap d (shift_coord (e_min el) off) o = UB StackOverflow).
    1,3:  (destruct o as [g|]; [|left; eexists; reflexivity];
      assert (Hin : In (Some g) (e_geometries el)) by (apply Hi; left; reflexivity);
      assert (Hs : sound_object heap g) by (eapply Hsound; [eapply nth_error_In; eauto | exact Hin]);
      assert (Hpl : placed heap off k g (shift_coord (e_min el) off))
        by (exists k, el; split; [apply reached_here; exact Ek | auto]);
      unfold sound_object in Hs; destruct (g_type g) eqn:Et;
      [ left; exists []; unfold piece; rewrite Et; reflexivity
      | left; exists [shift (shift_coord (e_min el) off) g]; unfold piece; rewrite Et;
        rewrite InAddCoordValue_ok by (apply Hf2; assumption);
        destruct Hs as [(E & x & ->)|(E & x & ->)]; [reflexivity | congruence]
      | destruct Hs as (w & Hp & Hne & Hfit); left; eexists; eapply path_piece; eauto
      | left; exists []; unfold piece; rewrite Et; reflexivity
      | left; exists [shift (shift_coord (e_min el) off) g]; unfold piece; rewrite Et;
        rewrite InAddCoordValue_ok by (apply Hf2; assumption);
        destruct Hs as [(E & x & ->)|(E & x & ->)]; [congruence | reflexivity]
      | destruct Hs as (k' & Hr & Hk'); unfold piece; rewrite Et; apply (IH k'); [exact Hk' | exact Hr |];
        split;
        [ intros d1 k1 Hre; apply (Hf1 d1 k1); eapply reached_below; eauto
        | intros g1 d1 (k1 & el1 & Hre & Hel & Hg1); apply Hf2; exists k1, el1;
          split; [eapply reached_below; eauto | auto] ] ]).
    all: destruct P as [(a & ->)| ->]; cbn [bind]; eauto. }
  apply G, incl_refl.
Qed.
