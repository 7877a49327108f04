(** Proofs about the conversions. *)
From Verif Require Import Prelude P_Prelude M_LayoutData M_Converter S_Converter.
Local Open Scope Z_scope.

Lemma chk32_ok z : int32 z -> chk32 z = Ok z.
Proof. unfold int32, chk32. intros H. replace (_ && _) with true by lia. reflexivity. Qed.

Lemma chk32_ub z : ~ int32 z -> chk32 z = UB SignedOverflow.
Proof. unfold int32, chk32. intros H. replace (_ && _) with false by lia. reflexivity. Qed.

Lemma int32_dec z : {int32 z} + {~ int32 z}.
Proof.
  unfold int32. destruct (Z_le_dec (- 2 ^ 31) z); destruct (Z_lt_dec z (2 ^ 31));
    [left | right | right | right]; lia.
Qed.

Lemma chk32_spec z : (int32 z /\ chk32 z = Ok z) \/ (~ int32 z /\ chk32 z = UB SignedOverflow).
Proof.
  destruct (int32_dec z) as [H|H]; [left | right]; split; auto using chk32_ok, chk32_ub.
Qed.

Lemma coord_eq a b : cx a = cx b -> cy a = cy b -> a = b.
Proof. destruct a, b; cbn; congruence. Qed.

Lemma coord32_dec c : {coord32 c} + {~ coord32 c}.
Proof.
  unfold coord32. destruct (int32_dec (cx c)), (int32_dec (cy c)); [left | right | right | right]; tauto.
Qed.

Lemma add_coord_spec c d :
  (coord32 (shift_coord d c) /\ add_coord c d = Ok (shift_coord d c)) \/
  (~ coord32 (shift_coord d c) /\ add_coord c d = UB SignedOverflow).
Proof.
  unfold add_coord, add32, coord32, shift_coord; cbn [cx cy].
  destruct (chk32_spec (cx c + cx d)) as [(H1 & ->)|(H1 & ->)]; cbn [bind]; [|right; tauto].
  destruct (chk32_spec (cy c + cy d)) as [(H2 & ->)|(H2 & ->)]; cbn [bind]; [left|right]; tauto.
Qed.

Lemma add_coord_ok c d : coord32 (shift_coord d c) -> add_coord c d = Ok (shift_coord d c).
Proof. destruct (add_coord_spec c d) as [(H & E)|(H & E)]; tauto. Qed.

(** ** Loops that append *)
Fixpoint concatM {A B} (f : A -> res (list B)) (l : list A) : res (list B) :=
  match l with
  | [] => Ok []
  | x :: t => let* a := f x in let* b := concatM f t in Ok (a ++ b)
  end.

Lemma for_each_concat {A B} (f : A -> res (list B)) (body : list B -> A -> res (list B)) l acc :
  (forall acc x, In x l -> body acc x = let* a := f x in Ok (acc ++ a)) ->
  for_each l acc body = let* a := concatM f l in Ok (acc ++ a).
Proof.
  revert acc. induction l as [|x t IH]; intros acc H; cbn [for_each concatM bind].
  - rewrite app_nil_r. reflexivity.
  - rewrite (H acc x (or_introl eq_refl)). destruct (f x) as [a| |]; cbn [bind]; try reflexivity.
    rewrite IH by (intros; apply H; right; assumption).
    destruct (concatM f t); cbn [bind]; try reflexivity. rewrite app_assoc. reflexivity.
Qed.

Lemma concatM_ext {A B} (f g : A -> res (list B)) l :
  (forall x, In x l -> f x = g x) -> concatM f l = concatM g l.
Proof.
  induction l as [|x t IH]; intros H; cbn [concatM]; [reflexivity|].
  rewrite (H x (or_introl eq_refl)), IH; auto. intros; apply H; right; assumption.
Qed.

Lemma concatM_ok {A B} (f : A -> res (list B)) l r :
  concatM f l = Ok r <-> exists rs, Forall2 (fun x y => f x = Ok y) l rs /\ r = concat rs.
Proof.
  revert r. induction l as [|x t IH]; intros r; cbn [concatM].
  - split.
    + intros [= <-]. exists []. auto.
    + intros (rs & F & ->). inversion F; subst. reflexivity.
  - split.
    + destruct (f x) as [a| |] eqn:Ea; cbn [bind]; try discriminate.
      destruct (concatM f t) as [b| |]; cbn [bind]; try discriminate. intros [= <-].
      destruct (proj1 (IH b) eq_refl) as (rs & F & ->). exists (a :: rs). cbn. auto.
    + intros (rs & F & ->). inversion F as [|? a ? rs' Ha Ht]; subst. rewrite Ha. cbn [bind].
      rewrite (proj2 (IH (concat rs'))) by eauto. reflexivity.
Qed.

(** ** Segments *)
Lemma InCalcRectAngles_spec b e h pos :
  pos = PPmid \/ pos = PPend ->
  let last := match pos with PPend => true | _ => false end in
  (segment_fits b e h last /\ InCalcRectAngles b e h pos = Ok (origin, origin)) \/
  (~ segment_fits b e h last /\ InCalcRectAngles b e h pos = UB SignedOverflow).
Proof.
  intros Hp last.
  assert (Hk : forall z (P : Prop), (int32 z -> P) -> (~ int32 z -> P) -> P).
  { intros z P A B. destruct (int32_dec z); auto. }
  unfold InCalcRectAngles, InGetOrientation.
  destruct (Z.eqb_spec (cx b) (cx e)) as [Ex|Ex]; destruct (Z.eqb_spec (cy b) (cy e)) as [Ey|Ey];
    cbn [andb].
  1:{ left. split; [left; apply coord_eq; assumption | destruct Hp; subst pos; reflexivity]. }
  all: assert (Hne : b <> e) by (intros ->; lia).
  all: unfold segment_fits, case_horizontal, case_vertical, add32, sub32; subst last.
  all: destruct Hp; subst pos.
  all: repeat match goal with
       | |- context[if ?a <? ?b then _ else _] => destruct (Z.ltb_spec a b)
       | |- context[bind (chk32 ?z) _] =>
           destruct (chk32_spec z) as [(? & ->)|(? & ->)]; cbn [bind]
       end; unfold case_default.
  all: first [ left; split; [right; unfold int32 in *; repeat split; intros; first [lia | discriminate] | reflexivity]
             | right; split; [intros [?|(D1 & D2 & D3 & D4 & D5 & D6 & D7)]; [contradiction|];
                 repeat match goal with
                 | D : (false = false) -> _ |- _ => specialize (D eq_refl)
                 | D : (?u < ?v) -> _ |- _ => let K := fresh in assert (K : u < v) by lia; specialize (D K)
                 | D : (?u <= ?v) -> _ |- _ => let K := fresh in assert (K : u <= v) by lia; specialize (D K)
                 | D : (?u <> ?v) -> _ |- _ => let K := fresh in assert (K : u <> v) by lia; specialize (D K)
                 | D : _ /\ _ |- _ => destruct D
                 end; try contradiction; try lia | reflexivity] ].
Qed.

Definition pbox (p : coord) (lay : Z) : geom :=
  mkgeom GTrectangle lay [p; p; p; p; p] p p (CRectangle 0).

Lemma point_box_eq p lay g : point_box p lay g <-> g = pbox p lay.
Proof.
  unfold point_box, pbox. split.
  - destruct g as [gt gl gc gn gx gk]; cbn [g_type g_class g_layer g_coords g_min g_max].
    intros (-> & -> & -> & -> & -> & ->). reflexivity.
  - intros ->. cbn. tauto.
Qed.

Lemma fill_origin lay :
  InFillBox (Some new_rectangle) origin origin lay = Ok (pbox origin lay).
Proof. reflexivity. Qed.

Lemma seg_boxes cs h lay k : forall i,
  (i + k + 1 = length cs)%nat ->
  let f := (fun i =>
       let pos := if ((2 <=? length cs) && (length cs - 2 =? i))%nat then PPend else PPmid in
       let* a := at_ cs i in
       let* b := at_ cs (i + 1) in
       let* ang := InCalcRectAngles a b h pos in
       let* box := InFillBox (Some new_rectangle) (mkcoord (cx (fst ang)) (cy (snd ang)))
                             (mkcoord (cx (snd ang)) (cy (fst ang))) lay in
       Ok [box]) in
  ((forall j b e, (i <= j)%nat -> nth_error cs j = Some b -> nth_error cs (j + 1) = Some e ->
      segment_fits b e h (j + 2 =? length cs)%nat) /\
   concatM f (upto i (i + k)) = Ok (repeat (pbox origin lay) k)) \/
  ((exists j b e, nth_error cs j = Some b /\ nth_error cs (j + 1) = Some e /\
      ~ segment_fits b e h (j + 2 =? length cs)%nat) /\
   concatM f (upto i (i + k)) = UB SignedOverflow).
Proof.
  induction k as [|k IH]; intros i Hi f.
  - left. split.
    + intros j b e Hj _ He.   assert (j + 1 < length cs)%nat by (apply nth_error_Some; congruence). lia.
    + rewrite upto_nil by lia. reflexivity.
  - rewrite upto_cons by lia. cbn [concatM].
    destruct (nth_error cs i) as [a|] eqn:Ea; [|apply nth_error_None in Ea; lia].
    destruct (nth_error cs (i + 1)) as [b|] eqn:Eb; [|apply nth_error_None in Eb; lia].
    set (pos := if ((2 <=? length cs) && (length cs - 2 =? i))%nat then PPend else PPmid).
    assert (Hpos : pos = PPmid \/ pos = PPend) by (unfold pos; destruct (_ && _); tauto).
    assert (Hlast : match pos with PPend => true | _ => false end = (i + 2 =? length cs)%nat).
    { unfold pos. destruct ((2 <=? length cs)%nat && (length cs - 2 =? i)%nat) eqn:E;
        symmetry; [apply Nat.eqb_eq | apply Nat.eqb_neq]; lia. }
    assert (Ef : f i = let* ang := InCalcRectAngles a b h pos in
       let* box := InFillBox (Some new_rectangle) (mkcoord (cx (fst ang)) (cy (snd ang)))
                             (mkcoord (cx (snd ang)) (cy (fst ang))) lay in
       Ok [box]).
    { unfold f, at_. rewrite Ea, Eb. reflexivity. }
    rewrite Ef.
    destruct (InCalcRectAngles_spec a b h pos Hpos) as [(Hs & ->)|(Hs & ->)];
      rewrite Hlast in Hs; cbn [bind fst snd].
    + change (mkcoord (cx origin) (cy origin)) with origin. rewrite fill_origin. cbn [bind].
      replace (i + S k)%nat with (i + 1 + k)%nat by lia.
      destruct (IH (i + 1)%nat ltac:(lia)) as [(Hr & E)|(Hr & E)]; fold f in E; rewrite E; cbn [bind].
      * left. split; [|reflexivity]. intros j b' e' Hj Hb He.
        destruct (Nat.eq_dec j i) as [->|Hn]; [congruence|].
        apply (Hr j b' e'); [lia | assumption | assumption].
      * right. split; [assumption | reflexivity].
    + right. split; [|reflexivity]. exists i, a, b. auto.
Qed.

Lemma path_boxes_spec cs h lay :
  (cs = [] /\ path_boxes cs h lay = UB OobIndex) \/
  (cs <> [] /\ path_fits cs h /\
   path_boxes cs h lay = Ok (repeat (pbox origin lay) (length cs - 1))) \/
  (cs <> [] /\ ~ path_fits cs h /\ path_boxes cs h lay = UB SignedOverflow).
Proof.
  destruct cs as [|c t]; [left; split; reflexivity|]. right.
  unfold path_boxes.
  change (length (c :: t) =? 0)%nat with false. cbv iota.
  erewrite for_each_concat.
  2:{ intros acc x Hx. instantiate (1 := fun i =>
       let pos := if ((2 <=? length (c :: t)) && (length (c :: t) - 2 =? i))%nat then PPend else PPmid in
       let* a := at_ (c :: t) i in
       let* b := at_ (c :: t) (i + 1) in
       let* ang := InCalcRectAngles a b h pos in
       let* box := InFillBox (Some new_rectangle) (mkcoord (cx (fst ang)) (cy (snd ang)))
                             (mkcoord (cx (snd ang)) (cy (fst ang))) lay in
       Ok [box]). cbv beta zeta.
      destruct (at_ (c :: t) x); cbn [bind]; try reflexivity.
      destruct (at_ (c :: t) (x + 1)); cbn [bind]; try reflexivity.
      destruct (InCalcRectAngles _ _ _ _); cbn [bind]; try reflexivity.
      destruct (InFillBox _ _ _ _); cbn [bind]; reflexivity. }
  destruct (seg_boxes (c :: t) h lay (length t) 0 ltac:(cbn [length]; lia)) as [(H & E)|(H & E)];
    cbv zeta in E |- *; cbn [Nat.add] in E;
    replace (length (c :: t) - 1)%nat with (length t) by (cbn [length]; lia);
    rewrite E; cbn [bind].
  - left. split; [discriminate|]. split; [|reflexivity].
    intros i b e Hb He. apply (H i b e); [lia | assumption | assumption].
  - right. split; [discriminate|]. split; [|reflexivity].
    destruct H as (j & b & e & Hb & He & Hn). intros Hf. apply Hn, Hf; assumption.
Qed.

Lemma roomy_fits cs h : roomy cs h -> path_fits cs h.
Proof.
  intros H i b e Hb He. right.
  destruct (H b (nth_error_In _ _ Hb)) as (B1 & B2 & B3 & B4).
  destruct (H e (nth_error_In _ _ He)) as (E1 & E2 & E3 & E4).
  split; [exact B1|]. split; [exact B2|]. auto 10.
Qed.

(** ** Boxes *)
Lemma widen_fold l : forall mn mx,
  cx mn <= cx mx -> cy mn <= cy mx ->
  let r := fold_left widen l (mn, mx) in
  (forall c, In c l \/ c = mn \/ c = mx -> cx (fst r) <= cx c <= cx (snd r) /\ cy (fst r) <= cy c <= cy (snd r)) /\
  (cx (fst r) = cx mn \/ exists c, In c l /\ cx c = cx (fst r)) /\
  (cy (fst r) = cy mn \/ exists c, In c l /\ cy c = cy (fst r)) /\
  (cx (snd r) = cx mx \/ exists c, In c l /\ cx c = cx (snd r)) /\
  (cy (snd r) = cy mx \/ exists c, In c l /\ cy c = cy (snd r)).
Proof.
  induction l as [|a l IH]; intros mn mx Hx Hy; cbn [fold_left].
  - cbn [fst snd]. split; [|tauto]. intros c [[]|[->| ->]]; lia.
  - set (mn' := fst (widen (mn, mx) a)). set (mx' := snd (widen (mn, mx) a)).
    assert (Em : widen (mn, mx) a = (mn', mx')) by apply surjective_pairing. rewrite Em.
    assert (P : cx mn' = Z.min (cx mn) (cx a) /\ cy mn' = Z.min (cy mn) (cy a) /\
                cx mx' = Z.max (cx mx) (cx a) /\ cy mx' = Z.max (cy mx) (cy a)).
    { unfold mn', mx', widen; cbn [fst snd cx cy].
      repeat match goal with |- context[if ?u <? ?v then _ else _] => destruct (Z.ltb_spec u v) end; lia. }
    destruct P as (P1 & P2 & P3 & P4).
    specialize (IH mn' mx' ltac:(lia) ltac:(lia)). cbv zeta in IH. cbv zeta.
    set (r := fold_left widen l (mn', mx')) in *.
    destruct IH as (I0 & I1 & I2 & I3 & I4).
    pose proof (I0 mn' (or_intror (or_introl eq_refl))) as Qn.
    pose proof (I0 mx' (or_intror (or_intror eq_refl))) as Qx.
    split.
    { intros c [[->|Hc]|[->| ->]]; try lia. apply I0. left. exact Hc. }
    split; [|split; [|split]].
    + destruct I1 as [E|(c & Hc & E)]; [|right; exists c; split; [right; exact Hc | exact E]].
      destruct (Z.min_spec (cx mn) (cx a)) as [(? & M)|(? & M)]; [left; lia|].
      right. exists a. split; [left; reflexivity | lia].
    + destruct I2 as [E|(c & Hc & E)]; [|right; exists c; split; [right; exact Hc | exact E]].
      destruct (Z.min_spec (cy mn) (cy a)) as [(? & M)|(? & M)]; [left; lia|].
      right. exists a. split; [left; reflexivity | lia].
    + destruct I3 as [E|(c & Hc & E)]; [|right; exists c; split; [right; exact Hc | exact E]].
      destruct (Z.max_spec (cx mx) (cx a)) as [(? & M)|(? & M)]; [|left; lia].
      right. exists a. split; [left; reflexivity | lia].
    + destruct I4 as [E|(c & Hc & E)]; [|right; exists c; split; [right; exact Hc | exact E]].
      destruct (Z.max_spec (cy mx) (cy a)) as [(? & M)|(? & M)]; [|left; lia].
      right. exists a. split; [left; reflexivity | lia].
Qed.

Lemma widen_bbox c l : forall mn mx, fold_left widen l (c, c) = (mn, mx) -> bounding_box (c :: l) mn mx.
Proof.
  intros mn mx E. pose proof (widen_fold l c c ltac:(lia) ltac:(lia)) as H. cbv zeta in H.
  rewrite E in H. cbn [fst snd] in H. destruct H as (H0 & H1 & H2 & H3 & H4).
  split; [intros d [->|Hd]; apply H0; tauto|].
  assert (G : forall (q : coord -> Z) v, v = q c \/ (exists d, In d l /\ q d = v) ->
             exists d, In d (c :: l) /\ q d = v).
  { intros q v [->|(d & Hd & Ed)]; [exists c | exists d]; cbn; auto. }
  repeat split; apply G; assumption.
Qed.
