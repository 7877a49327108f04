(** Lemmas about the bitmap generator. *)
From Coq Require Import Permutation.
From Verif Require Import Prelude P_Prelude M_Double M_LayoutData M_Converter S_Converter P_Converter P_Split M_Loop P_Loop
  M_Vector2D M_BitMatrix S_Matrix P_BitMatrix M_Print M_Zond S_Zond P_Zond M_Generator P_Uniform S_Generator.
Local Open Scope Z_scope.

(** * The fragment matrix *)
Definition frags (fs : list (list fragment)) : Prop := fs = [] \/ exists f, fs = [[f]].

(** a stray read is harmless when it does not happen or yields a value *)
Definition harmless (stray : stray_read) (fs : list (list fragment)) : Prop :=
  fs = [] -> exists v, stray = Some v.

Lemma set_matrices_ok stray fs : frags fs -> exists fs', set_matrices stray fs = Ok fs' /\ frags fs' /\ (fs' = [] <-> fs = []).
Proof.
  intros [->|(f & ->)].
  - exists []. split; [reflexivity|]. split; [left; reflexivity|tauto].
  - exists [[mkfragment (f_angleCoords f) (f_boundIndicies f) true (f_dx f) (f_dy f) (f_zond f)]].
    split; [reflexivity|]. split; [right; eexists; reflexivity|]. split; intros; discriminate.
Qed.

Lemma ColCount_ok stray fs : frags fs -> harmless stray fs -> exists n, ColCount stray fs = Ok n.
Proof.
  intros [->|(f & ->)] H.
  - destruct (H eq_refl) as (v & ->). exists v. reflexivity.
  - eexists. reflexivity.
Qed.

(** * Print succeeds on a healthy matrix *)
Lemma for_each_total {S A} (f : S -> A -> res S) l (s : S) :
  (forall s x, In x l -> exists s', f s x = Ok s') -> exists s', for_each l s f = Ok s'.
Proof.
  revert s. induction l as [|x t IH]; intros s H; [exists s; reflexivity|].
  destruct (H s x (or_introl eq_refl)) as (s' & E). cbn [for_each]. rewrite E. cbn [bind].
  apply IH. intros s1 y Hy. apply H. right. exact Hy.
Qed.

Lemma Print_total m : healthy m -> exists t, Print m = Ok t.
Proof.
  intros Hh. unfold Print.
  assert (T : exists out, for_each (upto 0 (Isize m)) [] (fun out i =>
    let* out := for_each (upto 0 (Jsize m)) out (fun out j =>
      let* b := UnsafeGet m i j in
      Ok (out ++ [digit b])) in
    Ok (out ++ [newline])) = Ok out).
  { apply for_each_total. intros s i Hi. apply upto_in in Hi.
    assert (T : exists out, for_each (upto 0 (Jsize m)) s (fun out j =>
      let* b := UnsafeGet m i j in Ok (out ++ [digit b])) = Ok out).
    { apply for_each_total. intros s' j Hj. apply upto_in in Hj.
      rewrite UnsafeGet_raw; [cbn [bind]; eauto|exact Hh|lia|].
      pose proof (cdiv8_spec (Jsize m)). lia. }
    destruct T as (out & ->). cbn [bind]. eauto. }
  destruct T as (out & ->). cbn [bind]. eauto.
Qed.

(** * What Process computes *)
Definition blank (r c : nat) : bm := mkbm (repeat (repeat x00 (cdiv8 c)) r) r c.

Definition prepared (w : workspace) (ep : double) (r c : nat) : res zond :=
  let* x := CalcDelta (cx (leftTop w)) (cx (rightBot w)) (Z.of_nat c) in
  let* y := CalcDelta (cy (leftTop w)) (cy (rightBot w)) (Z.of_nat r) in
  if dgt (dz 0) y || dgt (dz 0) x then Throw InvalidArgument
  else Ok (mkzond (mkind 0 (Z.of_nat r - 1) 0 (Z.of_nat c - 1)) w x y ep).

Definition core (stack : nat) (d : option layout) (w : workspace) (L : list Z) (ep : double) (r c : nat) : bm * res bool :=
  match prepared w ep r c with
  | Throw e => (blank r c, Throw e)
  | UB u => (blank r c, UB u)
  | Ok z =>
      match InitGeometryItems stack d w L ([], []) with
      | Throw e => (blank r c, Throw e)
      | UB u => (blank r c, UB u)
      | Ok (l1, l2) =>
          match zond_all z (l1 ++ l2) (blank r c) with
          | (b, Ok _) => (b, Ok true)
          | (b, Throw e) => (b, Throw e)
          | (b, UB u) => (b, UB u)
          end
      end
  end.

Lemma zond_all_healthy z gs m A : shows m A -> exists A', shows (fst (zond_all z gs m)) A'.
Proof.
  revert m A. induction gs as [|g t IH]; intros m A S; cbn [zond_all]; [eauto|].
  destruct (ZondGeometry_uniform z (Some g)) as (s & o & H). destruct (H m A S) as (m1 & E & S1).
  rewrite E. destruct o; eauto.
Qed.

Lemma Resize_mem al b r c : (0 < r)%nat -> (0 < c)%nat -> memory_ok al r c ->
  M_BitMatrix.Resize al b r c = (blank r c, Ok tt).
Proof.
  intros Hr Hc Hm. unfold Resize. assert (((r =? 0) || (c =? 0))%nat = false) as -> by lia.
  rewrite colBytes_cdiv8. unfold V_Resize. rewrite Hm. reflexivity.
Qed.

(** what the calls leave alone, and what they preserve *)
Definition kept (g g' : generator) : Prop :=
  gen_data g' = gen_data g /\ gen_coords g' = gen_coords g /\ eps (gen_zond g') = eps (gen_zond g) /\
  (frags (gen_fragments g) -> frags (gen_fragments g')) /\
  (gen_fragments g' = [] <-> gen_fragments g = []).

Lemma sub32_same a b : (exists d, sub32 a b = Ok d) \/ sub32 a b = UB SignedOverflow.
Proof. destruct (sub32_cases a b) as [E|E]; [left; eauto|right; exact E]. Qed.

Lemma CalcDelta_ok a b n d : sub32 b a = Ok d -> CalcDelta a b n = Ok (ddiv (dz (Z.abs d)) (dz (n mod 2 ^ 32))).
Proof. intros E. unfold CalcDelta. rewrite E. reflexivity. Qed.
Lemma CalcDelta_ub a b n u : sub32 b a = UB u -> CalcDelta a b n = UB u.
Proof. intros E. unfold CalcDelta. rewrite E. reflexivity. Qed.

Lemma Process_core stray al stack g r c : (0 < r)%nat -> (0 < c)%nat -> memory_ok al r c ->
  frags (gen_fragments g) -> harmless stray (gen_fragments g) ->
  let p := Process stray al stack g r c in
  (GetMatrix (fst p), snd p) =
  core stack (gen_data g) (gen_coords g) (gen_layers g) (eps (gen_zond g)) r c.
Proof.
  intros Hr Hc Hm Hf Hs p. subst p. unfold Process.
  assert ((r =? 0)%nat = false) as -> by lia. assert ((c =? 0)%nat = false) as -> by lia.
  rewrite (Resize_mem al _ r c Hr Hc Hm).
  destruct (set_matrices_ok stray _ Hf) as (fs' & E1 & Hf' & He). rewrite E1. cbn [bind].
  destruct (ColCount_ok stray fs' Hf') as (n & E2). { intros Z. apply Hs, He, Z. }
  rewrite E2. cbn [bind]. unfold core, prepared.
  change (GetColumnCount (blank r c)) with c. change (GetRowCount (blank r c)) with r.
  set (lt := leftTop (gen_coords g)). set (rb := rightBot (gen_coords g)).
  destruct (sub32_same (cx rb) (cx lt)) as [(d1 & D1)|D1].
  2:{ rewrite !(CalcDelta_ub _ _ _ _ D1). reflexivity. }
  rewrite !(CalcDelta_ok _ _ _ _ D1). cbn [bind].
  destruct (sub32_same (cy rb) (cy lt)) as [(d2 & D2)|D2].
  2:{ rewrite !(CalcDelta_ub _ _ _ _ D2). reflexivity. }
  rewrite !(CalcDelta_ok _ _ _ _ D2). cbn [bind].
  unfold SetDeltas.
  match goal with |- context [if ?t then Throw InvalidArgument else _] => destruct t end; [reflexivity|].
  unfold SetBoundIndicies, SetWorkspaceCoord. cbn [boundIndicies angleCoords dx dy eps].
  destruct (InitGeometryItems stack (gen_data g) (gen_coords g) (gen_layers g) ([], [])) as [[l1 l2]|e|u];
    [|reflexivity|reflexivity].
  match goal with |- context [zond_all ?z ?l ?b] => destruct (zond_all_healthy z l b (azero r c) (shows_new r c)) as (A' & S');
    destruct (zond_all z l b) as [b' o] end.
  cbn [fst] in S'. destruct o as [t|e|u]; [|reflexivity|reflexivity].
  cbn [fst snd GetMatrix gen_bitmap].
  destruct (Print_total b' (proj1 (shows_elim _ _ S'))) as (txt & ->). reflexivity.
Qed.

Lemma kept_refl g : kept g g.
Proof. repeat split; auto. Qed.

Lemma kept_trans a b c : kept a b -> kept b c -> kept a c.
Proof.
  intros (A1 & A2 & A3 & A4 & A5) (B1 & B2 & B3 & B4 & B5).
  split; [congruence|]. split; [congruence|]. split; [congruence|]. split; [auto|]. tauto.
Qed.

Lemma Process_kept stray al stack g r c : frags (gen_fragments g) ->
  let g' := fst (Process stray al stack g r c) in kept g g' /\ gen_layers g' = gen_layers g.
Proof.
  intros Hf g'. subst g'. unfold Process.
  assert (K : forall b fr l1 l2 z x y, eps z = eps (gen_zond g) ->
    frags fr -> (fr = [] <-> gen_fragments g = []) ->
    kept g (mkgen (gen_data g) (gen_coords g) (gen_layers g) b fr l1 l2 z x y) /\
    gen_layers (mkgen (gen_data g) (gen_coords g) (gen_layers g) b fr l1 l2 z x y) = gen_layers g).
  { intros. repeat split; cbn; auto; tauto. }
  destruct (r =? 0)%nat; [split; [apply kept_refl|reflexivity]|].
  destruct (c =? 0)%nat; [split; [apply kept_refl|reflexivity]|].
  destruct (M_BitMatrix.Resize al (gen_bitmap g) r c) as [b [[]|e|u]];
    [|apply K; tauto|apply K; tauto].
  destruct (set_matrices_ok stray _ Hf) as (fs' & E1 & Hf' & He). rewrite E1. cbn [bind].
  destruct (ColCount stray fs') as [n|e|u]; cbn [bind]; [|apply K; tauto|apply K; tauto].
  destruct (CalcDelta (cx (leftTop (gen_coords g))) (cx (rightBot (gen_coords g))) n) as [x1|e|u]; cbn [bind]; [|apply K; tauto|apply K; tauto].
  destruct (CalcDelta (cy (leftTop (gen_coords g))) (cy (rightBot (gen_coords g))) (Z.of_nat (V_RowCount fs'))) as [y1|e|u]; cbn [bind]; [|apply K; tauto|apply K; tauto].
  destruct (CalcDelta (cx (leftTop (gen_coords g))) (cx (rightBot (gen_coords g))) (Z.of_nat (GetColumnCount b))) as [x2|e|u]; cbn [bind]; [|apply K; tauto|apply K; tauto].
  destruct (CalcDelta (cy (leftTop (gen_coords g))) (cy (rightBot (gen_coords g))) (Z.of_nat (GetRowCount b))) as [y2|e|u]; cbn [bind]; [|apply K; tauto|apply K; tauto].
  unfold SetDeltas.
  match goal with |- context [if ?t then Throw InvalidArgument else _] => destruct t end; [apply K; tauto|].
  unfold SetBoundIndicies, SetWorkspaceCoord. cbn [boundIndicies angleCoords dx dy eps].
  destruct (InitGeometryItems stack (gen_data g) (gen_coords g) (gen_layers g) ([], [])) as [[l1 l2]|e|u];
    [|apply K; cbn; tauto|apply K; cbn; tauto].
  destruct (CalcDelta (cx (leftTop (gen_coords g))) (cx (rightBot (gen_coords g))) (Z.of_nat (GetRowCount b))) as [x3|e|u];
  destruct (CalcDelta (cy (leftTop (gen_coords g))) (cy (rightBot (gen_coords g))) (Z.of_nat (GetColumnCount b))) as [y3|e3|u3];
    try (apply K; cbn; tauto).
  destruct (zond_all _ (l1 ++ l2) b) as [b' [[]|e|u]]; apply K; cbn; tauto.
Qed.

Lemma SetLayers_kept g L : kept g (SetLayerArray g L).
Proof. repeat split; auto. Qed.

(** * Init *)
Lemma Init_again g d L mn mx : gen_fragments g = [] -> Init g d L mn mx = (g, Throw InvalidArgument).
Proof.
  intros E. unfold Init. destruct d as [d|]; [|reflexivity]. rewrite E.
  replace (match L with [] => true | _ => false end || V_not []) with true; [reflexivity|].
  destruct L; reflexivity.
Qed.

Lemma Init_unusable g d L mn mx : ~ usable_init (CInit d L mn mx) -> Init g d L mn mx = (g, Throw InvalidArgument).
Proof.
  intros H. unfold Init. destruct d as [d|]; [|reflexivity]. destruct L; [reflexivity|].
  exfalso. apply H. exact I.
Qed.

Lemma Init_frags g d L mn mx : frags (gen_fragments g) -> frags (gen_fragments (fst (Init g d L mn mx))).
Proof.
  intros Hf. unfold Init. destruct d as [d|]; [|exact Hf].
  match goal with |- context [if ?t then (g, _) else _] => destruct t end; [exact Hf|].
  match goal with |- context [SetAngleCoords ?a ?b ?c] => destruct (SetAngleCoords a b c) as [w [|]] end;
    cbn [fst gen_fragments]; left; unfold Reset; cbn; destruct (gen_fragments g); reflexivity.
Qed.

Lemma Init_first g f d l L mn mx : gen_fragments g = [[f]] ->
  let p := Init g (Some d) (l :: L) mn mx in
  gen_fragments (fst p) = [] /\ eps (gen_zond (fst p)) = eps (gen_zond g) /\
  (ordered_box mn mx -> snd p = Ok tt /\ gen_data (fst p) = Some d /\ gen_layers (fst p) = l :: L /\
     gen_coords (fst p) = mkws (mkcoord (cx mn) (cy mx)) (mkcoord (cx mx) (cy mn))) /\
  (~ ordered_box mn mx -> snd p = Throw InvalidArgument /\ gen_data (fst p) = None).
Proof.
  intros E p. subst p. unfold Init. rewrite E. cbn [V_not V_CheckParameters length Nat.eqb forallb andb orb negb].
  change (V_not [[f]]) with false. cbn [orb].
  unfold Reset, ordered_box, SetAngleCoords. rewrite E. cbn [cx cy gen_coords].
  destruct (cx mx <? cx mn) eqn:A; cbn [orb fst snd gen_fragments gen_zond gen_data gen_layers gen_coords];
    [repeat split; try reflexivity; lia|].
  destruct (cy mx <? cy mn) eqn:B; cbn [orb fst snd gen_fragments gen_zond gen_data gen_layers gen_coords];
    repeat split; try reflexivity; lia.
Qed.

(** * Collecting the geometries *)
Lemma Intersects_overlaps w g : Intersects w (Some g) = true <-> overlaps w g.
Proof. unfold Intersects, overlaps. lia. Qed.

Lemma selected_In L n : selected L n = true <-> In n L.
Proof.
  unfold selected. rewrite existsb_exists. split.
  - intros (x & Hx & E). apply Z.eqb_eq in E. subst. exact Hx.
  - intros H. exists n. split; [exact H|apply Z.eqb_refl].
Qed.

Lemma first_layer_some L ls l : first_layer L ls = Some l <->
  exists pre post, ls = pre ++ l :: post /\ In (l_layer l) L /\ forall l', In l' pre -> ~ In (l_layer l') L.
Proof.
  induction ls as [|a t IH]; cbn [first_layer].
  - split; [discriminate|]. intros (pre & post & E & _). destruct pre; discriminate.
  - destruct (selected L (l_layer a)) eqn:S.
    + apply selected_In in S. split.
      * intros [= ->]. exists [], t. repeat split; auto.
      * intros (pre & post & E & _ & H). destruct pre as [|p pre]; [cbn [app] in E; congruence|].
        exfalso. injection E as -> ->. apply (H p (or_introl eq_refl)). exact S.
    + rewrite IH. split.
      * intros (pre & post & -> & H1 & H2). exists (a :: pre), post. split; [reflexivity|]. split; [exact H1|].
        intros l' [<-|Hl]; [|apply H2, Hl]. rewrite <- selected_In. congruence.
      * intros (pre & post & E & H1 & H2). destruct pre as [|p pre].
        -- injection E as -> ->. rewrite <- selected_In in H1. congruence.
        -- injection E as -> ->. exists pre, post. split; [reflexivity|]. split; [exact H1|].
           intros l' Hl. apply H2. right. exact Hl.
Qed.

Lemma first_layer_none L ls : first_layer L ls = None <-> forall l, In l ls -> ~ In (l_layer l) L.
Proof.
  induction ls as [|a t IH]; cbn [first_layer].
  - split; [intros _ l []|reflexivity].
  - destruct (selected L (l_layer a)) eqn:S.
    + apply selected_In in S. split; [discriminate|]. intros H. exfalso. apply (H a (or_introl eq_refl) S).
    + rewrite IH. split.
      * intros H l [<-|Hl]; [rewrite <- selected_In; congruence|apply H, Hl].
      * intros H l Hl. apply H. right. exact Hl.
Qed.

Fixpoint items_of (L : list Z) (libs : list library) : list (option geom) :=
  match libs with
  | [] => []
  | lib :: t => match first_layer L (lib_layers lib) with
                | Some l => l_geometries l ++ items_of L t
                | None => items_of L t
                end
  end.

Lemma candidates_items L libs items : candidates L libs items <-> items = items_of L libs.
Proof.
  split.
  - induction 1 as [|lib t l H Ht IH|lib ly t l H Ht IH]; cbn [items_of]; [reflexivity| |].
    + rewrite (proj2 (first_layer_none _ _) H). exact IH.
    + rewrite (proj2 (first_layer_some _ _ _) H), IH. reflexivity.
  - intros ->. induction libs as [|lib t IH]; cbn [items_of]; [constructor|].
    destruct (first_layer L (lib_layers lib)) as [l|] eqn:E.
    + apply candidates_some; [exact (proj1 (first_layer_some _ _ _) E)|exact IH].
    + apply candidates_none; [exact (proj1 (first_layer_none _ _) E)|exact IH].
Qed.

Lemma PG_app heap stack w lists a b :
  ProcessGeometries heap stack w lists (a ++ b) =
  let* x := ProcessGeometries heap stack w lists a in ProcessGeometries heap stack w x b.
Proof. unfold ProcessGeometries. apply for_each_app. Qed.

Lemma InitItems heap libs stack w L lists :
  InitGeometryItems stack (Some (mklayout heap libs)) w L lists =
  ProcessGeometries heap stack w lists (items_of L libs).
Proof.
  cbn [InitGeometryItems lay_libraries lay_heap]. revert lists.
  induction libs as [|lib t IH]; intros lists; cbn [for_each items_of]; [reflexivity|].
  destruct (first_layer L (lib_layers lib)) as [l|]; cbn [bind]; [|apply IH].
  rewrite PG_app.
  destruct (ProcessGeometries heap stack w lists (l_geometries l)) as [x|e|u]; cbn [bind]; [apply IH|reflexivity|reflexivity].
Qed.

(** what one item contributes to the two lists *)
Definition contrib (heap : list element) (stack : nat) (w : workspace) (item : option geom) : res (list geom * list geom) :=
  if Intersects w item then
    match item with
    | None => Ok ([], [])
    | Some g =>
        match g_type g with
        | GTrectangle | GTpolygon => Ok ([], [g])
        | GTpath =>
            let* boxes := PathToRectList (Some g) in
            Ok (filter (fun b => Intersects w (Some b)) boxes, [])
        | GTreference =>
            let* boxes := SplitSref heap stack (Some g) (mkcoord 0 0) in
            Ok (filter (fun b => Intersects w (Some b)) boxes, [])
        | _ => Ok ([], [])
        end
    end
  else Ok ([], []).

Fixpoint gather (heap : list element) (stack : nat) (w : workspace) (items : list (option geom)) : res (list geom * list geom) :=
  match items with
  | [] => Ok ([], [])
  | i :: t => let* p := contrib heap stack w i in
              let* q := gather heap stack w t in
              Ok (fst p ++ fst q, snd p ++ snd q)
  end.

Lemma PG_gather heap stack w items : forall lists,
  ProcessGeometries heap stack w lists items =
  let* p := gather heap stack w items in Ok (fst lists ++ fst p, snd lists ++ snd p).
Proof.
  induction items as [|i t IH]; intros [a b].
  - cbn [gather bind fst snd]. unfold ProcessGeometries. cbn [for_each]. now rewrite !app_nil_r.
  - unfold ProcessGeometries. cbn [for_each gather].
    match goal with |- match ?X with _ => _ end = _ =>
      assert (E : X = let* p := contrib heap stack w i in Ok (a ++ fst p, b ++ snd p)) end.
    { unfold contrib. destruct (Intersects w i); [|cbn [bind fst snd]; now rewrite !app_nil_r].
      destruct i as [g|]; [|cbn [bind fst snd]; now rewrite !app_nil_r].
      destruct (g_type g); cbn [bind fst snd]; rewrite ?app_nil_r; try reflexivity.
      - destruct (PathToRectList (Some g)); cbn [bind fst snd]; rewrite ?app_nil_r; reflexivity.
      - destruct (SplitSref heap stack (Some g) (mkcoord 0 0)); cbn [bind fst snd]; rewrite ?app_nil_r; reflexivity. }
    rewrite E. destruct (contrib heap stack w i) as [[x y]|e|u]; cbn [bind fst snd]; try reflexivity.
    match goal with |- for_each t ?l ?f = _ => fold (ProcessGeometries heap stack w l t) end.
    rewrite IH. destruct (gather heap stack w t) as [[x' y']|e|u]; cbn [bind fst snd]; try reflexivity.
    now rewrite !app_assoc.
Qed.

Lemma PG_blank heap stack w items : ProcessGeometries heap stack w ([], []) items = gather heap stack w items.
Proof.
  rewrite PG_gather. destruct (gather heap stack w items) as [[x y]|e|u]; reflexivity.
Qed.

Lemma contrib_draw heap stack w item l1 l2 : contrib heap stack w item = Ok (l1, l2) ->
  forall s, In s (l1 ++ l2) <-> exists g, item = Some g /\ to_draw heap w g s.
Proof.
  unfold contrib. intros H s. destruct (Intersects w item) eqn:I.
  2:{ injection H as <- <-. split; [intros []|]. intros (g & -> & Ho & _). apply Intersects_overlaps in Ho. congruence. }
  destruct item as [g|].
  2:{ discriminate I. }
  apply Intersects_overlaps in I.
  assert (NP : forall width, path_width g width -> g_type g = GTpath) by (intros ? (E & _); exact E).
  assert (DD : (exists g0, Some g = Some g0 /\ to_draw heap w g0 s) <-> to_draw heap w g s).
  { split; [intros (g0 & [= <-] & T); exact T|intros T; exists g; auto]. }
  rewrite DD. clear DD. unfold to_draw.
  destruct (g_type g) eqn:T.
  - injection H as <- <-. split; [intros []|]. intros (_ & _ & [([?|?] & _)|[(wd & P & _)|(? & _)]]); try discriminate. specialize (NP _ P). discriminate.
  - injection H as <- <-. cbn [app In]. split.
    + intros [<-|[]]. auto 6.
    + intros (_ & _ & [(_ & ->)|[(wd & P & _)|(? & _)]]); [auto| |discriminate]. specialize (NP _ P). discriminate.
  - unfold PathToRectList, InGetType in H. rewrite T in H. cbn [gt_eqb negb] in H.
    destruct (g_class g) as [| |dt pt wd| | |] eqn:C; cbn [bind] in H; try discriminate.
    destruct (path_boxes_spec (g_coords g) (Z.quot wd 2) (g_layer g)) as [(_ & E)|[(Hn & _ & E)|(_ & _ & E)]];
      rewrite E in H; cbn [bind] in H; try discriminate.
    injection H as <- <-. rewrite app_nil_r, filter_In.
    match goal with |- _ /\ ?t = true <-> _ => change t with (Intersects w (Some s)) end. rewrite Intersects_overlaps. split.
    + intros (Hin & Ho). pose proof (repeat_spec _ _ _ Hin) as Hs. subst s.
      split; [exact I|]. split; [exact Ho|]. right. left. exists wd. split; [split; [exact T|eauto]|].
      split; [|apply point_box_eq; reflexivity].
      destruct (length (g_coords g) - 1)%nat eqn:N; [destruct Hin|lia].
    + intros (_ & Ho & [([?|?] & _)|[(wd' & P & Hl & Hp)|(? & _)]]); try discriminate.
      split; [|exact Ho]. apply point_box_eq in Hp. subst s.
      destruct (length (g_coords g) - 1)%nat eqn:N; [lia|left; reflexivity].
  - injection H as <- <-. split; [intros []|]. intros (_ & _ & [([?|?] & _)|[(wd & P & _)|(? & _)]]); try discriminate. specialize (NP _ P). discriminate.
  - injection H as <- <-. cbn [app In]. split.
    + intros [<-|[]]. auto 6.
    + intros (_ & _ & [(_ & ->)|[(wd & P & _)|(? & _)]]); [auto| |discriminate]. specialize (NP _ P). discriminate.
  - destruct (SplitSref heap stack (Some g) (mkcoord 0 0)) as [boxes|e|u] eqn:E; cbn [bind] in H; try discriminate.
    injection H as <- <-. rewrite app_nil_r, filter_In.
    match goal with |- _ /\ ?t = true <-> _ => change t with (Intersects w (Some s)) end. rewrite Intersects_overlaps.
    destruct (runs_expands heap stack g (mkcoord 0 0) boxes E) as (k & Hr & He).
    pose proof (proj1 (expands_occurs heap) _ _ _ He s) as Hs. split.
    + intros (Hin & Ho). split; [exact I|]. split; [exact Ho|]. right. right. split; [reflexivity|].
      exists k. split; [exact Hr|]. apply Hs, Hin.
    + intros (_ & Ho & [([?|?] & _)|[(wd & P & _)|(_ & k' & Hr' & Hk)]]); try discriminate.
      * specialize (NP _ P). discriminate.
      * split; [|exact Ho]. destruct Hr as (n & Hn). destruct Hr' as (n' & Hn').
        assert (k' = k) by congruence. subst. apply Hs, Hk.
Qed.

Lemma gather_draw heap stack w items : forall l1 l2, gather heap stack w items = Ok (l1, l2) ->
  forall s, In s (l1 ++ l2) <-> exists g, In (Some g) items /\ to_draw heap w g s.
Proof.
  induction items as [|i t IH]; intros l1 l2; cbn [gather].
  - intros [= <- <-] s. split; [intros []|intros (g & [] & _)].
  - destruct (contrib heap stack w i) as [[x y]|e|u] eqn:E; cbn [bind]; try discriminate.
    destruct (gather heap stack w t) as [[x' y']|e|u] eqn:E'; cbn [bind fst snd]; try discriminate.
    intros [= <- <-] s. pose proof (contrib_draw _ _ _ _ _ _ E s) as H1. pose proof (IH _ _ eq_refl s) as H2.
    rewrite !in_app_iff in *. split.
    + intros H. assert (G : (In s x \/ In s y) \/ (In s x' \/ In s y')) by tauto. destruct G as [G|G].
      * apply H1 in G. destruct G as (g & -> & T). exists g. cbn; auto.
      * apply H2 in G. destruct G as (g & Hg & T). exists g. cbn; auto.
    + intros (g & [->|Hg] & T).
      * assert (G : In s x \/ In s y) by (apply H1; eauto). tauto.
      * assert (G : In s x' \/ In s y') by (apply H2; eauto). tauto.
Qed.

Lemma gather_perm heap stack w items items' : Permutation items items' -> forall l1 l2,
  gather heap stack w items = Ok (l1, l2) ->
  exists l1' l2', gather heap stack w items' = Ok (l1', l2') /\ Permutation l1 l1' /\ Permutation l2 l2'.
Proof.
  induction 1 as [|x l l' P IH|x y l|l l' l'' P1 IH1 P2 IH2]; intros l1 l2; cbn [gather].
  - intros [= <- <-]. exists [], []. repeat split; constructor.
  - destruct (contrib heap stack w x) as [[a b]|e|u]; cbn [bind]; try discriminate.
    destruct (gather heap stack w l) as [[a' b']|e|u]; cbn [bind fst snd]; try discriminate.
    intros [= <- <-]. destruct (IH _ _ eq_refl) as (c & d & -> & Pc & Pd). cbn [bind fst snd].
    exists (a ++ c), (b ++ d). split; [reflexivity|]. split; apply Permutation_app_head; assumption.
  - destruct (contrib heap stack w x) as [[a b]|e|u]; cbn [bind];
    destruct (contrib heap stack w y) as [[a' b']|e'|u']; cbn [bind]; try discriminate.
    destruct (gather heap stack w l) as [[c d]|e|u]; cbn [bind fst snd]; try discriminate.
    intros [= <- <-]. do 2 eexists. split; [reflexivity|].
    split; rewrite !app_assoc; apply Permutation_app_tail, Permutation_app_comm.
  - intros H. destruct (IH1 _ _ H) as (a & b & H1 & Q1 & Q2). destruct (IH2 _ _ H1) as (c & d & H2 & R1 & R2).
    exists c, d. split; [exact H2|]. split; eapply perm_trans; eassumption.
Qed.

(** * Histories *)
Lemma history_app M calls1 calls2 : forall g,
  history M g (calls1 ++ calls2) = match history M g calls1 with Some g' => history M g' calls2 | None => None end.
Proof.
  induction calls1 as [|c t IH]; intros g; [reflexivity|]. cbn [app history].
  destruct c; [apply IH|apply IH|]. destruct (Process _ _ _ g RowCount ColumnCount) as [g' [b|e|u]]; [apply IH|apply IH|reflexivity].
Qed.

Definition agrees (s : setting) (g : generator) : Prop :=
  eps (gen_zond g) = dlit 1 (10 ^ 13) /\
  match s with
  | Fresh => gen_data g = None /\ gen_coords g = ws_init /\ exists f, gen_fragments g = [[f]]
  | Dead => gen_data g = None /\ gen_coords g = ws_init /\ gen_fragments g = []
  | Live d L mn mx => gen_data g = Some d /\ gen_layers g = L /\ gen_coords g = box_workspace mn mx /\ gen_fragments g = []
  end.

Lemma agrees_frags s g : agrees s g -> frags (gen_fragments g).
Proof.
  intros (_ & H). destruct s; [right|left|left]; destruct H as (_ & _ & H); try exact H. apply H.
Qed.

Lemma Init_outcome g d L mn mx : exists x, snd (Init g d L mn mx) = x /\ (x = Ok tt \/ x = Throw InvalidArgument).
Proof.
  eexists. split; [reflexivity|]. unfold Init. destruct d as [d|]; [|right; reflexivity].
  match goal with |- context [if ?t then (g, _) else _] => destruct t end; [right; reflexivity|].
  match goal with |- context [SetAngleCoords ?a ?b ?c] => destruct (SetAngleCoords a b c) as [w [|]] end;
    [left|right]; reflexivity.
Qed.

Lemma kept_agrees s g g' : kept g g' -> gen_layers g' = gen_layers g -> agrees s g -> agrees s g'.
Proof.
  intros (K1 & K2 & K3 & K4 & K5) KL (E & H). split; [congruence|].
  destruct s.
  - destruct H as (H1 & H2 & f & H3). repeat split; try congruence.
    destruct (K4 (or_intror (ex_intro _ f H3))) as [Z|(f' & Z)]; [|eauto].
    apply K5 in Z. rewrite H3 in Z. discriminate.
  - destruct H as (H1 & H2 & H3). repeat split; try congruence. tauto.
  - destruct H as (H0 & H1 & H2 & H3). repeat split; try congruence. tauto.
Qed.

Lemma next_agrees M s c s' g g' : next_setting s c s' -> agrees s g -> history M g [c] = Some g' -> agrees s' g'.
Proof.
  intros N A H. pose proof A as (E & A'). inversion N; subst; cbn [history] in H.
  - injection H as <-. destruct A' as (A1 & A2 & f & A3). destruct L as [|l L]; [congruence|].
    pose proof (Init_first g f d l L mn mx A3) as IF; cbv zeta in IF; destruct IF as (F & Z & O & _). destruct (O H1) as (O1 & O2 & O3 & O4).
    split; [exact (eq_trans Z E)|]. repeat split; assumption.
  - injection H as <-. destruct A' as (A1 & A2 & f & A3). destruct L as [|l L]; [congruence|].
    pose proof (Init_first g f d l L mn mx A3) as IF; cbv zeta in IF; destruct IF as (F & Z & _ & O). destruct (O H1) as (O1 & O2).
    split; [exact (eq_trans Z E)|]. split; [exact O2|]. split; [|exact F].
    unfold Init. rewrite A3. change (V_not [[f]]) with false. cbn [orb].
    unfold ordered_box in H1. unfold Reset, SetAngleCoords. rewrite A2. cbn [cx cy gen_coords].
    replace ((cx mx <? cx mn) || (cy mx <? cy mn)) with true by lia. reflexivity.
  - injection H as <-. destruct A' as (A1 & A2 & A3 & A4). split; [exact E|]. repeat split; assumption.
  - injection H as <-. rewrite Init_unusable by assumption. exact A.
  - injection H as <-. rewrite Init_again; [exact A|]. destruct s' as [| |dd LL mm nn]; [congruence|apply A'|apply A'].
  - injection H as <-. destruct H0 as [->|Hs]; [exact A|]. subst. exact A.
  - destruct (Process (m_stray M) (m_heap M) (m_stack M) g r c0) as [g1 o] eqn:P.
    pose proof (Process_kept (m_stray M) (m_heap M) (m_stack M) g r c0 (agrees_frags _ _ A)) as (K & KL).
    rewrite P in K, KL. cbn [fst] in K, KL.
    assert (G : g' = g1) by (destruct o; congruence). subst g1. eapply kept_agrees; eassumption.
Qed.

Lemma in_force_agrees M calls s g : in_force calls s -> history M gen_new calls = Some g -> agrees s g.
Proof.
  intros F. revert g. induction F as [|calls s c s' F IH N]; intros g H.
  - injection H as <-. split; [reflexivity|]. repeat split. eexists. reflexivity.
  - rewrite history_app in H. destruct (history M gen_new calls) as [g1|]; [|discriminate].
    eapply next_agrees; [exact N|apply IH; reflexivity|exact H].
Qed.

Lemma next_total s c : exists s', next_setting s c s'.
Proof.
  destruct c as [d L mn mx|L|r c].
  - destruct d as [d|]; [|exists s; apply next_unusable; intros []].
    destruct L as [|l L]; [exists s; apply next_unusable; intros []|].
    destruct s as [| |d' L' mn' mx'].
    + destruct (Z_le_dec (cx mn) (cx mx)); [destruct (Z_le_dec (cy mn) (cy mx))|].
      * eexists. apply next_init; [discriminate|split; assumption].
      * exists Dead. apply next_bad_box; [discriminate|]. unfold ordered_box. lia.
      * exists Dead. apply next_bad_box; [discriminate|]. unfold ordered_box. lia.
    + eexists. apply next_again. discriminate.
    + eexists. apply next_again. discriminate.
  - destruct s; eexists; [apply next_early; auto|apply next_early; auto|apply next_layers].
  - eexists. apply next_process.
Qed.

Lemma in_force_total calls : exists s, in_force calls s.
Proof.
  induction calls as [|c t IH] using rev_ind; [eexists; constructor|].
  destruct IH as (s & F). destruct (next_total s c) as (s' & N). exists s'. econstructor; eassumption.
Qed.

Lemma in_force_fresh calls s : in_force calls s -> (s = Fresh <-> ~ Exists usable_init calls).
Proof.
  induction 1 as [|calls s c s' F IH N].
  - split; [intros _ H; inversion H|reflexivity].
  - rewrite Exists_app. inversion N; subst;
      (split; [intros E|intros E; try (exfalso; apply E; right; constructor; cbn; destruct L; [congruence|exact I])]);
      try discriminate.
    + exfalso. assert (Hn : ~ Exists usable_init calls) by tauto. apply IH in Hn. discriminate.
    + subst. intros [H1|H1]; [apply (proj1 IH eq_refl H1)|]. inversion H1 as [? ? U|? ? U]; subst; [contradiction|inversion U].
    + apply IH. tauto.
    + subst. congruence.
    + apply IH. tauto.
    + subst. intros [H1|H1]; [apply (proj1 IH eq_refl H1)|]. inversion H1 as [? ? U|? ? U]; subst; [contradiction|inversion U].
    + apply IH. tauto.
    + subst. intros [H1|H1]; [apply (proj1 IH eq_refl H1)|]. inversion H1 as [? ? U|? ? U]; subst; [contradiction|inversion U].
    + apply IH. tauto.
Qed.

(** * What Process does in each situation *)
Lemma live_process v al stack g r c d L mn mx : agrees (Live d L mn mx) g -> (0 < r)%nat -> (0 < c)%nat -> memory_ok al r c ->
  result (Process (Some v) al stack g r c) = core stack (Some d) (box_workspace mn mx) L (dlit 1 (10 ^ 13)) r c.
Proof.
  intros A Hr Hc Hm. pose proof (agrees_frags _ _ A) as Hf. destruct A as (E & A1 & A2 & A3 & A4).
  unfold result. rewrite (Process_core (Some v) al stack g r c Hr Hc Hm Hf); [|intros _; eauto].
  rewrite A1, A2, A3, E. reflexivity.
Qed.

Lemma strict_process al stack g r c : gen_fragments g = [] -> (0 < r)%nat -> (0 < c)%nat -> memory_ok al r c ->
  snd (Process None al stack g r c) = UB OobIndex.
Proof.
  intros A Hr Hc Hm. unfold Process.
  assert ((r =? 0)%nat = false) as -> by lia. assert ((c =? 0)%nat = false) as -> by lia.
  rewrite (Resize_mem al _ r c Hr Hc Hm), A. reflexivity.
Qed.

Lemma no_data_core stack L ep r c : core stack None ws_init L ep r c = (blank r c, UB NullDeref).
Proof.
  unfold core, prepared. change (leftTop ws_init) with (mkcoord 0 0). change (rightBot ws_init) with (mkcoord 0 0).
  cbn [cx cy]. unfold CalcDelta. change (sub32 0 0) with (@Ok Z 0). cbn [bind]. change (dz (Z.abs 0)) with (dz 0).
  assert (N : forall n, dgt (dz 0) (ddiv (dz 0) (dz n)) = false).
  { intros n. generalize (dz n). intros y. destruct y as [s|s| |s m e B]; try destruct s; reflexivity. }
  rewrite !N. reflexivity.
Qed.

Lemma no_data_process v al stack g r c s : (s = Fresh \/ s = Dead) -> agrees s g -> (0 < r)%nat -> (0 < c)%nat -> memory_ok al r c ->
  snd (Process (Some v) al stack g r c) = UB NullDeref.
Proof.
  intros Hs A Hr Hc Hm. pose proof (agrees_frags _ _ A) as Hf.
  pose proof (Process_core (Some v) al stack g r c Hr Hc Hm Hf ltac:(intros _; eauto)) as P. cbv zeta in P.
  assert (D : gen_data g = None /\ gen_coords g = ws_init).
  { destruct A as (_ & A). destruct Hs as [-> | ->]; destruct A as (A1 & A2 & _); auto. }
  destruct D as (D1 & D2). rewrite D1, D2, no_data_core in P. injection P as _ P. exact P.
Qed.

(** * The matrix *)
Lemma prepared_zond w r c z : prepared w (dlit 1 (10 ^ 13)) r c = Ok z -> process_zond w r c z.
Proof.
  unfold prepared, process_zond.
  destruct (CalcDelta (cx (leftTop w)) _ _) as [x|e|u]; cbn [bind]; try discriminate.
  destruct (CalcDelta (cy (leftTop w)) _ _) as [y|e|u]; cbn [bind]; try discriminate.
  match goal with |- context [if ?t then _ else _] => destruct t end; [discriminate|].
  intros [= <-]. repeat split.
Qed.

Lemma zond_eq z z' : boundIndicies z = boundIndicies z' -> angleCoords z = angleCoords z' -> dx z = dx z' -> dy z = dy z' ->
  eps z = eps z' -> z = z'.
Proof. destruct z, z'; cbn. congruence. Qed.

Lemma process_zond_unique w r c z z' : process_zond w r c z -> process_zond w r c z' -> z = z'.
Proof.
  intros (A1 & A2 & A3 & A4 & A5) (B1 & B2 & B3 & B4 & B5).
  apply zond_eq; congruence.
Qed.

Lemma core_true stack d w L ep r c m : core stack d w L ep r c = (m, Ok true) <->
  exists z l1 l2 ss, prepared w ep r c = Ok z /\ InitGeometryItems stack d w L ([], []) = Ok (l1, l2) /\
    all_add z (l1 ++ l2) ss /\ zond_all z (l1 ++ l2) (blank r c) = (m, Ok tt).
Proof.
  unfold core. split.
  - destruct (prepared w ep r c) as [z|e|u]; try discriminate.
    destruct (InitGeometryItems stack d w L ([], [])) as [[l1 l2]|e|u]; try discriminate.
    intros H. exists z, l1, l2. destruct (zond_all_cases z (l1 ++ l2)) as [(ss & Hss)|(g & sel & o & _ & _ & Ho & sel' & Hz)].
    + exists ss. repeat split; auto. destruct (zond_all z (l1 ++ l2) (blank r c)) as [b [[]|e|u]]; try discriminate.
      injection H as <-. reflexivity.
    + exfalso. destruct (Hz _ _ (shows_new r c)) as (m' & E & _). fold (blank r c) in E. rewrite E in H.
      destruct o as [[]|e|u]; try discriminate. congruence.
  - intros (z & l1 & l2 & ss & -> & -> & _ & ->). reflexivity.
Qed.

Lemma sets_adds z r c s sel : adds (ZondGeometry z (Some s)) sel (Ok tt) ->
  forall i j, (i < r)%nat -> (j < c)%nat -> (sets z r c s i j <-> sel (Z.of_nat i) (Z.of_nat j) = true).
Proof.
  intros H i j Hi Hj. split.
  - intros (m & m' & S & E & G). destruct (H m _ S) as (m2 & E2 & S2). rewrite E in E2. injection E2 as <-.
    destruct (shows_elim _ _ S2) as (Hh & H1 & H2 & H3). cbn in H1, H2.
    rewrite Get_raw in G by (try exact Hh; lia). injection G as G.
    rewrite H3 in G by (cbn; lia). cbn in G. exact G.
  - intros E. destruct (H _ _ (shows_new r c)) as (m' & Em & S'). exists (blank r c), m'.
    split; [apply shows_new|]. split; [exact Em|].
    destruct (shows_elim _ _ S') as (Hh & H1 & H2 & H3). cbn in H1, H2.
    rewrite Get_raw by (try exact Hh; lia). rewrite H3 by (cbn; lia). cbn. rewrite E. reflexivity.
Qed.

Lemma all_add_each z gs ss g : all_add z gs ss -> In g gs -> exists sel, adds (ZondGeometry z (Some g)) sel (Ok tt) /\ In sel ss.
Proof.
  induction 1 as [|h t s ss' Ha Ht IH]; intros Hin; [destruct Hin|].
  destruct Hin as [->|Hin]; [exists s; cbn; auto|]. destruct (IH Hin) as (sel & H1 & H2). exists sel. cbn; auto.
Qed.

Lemma adds_unique act s s' o : adds act s o -> adds act s' o ->
  forall i j, 0 <= i -> 0 <= j -> s i j = s' i j.
Proof.
  intros H H' i j Hi Hj.
  set (r := S (Z.to_nat i)). set (c := S (Z.to_nat j)).
  destruct (H _ _ (shows_new r c)) as (m & E & S1). destruct (H' _ _ (shows_new r c)) as (m' & E' & S2).
  rewrite E in E'. injection E' as <-.
  destruct (shows_elim _ _ S1) as (_ & _ & _ & R1). destruct (shows_elim _ _ S2) as (_ & _ & _ & R2).
  specialize (R1 (Z.to_nat i) (Z.to_nat j)). specialize (R2 (Z.to_nat i) (Z.to_nat j)).
  cbn [adraw azero arows acols acell orb] in R1, R2.
  rewrite R1 in R2 by (unfold r, c; lia). specialize (R2 ltac:(unfold r, c; lia) ltac:(unfold r, c; lia)).
  rewrite !Z2Nat.id in R2 by lia. exact R2.
Qed.

Lemma core_cells stack heap libs w L r c m items : candidates L libs items ->
  core stack (Some (mklayout heap libs)) w L (dlit 1 (10 ^ 13)) r c = (m, Ok true) ->
  exists z, process_zond w r c z /\
    (forall s, (exists item, In (Some item) items /\ to_draw heap w item s) ->
       exists sel, adds (ZondGeometry z (Some s)) sel (Ok tt)) /\
    exists sel, shows m (adraw (azero r c) sel) /\
      forall i j, (i < r)%nat -> (j < c)%nat ->
        (sel (Z.of_nat i) (Z.of_nat j) = true <-> exists item s, In (Some item) items /\ to_draw heap w item s /\ sets z r c s i j).
Proof.
  intros Hc H. apply candidates_items in Hc. apply core_true in H.
  destruct H as (z & l1 & l2 & ss & Hp & Hi & Ha & Hz). rewrite InitItems, <- Hc, PG_blank in Hi.
  pose proof (gather_draw _ _ _ _ _ _ Hi) as D.
  exists z. split; [apply prepared_zond, Hp|]. split.
  - intros s Hs. apply D in Hs. destruct (all_add_each z _ _ s Ha Hs) as (sel & H1 & _). eauto.
  - exists (union ss). split.
    + destruct (zond_all_ok z _ _ Ha _ _ (shows_new r c)) as (m' & E & S). fold (blank r c) in E. rewrite Hz in E. injection E as <-. exact S.
    + intros i j Hir Hjc. rewrite (all_add_in z _ _ Ha). split.
      * intros (s & sel & Hin & Hs & E & _). apply D in Hin. destruct Hin as (item & Hit & T).
        exists item, s. split; [exact Hit|]. split; [exact T|]. apply (sets_adds z r c s sel Hs i j Hir Hjc). exact E.
      * intros (item & s & Hit & T & St). assert (Hin : In s (l1 ++ l2)) by (apply D; eauto).
        destruct (all_add_each z _ _ s Ha Hin) as (sel & H1 & H2). exists s, sel. split; [exact Hin|]. split; [exact H1|].
        split; [|exact H2]. apply (sets_adds z r c s sel H1 i j Hir Hjc). exact St.
Qed.

Lemma core_perm stack heap libs libs' w L ep r c m items items' :
  candidates L libs items -> candidates L libs' items' -> Permutation items items' ->
  core stack (Some (mklayout heap libs)) w L ep r c = (m, Ok true) ->
  exists m', core stack (Some (mklayout heap libs')) w L ep r c = (m', Ok true) /\ same_matrix m m'.
Proof.
  intros Hc Hc' P H. apply candidates_items in Hc. apply candidates_items in Hc'. apply core_true in H.
  destruct H as (z & l1 & l2 & ss & Hp & Hi & Ha & Hz). rewrite InitItems, <- Hc, PG_blank in Hi.
  destruct (gather_perm _ _ _ _ _ P _ _ Hi) as (k1 & k2 & Hg & P1 & P2).
  destruct (all_add_perm z _ (k1 ++ k2) ss (Permutation_app P1 P2) Ha) as (ss' & Ha' & Ps).
  destruct (zond_all_ok z _ _ Ha _ _ (shows_new r c)) as (m1 & E1 & S1). fold (blank r c) in E1. rewrite Hz in E1. injection E1 as <-.
  destruct (zond_all_ok z _ _ Ha' _ _ (shows_new r c)) as (m2 & E2 & S2). fold (blank r c) in E2.
  exists m2. split.
  - apply core_true. exists z, k1, k2, ss'. rewrite InitItems, <- Hc', PG_blank. auto.
  - exists (adraw (azero r c) (union ss)). split; [exact S1|]. eapply shows_ext; [exact S2|].
    repeat split. cbn. intros i j _ _. symmetry. apply union_perm, Ps.
Qed.

(** * Equal settings, equal results *)
Lemma selected_same L L' n : same_set L L' -> selected L n = selected L' n.
Proof. intros H. apply eq_true_iff_eq. rewrite !selected_In. apply H. Qed.

Lemma first_layer_same L L' ls : same_set L L' -> first_layer L ls = first_layer L' ls.
Proof.
  intros H. induction ls as [|a t IH]; cbn [first_layer]; [reflexivity|].
  rewrite (selected_same L L' _ H), IH. reflexivity.
Qed.

Lemma items_same L L' libs : same_set L L' -> items_of L libs = items_of L' libs.
Proof.
  intros H. induction libs as [|lib t IH]; cbn [items_of]; [reflexivity|].
  rewrite (first_layer_same L L' _ H), IH. reflexivity.
Qed.

Lemma items_first L libs libs' : Forall2 (same_first L) libs libs' -> items_of L libs = items_of L libs'.
Proof.
  induction 1 as [|a b t t' H F IH]; cbn [items_of]; [reflexivity|].
  destruct H as [(l & H1 & H2)|(H1 & H2)].
  - rewrite (proj2 (first_layer_some _ _ _) H1), (proj2 (first_layer_some _ _ _) H2), IH. reflexivity.
  - rewrite (proj2 (first_layer_none _ _) H1), (proj2 (first_layer_none _ _) H2), IH. reflexivity.
Qed.

Lemma core_items stack heap libs libs' w L L' ep r c : items_of L libs = items_of L' libs' ->
  core stack (Some (mklayout heap libs)) w L ep r c = core stack (Some (mklayout heap libs')) w L' ep r c.
Proof. intros E. unfold core. rewrite !InitItems, E. reflexivity. Qed.
