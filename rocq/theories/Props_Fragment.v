(** C88: fragments. *)
From Coq Require Import Reals Lra Lia.
From Flocq Require Import Core IEEE754.BinarySingleNaN.
From Verif Require Import Prelude P_Prelude M_Double S_Double P_Double M_LayoutData M_Zond P_Zond M_Generator S_Generator P_Generator S_Fragment.
Local Open Scope Z_scope.

Lemma fhistory_app f a b : fhistory f (a ++ b) = match fhistory f a with Some f' => fhistory f' b | None => None end.
Proof.
  revert f. induction a as [|c t IH]; intros f; cbn [app fhistory]; [reflexivity|]. destruct (fstep f c); [apply IH|reflexivity].
Qed.

Lemma process_keeps f f' : F_Process f = Ok f' -> f_layoutMatrix f' = f_layoutMatrix f /\ f_angleCoords f' = f_angleCoords f.
Proof.
  unfold F_Process. destruct (negb (f_layoutMatrix f)); [discriminate|].
  destruct (CalcDelta _ _ _) as [x|e|u]; cbn [bind]; [|discriminate|discriminate].
  destruct (CalcDelta _ _ _) as [y|e|u]; cbn [bind]; [|discriminate|discriminate].
  destruct (SetDeltas _ _ _) as [z|e|u]; cbn [bind]; [|discriminate|discriminate]. intros [= <-]. split; reflexivity.
Qed.

Lemma step_matrix f c f' : fstep f c = Some f' ->
  f_layoutMatrix f' = match c with FSetMatrix true => true | FReset => false | _ => f_layoutMatrix f end.
Proof.
  destruct c as [[|]|w|a b d e| |]; cbn [fstep F_SetMatrix negb]; intros H.
  - injection H as <-. reflexivity.
  - injection H as <-. reflexivity.
  - injection H as <-. reflexivity.
  - injection H as <-. reflexivity.
  - destruct (F_Process f) as [g|e|u] eqn:E; [|injection H as <-; reflexivity|discriminate H]. injection H as <-. apply (process_keeps f g E).
  - injection H as <-. reflexivity.
Qed.

Lemma step_ws f c f' : fstep f c = Some f' ->
  f_angleCoords f' = match c with FSetWorkspaceCoords w => w | FReset => ws_init | _ => f_angleCoords f end.
Proof.
  destruct c as [[|]|w|a b d e| |]; cbn [fstep F_SetMatrix negb]; intros H.
  - injection H as <-. reflexivity.
  - injection H as <-. reflexivity.
  - injection H as <-. reflexivity.
  - injection H as <-. reflexivity.
  - destruct (F_Process f) as [g|e|u] eqn:E; [|injection H as <-; reflexivity|discriminate H]. injection H as <-. apply (process_keeps f g E).
  - injection H as <-. reflexivity.
Qed.

Lemma in_last {A} (x c : A) b : ~ In x b -> x <> c -> ~ In x (b ++ [c]).
Proof. intros H N Q. apply in_app_iff in Q. destruct Q as [Q|[Q|[]]]; [exact (H Q)|congruence]. Qed.

Lemma history_matrix calls : forall f, fhistory fragment_new calls = Some f -> (f_layoutMatrix f = true <-> matrix_set calls).
Proof.
  induction calls as [|c calls IH] using rev_ind; intros f H.
  - injection H as <-. split; [discriminate|]. intros (a & b & E & _). destruct a; discriminate E.
  - rewrite fhistory_app in H. destruct (fhistory fragment_new calls) as [f0|] eqn:E; [|discriminate H]. specialize (IH f0 eq_refl).
    cbn [fhistory] in H. destruct (fstep f0 c) as [f1|] eqn:S; [|discriminate H]. injection H as <-. rewrite (step_matrix f0 c f1 S).
    assert (K : matrix_set (calls ++ [c]) <-> (c = FSetMatrix true \/ (c <> FReset /\ matrix_set calls))).
    { split.
      - intros (a & b & Q & N). destruct b as [|x b _] using rev_ind.
        + apply app_inj_tail in Q. left. apply Q.
        + rewrite app_comm_cons, app_assoc in Q. apply app_inj_tail in Q. destruct Q as (-> & ->). right. split.
          * intros ->. apply N, in_app_iff. right. left. reflexivity.
          * exists a, b. split; [reflexivity|]. intros Q. apply N, in_app_iff. left. exact Q.
      - intros [->|(N & a & b & -> & Nb)].
        + exists calls, []. split; [reflexivity|intros []].
        + exists a, (b ++ [c]). split; [rewrite <- app_assoc; reflexivity|]. apply in_last; [exact Nb|congruence]. }
    rewrite K. clear K.
    destruct c as [[|]|w|a b d e| |]; first
      [ split; [intros _; left; reflexivity|intros _; reflexivity]
      | rewrite IH; split; [intros Q; right; split; [discriminate|exact Q]|intros [Q|(_ & Q)]; [discriminate Q|exact Q]]
      | split; [discriminate|intros [Q|(Q & _)]; [discriminate Q|congruence]] ].
Qed.

Lemma ws_last calls c w : workspace_set (calls ++ [c]) w <->
  c = FSetWorkspaceCoords w \/ (c = FReset /\ w = ws_init) \/
  (c <> FReset /\ (forall w', c <> FSetWorkspaceCoords w') /\ workspace_set calls w).
Proof.
  split.
  - intros [(a & b & E & R & W)|(-> & H)].
    + destruct b as [|x b _] using rev_ind.
      * apply app_inj_tail in E. left. apply E.
      * rewrite app_comm_cons, app_assoc in E. apply app_inj_tail in E. destruct E as (-> & ->). right. right.
        split; [intros ->; apply R, in_app_iff; right; left; reflexivity|].
        split; [intros w' ->; apply (W w'), in_app_iff; right; left; reflexivity|].
        left. exists a, b. split; [reflexivity|]. split; [intros Q; apply R, in_app_iff; left; exact Q|].
        intros w' Q. apply (W w'), in_app_iff. left. exact Q.
    + assert (D : c = FReset \/ c <> FReset) by (destruct c; first [left; reflexivity | right; discriminate]).
      destruct D as [->|D]; [right; left; split; reflexivity|]. right. right. split; [exact D|]. destruct H as [W|(a & b & E & W)].
      * split; [intros w' ->; apply (W w'), in_app_iff; right; left; reflexivity|]. right. split; [reflexivity|].
        left. intros w' Q. apply (W w'), in_app_iff. left. exact Q.
      * destruct b as [|x b _] using rev_ind.
        { apply app_inj_tail in E. exfalso. apply D. apply E. }
        rewrite app_comm_cons, app_assoc in E. apply app_inj_tail in E. destruct E as (-> & ->).
        split; [intros w' ->; apply (W w'), in_app_iff; right; left; reflexivity|].
        right. split; [reflexivity|]. right. exists a, b. split; [reflexivity|]. intros w' Q. apply (W w'), in_app_iff. left. exact Q.
  - intros [->|[(-> & ->)|(N1 & N2 & [(a & b & -> & R & W)|(-> & [W|(a & b & -> & W)])])]].
    + left. exists calls, []. split; [reflexivity|]. split; [intros []|intros w' []].
    + right. split; [reflexivity|]. right. exists calls, []. split; [reflexivity|intros w' []].
    + left. exists a, (b ++ [c]). split; [rewrite <- app_assoc; reflexivity|]. split; [apply in_last; [exact R|congruence]|].
      intros w'. apply in_last; [apply W|intros Q; exact (N2 w' (eq_sym Q))].
    + right. split; [reflexivity|]. left. intros w'. apply in_last; [apply W|intros Q; exact (N2 w' (eq_sym Q))].
    + right. split; [reflexivity|]. right. exists a, (b ++ [c]). split; [rewrite <- app_assoc; reflexivity|].
      intros w'. apply in_last; [apply W|intros Q; exact (N2 w' (eq_sym Q))].
Qed.

Lemma history_ws calls : forall f w, fhistory fragment_new calls = Some f -> workspace_set calls w -> w = f_angleCoords f.
Proof.
  induction calls as [|c calls IH] using rev_ind; intros f w H W.
  - injection H as <-. destruct W as [(a & b & E & _)|(-> & _)]; [destruct a; discriminate E|reflexivity].
  - rewrite fhistory_app in H. destruct (fhistory fragment_new calls) as [f0|] eqn:E; [|discriminate H].
    cbn [fhistory] in H. destruct (fstep f0 c) as [f1|] eqn:S; [|discriminate H]. injection H as <-. rewrite (step_ws f0 c f1 S).
    apply ws_last in W. destruct W as [->|[(-> & ->)|(N1 & N2 & W)]]; [reflexivity|reflexivity|].
    pose proof (IH f0 w eq_refl W) as Q. destruct c as [[|]|w'|a b d e| |]; try exact Q; [exfalso; exact (N2 w' eq_refl)|congruence].
Qed.

(** A quotient of non-negative numbers is not below zero, whatever the divisor. *)
Lemma delta_nonneg a n : 0 <= a <= 2 ^ 53 -> 0 <= n <= 2 ^ 53 -> dgt (dz 0) (ddiv (dz a) (dz n)) = false.
Proof.
  intros Ha Hn. assert (Ra : real (dz a) (IZR a)) by (apply dz_exact; lia). assert (Rn : real (dz n) (IZR n)) by (apply dz_exact; lia).
  assert (R0 : real (dz 0) 0) by (apply dz_exact; lia).
  destruct (Z.eq_dec n 0) as [->|N].
  - destruct (Z.eq_dec a 0) as [->|Na]; [reflexivity|].
    destruct Ra as (F & V). destruct (dz a) as [s|s| |s m e B]; [destruct s; reflexivity|discriminate F|discriminate F|].
    destruct s; [|reflexivity]. exfalso.
    assert (P : (0 < IZR a)%R) by (apply IZR_lt; lia). rewrite <- V in P. unfold BinarySingleNaN.B2R in P.
    pose proof (Float_prop.F2R_lt_0 Zaux.radix2 (Defs.Float Zaux.radix2 (Zaux.cond_Zopp true (Z.pos m)) e) ltac:(reflexivity)). lra.
  - assert (Pn : (1 <= IZR n)%R) by (apply IZR_le; lia). assert (Pa : (0 <= IZR a <= IZR (2 ^ 53))%R) by (split; apply IZR_le; lia).
    assert (Q : (0 <= IZR a / IZR n <= IZR (2 ^ 53))%R).
    { split; [apply Rmult_le_pos; [lra|left; apply Rinv_0_lt_compat; lra]|].
      apply Rmult_le_reg_r with (IZR n); [lra|]. unfold Rdiv. rewrite Rmult_assoc, Rinv_l, Rmult_1_r by lra. nra. }
    assert (D : real (ddiv (dz a) (dz n)) (rnd (IZR a / IZR n))).
    { apply nearest_real, ddiv_ok; [exact Ra|exact Rn|lra|]. rewrite Rabs_pos_eq by lra.
      assert (IZR (2 ^ 53) <= IZR (2 ^ 64))%R by (apply IZR_le; lia). lra. }
    rewrite (dgt_ok _ _ _ _ R0 D). apply Raux.Rlt_bool_false. rewrite <- rnd_0. apply rnd_le. lra.
Qed.

(** ** C88 *)
(** What is in force after a history is well defined. *)
Theorem C88_settings : forall calls,
  (exists w, workspace_set calls w) /\ (forall w w', workspace_set calls w -> workspace_set calls w' -> w = w').
Proof.
  intros calls. split.
  - induction calls as [|c calls (w & IH)] using rev_ind.
    + exists ws_init. right. split; [reflexivity|]. left. intros w' [].
    + destruct c as [b|w0|a b d e| |]; first
        [ exists w; apply ws_last; right; right; split; [discriminate|split; [discriminate|exact IH]]
        | exists w0; apply ws_last; left; reflexivity
        | exists ws_init; apply ws_last; right; left; split; reflexivity ].
  - intros w w'. revert w w'. induction calls as [|c calls IH] using rev_ind; intros w w' H H'.
    + destruct H as [(a & b & E & _)|(-> & _)]; [destruct a; discriminate E|].
      destruct H' as [(a & b & E & _)|(-> & _)]; [destruct a; discriminate E|]. reflexivity.
    + apply ws_last in H. apply ws_last in H'.
      destruct H as [->|[(-> & ->)|(N1 & N2 & H)]]; destruct H' as [E|[(E & ->)|(N1' & N2' & H')]]; first [ congruence | exfalso; exact (N2' _ eq_refl) | exfalso; exact (N2 _ E) | exact (IH w w' H H') ].
Qed.

(** After any history of calls: SetMatrix throws exactly for a null pointer; Process throws
    when no matrix is set; when one is set it is undefined behaviour if a side of the workspace
    does not fit in 32 bits, and otherwise returns. *)
Theorem C88_outcomes : forall calls f w, fhistory fragment_new calls = Some f -> workspace_set calls w ->
  let sides_fit := int32 (cx (rightBot w) - cx (leftTop w)) /\ int32 (cy (rightBot w) - cy (leftTop w)) in
  F_SetMatrix f false = Throw InvalidArgument /\ (exists f', F_SetMatrix f true = Ok f') /\
  (~ matrix_set calls -> F_Process f = Throw RuntimeError) /\
  (matrix_set calls -> sides_fit -> exists f', F_Process f = Ok f') /\
  (matrix_set calls -> ~ sides_fit -> F_Process f = UB SignedOverflow).
Proof.
  intros calls f w H W sf. pose proof (history_matrix calls f H) as HM. pose proof (history_ws calls f w H W) as HW.
  split; [reflexivity|]. split; [eexists; reflexivity|]. split.
  { intros N. unfold F_Process. destruct (f_layoutMatrix f) eqn:E; [exfalso; apply N, HM; reflexivity|reflexivity]. }
  assert (C : forall a b n, int32 (b - a) -> exists x, CalcDelta a b n = Ok x /\ dgt (dz 0) x = false).
  { intros a b n Q. unfold CalcDelta. rewrite (sub32_ok b a Q). cbn [bind]. eexists. split; [reflexivity|].
    unfold int32 in Q. apply delta_nonneg; [lia|]. pose proof (Z.mod_pos_bound n (2 ^ 32) ltac:(lia)). lia. }
  assert (U : forall a b n, ~ int32 (b - a) -> CalcDelta a b n = UB SignedOverflow).
  { intros a b n Q. unfold CalcDelta, sub32, chk32. destruct (Z.leb_spec (- 2 ^ 31) (b - a)) as [Q1|Q1]; [|reflexivity].
    destruct (Z.ltb_spec (b - a) (2 ^ 31)) as [Q2|Q2]; [|reflexivity]. exfalso. apply Q. unfold int32. lia. }
  split; intros MS SF; apply HM in MS; unfold F_Process; rewrite MS; cbn [negb]; cbv zeta; rewrite <- HW.
  - destruct SF as (S1 & S2).
    destruct (C (cx (leftTop w)) (cx (rightBot w)) (to_size (jEnd (f_boundIndicies f) - jBegin (f_boundIndicies f) + 1)) S1) as (x & -> & Px).
    destruct (C (cy (leftTop w)) (cy (rightBot w)) (to_size (iEnd (f_boundIndicies f) - iBegin (f_boundIndicies f) + 1)) S2) as (y & -> & Py).
    cbn [bind]. unfold SetDeltas. rewrite Px, Py. cbn [orb bind]. eexists. reflexivity.
  - destruct (Z_le_gt_dec (- 2 ^ 31) (cx (rightBot w) - cx (leftTop w))) as [A1|A1];
      [destruct (Z_lt_ge_dec (cx (rightBot w) - cx (leftTop w)) (2 ^ 31)) as [A2|A2]|].
    + destruct (C (cx (leftTop w)) (cx (rightBot w)) (to_size (jEnd (f_boundIndicies f) - jBegin (f_boundIndicies f) + 1)) (conj A1 A2)) as (x & -> & _).
      cbn [bind]. rewrite U; [reflexivity|]. intros Q. apply SF. split; [exact (conj A1 A2)|exact Q].
    + rewrite U; [reflexivity|]. unfold int32. lia.
    + rewrite U; [reflexivity|]. unfold int32. lia.
Qed.

(** GeometryWorkspaceIntersection is false for a null pointer, and otherwise says whether the
    bounding box of the object and the workspace in force have a point in common. *)
Theorem C88_intersection : forall calls f w g, fhistory fragment_new calls = Some f -> workspace_set calls w ->
  Intersects (f_angleCoords f) None = false /\
  (proper w -> cx (g_min g) <= cx (g_max g) -> cy (g_min g) <= cy (g_max g) ->
    (Intersects (f_angleCoords f) (Some g) = true <-> touches w (g_min g) (g_max g))).
Proof.
  intros calls f w g H W. split; [reflexivity|]. intros (P1 & P2) G1 G2. rewrite <- (history_ws calls f w H W).
  rewrite Intersects_overlaps. unfold overlaps, touches. split.
  - intros (A & B & C & D). exists (Z.max (cx (g_min g)) (cx (leftTop w))), (Z.max (cy (g_min g)) (cy (rightBot w))). lia.
  - intros (x & y & A). lia.
Qed.

Lemma process_zond f f' : F_Process f = Ok f' ->
  f_boundIndicies f' = f_boundIndicies f /\ angleCoords (f_zond f') = angleCoords (f_zond f) /\ boundIndicies (f_zond f') = boundIndicies (f_zond f) /\ eps (f_zond f') = eps (f_zond f).
Proof.
  unfold F_Process. destruct (negb (f_layoutMatrix f)); [discriminate|].
  destruct (CalcDelta _ _ _) as [x|e|u]; cbn [bind]; [|discriminate|discriminate].
  destruct (CalcDelta _ _ _) as [y|e|u]; cbn [bind]; [|discriminate|discriminate].
  unfold SetDeltas. destruct (_ || _); cbn [bind]; [discriminate|]. intros [= <-]. repeat split; reflexivity.
Qed.

Lemma step_zond f c f' : fstep f c = Some f' ->
  angleCoords (f_zond f') = match c with FSetWorkspaceCoords w => w | _ => angleCoords (f_zond f) end /\
  boundIndicies (f_zond f') = match c with FSetIndicies a b d e => mkind a d b e | _ => boundIndicies (f_zond f) end /\
  f_boundIndicies f' = match c with FSetIndicies a b d e => mkind a d b e | _ => f_boundIndicies f end /\
  eps (f_zond f') = eps (f_zond f).
Proof.
  destruct c as [[|]|w|a b d e| |]; cbn [fstep F_SetMatrix negb]; intros H.
  - injection H as <-. repeat split; reflexivity.
  - injection H as <-. repeat split; reflexivity.
  - injection H as <-. repeat split; reflexivity.
  - injection H as <-. repeat split; reflexivity.
  - destruct (F_Process f) as [g|e|u] eqn:E; [|injection H as <-; repeat split; reflexivity|discriminate H]. injection H as <-.
    destruct (process_zond f g E) as (A & B & C & D). repeat split; assumption.
  - injection H as <-. repeat split; reflexivity.
Qed.

(** A fragment's zond has the workspace and the indices that were set last (Reset does not
    touch it), and a successful Process gives it the cell sizes: the sides of the workspace in
    force, divided by the numbers of columns and rows of the indices. *)
Theorem C88_zond : forall calls f w iB jB iE jE, fhistory fragment_new calls = Some f ->
  last_workspace calls w -> last_indices calls iB jB iE jE ->
  angleCoords (f_zond f) = w /\ boundIndicies (f_zond f) = mkind iB iE jB jE /\ eps (f_zond f) = dz 0 /\
  forall w' f', workspace_set calls w' -> F_Process f = Ok f' -> 0 <= iB <= iE -> iE < 2 ^ 31 -> 0 <= jB <= jE -> jE < 2 ^ 31 ->
    nearest (dx (f_zond f')) (IZR (Z.abs (cx (rightBot w') - cx (leftTop w'))) / IZR (jE - jB + 1)) /\
    nearest (dy (f_zond f')) (IZR (Z.abs (cy (rightBot w') - cy (leftTop w'))) / IZR (iE - iB + 1)).
Proof.
  intros calls f w iB jB iE jE H W I.
  assert (K : angleCoords (f_zond f) = w /\ boundIndicies (f_zond f) = mkind iB iE jB jE /\ f_boundIndicies f = mkind iB iE jB jE /\ eps (f_zond f) = dz 0).
  { revert f w iB jB iE jE H W I. induction calls as [|c calls IH] using rev_ind; intros f w iB jB iE jE H W I.
    - injection H as <-. destruct W as [(a & b & E & _)|(-> & _)]; [destruct a; discriminate E|].
      destruct I as [(a & b & E & _)|((-> & -> & -> & ->) & _)]; [destruct a; discriminate E|]. repeat split; reflexivity.
    - rewrite fhistory_app in H. destruct (fhistory fragment_new calls) as [f0|] eqn:E; [|discriminate H].
      cbn [fhistory] in H. destruct (fstep f0 c) as [f1|] eqn:S; [|discriminate H]. injection H as <-.
      destruct (step_zond f0 c f1 S) as (S1 & S2 & S3 & S4). rewrite S1, S2, S3, S4.
      assert (KW : c = FSetWorkspaceCoords w \/ ((forall w', c <> FSetWorkspaceCoords w') /\ last_workspace calls w)).
      { destruct W as [(a & b & Q & N)|(-> & N)].
        - destruct b as [|x b _] using rev_ind.
          + apply app_inj_tail in Q. left. apply Q.
          + rewrite app_comm_cons, app_assoc in Q. apply app_inj_tail in Q. destruct Q as (-> & ->). right.
            split; [intros w' ->; apply (N w'), in_app_iff; right; left; reflexivity|]. left. exists a, b. split; [reflexivity|].
            intros w' Q. apply (N w'), in_app_iff. left. exact Q.
        - right. split; [intros w' ->; apply (N w'), in_app_iff; right; left; reflexivity|]. right. split; [reflexivity|].
          intros w' Q. apply (N w'), in_app_iff. left. exact Q. }
      assert (KI : c = FSetIndicies iB jB iE jE \/ ((forall x y z t, c <> FSetIndicies x y z t) /\ last_indices calls iB jB iE jE)).
      { destruct I as [(a & b & Q & N)|(Z0 & N)].
        - destruct b as [|x b _] using rev_ind.
          + apply app_inj_tail in Q. left. apply Q.
          + rewrite app_comm_cons, app_assoc in Q. apply app_inj_tail in Q. destruct Q as (-> & ->). right.
            split; [intros x1 y1 z1 t1 ->; apply (N x1 y1 z1 t1), in_app_iff; right; left; reflexivity|]. left. exists a, b. split; [reflexivity|].
            intros x1 y1 z1 t1 Q. apply (N x1 y1 z1 t1), in_app_iff. left. exact Q.
        - right. split; [intros x1 y1 z1 t1 ->; apply (N x1 y1 z1 t1), in_app_iff; right; left; reflexivity|]. right. split; [assumption|].
          intros x1 y1 z1 t1 Q. apply (N x1 y1 z1 t1), in_app_iff. left. exact Q. }
      assert (exists w0, last_workspace calls w0) as (w0 & W0).
      { clear. induction calls as [|c calls (w & IH)]; [exists ws_init; right; split; [reflexivity|intros w' []]|].
        destruct IH as [(a & b & -> & N)|(-> & N)]; [exists w; left; exists (c :: a), b; split; [reflexivity|exact N]|].
        destruct c as [x|w1|x y z t| |]; first
          [ exists w1; left; exists [], calls; split; [reflexivity|exact N]
          | exists ws_init; right; split; [reflexivity|]; intros w' [Q|Q]; [discriminate Q|exact (N w' Q)] ]. }
      assert (exists a b d e, last_indices calls a b d e) as (i1 & i2 & i3 & i4 & I0).
      { clear. induction calls as [|c calls (i1 & i2 & i3 & i4 & IH)]; [exists 0, 0, 0, 0; right; split; [repeat split; reflexivity|intros ? ? ? ? []]|].
        destruct IH as [(a & b & -> & N)|((-> & -> & -> & ->) & N)]; [exists i1, i2, i3, i4; left; exists (c :: a), b; split; [reflexivity|exact N]|].
        destruct c as [x|w1|x y z t| |]; first
          [ exists x, y, z, t; left; exists [], calls; split; [reflexivity|exact N]
          | exists 0, 0, 0, 0; right; split; [repeat split; reflexivity|]; intros a b d e [Q|Q]; [discriminate Q|exact (N a b d e Q)] ]. }
      destruct (IH f0 w0 i1 i2 i3 i4 eq_refl W0 I0) as (R1 & R2 & R3 & R4).
      split; [|split; [|split]]; [| | |exact R4].
      + destruct KW as [->|(N & W')]; [reflexivity|].
        destruct (IH f0 w i1 i2 i3 i4 eq_refl W' I0) as (Q & _). destruct c as [x|w1|x y z t| |]; try exact Q. exfalso. exact (N w1 eq_refl).
      + destruct KI as [->|(N & I')]; [reflexivity|].
        destruct (IH f0 w0 iB jB iE jE eq_refl W0 I') as (_ & Q & _). destruct c as [x|w1|x y z t| |]; try exact Q. exfalso. exact (N x y z t eq_refl).
      + destruct KI as [->|(N & I')]; [reflexivity|].
        destruct (IH f0 w0 iB jB iE jE eq_refl W0 I') as (_ & _ & Q & _). destruct c as [x|w1|x y z t| |]; try exact Q. exfalso. exact (N x y z t eq_refl). }
  destruct K as (K1 & K2 & K3 & K4). split; [exact K1|]. split; [exact K2|]. split; [exact K4|].
  intros w' f' W' E R1 R2 R3 R4. pose proof (history_ws calls f w' H W') as ->. unfold F_Process in E.
  destruct (negb (f_layoutMatrix f)); [discriminate E|]. cbv zeta in E. rewrite K3 in E. cbn [iBegin iEnd jBegin jEnd] in E.
  assert (D : forall a b n x, CalcDelta a b n = Ok x -> 0 < n <= 2 ^ 31 -> nearest x (IZR (Z.abs (b - a)) / IZR n)).
  { intros a b n x. unfold CalcDelta, sub32, chk32. destruct ((_ <=? _) && (_ <? _)) eqn:Q; cbn [bind]; [|discriminate]. intros [= <-] Hn.
    apply andb_true_iff in Q. destruct Q as (Q1 & Q2). apply Z.leb_le in Q1. apply Z.ltb_lt in Q2. rewrite Z.mod_small by lia.
    assert (P1 : (1 <= IZR n)%R) by (apply IZR_le; lia). assert (P2 : (0 <= IZR (Z.abs (b - a)) <= IZR (2 ^ 64))%R) by (split; apply IZR_le; lia).
    apply ddiv_ok; [apply dz_exact; lia|apply dz_exact; lia|lra|]. rewrite Rabs_pos_eq by (apply Rmult_le_pos; [lra|left; apply Rinv_0_lt_compat; lra]).
    apply Rmult_le_reg_r with (IZR n); [lra|]. unfold Rdiv. rewrite Rmult_assoc, Rinv_l, Rmult_1_r by lra. nra. }
  destruct (CalcDelta (cx (leftTop (f_angleCoords f))) _ _) as [x|e|u] eqn:EX; cbn [bind] in E; [|discriminate E|discriminate E].
  destruct (CalcDelta (cy (leftTop (f_angleCoords f))) _ _) as [y|e|u] eqn:EY; cbn [bind] in E; [|discriminate E|discriminate E].
  unfold SetDeltas in E. destruct (_ || _); cbn [bind] in E; [discriminate E|]. injection E as <-. cbn [f_zond dx dy].
  unfold to_size in EX, EY. rewrite Z.mod_small in EX, EY by lia.
  split; [apply (D _ _ _ _ EX); lia|apply (D _ _ _ _ EY); lia].
Qed.

Example C88_hypotheses_met :
  let w := mkws (mkcoord 0 50) (mkcoord 100 0) in
  let calls := [FSetMatrix true; FReset; FSetWorkspaceCoords w; FSetMatrix true; FSetIndicies 0 0 9 9; FProcess; FSetMatrix false] in
  (exists f, fhistory fragment_new calls = Some f) /\ workspace_set calls w /\ matrix_set calls /\ proper w /\
  ~ matrix_set [FSetMatrix true; FReset; FSetWorkspaceCoords w] /\
  last_workspace (calls ++ [FReset]) w /\ last_indices calls 0 0 9 9 /\
  touches w (mkcoord 100 50) (mkcoord 200 60) /\ ~ touches w (mkcoord 101 0) (mkcoord 200 60).
Proof.
  intros w calls. split; [eexists; reflexivity|].
  split. { left. exists [FSetMatrix true; FReset], [FSetMatrix true; FSetIndicies 0 0 9 9; FProcess; FSetMatrix false].
    split; [reflexivity|]. split; [cbn; intuition discriminate|]. intros w'. cbn. intuition discriminate. }
  split. { exists [FSetMatrix true; FReset; FSetWorkspaceCoords w], [FSetIndicies 0 0 9 9; FProcess; FSetMatrix false]. split; [reflexivity|cbn; intuition discriminate]. }
  split; [unfold proper; cbn; lia|]. split.
  { intros ([|a0 [|a1 [|a2 a]]] & b & E & N); cbn in E.
    - injection E as <-. apply N. left. reflexivity.
    - discriminate E.
    - discriminate E.
    - destruct a; discriminate E. }
  split. { left. exists [FSetMatrix true; FReset], [FSetMatrix true; FSetIndicies 0 0 9 9; FProcess; FSetMatrix false; FReset].
    split; [reflexivity|]. intros w'. cbn. intuition discriminate. }
  split. { left. exists [FSetMatrix true; FReset; FSetWorkspaceCoords w; FSetMatrix true], [FProcess; FSetMatrix false].
    split; [reflexivity|]. intros ? ? ? ?. cbn. intuition discriminate. }
  split; [exists 100, 50; cbn; lia|]. intros (x & y & Q). cbn in Q. lia.
Qed.

Print Assumptions C88_settings.
Print Assumptions C88_outcomes.
Print Assumptions C88_intersection.
Print Assumptions C88_zond.
