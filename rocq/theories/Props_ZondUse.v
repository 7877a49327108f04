(** C130, C131: a zond that is used directly. *)
From Coq Require Import Reals Lra Lia.
From Flocq Require Import Core IEEE754.BinarySingleNaN.
From Verif Require Import Prelude P_Prelude M_Double S_Double P_Double P_Round M_LayoutData M_Loop P_Loop M_Vector2D M_BitMatrix S_Matrix P_BitMatrix
  M_Zond S_Zond P_Zond P_ZondReal P_ZondCells Props_Zond S_ZondUse.
Local Open Scope Z_scope.

(** ** Comparisons with zero *)
Lemma dgt_zero x : dgt (dz 0) x = true <-> negative x.
Proof.
  split.
  - intros H. destruct x as [s|s| |s m e B]; try (destruct s; discriminate H); try discriminate H.
    + destruct s; [right; reflexivity|discriminate H].
    + left. exists (B2R (B754_finite s m e B)). assert (R : real (B754_finite s m e B) (B2R (B754_finite s m e B))) by (split; reflexivity).
      split; [exact R|]. rewrite (dgt_ok _ _ _ _ d0_real R) in H. revert H. case Rlt_bool_spec; [auto|discriminate].
  - intros [(r & H & R)| ->]; [|reflexivity]. rewrite (dgt_ok _ _ _ _ d0_real H). apply Rlt_bool_true, R.
Qed.
Lemma eps_checked x : dlt x (dz 0) || dgt x (dlit 1 2) = true <-> out_of_range x.
Proof.
  split.
  - intros H. destruct x as [s|s| |s m e B].
    + assert (R : real (B754_zero s) 0) by (split; reflexivity). rewrite (dlt_ok _ _ _ _ R d0_real), (dgt_ok _ _ _ _ R mid_real), !Rlt_bool_false in H by lra. discriminate H.
    + right. exists s. reflexivity.
    + exfalso. revert H. unfold dgt, dlt. destruct (dlit 1 2); discriminate.
    + left. exists (B2R (B754_finite s m e B)). assert (R : real (B754_finite s m e B) (B2R (B754_finite s m e B))) by (split; reflexivity).
      split; [exact R|]. rewrite (dlt_ok _ _ _ _ R d0_real), (dgt_ok _ _ _ _ R mid_real) in H. revert H.
      case Rlt_bool_spec; [auto|]. intros _. case Rlt_bool_spec; [auto|discriminate].
  - intros [(r & H & R)|(s & ->)].
    + rewrite (dlt_ok _ _ _ _ H d0_real), (dgt_ok _ _ _ _ H mid_real). destruct R as [R|R]; rewrite (Rlt_bool_true _ _ R); [reflexivity|apply orb_true_r].
    + destruct s; reflexivity.
Qed.

(** ** C130 *)
Lemma latest_app {A} (eff : setter -> A -> Prop) d calls c a : latest eff d calls a -> (forall a', ~ eff c a') -> latest eff d (calls ++ [c]) a.
Proof.
  intros H N. destruct H as [calls H|b c0 after a E H].
  - apply latest_default. intros c' a' I. apply in_app_or in I as [I|[<-|[]]]; [apply H, I|apply N].
  - rewrite <- app_assoc. cbn [app]. apply latest_call; [exact E|]. intros c' a' I. apply in_app_or in I as [I|[<-|[]]]; [apply H, I|apply N].
Qed.
Lemma latest_last {A} (eff : setter -> A -> Prop) d calls c a : eff c a -> latest eff d (calls ++ [c]) a.
Proof. intros E. apply latest_call; [exact E|]. intros c' a' []. Qed.
Lemma in_use_app e calls c : in_use e (calls ++ [c]) = perform (in_use e calls) c.
Proof. unfold in_use. rewrite fold_left_app. reflexivity. Qed.
Lemma deltas_dec x y : SetDeltas (zond_new (dz 0)) x y = Throw InvalidArgument /\ (negative x \/ negative y) \/ ~ negative x /\ ~ negative y.
Proof.
  unfold SetDeltas. destruct (dgt (dz 0) y) eqn:Y; [left; split; [reflexivity|right; now apply dgt_zero]|].
  destruct (dgt (dz 0) x) eqn:X; [left; split; [reflexivity|left; now apply dgt_zero]|].
  right. split; intros N; apply dgt_zero in N; congruence.
Qed.

(** Bound indices, workspace and deltas: the last accepted call counts, whatever else was called; a pair of deltas is accepted unless one of them
    is negative. *)
Theorem C130_last_accepted_call_counts : forall e calls,
  latest sets_bounds (mkind 0 0 0 0) calls (boundIndicies (in_use e calls)) /\
  latest sets_workspace (mkws (mkcoord 0 0) (mkcoord 0 0)) calls (angleCoords (in_use e calls)) /\
  latest sets_deltas (dz 0, dz 0) calls (dx (in_use e calls), dy (in_use e calls)).
Proof.
  intros e calls. induction calls as [|c calls (I1 & I2 & I3)] using rev_ind.
  { split; [|split]; apply latest_default; intros c a []. }
  rewrite in_use_app. set (z := in_use e calls) in *. destruct c as [x|x y|b|w]; cbn [perform].
  - assert (Q : forall z', (SetEps z x = Ok z' \/ z' = z) -> boundIndicies z' = boundIndicies z /\ angleCoords z' = angleCoords z /\ dx z' = dx z /\ dy z' = dy z).
    { unfold SetEps. intros z' [H| ->]; [|auto]. destruct (_ || _); [discriminate H|]. injection H as <-. auto. }
    assert (K : let z' := match SetEps z x with Ok z' => z' | _ => z end in boundIndicies z' = boundIndicies z /\ angleCoords z' = angleCoords z /\ dx z' = dx z /\ dy z' = dy z).
    { cbv zeta. destruct (SetEps z x) eqn:E; apply Q; auto. }
    cbv zeta in K. destruct K as (K1 & K2 & K3 & K4). rewrite K1, K2, K3, K4.
    split; [|split]; apply latest_app; try assumption; intros a Q'; try discriminate Q'. destruct Q' as (Q' & _). discriminate Q'.
  - unfold SetDeltas. destruct (dgt (dz 0) y || dgt (dz 0) x) eqn:E.
    + split; [|split]; apply latest_app; try assumption; intros a Q'; try discriminate Q'.
      destruct Q' as (Q' & N1 & N2). injection Q' as Q1 Q2. rewrite <- Q1 in N1. rewrite <- Q2 in N2.
      apply orb_true_iff in E as [E|E]; apply dgt_zero in E; tauto.
    + apply orb_false_iff in E as (E1 & E2). cbn [boundIndicies angleCoords dx dy].
      split; [|split]; [apply latest_app; [assumption|intros a Q'; discriminate Q']|apply latest_app; [assumption|intros a Q'; discriminate Q']|].
      apply latest_last. split; [reflexivity|]. cbn [fst snd]. split; intros N; apply dgt_zero in N; congruence.
  - unfold SetBoundIndicies. cbn [boundIndicies angleCoords dx dy].
    split; [apply latest_last; reflexivity|]. split; apply latest_app; try assumption; intros a Q'; try discriminate Q'. destruct Q' as (Q' & _). discriminate Q'.
  - unfold SetWorkspaceCoord. cbn [boundIndicies angleCoords dx dy].
    split; [apply latest_app; [assumption|intros a Q'; discriminate Q']|]. split; [apply latest_last; reflexivity|].
    apply latest_app; try assumption. intros a (Q' & _). discriminate Q'.
Qed.

Lemma range_dec x : out_of_range x \/ ~ out_of_range x.
Proof. destruct (dlt x (dz 0) || dgt x (dlit 1 2)) eqn:Q; [left; now apply eps_checked|right; intros N; apply eps_checked in N; congruence]. Qed.
Lemma accuracy_step l a x : accuracy_in_force l a ->
  (out_of_range a -> accuracy_in_force (l ++ [x]) a) /\ (~ out_of_range a -> accuracy_in_force (l ++ [x]) x).
Proof.
  intros [before e after H O|before e H].
  - split; [|tauto]. intros _. rewrite <- app_assoc. cbn [app]. now apply stuck.
  - assert (N : ~ out_of_range e) by (apply H, in_or_app; right; left; reflexivity). split; [tauto|]. intros _.
    destruct (range_dec x) as [D|D]; [now apply (stuck (before ++ [e]) x [])|].
    apply free. intros y I. apply in_app_or in I as [I|[<-|[]]]; [apply H, I|exact D].
Qed.

(** The accuracy: the first value out of range stays for ever; without one, the last value counts. *)
Theorem C130_accuracy : forall e calls, accuracy_in_force (e :: accuracies calls) (eps (in_use e calls)).
Proof.
  intros e calls. induction calls as [|c calls IH] using rev_ind.
  { destruct (range_dec e) as [D|D]; [apply (stuck [] e []); [intros x []|exact D]|]. apply (free [] e). intros x [<-|[]]; exact D. }
  rewrite in_use_app. set (z := in_use e calls) in *. unfold accuracies in *. rewrite flat_map_app, app_comm_cons.
  set (l := e :: flat_map (fun c => match c with ZEps e => [e] | _ => [] end) calls) in *. clearbody l.
  destruct c as [x|x y|b|w]; cbn [perform flat_map app]; rewrite ?app_nil_r.
  - destruct (accuracy_step l (eps z) x IH) as (H1 & H2). unfold SetEps. destruct (dlt (eps z) (dz 0) || dgt (eps z) (dlit 1 2)) eqn:Q.
    + apply H1, eps_checked, Q.
    + cbn [eps]. apply H2. intros N. apply eps_checked in N. congruence.
  - replace (eps _) with (eps z); [exact IH|]. unfold SetDeltas. destruct (_ || _); reflexivity.
  - exact IH.
  - exact IH.
Qed.

(** ** C131 *)
Lemma real_add0 x a y : real x a -> real y 0 -> Z.abs (Ztrunc a) <= 2 ^ 53 -> a = IZR (Ztrunc a) -> real (dadd x y) a /\ real (dsub x y) a.
Proof.
  intros X Y B I. assert (F : generic_format radix2 (FLT_exp (-1074) 53) a) by (rewrite I; apply int_format, B).
  assert (K : (Rabs a <= IZR (2 ^ 64))%R) by (rewrite I, <- abs_IZR; apply IZR_le; lia). split.
  - assert (N : nearest (dadd x y) (a + 0)) by (apply dadd_ok; [exact X|exact Y|rewrite Rplus_0_r; exact K]).
    rewrite Rplus_0_r in N. apply nearest_real in N. rewrite rnd_exact in N by exact F. exact N.
  - assert (N : nearest (dsub x y) (a - 0)) by (apply dsub_ok; [exact X|exact Y|rewrite Rminus_0_r; exact K]).
    rewrite Rminus_0_r in N. apply nearest_real in N. rewrite rnd_exact in N by exact F. exact N.
Qed.
Lemma zero_mul x y e : real x 0 -> real y e -> real (dmul x y) 0.
Proof.
  intros X Y. assert (N : nearest (dmul x y) (0 * e)) by (apply dmul_ok; [exact X|exact Y|rewrite Rmult_0_l, Rabs_R0; apply (IZR_le 0); lia]).
  apply nearest_real in N. rewrite Rmult_0_l, rnd_0 in N. exact N.
Qed.
Lemma zero_half x : real x 0 -> real (ddiv x (dz 2)) 0.
Proof.
  intros X. assert (N : nearest (ddiv x (dz 2)) (0 / 2)).
  { apply ddiv_ok; [exact X|apply (dz_exact 2); lia|lra|]. unfold Rdiv. rewrite Rmult_0_l, Rabs_R0. apply (IZR_le 0). lia. }
  apply nearest_real in N. unfold Rdiv in N. rewrite Rmult_0_l, rnd_0 in N. exact N.
Qed.
Lemma real_int z : int32 z -> real (dz z) (IZR z).
Proof. unfold int32. intros H. apply dz_exact. lia. Qed.
Lemma add_sub0 z x y : int32 z -> real x 0 -> real y 0 -> real (dsub (dadd (dz z) x) y) (IZR z) /\ real (dadd (dsub (dz z) x) y) (IZR z).
Proof.
  intros Z X Y. assert (B : Z.abs (Ztrunc (IZR z)) <= 2 ^ 53) by (rewrite Ztrunc_IZR; unfold int32 in Z; lia).
  assert (I : IZR z = IZR (Ztrunc (IZR z))) by (now rewrite Ztrunc_IZR).
  destruct (real_add0 _ _ _ (real_int z Z) X B I) as (A1 & A2).
  split; [apply (real_add0 _ _ _ A1 Y B I)|apply (real_add0 _ _ _ A2 Y B I)].
Qed.
Lemma Rle_bool_IZR a b : Rle_bool (IZR a) (IZR b) = (a <=? b).
Proof.
  case Rle_bool_spec; intros H; symmetry; [apply Z.leb_le, le_IZR, H|apply Z.leb_gt, lt_IZR, H].
Qed.
Lemma covers_exactly z lt rb e : coord32 lt -> coord32 rb -> ws32 (angleCoords z) -> real (dx z) 0 -> real (dy z) 0 -> real (eps z) e ->
  (covers_test z lt rb = true <-> contains_ws lt rb (angleCoords z)).
Proof.
  intros (L1 & L2) (R1 & R2) ((W1 & W2) & (W3 & W4)) X Y E. unfold covers_test, contains_ws.
  pose proof (zero_mul _ _ _ X E) as Mx. pose proof (zero_mul _ _ _ Y E) as My. pose proof (zero_half _ X) as Hx. pose proof (zero_half _ Y) as Hy.
  rewrite (dle_ok _ _ _ _ (real_int _ L1) (proj1 (add_sub0 _ _ _ W1 Hx Mx))), (dge_ok _ _ _ _ (real_int _ R1) (proj2 (add_sub0 _ _ _ W3 Hx Mx))),
    (dge_ok _ _ _ _ (real_int _ L2) (proj2 (add_sub0 _ _ _ W2 Hy My))), (dle_ok _ _ _ _ (real_int _ R2) (proj1 (add_sub0 _ _ _ W4 Hy My))).
  rewrite !Rle_bool_IZR. rewrite !andb_true_iff, !Z.leb_le. tauto.
Qed.
Lemma no_size_throws iB iE d t bf bs : real d 0 -> NormPair iB iE d t bf bs = Throw InvalidArgument.
Proof.
  intros D. unfold NormPair. destruct (_ || _); [reflexivity|]. destruct (dlt iE iB); [reflexivity|].
  rewrite (dge_ok _ _ _ _ d0_real D), Rle_bool_true by lra. reflexivity.
Qed.

(** A zond whose deltas are zero (no deltas were set, or zeros): a rectangle that contains the workspace sets all the cells within the bounds; every
    other rectangle throws and sets nothing. *)
Theorem C131_cells_without_size : forall z g m A lt rb e,
  shows m A -> corners g lt rb -> coord32 lt -> coord32 rb -> ws32 (angleCoords z) -> differences_fit lt rb (angleCoords z) ->
  real (dx z) 0 -> real (dy z) 0 -> real (eps z) e ->
  let b := boundIndicies z in
  0 <= iBegin b <= iEnd b -> iEnd b < 2 ^ 31 - 1 -> 0 <= jBegin b <= jEnd b -> jEnd b < 2 ^ 31 - 1 ->
  (contains_ws lt rb (angleCoords z) -> exists m' B, ZondRectangle z g m = (m', Ok tt) /\ shows m' B /\ drawn A B (within b)) /\
  (~ contains_ws lt rb (angleCoords z) -> ZondRectangle z g m = (m, Throw InvalidArgument)).
Proof.
  intros z g m A lt rb e S (G1 & G2) L R W (D1 & D2 & D3 & D4) X Y E b Hi Hi' Hj Hj'.
  pose proof (covers_exactly z lt rb e L R W X Y E) as C. unfold ZondRectangle, at_. rewrite G1, G2. split; intros K.
  - apply C in K. rewrite K. fold b. cbv zeta.
    destruct (for32_block A (iBegin b) (iEnd b) (jBegin b) (jEnd b)
      (fun i => to_size i <=? iEnd b) (fun j => to_size j <=? jEnd b) m) as (m' & E1 & E2); try lia.
    + intros i Hii. rewrite to_size_small by lia. lia.
    + rewrite to_size_small by lia. lia.
    + intros i Hii. rewrite to_size_small by lia. lia.
    + rewrite to_size_small by lia. lia.
    + exact S.
    + exists m'. eexists. split; [exact E1|]. split; [exact E2|].
      split; [reflexivity|]. split; [reflexivity|]. cbn [arows acols acell adraw]. intros i j H1 H2.
      rewrite orb_true_iff. unfold within, block. split; (intros [Q|Q]; [left; exact Q|right; lia]).
  - destruct (covers_test z lt rb) eqn:Q; [exfalso; apply K, C; reflexivity|]. cbv zeta. unfold rect_indices.
    rewrite (sub32_ok _ _ D1), (sub32_ok _ _ D2), (sub32_ok _ _ D3), (sub32_ok _ _ D4). cbn [bind].
    unfold NormIndicies. rewrite no_size_throws by exact Y. reflexivity.
Qed.

(** So it is with every object on which no deltas were set, whatever else was. *)
Theorem C131_before_the_deltas : forall e0 calls g m A lt rb e,
  (forall c d, In c calls -> ~ sets_deltas c d) -> let z := in_use e0 calls in
  shows m A -> corners g lt rb -> coord32 lt -> coord32 rb -> ws32 (angleCoords z) -> differences_fit lt rb (angleCoords z) -> real (eps z) e ->
  let b := boundIndicies z in
  0 <= iBegin b <= iEnd b -> iEnd b < 2 ^ 31 - 1 -> 0 <= jBegin b <= jEnd b -> jEnd b < 2 ^ 31 - 1 ->
  (contains_ws lt rb (angleCoords z) -> exists m' B, ZondRectangle z g m = (m', Ok tt) /\ shows m' B /\ drawn A B (within b)) /\
  (~ contains_ws lt rb (angleCoords z) -> ZondRectangle z g m = (m, Throw InvalidArgument)).
Proof.
  intros e0 calls g m A lt rb e N z S G L R W D E b Hi Hi' Hj Hj'.
  assert (K : (dx z, dy z) = (dz 0, dz 0)).
  { destruct (C130_last_accepted_call_counts e0 calls) as (_ & _ & H). fold z in H. remember (dx z, dy z) as d eqn:Ed. clear Ed.
    destruct H as [calls _|before c after d Ef _]; [reflexivity|]. exfalso. apply (N c d); [apply in_or_app; right; left; reflexivity|exact Ef]. }
  apply (C131_cells_without_size z g m A lt rb e); try assumption.
  - replace (dx z) with (fst (dx z, dy z)) by reflexivity. rewrite K. exact d0_real.
  - replace (dy z) with (snd (dx z, dy z)) by reflexivity. rewrite K. exact d0_real.
Qed.

(** ** Concrete cases *)
Definition ex_zrect (x1 y1 x2 y2 : Z) : geom :=
  mkgeom GTrectangle 5 [mkcoord x1 y2; mkcoord x2 y2; mkcoord x2 y1; mkcoord x1 y1; mkcoord x1 y2] (mkcoord x1 y1) (mkcoord x2 y2) (CRectangle 0).
(** An accuracy that is out of range stays; the refused deltas leave the old ones; the last bounds count. *)
Example C130_nonvacuous :
  let calls := [ZBounds (mkind 1 2 3 4); ZDeltas (dz 5) (dz 0); ZEps (dz 7); ZDeltas (dz 6) (dz (-1)); ZEps (dz 0); ZBounds (mkind 0 1 0 1)] in
  let z := in_use (dz 0) calls in
  boundIndicies z = mkind 0 1 0 1 /\ deq (dx z) (dz 5) = true /\ deq (eps z) (dz 7) = true /\ negative (dz (-1)) /\ out_of_range (dz 7).
Proof.
  split; [reflexivity|]. split; [vm_compute; reflexivity|]. split; [vm_compute; reflexivity|]. split.
  - apply dgt_zero. vm_compute. reflexivity.
  - apply eps_checked. vm_compute. reflexivity.
Qed.

Example C131_nonvacuous :
  let z := in_use (dz 0) [ZBounds (mkind 0 1 0 1); ZWorkspace (mkws (mkcoord 0 10) (mkcoord 10 0))] in
  let m := BM_ctor infinite_memory 3 3 in
  (exists m', ZondRectangle z (ex_zrect 0 0 10 10) m = (m', Ok tt) /\ Get m' 1 1 = Ok true /\ Get m' 2 1 = Ok false) /\
  ZondRectangle z (ex_zrect 0 0 10 9) m = (m, Throw InvalidArgument).
Proof. split; [|vm_compute; reflexivity]. eexists. split; [vm_compute; reflexivity|]. split; vm_compute; reflexivity. Qed.

(** That a zond without deltas draws nothing is not so. *)
Theorem C131_no_deltas_no_drawing_refuted :
  ~ (forall e0 calls g m, (forall c d, In c calls -> ~ sets_deltas c d) -> fst (ZondGeometry (in_use e0 calls) (Some g) m) = m).
Proof.
  intros C. specialize (C (dz 0) [] (ex_zrect (-1) (-1) 1 1) (BM_ctor infinite_memory 3 3) ltac:(intros c d [])).
  apply (f_equal (fun m => Get m 0 0)) in C. vm_compute in C. discriminate C.
Qed.

Print Assumptions C130_last_accepted_call_counts.
Print Assumptions C130_accuracy.
Print Assumptions C131_cells_without_size.
Print Assumptions C131_before_the_deltas.
Print Assumptions C131_no_deltas_no_drawing_refuted.
