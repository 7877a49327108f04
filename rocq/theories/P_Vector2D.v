From Verif Require Import Prelude P_Prelude M_Vector2D M_BitMatrix S_Matrix P_BitMatrix.

Lemma memory_ok_alloc al r c : memory_ok al r c -> ~ alloc_fails al r c.
Proof.
  intros H (e & E). unfold memory_ok in H. unfold V_Resize in E. rewrite H in E. discriminate.
Qed.

Lemma oom_alloc al r c : out_of_memory al r c -> alloc_fails al r c.
Proof.
  intros [H|(i & Hi & H)]; exists BadAlloc; unfold V_Resize; rewrite H; [reflexivity|].
  apply Nat.ltb_lt in Hi. rewrite Hi. reflexivity.
Qed.

Lemma nth_repeat_lt {A} (x d : A) n k : k < n -> nth k (repeat x n) d = x.
Proof. revert k. induction n; intros [|k] H; cbn; try lia; [reflexivity|]. apply IHn. lia. Qed.

Section G.
Context {T : Type} (d : T).

Definition rect (v : list (list T)) (r c : nat) : Prop :=
  length v = r /\ Forall (fun row => length row = c) v.

Lemma V_At_new r c i j : i < r -> j < c -> V_At (repeat (repeat d c) r) i j = Ok d.
Proof.
  intros Hi Hj. unfold V_At. rewrite repeat_length.
  assert (r <=? i = false) as -> by lia.
  rewrite (at_nth _ i []) by (rewrite repeat_length; exact Hi). cbn [bind].
  rewrite nth_repeat_lt by exact Hi. rewrite repeat_length.
  assert (c <=? j = false) as -> by lia.
  rewrite (at_nth _ j d) by (rewrite repeat_length; exact Hj).
  rewrite nth_repeat_lt by exact Hj. reflexivity.
Qed.

Lemma V_At_throw v i j :
  length v <= i \/ (exists row, nth_error v i = Some row /\ length row <= j) ->
  V_At (T := T) v i j = Throw InvalidArgument.
Proof.
  intros [H|(row & E & H)]; unfold V_At.
  - apply Nat.leb_le in H. rewrite H. reflexivity.
  - assert (length v <=? i = false) as ->.
    { apply Nat.leb_gt. apply nth_error_Some. congruence. }
    apply at_ok in E. rewrite E. cbn [bind]. apply Nat.leb_le in H. rewrite H. reflexivity.
Qed.

Lemma V_At_ok v i j row x : nth_error v i = Some row -> nth_error row j = Some x ->
  V_At (T := T) v i j = Ok x.
Proof.
  intros E1 E2. unfold V_At.
  assert (length v <=? i = false) as -> by (apply Nat.leb_gt, nth_error_Some; congruence).
  apply at_ok in E1. rewrite E1. cbn [bind].
  assert (length row <=? j = false) as -> by (apply Nat.leb_gt, nth_error_Some; congruence).
  apply at_ok. exact E2.
Qed.

Lemma V_At_safe v i j : exists o, V_At (T := T) v i j = o /\
  ((exists x, o = Ok x) \/ o = Throw InvalidArgument).
Proof.
  eexists. split; [reflexivity|].
  destruct (nth_error v i) as [row|] eqn:E.
  - destruct (nth_error row j) as [x|] eqn:E2.
    + left. exists x. eapply V_At_ok; eassumption.
    + right. apply V_At_throw. right. exists row. split; [exact E|]. apply nth_error_None. exact E2.
  - right. apply V_At_throw. left. apply nth_error_None. exact E.
Qed.

Lemma V_not_spec v : V_not (T := T) v = false <->
  exists r c, 0 < r /\ 0 < c /\ rect v r c.
Proof.
  unfold V_not, V_CheckParameters. split.
  - destruct v as [|r0 v]; [discriminate|]. intro H. apply negb_false_iff in H.
    rewrite forallb_forall in H.
    exists (length (r0 :: v)), (length r0).
    assert (forall r, In r (r0 :: v) -> 0 < length r /\ length r0 = length r) as F.
    { intros r Hr. apply H in Hr. lia. }
    repeat split; [cbn; lia|apply F; left; reflexivity|].
    apply Forall_forall. intros r Hr. apply F in Hr. lia.
  - intros (r & c & Hr & Hc & Hl & HF). destruct v as [|r0 v]; [cbn in Hl; lia|].
    apply negb_false_iff. apply forallb_forall. intros x Hx. rewrite Forall_forall in HF.
    rewrite (HF x Hx), (HF r0 (or_introl eq_refl)). lia.
Qed.

Lemma V_Resize_at al r c : al r c = AllocOk ->
  exists v, V_Resize d al r c = (v, Ok tt) /\ rect v r c /\
    forall i j, i < r -> j < c -> V_At v i j = Ok d.
Proof.
  intro H. unfold V_Resize. rewrite H. eexists. split; [reflexivity|]. split.
  - split; [apply repeat_length|]. apply Forall_forall. intros x Hx. apply repeat_spec in Hx.
    subst. apply repeat_length.
  - intros. apply V_At_new; assumption.
Qed.

Lemma V_ctor_ok al r c : 1 <= r <= 5000 -> 1 <= c <= 5000 -> al r c = AllocOk ->
  exists v, V_ctor d al r c = Ok v /\ rect v r c /\ forall i j, i < r -> j < c -> V_At v i j = Ok d.
Proof.
  intros Hr Hc Ha. unfold V_ctor, V_IsIndexValid.
  rewrite !(proj2 (Nat.ltb_ge 5000 _)) by lia.
  assert ((0 =? r) = false) as -> by lia. assert ((0 =? c) = false) as -> by lia.
  cbn [orb negb].
  destruct (V_Resize_at al r c Ha) as (v & E & H1 & H2). rewrite E. eauto.
Qed.

Lemma V_ctor_empty al r c : ~ (1 <= r <= 5000 /\ 1 <= c <= 5000) -> V_ctor d al r c = Ok [].
Proof.
  intro H. unfold V_ctor, V_IsIndexValid.
  destruct ((0 =? r) || (5000 <? r)) eqn:E1; [reflexivity|].
  destruct ((0 =? c) || (5000 <? c)) eqn:E2; [reflexivity|].
  exfalso. apply H.
  apply orb_false_iff in E1 as (A1 & A2). apply orb_false_iff in E2 as (A3 & A4).
  apply Nat.ltb_ge in A2, A4. lia.
Qed.
End G.

Lemma upd_length {A} (l : list A) i x : length (upd l i x) = length l.
Proof. revert i. induction l as [|a l IH]; intros [|i]; cbn [upd length]; try reflexivity. f_equal. apply IH. Qed.

Lemma upd_In {A} (l : list A) i x y : In y (upd l i x) -> y = x \/ In y l.
Proof.
  revert i. induction l as [|a l IH]; intros [|i]; cbn [upd In]; try tauto.
  - intros [<-|H]; tauto.
  - intros [<-|H]; [tauto|]. destruct (IH i H); tauto.
Qed.

Lemma V_AtPut_spec T (v : list (list T)) r c i j x : rect v r c ->
  (i < r -> j < c -> exists v', V_AtPut v i j x = Ok v' /\ rect v' r c /\ V_At v' i j = Ok x /\
     forall a b, (a, b) <> (i, j) -> V_At v' a b = V_At v a b) /\
  (r <= i \/ c <= j -> V_AtPut v i j x = Throw InvalidArgument).
Proof.
  intros (HL & HF). rewrite Forall_forall in HF. split.
  - intros Hi Hj. destruct (at_lt v i ltac:(lia)) as (row & Er & Ir). pose proof (HF row Ir) as Lr.
    destruct (at_lt row j ltac:(lia)) as (y & Ey & _). exists (upd v i (upd row j x)).
    assert (V_At v i j = Ok y) as Ea by (eapply V_At_ok; apply at_ok; eassumption).
    assert (at_ (upd v i (upd row j x)) i = Ok (upd row j x)) as Eu by (apply at_upd_same; lia).
    split; [|split; [split|split]].
    + unfold V_AtPut. rewrite Ea, Er. cbn [bind]. rewrite put_lt by lia. cbn [bind]. apply put_lt. lia.
    + rewrite upd_length. exact HL.
    + apply Forall_forall. intros z Z. apply upd_In in Z as [->|Z]; [rewrite upd_length; exact Lr|apply HF, Z].
    + eapply V_At_ok; apply at_ok; [exact Eu|apply at_upd_same; lia].
    + intros a b N. unfold V_At. rewrite upd_length. destruct (Nat.eq_dec a i) as [->|Na].
      * rewrite Eu, Er. cbn [bind]. rewrite upd_length. assert (b <> j) as Nb by (intros ->; apply N; reflexivity).
        rewrite at_upd_other by exact Nb. reflexivity.
      * rewrite at_upd_other by exact Na. reflexivity.
  - intros Ho. unfold V_AtPut. rewrite V_At_throw; [reflexivity|].
    destruct (Nat.lt_ge_cases i (length v)) as [Hi|Hi]; [|left; exact Hi]. right.
    destruct (at_lt v i Hi) as (row & Er & Ir). exists row. split; [apply at_ok, Er|]. rewrite (HF row Ir). lia.
Qed.
