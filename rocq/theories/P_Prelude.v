(** Facts about the common vocabulary. *)
From Verif Require Import Prelude.
From Coq Require Import Permutation.

(** ** Bytes: finite sweeps *)
Definition all_bytes : list byte := map (fun n => z2b (Z.of_nat n)) (seq 0 256).

Lemma all_bytes_in (b : byte) : In b all_bytes.
Proof.
  unfold all_bytes. apply in_map_iff. exists (N.to_nat (Byte.to_N b)).
  split; [ destruct b; reflexivity |].
  apply in_seq. destruct b; vm_compute; lia.
Qed.

Lemma sweep (P : byte -> bool) : forallb P all_bytes = true -> forall b, P b = true.
Proof. intros H b. rewrite forallb_forall in H. apply H, all_bytes_in. Qed.

Lemma sweep2 (P : byte -> byte -> bool) :
  forallb (fun a => forallb (P a) all_bytes) all_bytes = true -> forall a b, P a b = true.
Proof. intros H a. apply sweep. exact (sweep _ H a). Qed.

Lemma b2z_range b : (0 <= b2z b < 256)%Z.
Proof.
  pose proof (sweep (fun b => (0 <=? b2z b)%Z && (b2z b <? 256)%Z)) as H.
  specialize (H ltac:(vm_compute; reflexivity) b). cbv beta in H. lia.
Qed.

Lemma z2b_b2z b : z2b (b2z b) = b.
Proof.
  pose proof (sweep (fun b => Byte.eqb (z2b (b2z b)) b)) as H.
  specialize (H ltac:(vm_compute; reflexivity) b). cbv beta in H.
  apply Byte.byte_dec_bl in H. exact H.
Qed.

Lemma b2z_inj a b : b2z a = b2z b -> a = b.
Proof. intro H. rewrite <- (z2b_b2z a), <- (z2b_b2z b), H. reflexivity. Qed.

Lemma z2b_mod z : z2b (z mod 256) = z2b z.
Proof. unfold z2b. rewrite Z.mod_mod by lia. reflexivity. Qed.

Lemma b2z_z2b z : b2z (z2b z) = (z mod 256)%Z.
Proof.
  assert (forall n, n < 256 -> b2z (z2b (Z.of_nat n)) = Z.of_nat n) as H.
  { intros n Hn.
    assert (forallb (fun n => Z.eqb (b2z (z2b (Z.of_nat n))) (Z.of_nat n)) (seq 0 256) = true) as S
      by (vm_compute; reflexivity).
    rewrite forallb_forall in S. specialize (S n). rewrite in_seq in S.
    apply Z.eqb_eq. apply S. lia. }
  rewrite <- (z2b_mod z).
  pose proof (Z.mod_pos_bound z 256 ltac:(lia)).
  specialize (H (Z.to_nat (z mod 256)) ltac:(lia)).
  rewrite Z2Nat.id in H by lia. exact H.
Qed.

Lemma b2z_z2b_small z : (0 <= z < 256)%Z -> b2z (z2b z) = z.
Proof. intro. rewrite b2z_z2b. apply Z.mod_small. lia. Qed.

Lemma beqb_eq a b : beqb a b = true <-> a = b.
Proof.
  unfold beqb. split; [apply Byte.byte_dec_bl | apply Byte.byte_dec_lb].
Qed.

Lemma beqb_refl a : beqb a a = true.
Proof. apply beqb_eq. reflexivity. Qed.

Lemma beqb_neq a b : beqb a b = false <-> a <> b.
Proof.
  rewrite <- (beqb_eq a b). destruct (beqb a b); split; congruence.
Qed.

Lemma streqb_eq a b : streqb a b = true <-> a = b.
Proof.
  revert b. induction a as [|x a IH]; intros [|y b]; cbn; split; try congruence; try discriminate.
  - rewrite Bool.andb_true_iff. intros [E1 E2]. apply beqb_eq in E1. apply IH in E2. congruence.
  - intro E. injection E as -> ->. rewrite beqb_refl. cbn. apply IH. reflexivity.
Qed.

Lemma streqb_refl a : streqb a a = true.
Proof. apply streqb_eq. reflexivity. Qed.

(** Bits of bytes. *)
Lemma testbit_byte_hi b k : (8 <= k)%Z -> Z.testbit (b2z b) k = false.
Proof.
  intro Hk. pose proof (b2z_range b).
  destruct (Z.eq_dec (b2z b) 0) as [E|E]; [rewrite E; apply Z.testbit_0_l|].
  apply Z.bits_above_log2; [lia|].
  assert (Z.log2 (b2z b) < 8)%Z by (apply Z.log2_lt_pow2; lia). lia.
Qed.

Lemma byte_ext a b :
  (forall k, (0 <= k < 8)%Z -> Z.testbit (b2z a) k = Z.testbit (b2z b) k) -> a = b.
Proof.
  intro H. apply b2z_inj. apply Z.bits_inj'. intros k Hk.
  destruct (Z_lt_dec k 8); [apply H; lia|].
  rewrite !testbit_byte_hi by lia. reflexivity.
Qed.

Lemma testbit_z2b z k : (0 <= k < 8)%Z -> Z.testbit (b2z (z2b z)) k = Z.testbit z k.
Proof.
  intro Hk. rewrite b2z_z2b. change 256%Z with (2 ^ 8)%Z.
  apply Z.mod_pow2_bits_low. lia.
Qed.

(** ** Indexing *)
Lemma at_ok {A} (l : list A) i x : at_ l i = Ok x <-> nth_error l i = Some x.
Proof. unfold at_. destruct (nth_error l i); split; congruence. Qed.

Lemma at_lt {A} (l : list A) i : i < length l -> exists x, at_ l i = Ok x /\ In x l.
Proof.
  intro H. unfold at_. destruct (nth_error l i) eqn:E.
  - exists a. split; [reflexivity|]. eapply nth_error_In; eassumption.
  - apply nth_error_None in E. lia.
Qed.

Lemma at_ge {A} (l : list A) i : length l <= i -> at_ l i = UB OobIndex.
Proof. intro H. unfold at_. apply nth_error_None in H. rewrite H. reflexivity. Qed.

Lemma at_nth {A} (l : list A) i d : i < length l -> at_ l i = Ok (nth i l d).
Proof.
  intro H. unfold at_. rewrite (nth_error_nth' l d H). reflexivity.
Qed.

Lemma upd_length {A} (l : list A) i x : length (upd l i x) = length l.
Proof. revert i; induction l; intros [|i]; cbn; auto. Qed.

Lemma nth_error_upd {A} (l : list A) i x k :
  nth_error (upd l i x) k = if (k =? i) && (i <? length l) then Some x else nth_error l k.
Proof.
  revert i k. induction l as [|h t IH]; intros [|i] [|k]; cbn; try reflexivity.
  - rewrite Bool.andb_false_r. reflexivity.
  - rewrite IH. reflexivity.
Qed.

Lemma at_upd_same {A} (l : list A) i x : i < length l -> at_ (upd l i x) i = Ok x.
Proof.
  intro H. unfold at_. rewrite nth_error_upd, Nat.eqb_refl.
  apply Nat.ltb_lt in H. rewrite H. reflexivity.
Qed.

Lemma at_upd_other {A} (l : list A) i x k : k <> i -> at_ (upd l i x) k = at_ l k.
Proof.
  intro H. unfold at_. rewrite nth_error_upd.
  apply Nat.eqb_neq in H. rewrite H. reflexivity.
Qed.

Lemma put_lt {A} (l : list A) i x : i < length l -> put_ l i x = Ok (upd l i x).
Proof. intro H. unfold put_. apply Nat.ltb_lt in H. rewrite H. reflexivity. Qed.

Lemma put_ge {A} (l : list A) i x : length l <= i -> put_ l i x = UB OobIndex.
Proof. intro H. unfold put_. apply Nat.ltb_ge in H. rewrite H. reflexivity. Qed.

Lemma Forall_upd {A} (P : A -> Prop) l i x : Forall P l -> P x -> Forall P (upd l i x).
Proof.
  intros H Hx. revert i. induction H; intros [|i]; cbn; constructor; auto.
Qed.

Lemma upd_same {A} (l : list A) i x : nth_error l i = Some x -> upd l i x = l.
Proof. revert i; induction l; intros [|i]; cbn; try congruence. intro. f_equal; auto. Qed.

Lemma upd_ge {A} (l : list A) i x : length l <= i -> upd l i x = l.
Proof. revert i; induction l; intros [|i]; cbn; try lia; auto. intro. f_equal. apply IHl. lia. Qed.

(** ** Loops *)
Lemma for_each_app {S A} (l1 l2 : list A) (s : S) f :
  for_each (l1 ++ l2) s f =
  match for_each l1 s f with Ok s' => for_each l2 s' f | Throw e => Throw e | UB u => UB u end.
Proof.
  revert s. induction l1 as [|a l1 IH]; intro s; cbn; [reflexivity|].
  destruct (f s a); auto.
Qed.

(** Loop invariant over the processed prefix. *)
Lemma for_each_inv {S A} (I : list A -> S -> Prop) (f : S -> A -> res S) l s0 :
  I [] s0 ->
  (forall pre x post s, l = pre ++ x :: post -> I pre s ->
     exists s', f s x = Ok s' /\ I (pre ++ [x]) s') ->
  exists s, for_each l s0 f = Ok s /\ I l s.
Proof.
  intros H0 Hs.
  assert (forall post pre s, l = pre ++ post -> I pre s ->
           exists s', for_each post s f = Ok s' /\ I l s') as G.
  { induction post as [|x post IH]; intros pre s E HI.
    - rewrite app_nil_r in E. subst. cbn. eauto.
    - destruct (Hs pre x post s E HI) as (s' & Es & Is). cbn. rewrite Es.
      apply (IH (pre ++ [x])); [rewrite <- app_assoc; exact E | exact Is]. }
  apply (G l [] s0); auto.
Qed.

Lemma for_each_ext {S A} (l : list A) (s : S) f g :
  (forall s x, In x l -> f s x = g s x) -> for_each l s f = for_each l s g.
Proof.
  revert s. induction l as [|a l IH]; intros s H; cbn; [reflexivity|].
  rewrite (H s a (or_introl eq_refl)). destruct (g s a); auto.
  apply IH. intros. apply H. right. assumption.
Qed.

Lemma upto_in lo hi k : In k (upto lo hi) <-> lo <= k < hi.
Proof. unfold upto. rewrite in_seq. lia. Qed.

Lemma upto_split lo hi pre x post : upto lo hi = pre ++ x :: post ->
  x = lo + length pre /\ pre = seq lo (length pre) /\ lo <= x < hi.
Proof.
  intro E.
  assert (x = lo + length pre) as Ex.
  { assert (nth (length pre) (upto lo hi) 0 = x) as N
      by (rewrite E, app_nth2, Nat.sub_diag; [reflexivity|lia]).
    assert (length pre < hi - lo) as L.
    { apply (f_equal (@length nat)) in E. unfold upto in E.
      rewrite seq_length, app_length in E. cbn in E. lia. }
    unfold upto in N. rewrite seq_nth in N by lia. lia. }
  split; [exact Ex|]. split.
  - apply (f_equal (firstn (length pre))) in E.
    rewrite firstn_app, Nat.sub_diag, firstn_all, app_nil_r in E. etransitivity; [symmetry; exact E|].
    unfold upto.
    assert (length pre <= hi - lo) as L.
    { apply (f_equal (@length nat)) in E. rewrite firstn_length in E. unfold upto in E.
      rewrite seq_length in E. lia. }
    replace (hi - lo) with (length pre + (hi - lo - length pre)) by lia.
    rewrite seq_app, firstn_app, seq_length, Nat.sub_diag.
    rewrite firstn_O, app_nil_r. rewrite firstn_all2; [reflexivity|rewrite seq_length; lia].
  - assert (In x (upto lo hi)) as I by (rewrite E; apply in_or_app; right; left; reflexivity).
    apply upto_in in I. exact I.
Qed.

Lemma upto_cons lo hi : lo < hi -> upto lo hi = lo :: upto (lo + 1) hi.
Proof.
  intro H. unfold upto. replace (hi - lo) with (S (hi - (lo + 1))) by lia.
  cbn [seq]. rewrite Nat.add_1_r. reflexivity.
Qed.

Lemma upto_snoc lo hi : lo <= hi -> upto lo (hi + 1) = upto lo hi ++ [hi].
Proof.
  intro H. unfold upto. replace (hi + 1 - lo) with ((hi - lo) + 1) by lia.
  rewrite seq_app. cbn [seq]. do 3 f_equal. lia.
Qed.

Lemma upto_nil lo hi : hi <= lo -> upto lo hi = [].
Proof. intro H. unfold upto. replace (hi - lo) with 0 by lia. reflexivity. Qed.

(** Counting loop invariant. *)
Lemma for_upto_inv {S} (I : nat -> S -> Prop) (f : S -> nat -> res S) lo hi s0 :
  lo <= hi -> I lo s0 ->
  (forall k s, lo <= k < hi -> I k s -> exists s', f s k = Ok s' /\ I (k + 1) s') ->
  exists s, for_each (upto lo hi) s0 f = Ok s /\ I hi s.
Proof.
  intros Hle H0 Hs.
  destruct (for_each_inv (fun pre s => I (lo + length pre) s) f (upto lo hi) s0) as (s & E & HI).
  - cbn. rewrite Nat.add_0_r. exact H0.
  - intros pre x post s E HI. apply upto_split in E as (Ex & _ & R).
    rewrite <- Ex in HI. destruct (Hs x s R HI) as (s' & Es & Is).
    exists s'. split; [exact Es|]. rewrite app_length. cbn.
    replace (lo + (length pre + 1)) with (x + 1) by lia. exact Is.
  - exists s. split; [exact E|]. unfold upto in HI. rewrite seq_length in HI.
    replace (lo + (hi - lo)) with hi in HI by lia. exact HI.
Qed.

(** ** Little-endian images *)
Lemma le_bytes_length n z : length (le_bytes n z) = n.
Proof. revert z; induction n; intro; cbn; auto. Qed.

Lemma le_value_bytes n z : (0 <= z < 256 ^ Z.of_nat n)%Z -> le_value (le_bytes n z) = z.
Proof.
  revert z. induction n as [|n IH]; intros z H.
  - cbn in *. lia.
  - cbn [le_bytes le_value]. rewrite Nat2Z.inj_succ, Z.pow_succ_r in H by lia.
    rewrite IH.
    + rewrite b2z_z2b. pose proof (Z.div_mod z 256). lia.
    + split; [apply Z.div_pos; lia|]. apply Z.div_lt_upper_bound; lia.
Qed.

Lemma le_value_range l : (0 <= le_value l < 256 ^ Z.of_nat (length l))%Z.
Proof.
  induction l as [|b l IH]; cbn [le_value length]; [cbn; lia|].
  rewrite Nat2Z.inj_succ, Z.pow_succ_r by lia. pose proof (b2z_range b). nia.
Qed.

Lemma le_bytes_value l : le_bytes (length l) (le_value l) = l.
Proof.
  induction l as [|b l IH]; [reflexivity|]. cbn [length le_value le_bytes].
  pose proof (b2z_range b). f_equal.
  - rewrite <- z2b_mod. replace ((b2z b + 256 * le_value l) mod 256)%Z with (b2z b).
    + apply z2b_b2z.
    + rewrite Z.mul_comm, Z.mod_add by lia. rewrite Z.mod_small; lia.
  - replace ((b2z b + 256 * le_value l) / 256)%Z with (le_value l); [exact IH|].
    rewrite Z.mul_comm, Z.div_add by lia. rewrite Z.div_small; lia.
Qed.
