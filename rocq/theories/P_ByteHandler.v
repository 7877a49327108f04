(** Proofs about M_ByteHandler. *)
From Verif Require Import Prelude P_Prelude M_ByteHandler.

Definition nats8 : list nat := seq 0 8.

Lemma sweep_pos (P : nat -> bool) : forallb P nats8 = true -> forall p, p < 8 -> P p = true.
Proof. intros H p Hp. rewrite forallb_forall in H. apply H, in_seq. lia. Qed.

Definition eqb_resbool (a b : res bool) : bool :=
  match a, b with Ok x, Ok y => Bool.eqb x y | _, _ => false end.

Lemma eqb_resbool_eq a b : eqb_resbool a b = true -> a = b.
Proof. destruct a, b; cbn; try discriminate. intro H. apply Bool.eqb_prop in H. congruence. Qed.

Lemma GetBit_value b p : p < 8 -> GetBit b p = Ok (Z.testbit (b2z b) (Z.of_nat p)).
Proof.
  intro Hp. apply eqb_resbool_eq. revert p Hp. apply sweep_pos.
  revert b. apply sweep. vm_compute. reflexivity.
Qed.

Lemma GetBit_throw b p : 8 <= p -> GetBit b p = Throw InvalidArgument.
Proof. intro H. unfold GetBit. apply Nat.leb_le in H. rewrite H. reflexivity. Qed.

Lemma SetBit_throw b p v : 8 <= p -> SetBit b p v = Throw InvalidArgument.
Proof. intro H. unfold SetBit. apply Nat.leb_le in H. rewrite H. reflexivity. Qed.

Lemma SetBit_raw b p (v : bool) q : p < 8 -> q < 8 ->
  Z.testbit (b2z (if v then z2b (Z.lor (b2z b) (BIT p)) else z2b (Z.land (b2z b) (nBIT p))))
            (Z.of_nat q)
  = if q =? p then v else Z.testbit (b2z b) (Z.of_nat q).
Proof.
  intros Hp Hq. apply Bool.eqb_prop. revert q Hq. apply sweep_pos.
  revert p Hp. apply sweep_pos. revert b. apply sweep. destruct v; vm_compute; reflexivity.
Qed.

Lemma SetBit_ok b p v : p < 8 ->
  exists b', SetBit b p v = Ok b' /\
    forall q, q < 8 ->
      Z.testbit (b2z b') (Z.of_nat q) = if q =? p then v else Z.testbit (b2z b) (Z.of_nat q).
Proof.
  intro Hp. unfold SetBit. apply Nat.leb_gt in Hp as Hp'. rewrite Hp'.
  eexists. split; [reflexivity|]. intros q Hq. apply SetBit_raw; assumption.
Qed.

(** Queries *)
Lemma higher_ok b :
  match GetHigherBitPos b with
  | Some k => if (b2z b =? 0)%Z then (k =? 0)%Z
              else (0 <=? k)%Z && (k <? 8)%Z && Z.testbit (b2z b) k
                   && forallb (fun q => (Z.of_nat q <=? k)%Z || negb (Z.testbit (b2z b) (Z.of_nat q))) nats8
  | None => false
  end = true.
Proof. revert b. apply sweep. vm_compute. reflexivity. Qed.

Lemma lower_ok b :
  match GetLowerBitPos b with
  | Some k => if (b2z b =? 0)%Z then (k =? 255)%Z
              else (0 <=? k)%Z && (k <? 8)%Z && Z.testbit (b2z b) k
                   && forallb (fun q => (k <=? Z.of_nat q)%Z || negb (Z.testbit (b2z b) (Z.of_nat q))) nats8
  | None => false
  end = true.
Proof. revert b. apply sweep. vm_compute. reflexivity. Qed.

Local Open Scope Z_scope.

Lemma higher_spec b :
  (b2z b = 0 -> GetHigherBitPos b = Some 0) /\
  (b2z b <> 0 -> exists k, GetHigherBitPos b = Some k /\ 0 <= k < 8 /\
     Z.testbit (b2z b) k = true /\ forall q, k < q -> Z.testbit (b2z b) q = false).
Proof.
  pose proof (higher_ok b) as H. destruct (GetHigherBitPos b) as [k|]; [|discriminate].
  destruct (b2z b =? 0) eqn:E.
  - apply Z.eqb_eq in E, H. subst k. split; [reflexivity|]. intro; contradiction.
  - apply Z.eqb_neq in E. split; [intro; contradiction|]. intros _.
    rewrite !andb_true_iff in H. destruct H as [[[H1 H2] H3] H4].
    exists k. repeat split; try lia; try assumption.
    intros q Hq. destruct (Z_lt_dec q 8); [|apply testbit_byte_hi; lia].
    rewrite forallb_forall in H4. specialize (H4 (Z.to_nat q)).
    rewrite Z2Nat.id in H4 by lia.
    assert (In (Z.to_nat q) nats8) as I by (apply in_seq; lia).
    apply H4 in I. apply orb_true_iff in I. destruct I as [I|I]; [lia|].
    destruct (Z.testbit (b2z b) q); [discriminate|reflexivity].
Qed.

Lemma lower_spec b :
  (b2z b = 0 -> GetLowerBitPos b = Some 255) /\
  (b2z b <> 0 -> exists k, GetLowerBitPos b = Some k /\ 0 <= k < 8 /\
     Z.testbit (b2z b) k = true /\ forall q, 0 <= q < k -> Z.testbit (b2z b) q = false).
Proof.
  pose proof (lower_ok b) as H. destruct (GetLowerBitPos b) as [k|]; [|discriminate].
  destruct (b2z b =? 0) eqn:E.
  - apply Z.eqb_eq in E, H. subst k. split; [reflexivity|]. intro; contradiction.
  - apply Z.eqb_neq in E. split; [intro; contradiction|]. intros _.
    rewrite !andb_true_iff in H. destruct H as [[[H1 H2] H3] H4].
    exists k. repeat split; try lia; try assumption.
    intros q Hq.
    rewrite forallb_forall in H4. specialize (H4 (Z.to_nat q)).
    rewrite Z2Nat.id in H4 by lia.
    assert (In (Z.to_nat q) nats8) as I by (apply in_seq; lia).
    apply H4 in I. apply orb_true_iff in I. destruct I as [I|I]; [lia|].
    destruct (Z.testbit (b2z b) q); [discriminate|reflexivity].
Qed.

Lemma shr_loop_log2 fuel x cnt : 0 < x -> Z.log2 x < Z.of_nat fuel ->
  shr_loop fuel x cnt = Some (cnt + Z.log2 x).
Proof.
  revert x cnt. induction fuel as [|f IH]; intros x cnt Hx Hf.
  - pose proof (Z.log2_nonneg x). lia.
  - cbn [shr_loop]. rewrite Z.shiftr_div_pow2 by lia. change (2 ^ 1) with 2.
    destruct (x / 2 =? 0) eqn:E.
    + apply Z.eqb_eq in E. assert (x = 1) as -> by (pose proof (Z.div_mod x 2); pose proof (Z.mod_pos_bound x 2); lia).
      change (Z.log2 1) with 0. f_equal. lia.
    + apply Z.eqb_neq in E.
      assert (0 < x / 2) as P by (pose proof (Z.div_pos x 2); lia).
      assert (Z.log2 x = Z.log2 (x / 2) + 1) as L.
      { apply Z.log2_unique; [pose proof (Z.log2_nonneg (x/2)); lia|].
        pose proof (Z.log2_spec (x / 2) P) as [A B].
        replace (Z.succ (Z.log2 (x / 2) + 1)) with (Z.succ (Z.succ (Z.log2 (x / 2)))) by lia.
        pose proof (Z.log2_nonneg (x/2)).
        rewrite Z.add_1_r. rewrite (Z.pow_succ_r 2 (Z.log2 (x/2))) by lia.
        rewrite (Z.pow_succ_r 2 (Z.succ (Z.log2 (x/2)))) by lia.
        pose proof (Z.div_mod x 2). pose proof (Z.mod_pos_bound x 2). lia. }
      rewrite IH; [f_equal; lia|exact P|lia].
Qed.

Lemma CalcRealByteCnt_spec n : 0 <= n < 2 ^ 64 ->
  exists k, CalcRealByteCnt n = Some k /\ 1 <= k <= 8 /\ n < 256 ^ k /\
            forall k', 1 <= k' -> n < 256 ^ k' -> k <= k'.
Proof.
  intro Hn. unfold CalcRealByteCnt. destruct (n <=? 255) eqn:E.
  - exists 1. repeat split; try lia.
  - assert (255 < n) as Hb by lia.
    assert (Z.log2 n < 64) as L by (apply Z.log2_lt_pow2; lia).
    assert (8 <= Z.log2 n) as L8 by (apply Z.log2_le_pow2; lia).
    rewrite shr_loop_log2 by (change (Z.of_nat 64) with 64; lia).
    eexists. split; [reflexivity|].
    rewrite Z.add_0_l. rewrite (Z.mod_small (Z.log2 n)) by lia.
    pose proof (Z.log2_spec n ltac:(lia)) as [A B].
    pose proof (Z.div_mod (Z.log2 n) 8). pose proof (Z.mod_pos_bound (Z.log2 n) 8).
    assert (forall k, 0 <= k -> 256 ^ k = 2 ^ (8 * k)) as P
      by (intros k Hk; rewrite Z.pow_mul_r by lia; reflexivity).
    repeat split; try lia.
    + rewrite P by lia. eapply Z.lt_le_trans; [exact B|]. apply Z.pow_le_mono_r; lia.
    + intros k' Hk' Hlt. rewrite P in Hlt by lia.
      assert (Z.log2 n < 8 * k') by (apply Z.log2_lt_pow2; lia). lia.
Qed.

(** Array overloads *)
Lemma arr_args_ok a n Pos : Z.of_nat (length a) = n -> 8 <= n -> 8 * n < 2 ^ 64 ->
  0 <= Pos < 8 * n -> arr_args_bad (Some a) n Pos = false.
Proof.
  intros Hl H8 Hn HP. unfold arr_args_bad. rewrite Z.mod_small by lia. lia.
Qed.

Lemma SetBitArr_low a n Pos v : Z.of_nat (length a) = n -> 8 <= n -> 8 * n < 2 ^ 64 ->
  0 <= Pos <= 8 -> exists u, SetBitArr (Some a) n Pos v = UB u.
Proof.
  intros Hl H8 Hn HP. unfold SetBitArr. rewrite (arr_args_ok a) by (assumption || lia).
  destruct (Pos =? 0) eqn:E0; [eauto|].
  rewrite Z.mod_small by lia.
  assert (length a <= Z.to_nat (n * 8 / Pos))%nat as HO.
  { assert (n <= n * 8 / Pos) by (apply Z.div_le_lower_bound; nia). lia. }
  destruct v.
  - rewrite at_ge by exact HO. cbn. eauto.
  - cbn [bind]. rewrite at_ge by exact HO. cbn. eauto.
Qed.

Lemma GetBitArr_low a n Pos : Z.of_nat (length a) = n -> 8 <= n -> 8 * n < 2 ^ 64 ->
  0 <= Pos <= 8 -> exists u, GetBitArr (Some a) n Pos = UB u.
Proof.
  intros Hl H8 Hn HP. unfold GetBitArr. rewrite (arr_args_ok a) by (assumption || lia).
  destruct (Pos =? 0) eqn:E0; [eauto|].
  rewrite Z.mod_small by lia.
  assert (length a <= Z.to_nat (n * 8 / Pos))%nat as HO.
  { assert (n <= n * 8 / Pos) by (apply Z.div_le_lower_bound; nia). lia. }
  rewrite at_ge by exact HO. cbn. eauto.
Qed.

Lemma clear8 b : z2b (Z.land (b2z b) (nBIT 8)) = b.
Proof.
  apply beqb_eq. revert b. apply sweep. vm_compute. reflexivity.
Qed.
Lemma set8 b : z2b (Z.lor (b2z b) (BIT 8)) = b.
Proof.
  apply beqb_eq. revert b. apply sweep. vm_compute. reflexivity.
Qed.
Lemma get8 b : Z.shiftr (Z.land (b2z b) 8) 8 =? 0 = true.
Proof. revert b. apply sweep. vm_compute. reflexivity. Qed.

Lemma SetBitArr_high a n Pos v : Z.of_nat (length a) = n -> 8 <= n -> 8 * n < 2 ^ 64 ->
  8 < Pos < 8 * n -> SetBitArr (Some a) n Pos v = Ok a.
Proof.
  intros Hl H8 Hn HP. unfold SetBitArr. rewrite (arr_args_ok a) by (assumption || lia).
  destruct (Pos =? 0) eqn:E0; [lia|].
  rewrite Z.mod_small by lia. rewrite (Z.mod_small 8) by lia.
  change (Z.to_nat 8) with 8%nat.
  set (k := Z.to_nat (n * 8 / Pos)).
  assert (k < length a)%nat as HO.
  { assert (n * 8 / Pos < n) by (apply Z.div_lt_upper_bound; nia).
    assert (0 <= n * 8 / Pos) by (apply Z.div_pos; lia). unfold k. lia. }
  destruct (at_lt a k HO) as (x & Ex & _).
  assert (upd a k x = a) as U by (apply upd_same, at_ok, Ex).
  assert ((let* x0 := at_ a k in put_ a k (z2b (Z.lor (b2z x0) (BIT 8)))) = Ok a) as S1.
  { rewrite Ex. cbn [bind]. rewrite set8, put_lt by exact HO. rewrite U. reflexivity. }
  destruct v; [rewrite S1|]; cbn [bind]; rewrite Ex; cbn [bind];
    rewrite clear8, put_lt by exact HO; rewrite U; reflexivity.
Qed.

Lemma GetBitArr_high a n Pos : Z.of_nat (length a) = n -> 8 <= n -> 8 * n < 2 ^ 64 ->
  8 < Pos < 8 * n -> GetBitArr (Some a) n Pos = Ok false.
Proof.
  intros Hl H8 Hn HP. unfold GetBitArr. rewrite (arr_args_ok a) by (assumption || lia).
  destruct (Pos =? 0) eqn:E0; [lia|].
  rewrite Z.mod_small by lia. rewrite (Z.mod_small 8) by lia.
  set (k := Z.to_nat (n * 8 / Pos)).
  assert (k < length a)%nat as HO.
  { assert (n * 8 / Pos < n) by (apply Z.div_lt_upper_bound; nia).
    assert (0 <= n * 8 / Pos) by (apply Z.div_pos; lia). unfold k. lia. }
  destruct (at_lt a k HO) as (x & Ex & _).
  rewrite Ex. cbn [bind]. rewrite get8. reflexivity.
Qed.

Lemma array_arguments (arr : option (list byte)) (n pos : Z) (v : bool) :
  (0 <= n)%Z -> (8 * n < 2 ^ 64)%Z -> (0 <= pos)%Z ->
  (arr = None \/ (n < 8)%Z \/ (8 * n <= pos)%Z <-> SetBitArr arr n pos v = Throw InvalidArgument) /\
  (arr = None \/ (n < 8)%Z \/ (8 * n <= pos)%Z <-> GetBitArr arr n pos = Throw InvalidArgument).
Proof.
  intros Hn H8 Hp. assert (B : arr = None \/ (n < 8)%Z \/ (8 * n <= pos)%Z <-> arr_args_bad arr n pos = true).
  { unfold arr_args_bad. destruct arr as [a|]; [|split; auto]. destruct (Z.eq_dec n 0) as [->|Nz]; [split; [reflexivity|intros _; right; left; lia]|].
    rewrite Z.mod_small by lia. split; [intros [D|D]; [discriminate|lia]|intros D; right; lia]. }
  assert (NT : forall A (r : res A), (exists x, r = Ok x) \/ (exists u, r = UB u) -> r <> Throw InvalidArgument) by (intros A r [(x & ->)|(u & ->)]; discriminate).
  assert (AT : forall A (l : list A) i, (exists x, at_ l i = Ok x) \/ (exists u, at_ l i = UB u)).
  { intros A l i. destruct (Nat.lt_ge_cases i (length l)) as [L|L]; [left; destruct (at_lt l i L) as (x & E & _); eauto|right; rewrite at_ge by exact L; eauto]. }
  assert (PT : forall A (l : list A) i y, (exists x, put_ l i y = Ok x) \/ (exists u, put_ l i y = UB u)).
  { intros A l i y. destruct (Nat.lt_ge_cases i (length l)) as [L|L]; [left; rewrite put_lt by exact L; eauto|right; rewrite put_ge by exact L; eauto]. }
  split; (rewrite B; unfold SetBitArr, GetBitArr; destruct (arr_args_bad arr n pos) eqn:Q; [split; reflexivity|]; split; [discriminate|];
    intros E; exfalso; destruct arr as [a|]; [|discriminate]; destruct (pos =? 0); [discriminate|]; cbv zeta in E; revert E).
  - set (bi := Z.to_nat _). set (b := Z.to_nat _).
    assert (X : (exists a1, (if v then let* x := at_ a bi in put_ a bi (z2b (Z.lor (b2z x) (BIT b))) else Ok a) = Ok a1) \/
                exists u, (if v then let* x := at_ a bi in put_ a bi (z2b (Z.lor (b2z x) (BIT b))) else Ok a) = UB u).
    { destruct v; [|left; eauto]. destruct (AT _ a bi) as [(x & ->)|(u & ->)]; cbn [bind]; [apply PT|right; eauto]. }
    destruct X as [(a1 & ->)|(u & ->)]; cbn [bind]; [|discriminate].
    destruct (AT _ a1 bi) as [(y & ->)|(u & ->)]; cbn [bind]; [apply NT, PT|discriminate].
  - destruct (AT _ a (Z.to_nat (n * 8 mod 2 ^ 64 / pos))) as [(y & ->)|(u & ->)]; cbn [bind]; discriminate.
Qed.
