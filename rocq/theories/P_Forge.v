(** Proofs for C123: the register of CRC-32 can be run backwards. *)
From Verif Require Import Prelude P_Prelude M_Crc32 S_Crc32 P_Crc32.
Local Open Scope Z_scope.

(** one step back *)
Definition back (c : Z) : Z := if Z.testbit c 31 then Z.shiftl (Z.lxor c 0xEDB88320) 1 + 1 else Z.shiftl c 1.

Lemma below_31 c : 0 <= c < 2 ^ 32 -> Z.testbit c 31 = false -> c < 2 ^ 31.
Proof.
  intros H T. destruct (Z.lt_ge_cases c (2 ^ 31)) as [L|L]; [exact L|]. exfalso.
  rewrite Z.testbit_eqb in T by lia. apply Z.eqb_neq in T. apply T.
  assert (c / 2 ^ 31 = 1); [|rewrite H0; reflexivity].
  symmetry. apply (Z.div_unique c (2 ^ 31) 1 (c - 2 ^ 31)); lia.
Qed.

Lemma back_range c : 0 <= c < 2 ^ 32 -> 0 <= back c < 2 ^ 32.
Proof.
  intros H. unfold back. destruct (Z.testbit c 31) eqn:T.
  - assert (R : 0 <= Z.lxor c 0xEDB88320 < 2 ^ 32) by (apply lxor_range; lia).
    assert (B : Z.lxor c 0xEDB88320 < 2 ^ 31).
    { apply below_31; [exact R|]. rewrite Z.lxor_spec, T. reflexivity. }
    rewrite Z.shiftl_mul_pow2 by lia. lia.
  - pose proof (below_31 c H T). rewrite Z.shiftl_mul_pow2 by lia. lia.
Qed.

Lemma back_ok c : 0 <= c < 2 ^ 32 -> crc_bit (back c) = c.
Proof.
  intros H. unfold back, crc_bit. destruct (Z.testbit c 31) eqn:T.
  - set (y := Z.lxor c 0xEDB88320). rewrite Z.shiftl_mul_pow2 by lia. change (2 ^ 1) with 2.
    assert (O : Z.odd (y * 2 + 1) = true).
    { rewrite Z.odd_add, Z.odd_mul. change (Z.odd 2) with false. rewrite andb_false_r. reflexivity. }
    rewrite O. rewrite Z.shiftr_div_pow2 by lia. change (2 ^ 1) with 2.
    replace ((y * 2 + 1) / 2) with y by (apply (Z.div_unique _ 2 y 1); lia).
    unfold y. rewrite Z.lxor_assoc, Z.lxor_nilpotent. apply Z.lxor_0_r.
  - rewrite Z.shiftl_mul_pow2 by lia. change (2 ^ 1) with 2. 
    assert (O : Z.odd (c * 2) = false) by (rewrite Z.odd_mul; apply andb_false_r).
    rewrite O, Z.shiftr_div_pow2 by lia. change (2 ^ 1) with 2. apply Z.div_mul. lia.
Qed.

Fixpoint backs (n : nat) (c : Z) : Z := match n with O => c | S n' => back (backs n' c) end.
Lemma backs_range n c : 0 <= c < 2 ^ 32 -> 0 <= backs n c < 2 ^ 32.
Proof. intros H. induction n as [|n IH]; cbn [backs]; [exact H|]. apply back_range, IH. Qed.
Lemma backs_ok n : forall c, 0 <= c < 2 ^ 32 -> crc_bits n (backs n c) = c.
Proof.
  induction n as [|n IH]; intros c H; [reflexivity|]. cbn [backs crc_bits].
  rewrite back_ok by (apply backs_range; exact H). apply IH. exact H.
Qed.

Opaque backs.

(** from the register after a text to the register before it *)
Definition before (q : list byte) (c : Z) : Z := fold_right (fun b r => Z.lxor (backs 8 r) (b2z b)) c q.
Lemma before_range q c : 0 <= c < 2 ^ 32 -> 0 <= before q c < 2 ^ 32.
Proof.
  intros H. induction q as [|b q IH]; cbn [before fold_right]; [exact H|]. apply lxor_range; [lia|apply backs_range; exact IH|].
  pose proof (b2z_range b). lia.
Qed.
Lemma byte_back r b : 0 <= r < 2 ^ 32 -> crc_byte (Z.lxor (backs 8 r) (b2z b)) b = r.
Proof.
  intros H. unfold crc_byte. generalize 8%nat. intros n. rewrite Z.lxor_assoc, Z.lxor_nilpotent, Z.lxor_0_r. apply backs_ok. exact H.
Qed.
Lemma before_cons b q c : before (b :: q) c = Z.lxor (backs 8 (before q c)) (b2z b).
Proof. reflexivity. Qed.
Lemma fold_cons {A B} (f : A -> B -> A) b q x : fold_left f (b :: q) x = fold_left f q (f x b).
Proof. reflexivity. Qed.
Lemma before_ok q : forall c, 0 <= c < 2 ^ 32 -> fold_left crc_byte q (before q c) = c.
Proof.
  induction q as [|b q IH]; intros c H; [reflexivity|]. rewrite before_cons, fold_cons.
  rewrite byte_back by (apply before_range; exact H). apply IH. exact H.
Qed.

(** the four bytes that lead from register c to register r *)
Definition bridge (c r : Z) : list byte := le_bytes 4 (Z.lxor c (backs 32 r)).
Lemma bridge_ok c r : 0 <= c < 2 ^ 32 -> 0 <= r < 2 ^ 32 -> fold_left crc_byte (bridge c r) c = r.
Proof.
  intros Hc Hr. rewrite fold_crc. unfold bridge. rewrite le_bytes_length.
  assert (R : 0 <= Z.lxor c (backs 32 r) < 2 ^ 32) by (apply lxor_range; [lia|exact Hc|apply backs_range; exact Hr]).
  rewrite le_value_bytes by exact R. rewrite <- Z.lxor_assoc, Z.lxor_nilpotent, Z.lxor_0_l.
  change (8 * 4)%nat with 32%nat. rewrite backs_ok by exact Hr. reflexivity.
Qed.

Lemma forge p q v : 0 <= v < 2 ^ 32 -> exists w, length w = 4%nat /\ crc32 (p ++ w ++ q) = v.
Proof.
  intros H. set (c := fold_left crc_byte p 0xFFFFFFFF).
  assert (Hc : 0 <= c < 2 ^ 32) by (apply fold_range; lia).
  set (r := before q (Z.lxor v 0xFFFFFFFF)).
  assert (Hv : 0 <= Z.lxor v 0xFFFFFFFF < 2 ^ 32) by (apply lxor_range; lia).
  exists (bridge c r). split; [apply le_bytes_length|].
  unfold crc32. rewrite !fold_left_app. fold c. rewrite bridge_ok by (try exact Hc; apply before_range; exact Hv).
  unfold r. rewrite before_ok by exact Hv. rewrite Z.lxor_assoc, Z.lxor_nilpotent. apply Z.lxor_0_r.
Qed.
