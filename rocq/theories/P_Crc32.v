(** The table-driven CRC of the code equals the bitwise definition; burst detection. *)
From Verif Require Import Prelude P_Prelude M_Crc32 S_Crc32.
Local Open Scope Z_scope.

Lemma crc_bit_lxor a b : crc_bit (Z.lxor a b) = Z.lxor (crc_bit a) (crc_bit b).
Proof.
  unfold crc_bit. rewrite <- !Z.bit0_odd, Z.lxor_spec, Z.shiftr_lxor.
  destruct (Z.testbit a 0), (Z.testbit b 0); cbn [xorb];
    apply Z.bits_inj'; intros n Hn; rewrite !Z.lxor_spec;
    repeat match goal with |- context [Z.testbit ?x n] => destruct (Z.testbit x n) end;
    reflexivity.
Qed.

Lemma crc_bits_lxor n : forall a b, crc_bits n (Z.lxor a b) = Z.lxor (crc_bits n a) (crc_bits n b).
Proof.
  induction n as [|n IH]; intros; cbn [crc_bits]; [reflexivity|].
  rewrite crc_bit_lxor, IH. reflexivity.
Qed.

Lemma crc_bits_add n m c : crc_bits (n + m) c = crc_bits m (crc_bits n c).
Proof. revert c. induction n; intros; cbn [crc_bits Nat.add]; auto. Qed.

Lemma crc_bits_shl n : forall a, 0 <= a -> crc_bits n (Z.shiftl a (Z.of_nat n)) = a.
Proof.
  induction n as [|n IH]; intros a Ha; cbn [crc_bits].
  - now rewrite Z.shiftl_0_r.
  - replace (crc_bit (Z.shiftl a (Z.of_nat (S n)))) with (Z.shiftl a (Z.of_nat n)); [now apply IH|].
    unfold crc_bit. rewrite <- Z.bit0_odd, Z.shiftl_spec_low by lia.
    rewrite Z.shiftr_shiftl_l by lia. f_equal. lia.
Qed.

Lemma crc_bit_range c : 0 <= c < 2 ^ 32 -> 0 <= crc_bit c < 2 ^ 32.
Proof.
  intros H. unfold crc_bit.
  assert (Hs : 0 <= Z.shiftr c 1 < 2 ^ 31).
  { rewrite Z.shiftr_div_pow2 by lia. change (2 ^ 1) with 2. lia. }
  destruct (Z.odd c); [|lia].
  assert (0 <= Z.lxor (Z.shiftr c 1) 0xEDB88320) by (apply Z.lxor_nonneg; lia).
  split; [assumption|].
  destruct (Z.eq_dec (Z.lxor (Z.shiftr c 1) 0xEDB88320) 0) as [E|E]; [rewrite E; lia|].
  apply Z.log2_lt_pow2; [lia|].
  eapply Z.le_lt_trans; [apply Z.log2_lxor; lia|].
  apply Z.max_lub_lt; [|reflexivity].
  destruct (Z.eq_dec (Z.shiftr c 1) 0) as [E'|E']; [rewrite E'; reflexivity|].
  apply Z.log2_lt_pow2; lia.
Qed.

Lemma crc_bits_range n : forall c, 0 <= c < 2 ^ 32 -> 0 <= crc_bits n c < 2 ^ 32.
Proof. induction n; intros; cbn [crc_bits]; auto using crc_bit_range. Qed.

Lemma lxor_range a b n : 0 <= n -> 0 <= a < 2 ^ n -> 0 <= b < 2 ^ n -> 0 <= Z.lxor a b < 2 ^ n.
Proof.
  intros Hn Ha Hb. split; [apply Z.lxor_nonneg; lia|].
  destruct (Z.eq_dec (Z.lxor a b) 0) as [E|E]; [rewrite E; lia|].
  assert (0 <= Z.lxor a b) by (apply Z.lxor_nonneg; lia).
  apply Z.log2_lt_pow2; [lia|].
  eapply Z.le_lt_trans; [apply Z.log2_lxor; lia|].
  assert (forall x, 0 <= x < 2 ^ n -> x <> 0 -> Z.log2 x < n).
  { intros. apply Z.log2_lt_pow2; lia. }
  assert (0 < n).
  { destruct (Z.eq_dec n 0); [subst; change (2 ^ 0) with 1 in *; exfalso; apply E;
      replace a with 0 by lia; replace b with 0 by lia; reflexivity | lia]. }
  apply Z.max_lub_lt.
  - destruct (Z.eq_dec a 0) as [->|]; auto.
  - destruct (Z.eq_dec b 0) as [->|]; auto.
Qed.

Lemma crc_byte_range c b : 0 <= c < 2 ^ 32 -> 0 <= crc_byte c b < 2 ^ 32.
Proof.
  intros H. apply crc_bits_range, lxor_range; try lia.
  pose proof (b2z_range b). lia.
Qed.

Lemma fold_range s : forall c, 0 <= c < 2 ^ 32 -> 0 <= fold_left crc_byte s c < 2 ^ 32.
Proof. induction s; intros; cbn [fold_left]; auto using crc_byte_range. Qed.

(** crc_bit is injective on 32-bit registers: the polynomial's top bit tells which branch
    was taken. *)
Lemma crc_bit_zero c : 0 <= c < 2 ^ 32 -> crc_bit c = 0 -> c = 0.
Proof.
  intros H E. unfold crc_bit in E.
  assert (Hs : 0 <= Z.shiftr c 1 < 2 ^ 31).
  { rewrite Z.shiftr_div_pow2 by lia. change (2 ^ 1) with 2. lia. }
  destruct (Z.odd c) eqn:O.
  - apply Z.lxor_eq in E. lia.
  - rewrite Z.shiftr_div_pow2 in E by lia. change (2 ^ 1) with 2 in E.
    destruct (Z.eq_dec c 0); [assumption|].
    assert (c = 1) by lia. subst. discriminate O.
Qed.

Lemma crc_bits_zero n : forall c, 0 <= c < 2 ^ 32 -> crc_bits n c = 0 -> c = 0.
Proof.
  induction n; intros c H E; cbn [crc_bits] in E; [assumption|].
  apply crc_bit_zero; [assumption|]. apply IHn; [now apply crc_bit_range|assumption].
Qed.

Lemma crc_bits_inj n a b : 0 <= a < 2 ^ 32 -> 0 <= b < 2 ^ 32 ->
  crc_bits n a = crc_bits n b -> a = b.
Proof.
  intros Ha Hb E. apply Z.lxor_eq. apply crc_bits_zero with (n := n).
  - apply lxor_range; lia.
  - rewrite crc_bits_lxor, E. apply Z.lxor_nilpotent.
Qed.

Lemma lxor_cancel_r a b c : Z.lxor a c = Z.lxor b c -> a = b.
Proof.
  intros E. rewrite <- (Z.lxor_0_r a), <- (Z.lxor_0_r b), <- (Z.lxor_nilpotent c),
    <- !Z.lxor_assoc, E. reflexivity.
Qed.

Lemma crc_byte_inj a b x : 0 <= a < 2 ^ 32 -> 0 <= b < 2 ^ 32 ->
  crc_byte a x = crc_byte b x -> a = b.
Proof.
  intros Ha Hb E. apply crc_bits_inj in E.
  - now apply lxor_cancel_r in E.
  - apply lxor_range; try lia. pose proof (b2z_range x); lia.
  - apply lxor_range; try lia. pose proof (b2z_range x); lia.
Qed.

Lemma fold_inj s : forall a b, 0 <= a < 2 ^ 32 -> 0 <= b < 2 ^ 32 ->
  fold_left crc_byte s a = fold_left crc_byte s b -> a = b.
Proof.
  induction s; intros; cbn [fold_left] in *; [assumption|].
  eapply crc_byte_inj; [| |apply IHs]; eauto using crc_byte_range.
Qed.

(** Feeding k bytes is shifting 8k times after adding their little-endian value. *)
Lemma lxor_shl_add b v : Z.lxor (b2z b) (Z.shiftl v 8) = b2z b + 256 * v.
Proof.
  pose proof (b2z_range b) as R.
  rewrite <- Z.add_nocarry_lxor.
  - rewrite Z.shiftl_mul_pow2 by lia. change (2 ^ 8) with 256. lia.
  - apply Z.bits_inj'; intros n Hn. rewrite Z.land_spec, Z.bits_0.
    destruct (Z.ltb_spec n 8).
    + rewrite Z.shiftl_spec_low by lia. apply andb_false_r.
    + rewrite testbit_byte_hi by lia. reflexivity.
Qed.

Lemma fold_crc w : forall c,
  fold_left crc_byte w c = crc_bits (8 * length w) (Z.lxor c (le_value w)).
Proof.
  induction w as [|b w IH]; intros c; cbn [fold_left length le_value].
  - cbn [crc_bits Nat.mul]. now rewrite Z.lxor_0_r.
  - rewrite IH. replace (8 * S (length w))%nat with (8 + 8 * length w)%nat by lia.
    rewrite crc_bits_add. f_equal. unfold crc_byte.
    rewrite <- lxor_shl_add.
    rewrite <- Z.lxor_assoc, (crc_bits_lxor 8 (Z.lxor c (b2z b))). f_equal.
    symmetry. apply (crc_bits_shl 8). pose proof (le_value_range w). lia.
Qed.

Lemma le_value_inj : forall a b, length a = length b -> le_value a = le_value b -> a = b.
Proof.
  induction a as [|x a IH]; intros [|y b] L E; try discriminate; [reflexivity|].
  cbn [length le_value] in *. pose proof (b2z_range x). pose proof (b2z_range y).
  assert (b2z x = b2z y) by lia. assert (le_value a = le_value b) by lia.
  f_equal; [now apply b2z_inj | apply IH; auto].
Qed.

Lemma burst_detected s t : burst 4 s t -> crc32 s <> crc32 t.
Proof.
  intros (p & w1 & w2 & q & -> & -> & L & L4 & N) E. apply N. unfold crc32 in E.
  apply lxor_cancel_r in E. rewrite !fold_left_app in E.
  assert (R : 0 <= fold_left crc_byte p 0xFFFFFFFF < 2 ^ 32) by (apply fold_range; lia).
  set (c := fold_left crc_byte p 0xFFFFFFFF) in *. clearbody c.
  apply fold_inj in E; try now apply fold_range.
  rewrite !fold_crc, L in E.
  assert (B : forall w, (length w <= 4)%nat -> 0 <= le_value w < 2 ^ 32).
  { intros w H. pose proof (le_value_range w) as [? ?]. split; [lia|].
    eapply Z.lt_le_trans; [eassumption|].
    change (2 ^ 32) with (256 ^ 4). apply Z.pow_le_mono_r; lia. }
  apply crc_bits_inj in E; try (apply lxor_range; [lia|lia|apply B; lia]).
  rewrite (Z.lxor_comm c), (Z.lxor_comm c) in E. apply lxor_cancel_r in E.
  apply le_value_inj; assumption.
Qed.

(** The table is the bitwise CRC of single bytes. *)
Definition zres_is (r : res Z) (z : Z) : bool := match r with Ok x => Z.eqb x z | _ => false end.
Lemma zres_is_eq r z : zres_is r z = true -> r = Ok z.
Proof. destruct r; try discriminate. cbn. intros H. apply Z.eqb_eq in H. now subst. Qed.

Lemma table_ok b : at_ g_crc32Table (Z.to_nat (b2z b)) = Ok (crc_bits 8 (b2z b)).
Proof. apply zres_is_eq. revert b. refine (sweep (fun b => _) _). vm_compute. reflexivity. Qed.

Lemma crc_step_ok c b : 0 <= c < 2 ^ 32 -> crc_step c b = Ok (crc_byte c b).
Proof.
  intros H. unfold crc_step.
  assert (E : Z.lxor c (b2z b) mod 256 = b2z (z2b (Z.lxor c (b2z b)))) by now rewrite b2z_z2b.
  rewrite E, table_ok. cbn [bind]. f_equal. unfold crc_byte.
  set (lo := z2b _).
  assert (D : Z.lxor c (b2z b) = Z.lxor (b2z lo) (Z.shiftl (Z.shiftr c 8) 8)).
  { rewrite lxor_shl_add. unfold lo. rewrite b2z_z2b.
    assert (Sh : Z.shiftr c 8 = Z.lxor c (b2z b) / 256).
    { change 256 with (2 ^ 8). rewrite <- Z.shiftr_div_pow2 by lia. rewrite Z.shiftr_lxor.
      replace (Z.shiftr (b2z b) 8) with 0; [now rewrite Z.lxor_0_r|].
      rewrite Z.shiftr_div_pow2 by lia. change (2 ^ 8) with 256.
      pose proof (b2z_range b). lia. }
    rewrite Sh. lia. }
  rewrite D, crc_bits_lxor. f_equal.
  symmetry. apply (crc_bits_shl 8). apply Z.shiftr_nonneg. lia.
Qed.

Lemma crc_loop s : forall pre n c, 0 <= c < 2 ^ 32 -> n = length pre ->
  for_each (upto n (n + length s)) c (fun h i => let* b := at_ (pre ++ s) i in crc_step h b)
  = Ok (fold_left crc_byte s c).
Proof.
  induction s as [|x s IH]; intros pre n c H Hn; cbn [length fold_left].
  - rewrite Nat.add_0_r, upto_nil by lia. reflexivity.
  - rewrite upto_cons by lia. cbn [for_each].
    assert (A : at_ (pre ++ x :: s) n = Ok x).
    { unfold at_. rewrite nth_error_app2, Hn, Nat.sub_diag by lia. reflexivity. }
    rewrite A. cbn [bind]. rewrite crc_step_ok by assumption.
    specialize (IH (pre ++ [x]) (S n) (crc_byte c x)).
    rewrite <- app_assoc in IH. cbn [app] in IH.
    replace (n + 1)%nat with (S n) by lia.
    replace (n + S (length s))%nat with (S n + length s)%nat by lia.
    apply IH; [now apply crc_byte_range | rewrite app_length; cbn [length]; lia].
Qed.

Lemma not32_lxor c : 0 <= c < 2 ^ 32 -> not32 c = Z.lxor c 0xFFFFFFFF.
Proof.
  intros H. unfold not32. change (2 ^ 32 - 1) with 0xFFFFFFFF.
  rewrite (Z.sub_nocarry_ldiff 0xFFFFFFFF c).
  - apply Z.bits_inj'; intros n Hn. rewrite Z.ldiff_spec, Z.lxor_spec.
    change 0xFFFFFFFF with (Z.ones 32). rewrite Z.testbit_ones_nonneg by lia.
    destruct (Z.ltb_spec n 32).
    + now rewrite xorb_true_r.
    + rewrite xorb_false_r. replace c with (c mod 2 ^ 32) by (apply Z.mod_small; lia).
      rewrite Z.mod_pow2_bits_high by lia. reflexivity.
  - apply Z.bits_inj'; intros n Hn. rewrite Z.ldiff_spec, Z.bits_0.
    change 0xFFFFFFFF with (Z.ones 32). rewrite Z.testbit_ones_nonneg by lia.
    destruct (Z.ltb_spec n 32); [apply andb_false_r|].
    replace c with (c mod 2 ^ 32) by (apply Z.mod_small; lia).
    now rewrite Z.mod_pow2_bits_high by lia.
Qed.

Lemma CalcHash_ok s : s <> [] -> Z.of_nat (length s) < 2 ^ 32 ->
  CalcHash (Some s) (Z.of_nat (length s)) = Ok (crc32 s).
Proof.
  intros N L. unfold CalcHash. rewrite (proj2 (Z.eqb_neq _ 0)).
  2:{ destruct s; [congruence|cbn [length]; lia]. }
  rewrite Nat2Z.id.
  assert (R : 0 <= not32 0 < 2 ^ 32) by (unfold not32; lia).
  pose proof (crc_loop s [] 0 (not32 0) R eq_refl) as C. cbn [app Nat.add] in C. rewrite C.
  cbn [bind]. f_equal. unfold crc32. change (not32 0) with 0xFFFFFFFF.
  apply not32_lxor, fold_range; lia.
Qed.

Lemma crc32_range s : 0 <= crc32 s < 2 ^ 32.
Proof. apply lxor_range; try lia. apply fold_range; lia. Qed.
