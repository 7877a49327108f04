(** CRC-32 and flipped bits: the register map has order 2^32 - 1 on the register 1, and its
    first 91638 values are not the sum of 1 and an earlier one. *)
From Verif Require Import Prelude P_Prelude M_Crc32 S_Crc32 P_Crc32 S_Flips.
From Coq Require Import Znumtheory MSetPositive Sorting.Sorted.
Local Open Scope Z_scope.

(** ** Powers of the register map as 32 columns *)
Fixpoint apply_cols (cols : list Z) (c : Z) : Z :=
  match cols with
  | [] => 0
  | x :: t => Z.lxor (if Z.odd c then x else 0) (apply_cols t (Z.div2 c))
  end.

Fixpoint cols_from (n : nat) (k : nat) (f : Z -> Z) : list Z :=
  match n with O => [] | S n' => f (2 ^ Z.of_nat k) :: cols_from n' (S k) f end.

Lemma apply_cols_ok f : (forall a b, f (Z.lxor a b) = Z.lxor (f a) (f b)) ->
  forall n k c, 0 <= c < 2 ^ Z.of_nat n ->
  apply_cols (cols_from n k f) c = f (Z.shiftl c (Z.of_nat k)).
Proof.
  intros L. assert (F0 : f 0 = 0).
  { pose proof (L 0 0) as E. rewrite Z.lxor_0_l, Z.lxor_nilpotent in E. exact E. }
  induction n as [|n IH]; intros k c H; cbn [cols_from apply_cols].
  - change (2 ^ Z.of_nat 0) with 1 in H. replace c with 0 by lia. now rewrite Z.shiftl_0_l.
  - rewrite Nat2Z.inj_succ, Z.pow_succ_r in H by lia.
    rewrite IH by (rewrite Z.div2_div; lia).
    replace (if Z.odd c then f (2 ^ Z.of_nat k) else 0) with (f (Z.shiftl (Z.b2z (Z.odd c)) (Z.of_nat k))).
    + rewrite <- L. f_equal. rewrite Nat2Z.inj_succ.
      replace (Z.shiftl (Z.div2 c) (Z.succ (Z.of_nat k))) with (Z.shiftl (Z.shiftl (Z.div2 c) 1) (Z.of_nat k))
        by (rewrite Z.shiftl_shiftl by lia; f_equal; lia).
      rewrite <- Z.shiftl_lxor. f_equal.
      apply Z.bits_inj'. intros m Hm. rewrite Z.lxor_spec.
      destruct (Z.eq_dec m 0) as [->|Nm].
      * rewrite Z.shiftl_spec_low by lia. rewrite xorb_false_r, <- Z.bit0_odd, Z.b2z_bit0. reflexivity.
      * rewrite Z.shiftl_spec by lia. rewrite Z.div2_spec, Z.shiftr_spec by lia.
        replace (m - 1 + 1) with m by lia.
        replace (Z.testbit (Z.b2z (Z.odd c)) m) with false; [apply xorb_false_l|].
        symmetry. destruct (Z.odd c); cbn [Z.b2z]; [|apply Z.bits_0].
        rewrite Z.bits_above_log2; [reflexivity|lia|]. change (Z.log2 1) with 0. lia.
    + destruct (Z.odd c); cbn [Z.b2z]; [|rewrite Z.shiftl_0_l; exact F0].
      now rewrite Z.shiftl_mul_pow2, Z.mul_1_l by lia.
Qed.

Definition cols (f : Z -> Z) : list Z := cols_from 32 0 f.
Definition represents (l : list Z) (n : nat) : Prop :=
  forall c, 0 <= c < 2 ^ 32 -> apply_cols l c = crc_bits n c.

Lemma represents_cols n : represents (cols (crc_bits n)) n.
Proof.
  intros c H. unfold cols. rewrite apply_cols_ok; [now rewrite Z.shiftl_0_r|apply crc_bits_lxor|exact H].
Qed.

Fixpoint map_pow2 (k : nat) (l : list Z) : list Z :=
  match k with O => [] | S k' => apply_cols l (hd 0 l) :: map_pow2 k' (tl l) end.

Lemma cols_from_map n : forall k f g, (forall j, (k <= j < k + n)%nat -> f (2 ^ Z.of_nat j) = g (2 ^ Z.of_nat j)) ->
  cols_from n k f = cols_from n k g.
Proof.
  induction n; intros k f g H; cbn [cols_from]; [reflexivity|].
  f_equal; [apply H; lia|]. apply IHn. intros j Hj. apply H. lia.
Qed.

(** Composition: apply [l2] to the columns of [l1]. *)
Lemma represents_comp l1 l2 n m : l1 = cols (crc_bits n) -> l2 = cols (crc_bits m) ->
  map (apply_cols l2) l1 = cols (crc_bits (n + m)).
Proof.
  intros -> ->. unfold cols at 2 3.
  assert (G : forall k j, (j + k <= 32)%nat ->
    map (apply_cols (cols (crc_bits m))) (cols_from k j (crc_bits n)) = cols_from k j (crc_bits (n + m))).
  { induction k; intros j H; cbn [cols_from map]; [reflexivity|]. f_equal; [|apply IHk; lia].
    rewrite represents_cols; [now rewrite crc_bits_add|]. apply crc_bits_range.
    split; [apply Z.pow_nonneg; lia|apply Z.pow_lt_mono_r; lia]. }
  apply G. lia.
Qed.

Fixpoint power (p : positive) : list Z :=
  match p with
  | xH => cols (crc_bits 1)
  | xO q => let l := power q in map (apply_cols l) l
  | xI q => let l := power q in map (apply_cols (cols (crc_bits 1))) (map (apply_cols l) l)
  end.

Lemma power_ok p : power p = cols (crc_bits (Pos.to_nat p)).
Proof.
  induction p as [q IH|q IH|]; cbn [power].
  - rewrite (represents_comp _ _ _ _ IH IH).
    rewrite (represents_comp _ _ (Pos.to_nat q + Pos.to_nat q) 1 eq_refl eq_refl).
    do 2 f_equal. rewrite Pos2Nat.inj_xI. lia.
  - rewrite (represents_comp _ _ _ _ IH IH). do 2 f_equal. rewrite Pos2Nat.inj_xO. lia.
  - reflexivity.
Qed.

Lemma power_at_1 p : crc_bits (Pos.to_nat p) 1 = hd 0 (power p).
Proof. rewrite power_ok. reflexivity. Qed.

(** ** The order of the register 1 *)
Definition comes_back (n : nat) : Prop := crc_bits n 1 = 1.

Lemma back_mul n k : comes_back n -> comes_back (k * n).
Proof.
  intros H. induction k; [reflexivity|]. unfold comes_back in *.
  cbn [Nat.mul]. now rewrite crc_bits_add, H.
Qed.

Lemma back_gcd a b : (0 < a)%nat -> comes_back a -> comes_back b -> comes_back (Nat.gcd a b).
Proof.
  intros P Ha Hb. destruct (Nat.gcd_bezout_pos a b ltac:(lia)) as (u & v & E).
  pose proof (back_mul a u Ha) as Ua. pose proof (back_mul b v Hb) as Vb.
  rewrite E in Ua. unfold comes_back in *. rewrite Nat.add_comm, crc_bits_add, Vb in Ua. exact Ua.
Qed.

Definition order : positive := 4294967295.

Lemma back_order : comes_back (Pos.to_nat order).
Proof. unfold comes_back. rewrite power_at_1. vm_compute. reflexivity. Qed.

Lemma not_back p : Z.eqb (hd 0 (power p)) 1 = false -> ~ comes_back (Pos.to_nat p).
Proof. intros H B. unfold comes_back in B. rewrite power_at_1 in B. rewrite B in H. discriminate H. Qed.

Lemma is_prime p r : 1 < p -> p <= (r + 1) * (r + 1) - 1 -> 0 <= r ->
  forallb (fun n => negb (p mod Z.of_nat n =? 0)) (seq 2 (Z.to_nat (r - 1))) = true -> prime p.
Proof.
  intros H S R F. apply prime_alt. split; [exact H|]. rewrite forallb_forall in F.
  assert (G : forall n, 1 < n <= r -> ~ (n | p)).
  { intros n Hn D. apply Z.mod_divide in D; [|lia]. specialize (F (Z.to_nat n)).
    rewrite Z2Nat.id, D in F by lia. assert (I : In (Z.to_nat n) (seq 2 (Z.to_nat (r - 1)))) by (apply in_seq; lia).
    discriminate (F I). }
  intros n Hn (m & E). destruct (Z_le_gt_dec n r) as [L|L]; [apply (G n); [lia|exists m; exact E]|].
  apply (G m); [nia|exists n; lia].
Qed.

Lemma p3 : prime 3. Proof. apply (is_prime _ 1); [lia|lia|lia|vm_compute; reflexivity]. Qed.
Lemma p5 : prime 5. Proof. apply (is_prime _ 2); [lia|lia|lia|vm_compute; reflexivity]. Qed.
Lemma p17 : prime 17. Proof. apply (is_prime _ 4); [lia|lia|lia|vm_compute; reflexivity]. Qed.
Lemma p257 : prime 257. Proof. apply (is_prime _ 16); [lia|lia|lia|vm_compute; reflexivity]. Qed.
Lemma p65537 : prime 65537. Proof. apply (is_prime _ 256); [lia|lia|lia|vm_compute; reflexivity]. Qed.

(** A proper divisor of 2^32 - 1 divides one of its five maximal ones. *)
Lemma maximal_divisor g : 0 < g < 4294967295 -> (g | 4294967295) ->
  (g | 1431655765) \/ (g | 858993459) \/ (g | 252645135) \/ (g | 16711935) \/ (g | 65535).
Proof.
  intros Hg (m & E).
  assert (Hm : 1 < m) by nia.
  assert (D : (m | 3 * (5 * (17 * (257 * 65537))))) by (exists g; lia).
  assert (P : forall p q, prime p -> p * q = 4294967295 -> (p | m) -> (g | q)).
  { intros p q Pp Q (k & K). pose proof (prime_ge_2 p Pp). exists k. nia. }
  destruct (Zdivide_dec 3 m) as [?|N3]; [left; eapply (P 3); eauto using p3|].
  destruct (Zdivide_dec 5 m) as [?|N5]; [right; left; eapply (P 5); eauto using p5|].
  destruct (Zdivide_dec 17 m) as [?|N17]; [right; right; left; eapply (P 17); eauto using p17|].
  destruct (Zdivide_dec 257 m) as [?|N257]; [do 3 right; left; eapply (P 257); eauto using p257|].
  destruct (Zdivide_dec 65537 m) as [?|N65]; [do 4 right; eapply (P 65537); eauto using p65537|].
  exfalso.
  assert (R : forall p, prime p -> ~ (p | m) -> rel_prime m p).
  { intros p Pp Np. apply rel_prime_sym. now apply prime_rel_prime. }
  apply Gauss in D; [|apply R; auto using p3].
  apply Gauss in D; [|apply R; auto using p5].
  apply Gauss in D; [|apply R; auto using p17].
  apply Gauss in D; [|apply R; auto using p257].
  pose proof (R 65537 p65537 N65) as Q.
  assert (G : Z.gcd m 65537 = 1) by now apply Zgcd_1_rel_prime.
  apply Z.divide_gcd_iff in D; lia.
Qed.

Theorem never_back d : (0 < d)%nat -> Z.of_nat d < 2 ^ 32 - 1 -> ~ comes_back d.
Proof.
  intros P L B.
  pose proof (back_gcd d (Pos.to_nat order) P B back_order) as G.
  set (g := Nat.gcd d (Pos.to_nat order)) in *.
  assert (O : Z.of_nat (Pos.to_nat order) = 4294967295) by (rewrite positive_nat_Z; reflexivity).
  assert (D1 : (g <= d)%nat) by (apply Nat.divide_pos_le; [exact P|apply Nat.gcd_divide_l]).
  assert (D2 : exists k, Pos.to_nat order = (k * g)%nat) by apply Nat.gcd_divide_r.
  destruct D2 as (k & K).
  assert (Dz : (Z.of_nat g | 4294967295)) by (exists (Z.of_nat k); rewrite <- O, K, Nat2Z.inj_mul; reflexivity).
  assert (Gp : 0 < Z.of_nat g) by (destruct g; [rewrite Nat.mul_0_r in K; lia|lia]).
  change (2 ^ 32 - 1) with 4294967295 in L.
  assert (U : forall p, (Z.of_nat g | Zpos p) -> comes_back (Pos.to_nat p)).
  { intros p (c & C). assert (0 <= c) by nia.
    replace (Pos.to_nat p) with (Z.to_nat c * g)%nat; [now apply back_mul|].
    apply Nat2Z.inj. rewrite Nat2Z.inj_mul, Z2Nat.id, positive_nat_Z by assumption. symmetry. exact C. }
  destruct (maximal_divisor (Z.of_nat g) ltac:(lia) Dz) as [Q|[Q|[Q|[Q|Q]]]];
    apply U in Q; revert Q; apply not_back; vm_compute; reflexivity.
Qed.

(** ** Three values: a set computation *)
Definition to_pos (z : Z) : positive := match z with Zpos p => p | _ => xH end.

Fixpoint trail (n : nat) (c : Z) (s : PositiveSet.t) : PositiveSet.t :=
  match n with O => s | S n' => let d := crc_bit c in trail n' d (PositiveSet.add (to_pos d) s) end.

Fixpoint no_partner (n : nat) (c : Z) (s : PositiveSet.t) : bool :=
  match n with
  | O => true
  | S n' => let d := crc_bit c in negb (PositiveSet.mem (to_pos (Z.lxor d 1)) s) && no_partner n' d s
  end.

Lemma trail_keeps n : forall c s p, PositiveSet.In p s -> PositiveSet.In p (trail n c s).
Proof.
  induction n; intros c s p H; cbn [trail]; [exact H|]. cbv zeta. apply IHn.
  apply PositiveSet.add_spec. now right.
Qed.

Lemma trail_in n : forall c s a, (1 <= a <= n)%nat -> PositiveSet.In (to_pos (crc_bits a c)) (trail n c s).
Proof.
  induction n; intros c s a H; [lia|]. cbn [trail]. cbv zeta.
  destruct (Nat.eq_dec a 1) as [->|N].
  - apply trail_keeps, PositiveSet.add_spec. left. reflexivity.
  - destruct a as [|a]; [lia|]. cbn [crc_bits]. apply IHn. lia.
Qed.

Lemma no_partner_ok n : forall c s, no_partner n c s = true ->
  forall a, (1 <= a <= n)%nat -> ~ PositiveSet.In (to_pos (Z.lxor (crc_bits a c) 1)) s.
Proof.
  induction n; intros c s H a Ha; [lia|]. cbn [no_partner] in H. cbv zeta in H.
  apply andb_prop in H as (H1 & H2).
  destruct (Nat.eq_dec a 1) as [->|N].
  - intros I. apply PositiveSet.mem_spec in I. cbn [crc_bits] in I. rewrite I in H1. discriminate H1.
  - destruct a as [|a]; [lia|]. cbn [crc_bits]. apply IHn; [exact H2|lia].
Qed.

Definition reach : nat := Z.to_nat 91638.
Lemma table_91638 : no_partner reach 1 (trail reach 1 PositiveSet.empty) = true.
Proof. vm_compute. reflexivity. Qed.

Theorem no_three a b : (1 <= a)%nat -> (1 <= b)%nat -> Z.of_nat a <= 91638 -> Z.of_nat b <= 91638 ->
  Z.lxor (crc_bits a 1) 1 <> crc_bits b 1.
Proof.
  intros A B La Lb E. assert (R : Z.of_nat reach = 91638) by (unfold reach; apply Z2Nat.id; lia).
  apply (no_partner_ok reach 1 _ table_91638 a ltac:(lia)). rewrite E. apply trail_in. lia.
Qed.

(** ** From texts to registers *)
Lemma testbit_le_value s : forall i, Z.testbit (le_value s) (Z.of_nat i) = text_bit s i.
Proof.
  induction s as [|b s IH]; intros i; cbn [le_value]; unfold text_bit.
  - rewrite Z.bits_0. destruct (i / 8)%nat; reflexivity.
  - rewrite <- lxor_shl_add, Z.lxor_spec. destruct (le_dec 8 i) as [H|H].
    + rewrite testbit_byte_hi by lia. rewrite xorb_false_l, Z.shiftl_spec by lia.
      replace (Z.of_nat i - 8) with (Z.of_nat (i - 8)) by lia. rewrite IH. unfold text_bit.
      replace (i / 8)%nat with (S ((i - 8) / 8)) by (rewrite <- (Nat.div_add_l 1 8) by lia; f_equal; lia).
      replace ((i - 8) mod 8)%nat with (i mod 8)%nat; [reflexivity|].
      replace i with (i - 8 + 1 * 8)%nat at 1 by lia. now rewrite Nat.mod_add by lia.
    + rewrite Z.shiftl_spec_low by lia. rewrite xorb_false_r.
      rewrite Nat.div_small, Nat.mod_small by lia. reflexivity.
Qed.

Lemma text_bit_out s i : (8 * length s <= i)%nat -> text_bit s i = false.
Proof.
  intros H. unfold text_bit. replace (nth_error s (i / 8)) with (@None byte); [reflexivity|].
  symmetry. apply nth_error_None. apply Nat.div_le_lower_bound; lia.
Qed.

Definition pow_sum (l : list nat) : Z := fold_right (fun i z => Z.lxor (2 ^ Z.of_nat i) z) 0 l.

Lemma pow_sum_bit l : NoDup l -> forall i, Z.testbit (pow_sum l) (Z.of_nat i) = if in_dec Nat.eq_dec i l then true else false.
Proof.
  induction 1 as [|x l Nx ND IH]; intros i; cbn [pow_sum fold_right].
  - rewrite Z.bits_0. destruct (in_dec Nat.eq_dec i []) as [[]|]; reflexivity.
  - fold (pow_sum l). rewrite Z.lxor_spec, IH, Z.pow2_bits_eqb by lia.
    destruct (in_dec Nat.eq_dec i (x :: l)) as [[->|I]|N].
    + rewrite Z.eqb_refl. destruct (in_dec Nat.eq_dec i l); [contradiction|reflexivity].
    + destruct (in_dec Nat.eq_dec i l); [|contradiction].
      rewrite (proj2 (Z.eqb_neq _ _)); [reflexivity|]. intros Q. apply Nat2Z.inj in Q. subst. contradiction.
    + destruct (in_dec Nat.eq_dec i l); [exfalso; apply N; now right|].
      rewrite (proj2 (Z.eqb_neq _ _)); [reflexivity|]. intros Q. apply Nat2Z.inj in Q. subst. apply N. now left.
Qed.

Lemma flipped_nodup s t : NoDup (flipped s t).
Proof. apply NoDup_filter, seq_NoDup. Qed.

Lemma flipped_value s t : length s = length t -> Z.lxor (le_value s) (le_value t) = pow_sum (flipped s t).
Proof.
  intros L. apply Z.bits_inj'. intros n Hn. rewrite <- (Z2Nat.id n Hn).
  rewrite Z.lxor_spec, !testbit_le_value, pow_sum_bit by apply flipped_nodup.
  destruct (in_dec _ _ _) as [I|N].
  - apply filter_In in I as (_ & I). exact I.
  - destruct (xorb _ _) eqn:X; [|reflexivity]. exfalso. apply N. apply filter_In. split; [|exact X].
    apply in_seq. split; [lia|]. destruct (lt_dec (Z.to_nat n) (8 * length s)) as [|G]; [lia|].
    rewrite !text_bit_out in X by lia. discriminate X.
Qed.

Lemma shifted n i : (i <= n)%nat -> crc_bits n (2 ^ Z.of_nat i) = crc_bits (n - i) 1.
Proof.
  intros H. replace n with (i + (n - i))%nat at 1 by lia. rewrite crc_bits_add. f_equal.
  pose proof (crc_bits_shl i 1 ltac:(lia)) as E.
  rewrite Z.shiftl_mul_pow2, Z.mul_1_l in E by lia. exact E.
Qed.

Lemma crc_bits_0 n : crc_bits n 0 = 0.
Proof. pose proof (crc_bits_lxor n 0 0) as E. rewrite Z.lxor_nilpotent in E. rewrite E at 1. apply Z.lxor_nilpotent. Qed.

Definition register_sum (n : nat) (l : list nat) : Z := fold_right (fun i z => Z.lxor (crc_bits (n - i) 1) z) 0 l.

Lemma crc_bits_pow_sum n l : (forall i, In i l -> (i <= n)%nat) -> crc_bits n (pow_sum l) = register_sum n l.
Proof.
  induction l as [|x l IH]; intros H; cbn [pow_sum register_sum fold_right]; [apply crc_bits_0|].
  fold (pow_sum l) (register_sum n l). rewrite crc_bits_lxor, shifted, IH; auto using in_eq, in_cons.
Qed.

Lemma crc_difference s t : length s = length t ->
  Z.lxor (crc32 s) (crc32 t) = register_sum (8 * length s) (flipped s t).
Proof.
  intros L. unfold crc32. rewrite !fold_crc, <- L.
  rewrite <- crc_bits_pow_sum, <- flipped_value by
    (try assumption; intros i I; apply filter_In in I as (I & _); apply in_seq in I; lia).
  rewrite !crc_bits_lxor.
  set (x := crc_bits _ (le_value s)). set (y := crc_bits _ (le_value t)). set (z := crc_bits _ _).
  apply Z.bits_inj'. intros n Hn. rewrite !Z.lxor_spec.
  destruct (Z.testbit x n), (Z.testbit y n), (Z.testbit z n), (Z.testbit _ n); reflexivity.
Qed.

Lemma flipped_sorted s t : StronglySorted lt (flipped s t).
Proof.
  unfold flipped. generalize (fun i => xorb (text_bit s i) (text_bit t i)). intros f.
  generalize (8 * length s)%nat. intros n. generalize 0%nat as k. induction n as [|n IH]; intros k; cbn [seq filter]; [constructor|].
  destruct (f k); [|apply IH]. constructor; [apply IH|].
  apply Forall_forall. intros i I. apply filter_In in I as (I & _). apply in_seq in I. lia.
Qed.

Lemma flipped_below s t i : In i (flipped s t) -> (i < 8 * length s)%nat.
Proof. intros I. apply filter_In in I as (I & _). apply in_seq in I. lia. Qed.

Lemma one_31 : 0 <= 1 < 2 ^ 32. Proof. lia. Qed.

(** One, two or three flipped bits. *)
Lemma one_flip s t : flips 1 s t -> exists n, (1 <= n <= 8 * length s)%nat /\
  Z.lxor (crc32 s) (crc32 t) = crc_bits n 1.
Proof.
  intros (L & N). rewrite crc_difference by assumption. pose proof (flipped_below s t) as B.
  destruct (flipped s t) as [|i [|]]; try discriminate N. specialize (B i (or_introl eq_refl)).
  exists (8 * length s - i)%nat. split; [lia|]. cbn [register_sum fold_right]. apply Z.lxor_0_r.
Qed.

Lemma crc_1_nonzero n : crc_bits n 1 <> 0.
Proof. intros E. apply crc_bits_zero in E; [discriminate E|apply one_31]. Qed.

Lemma two_flips s t : flips 2 s t -> 8 * Z.of_nat (length s) <= 2 ^ 32 - 1 -> crc32 s <> crc32 t.
Proof.
  intros (L & N) Z E. assert (X : Z.lxor (crc32 s) (crc32 t) = 0) by (rewrite E; apply Z.lxor_nilpotent).
  rewrite crc_difference in X by assumption.
  pose proof (flipped_below s t) as B. pose proof (flipped_sorted s t) as O.
  destruct (flipped s t) as [|i [|j [|]]]; try discriminate N.
  pose proof (B i (or_introl eq_refl)) as Bi. pose proof (B j (or_intror (or_introl eq_refl))) as Bj.
  inversion O as [|? ? _ Oi]; subst. inversion Oi as [|? ? Lij _]; subst.
  cbn [register_sum fold_right] in X. rewrite Z.lxor_0_r in X. apply Z.lxor_eq in X.
  replace (8 * length s - i)%nat with ((j - i) + (8 * length s - j))%nat in X by lia.
  rewrite crc_bits_add in X. apply crc_bits_inj in X; [|apply crc_bits_range, one_31|apply one_31].
  apply (never_back (j - i)); [lia|lia|exact X].
Qed.

Lemma three_flips s t : flips 3 s t -> 8 * Z.of_nat (length s) <= 91639 -> crc32 s <> crc32 t.
Proof.
  intros (L & N) Z E. assert (X : Z.lxor (crc32 s) (crc32 t) = 0) by (rewrite E; apply Z.lxor_nilpotent).
  rewrite crc_difference in X by assumption.
  pose proof (flipped_below s t) as B. pose proof (flipped_sorted s t) as O.
  destruct (flipped s t) as [|i [|j [|k [|]]]]; try discriminate N.
  pose proof (B i (or_introl eq_refl)) as Bi. pose proof (B j (or_intror (or_introl eq_refl))) as Bj.
  pose proof (B k (or_intror (or_intror (or_introl eq_refl)))) as Bk.
  inversion O as [|? ? O' Oi]; subst. inversion O' as [|? ? _ Oj]; subst.
  inversion Oi as [|? ? Lij _]; subst. inversion Oj as [|? ? Ljk _]; subst.
  cbn [register_sum fold_right] in X. rewrite Z.lxor_0_r in X.
  replace (8 * length s - i)%nat with ((k - i) + (8 * length s - k))%nat in X by lia.
  replace (8 * length s - j)%nat with ((k - j) + (8 * length s - k))%nat in X by lia.
  rewrite !crc_bits_add, <- !crc_bits_lxor in X.
  assert (R : forall n, 0 <= crc_bits n 1 < 2 ^ 32) by (intros; apply crc_bits_range, one_31).
  apply crc_bits_zero in X; [|apply lxor_range; [lia|apply R|apply lxor_range; [lia|apply R|apply one_31]]].
  apply Z.lxor_eq in X. symmetry in X. revert X.
  apply no_three; lia.
Qed.

(** ** Four and five *)
Fixpoint vals (n : nat) (c : Z) : list Z :=
  match n with O => [] | S n' => let d := crc_bit c in d :: vals n' d end.

Lemma vals_nth n : forall c a, (1 <= a <= n)%nat -> nth_error (vals n c) (a - 1) = Some (crc_bits a c).
Proof.
  induction n; intros c a H; [lia|]. cbn [vals]. cbv zeta. destruct a as [|[|a]]; [lia|reflexivity|].
  replace (S (S a) - 1)%nat with (S (S a - 1)) by lia. cbn [nth_error]. apply (IHn (crc_bit c) (S a)). lia.
Qed.

Fixpoint all_pairs (f : Z -> Z -> bool) (l : list Z) : bool :=
  match l with [] => true | x :: t => forallb (f x) t && all_pairs f t end.

Lemma all_pairs_ok f l : all_pairs f l = true -> forall i j x y, (i < j)%nat ->
  nth_error l i = Some x -> nth_error l j = Some y -> f x y = true.
Proof.
  induction l as [|z l IH]; intros H i j x y L Hi Hj; [destruct i; discriminate|].
  cbn [all_pairs] in H. apply andb_prop in H as (H1 & H2).
  destruct j as [|j]; [lia|]. cbn [nth_error] in Hj. destruct i as [|i]; cbn [nth_error] in Hi.
  - injection Hi as <-. rewrite forallb_forall in H1. apply H1. eapply nth_error_In; eassumption.
  - apply (IH H2 i j); [lia|assumption|assumption].
Qed.

Definition reach4 : nat := Z.to_nat 3005.
Lemma table_3005 : all_pairs (fun x y => negb (PositiveSet.mem (to_pos (Z.lxor (Z.lxor x y) 1)) (trail reach4 1 PositiveSet.empty)))
  (vals reach4 1) = true.
Proof.
  set (S := trail reach4 1 PositiveSet.empty). vm_compute in S. subst S. vm_compute. reflexivity.
Qed.

Theorem no_four a b c : (1 <= a < b)%nat -> Z.of_nat b <= 3005 -> (1 <= c)%nat -> Z.of_nat c <= 3005 ->
  Z.lxor (Z.lxor (crc_bits a 1) (crc_bits b 1)) 1 <> crc_bits c 1.
Proof.
  intros A B C Lc E. assert (R : Z.of_nat reach4 = 3005) by (unfold reach4; apply Z2Nat.id; lia).
  pose proof (all_pairs_ok _ _ table_3005 (a - 1) (b - 1) _ _ ltac:(lia)
    (vals_nth reach4 1 a ltac:(lia)) (vals_nth reach4 1 b ltac:(lia))) as H. cbv beta in H.
  rewrite E in H.
  pose proof (trail_in reach4 1 PositiveSet.empty c ltac:(lia)) as I. apply PositiveSet.mem_spec in I.
  rewrite I in H. discriminate H.
Qed.

Definition add_all (x : Z) (l : list Z) (s : PositiveSet.t) : PositiveSet.t :=
  fold_right (fun y s => PositiveSet.add (to_pos (Z.lxor x y)) s) s l.
Fixpoint pair_set (l : list Z) : PositiveSet.t :=
  match l with [] => PositiveSet.empty | x :: t => add_all x t (pair_set t) end.

Lemma add_all_keeps x l s p : PositiveSet.In p s -> PositiveSet.In p (add_all x l s).
Proof. intros H. induction l; cbn [add_all fold_right]; [exact H|]. apply PositiveSet.add_spec. now right. Qed.
Lemma add_all_in x l s y : In y l -> PositiveSet.In (to_pos (Z.lxor x y)) (add_all x l s).
Proof.
  induction l as [|z l IH]; [intros []|]. intros [Q|Q]; cbn [add_all fold_right]; apply PositiveSet.add_spec.
  - left. now subst.
  - right. now apply IH.
Qed.

Lemma pair_set_ok l : forall i j x y, (i < j)%nat -> nth_error l i = Some x -> nth_error l j = Some y ->
  PositiveSet.In (to_pos (Z.lxor x y)) (pair_set l).
Proof.
  induction l as [|z l IH]; intros i j x y L Hi Hj; [destruct i; discriminate|].
  destruct j as [|j]; [lia|]. cbn [nth_error pair_set] in *. destruct i as [|i]; cbn [nth_error] in Hi.
  - injection Hi as <-. apply add_all_in. eapply nth_error_In; eassumption.
  - apply add_all_keeps. apply (IH i j); [lia|assumption|assumption].
Qed.

Lemma table_299 : all_pairs (fun x y => negb (PositiveSet.mem (to_pos (Z.lxor (Z.lxor x y) 1)) (pair_set (vals 299 1))))
  (vals 299 1) = true.
Proof.
  set (S := pair_set (vals 299 1)). vm_compute in S. subst S. vm_compute. reflexivity.
Qed.

Theorem no_five a b c d : (1 <= a < b)%nat -> (b <= 299)%nat -> (1 <= c < d)%nat -> (d <= 299)%nat ->
  Z.lxor (Z.lxor (crc_bits a 1) (crc_bits b 1)) 1 <> Z.lxor (crc_bits c 1) (crc_bits d 1).
Proof.
  intros A B C D E.
  pose proof (all_pairs_ok _ _ table_299 (a - 1) (b - 1) _ _ ltac:(lia)
    (vals_nth 299 1 a ltac:(lia)) (vals_nth 299 1 b ltac:(lia))) as H. cbv beta in H.
  rewrite E in H.
  pose proof (pair_set_ok (vals 299 1) (c - 1) (d - 1) _ _ ltac:(lia)
    (vals_nth 299 1 c ltac:(lia)) (vals_nth 299 1 d ltac:(lia))) as I. apply PositiveSet.mem_spec in I.
  rewrite I in H. discriminate H.
Qed.

(** With at least one flipped bit, the difference is a power of the map applied to the sum
    seen from the last one. *)
Lemma seen_from_last n l k : (forall i, In i l -> (i < k)%nat) -> (k < n)%nat ->
  register_sum n (l ++ [k]) = 0 -> register_sum k l = 1.
Proof.
  intros Hl Hk E.
  assert (G : register_sum n (l ++ [k]) = crc_bits (n - k) (Z.lxor (register_sum k l) 1)).
  { clear E. revert Hl. induction l as [|x l IH]; intros H; cbn [app register_sum fold_right].
    - rewrite Z.lxor_0_r, Z.lxor_0_l. reflexivity.
    - fold (register_sum n (l ++ [k])) (register_sum k l). rewrite IH by auto using in_cons.
      specialize (H x (or_introl eq_refl)).
      rewrite Z.lxor_assoc. replace (n - x)%nat with ((k - x) + (n - k))%nat by lia.
      now rewrite crc_bits_add, <- crc_bits_lxor. }
  rewrite G in E.
  assert (R : 0 <= register_sum k l < 2 ^ 32).
  { clear. induction l; cbn [register_sum fold_right]; [lia|].
    apply lxor_range; [lia|apply crc_bits_range, one_31|exact IHl]. }
  apply crc_bits_zero in E; [|apply lxor_range; [lia|exact R|apply one_31]].
  now apply Z.lxor_eq in E.
Qed.

Lemma ascending (l : list nat) : StronglySorted lt l -> forall i j x y, (i < j)%nat ->
  nth_error l i = Some x -> nth_error l j = Some y -> (x < y)%nat.
Proof.
  induction 1 as [|z l S IH F]; intros i j x y L Hi Hj; [destruct i; discriminate|].
  destruct j as [|j]; [lia|]. cbn [nth_error] in Hj. destruct i as [|i]; cbn [nth_error] in Hi.
  - injection Hi as <-. rewrite Forall_forall in F. apply F. eapply nth_error_In; eassumption.
  - apply (IH i j); [lia|assumption|assumption].
Qed.

Lemma four_flips s t : flips 4 s t -> 8 * Z.of_nat (length s) <= 3006 -> crc32 s <> crc32 t.
Proof.
  intros (L & N) Z E. assert (X : Z.lxor (crc32 s) (crc32 t) = 0) by (rewrite E; apply Z.lxor_nilpotent).
  rewrite crc_difference in X by assumption.
  pose proof (flipped_below s t) as B. pose proof (ascending _ (flipped_sorted s t)) as O.
  destruct (flipped s t) as [|i [|j [|k [|l [|]]]]]; try discriminate N.
  pose proof (O 0%nat 1%nat i j ltac:(lia) eq_refl eq_refl). pose proof (O 1%nat 2%nat j k ltac:(lia) eq_refl eq_refl).
  pose proof (O 2%nat 3%nat k l ltac:(lia) eq_refl eq_refl).
  assert (l < 8 * length s)%nat by (apply B; cbn; tauto).
  apply (seen_from_last _ [i; j; k] l) in X; [|cbn [In]; intros q Q; lia|assumption].
  cbn [register_sum fold_right] in X. rewrite Z.lxor_0_r in X.
  apply (no_four (l - k) (l - j) (l - i)); try lia.
  set (x := crc_bits (l - i) 1) in *. set (y := crc_bits (l - j) 1) in *. set (z := crc_bits (l - k) 1) in *.
  rewrite <- X. apply Z.bits_inj'. intros n Hn. rewrite !Z.lxor_spec.
  destruct (Z.testbit x n), (Z.testbit y n), (Z.testbit z n); reflexivity.
Qed.

Lemma five_flips s t : flips 5 s t -> 8 * Z.of_nat (length s) <= 300 -> crc32 s <> crc32 t.
Proof.
  intros (L & N) Z E. assert (X : Z.lxor (crc32 s) (crc32 t) = 0) by (rewrite E; apply Z.lxor_nilpotent).
  rewrite crc_difference in X by assumption.
  pose proof (flipped_below s t) as B. pose proof (ascending _ (flipped_sorted s t)) as O.
  destruct (flipped s t) as [|i [|j [|k [|l [|m [|]]]]]]; try discriminate N.
  pose proof (O 0%nat 1%nat i j ltac:(lia) eq_refl eq_refl). pose proof (O 1%nat 2%nat j k ltac:(lia) eq_refl eq_refl).
  pose proof (O 2%nat 3%nat k l ltac:(lia) eq_refl eq_refl). pose proof (O 3%nat 4%nat l m ltac:(lia) eq_refl eq_refl).
  assert (m < 8 * length s)%nat by (apply B; cbn; tauto).
  apply (seen_from_last _ [i; j; k; l] m) in X; [|cbn [In]; intros q Q; lia|assumption].
  cbn [register_sum fold_right] in X. rewrite Z.lxor_0_r in X.
  apply (no_five (m - l) (m - k) (m - j) (m - i)); try lia.
  set (x := crc_bits (m - i) 1) in *. set (y := crc_bits (m - j) 1) in *.
  set (z := crc_bits (m - k) 1) in *. set (w := crc_bits (m - l) 1) in *.
  rewrite <- X. apply Z.bits_inj'. intros n Hn. rewrite !Z.lxor_spec.
  destruct (Z.testbit x n), (Z.testbit y n), (Z.testbit z n), (Z.testbit w n); reflexivity.
Qed.
