(** Lemmas about the matrix hash. *)
From Verif Require Import Prelude P_Prelude M_ByteHandler P_ByteHandler M_Vector2D M_BitMatrix
  S_Matrix P_BitMatrix P_Cells P_Serial P_Vector2D M_LayoutCore M_Rle S_Rle P_Rle
  M_Crc32 S_Crc32 P_Crc32 M_Base64 S_Base64 P_Base64 M_Hash S_Hash.
Local Ltac Zify.zify_post_hook ::= Z.to_euclidean_division_equations.

(** ** The size field *)
(** What the decoder makes of little-endian bytes: everything above the first negative
    character becomes 0xFF. *)
Fixpoint smear (l : list byte) : list byte :=
  match l with
  | [] => []
  | b :: t => if (b2z b <? 128)%Z then b :: smear t else b :: repeat xff (length t)
  end.

Lemma smear_length l : length (smear l) = length l.
Proof.
  induction l as [|b l IH]; [reflexivity|]. cbn [smear]. destruct (b2z b <? 128)%Z; cbn [length].
  - now rewrite IH.
  - now rewrite repeat_length.
Qed.

Lemma le_value_bound l : (0 <= le_value l < 256 ^ Z.of_nat (length l))%Z.
Proof.
  induction l as [|b l IH]; [cbn; lia|]. cbn [le_value length].
  rewrite Nat2Z.inj_succ, Z.pow_succ_r by lia. pose proof (b2z_range b). lia.
Qed.

Lemma le_value_ff n : le_value (repeat xff n) = (256 ^ Z.of_nat n - 1)%Z.
Proof.
  induction n; [reflexivity|]. cbn [repeat le_value]. rewrite IHn, Nat2Z.inj_succ, Z.pow_succ_r by lia.
  change (b2z xff) with 255%Z. lia.
Qed.

Lemma testbit_above x n k : (0 <= x < 2 ^ n)%Z -> (0 <= n <= k)%Z -> Z.testbit x k = false.
Proof.
  intros Hx Hk. destruct (Z.eq_dec x 0) as [->|]; [apply Z.bits_0|].
  apply Z.bits_above_log2; [lia|]. apply Z.log2_lt_pow2; [lia|].
  apply Z.lt_le_trans with (2 ^ n)%Z; [lia|]. apply Z.pow_le_mono_r; lia.
Qed.

Lemma lor_add x y n : (0 <= n)%Z -> (0 <= x < 2 ^ n)%Z -> Z.lor x (y * 2 ^ n) = (x + y * 2 ^ n)%Z.
Proof.
  intros Hn Hx.
  assert (L : Z.land x (y * 2 ^ n) = 0%Z).
  { apply Z.bits_inj'. intros k Hk. rewrite Z.land_spec, Z.bits_0, <- Z.shiftl_mul_pow2 by lia.
    destruct (Z.ltb_spec k n).
    - rewrite Z.shiftl_spec_low by lia. apply andb_false_r.
    - rewrite (testbit_above x n k) by lia. reflexivity. }
  rewrite Z.add_nocarry_lxor by exact L. now rewrite Z.lxor_lor.
Qed.

Lemma lor_saturated x w n : (0 <= n < 64)%Z -> (0 <= x < 2 ^ n)%Z -> (0 <= w * 2 ^ n < 2 ^ 64)%Z ->
  Z.lor (x + (2 ^ 64 - 2 ^ n)) (w * 2 ^ n) = (x + (2 ^ 64 - 2 ^ n))%Z.
Proof.
  intros Hn Hx Hw.
  assert (P : (2 ^ 64 = 2 ^ (64 - n) * 2 ^ n)%Z) by (rewrite <- Z.pow_add_r by lia; f_equal; lia).
  assert (2 ^ n > 0)%Z by (apply Z.lt_gt, Z.pow_pos_nonneg; lia).
  assert (Q : (2 ^ 64 - 2 ^ n = Z.ones (64 - n) * 2 ^ n)%Z).
  { rewrite Z.ones_equiv, P. lia. }
  rewrite Q, <- lor_add, <- Z.lor_assoc by lia. f_equal.
  rewrite <- !Z.shiftl_mul_pow2, <- Z.shiftl_lor by lia. f_equal.
  rewrite Z.lor_comm. apply Z.lor_ones_low; [nia|].
  destruct (Z.eq_dec w 0) as [->|].
  - change (Z.log2 0) with 0%Z. lia.
  - apply Z.log2_lt_pow2; nia.
Qed.

Definition sat (l : list byte) : bool := existsb (fun b => (128 <=? b2z b)%Z) l.

Lemma smear_snoc l b : smear (l ++ [b]) = smear l ++ [if sat l then xff else b].
Proof.
  induction l as [|x l IH]; cbn [app smear sat existsb].
  - destruct (b2z b <? 128)%Z; reflexivity.
  - destruct (Z.ltb_spec (b2z x) 128).
    + rewrite (proj2 (Z.leb_gt _ _)) by lia. cbn [orb app]. fold (sat l). now rewrite IH.
    + rewrite (proj2 (Z.leb_le _ _)) by lia. cbn [orb app]. rewrite app_length. cbn [length].
      rewrite Nat.add_1_r, <- repeat_snoc. reflexivity.
Qed.

Definition sz_acc (l : list byte) : Z :=
  (le_value (smear l) + (if sat l then 2 ^ 64 - 2 ^ (8 * Z.of_nat (length l)) else 0))%Z.

Lemma pow256 n : (0 <= n)%Z -> (256 ^ n = 2 ^ (8 * n))%Z.
Proof. intros. change 256%Z with (2 ^ 8)%Z. now rewrite <- Z.pow_mul_r by lia. Qed.

Lemma sat_snoc l b : sat (l ++ [b]) = sat l || (128 <=? b2z b)%Z.
Proof. unfold sat. rewrite existsb_app. cbn [existsb]. now rewrite orb_false_r. Qed.

Lemma unsat_smear l : sat l = false -> smear l = l.
Proof.
  induction l as [|x l IH]; [reflexivity|]. cbn [sat existsb smear].
  intros H. apply orb_false_iff in H as (H1 & H2). rewrite (proj2 (Z.ltb_lt _ _)) by lia.
  now rewrite IH.
Qed.

(** one byte of the decoder's loop *)
Lemma sz_step l b k : length l < 8 -> (k = 8 * Z.of_nat (length l))%Z ->
  Z.lor (sz_acc l) ((schar b mod 2 ^ 64 * 2 ^ k) mod 2 ^ 64) = sz_acc (l ++ [b]).
Proof.
  intros L ->. set (n := (8 * Z.of_nat (length l))%Z).
  assert (Hn : (0 <= n <= 56)%Z) by lia.
  assert (X : ((schar b mod 2 ^ 64 * 2 ^ n) mod 2 ^ 64 =
     (b2z b + (if 128 <=? b2z b then 2 ^ (64 - n) - 256 else 0)) * 2 ^ n)%Z).
  { pose proof (b2z_range b).
    assert (P : (2 ^ 64 = 2 ^ (64 - n) * 2 ^ n)%Z) by (rewrite <- Z.pow_add_r by lia; f_equal; lia).
    assert (2 ^ 8 <= 2 ^ (64 - n))%Z by (apply Z.pow_le_mono_r; lia).
    assert (2 ^ n > 0)%Z by (apply Z.lt_gt, Z.pow_pos_nonneg; lia).
    rewrite Z.mul_mod_idemp_l by lia. rewrite P at 1.
    rewrite Z.mul_mod_distr_r by lia. f_equal.
    unfold schar. destruct (Z.ltb_spec (b2z b) 128).
    - rewrite (proj2 (Z.leb_gt _ _)) by lia. rewrite Z.add_0_r. apply Z.mod_small. lia.
    - rewrite (proj2 (Z.leb_le _ _)) by lia. symmetry. apply Z.mod_unique with (-1)%Z; lia. }
  rewrite X. unfold sz_acc. rewrite smear_snoc, sat_snoc, le_value_app, smear_length, app_length.
  rewrite pow256 by lia. fold n.
  pose proof (le_value_bound (smear l)) as B. rewrite smear_length, pow256 in B by lia. fold n in B.
  cbn [le_value length]. rewrite Z.mul_0_r, Z.add_0_r.
  replace (8 * Z.of_nat (length l + 1))%Z with (n + 8)%Z by lia.
  assert (P8 : (2 ^ (n + 8) = 2 ^ n * 256)%Z) by (rewrite Z.pow_add_r by lia; reflexivity).
  assert (P : (2 ^ 64 = 2 ^ (64 - n) * 2 ^ n)%Z) by (rewrite <- Z.pow_add_r by lia; f_equal; lia).
  assert (G8 : (2 ^ 8 <= 2 ^ (64 - n))%Z) by (apply Z.pow_le_mono_r; lia). change (2 ^ 8)%Z with 256%Z in G8.
  assert (2 ^ n > 0)%Z by (apply Z.lt_gt, Z.pow_pos_nonneg; lia).
  pose proof (b2z_range b) as Rb.
  destruct (sat l) eqn:S; cbn [orb].
  - rewrite lor_saturated; [| lia | lia |].
    + change (b2z xff) with 255%Z. rewrite P8. lia.
    + rewrite P. destruct (128 <=? b2z b)%Z; nia.
  - rewrite Z.add_0_r, lor_add by lia.
    destruct (128 <=? b2z b)%Z; [|lia]. rewrite P8, P. ring.
Qed.

Definition sz_body (rule : shift_rule) (s : list byte) := (fun (sz : Z) (i : nat) =>
      let* c := at_ s i in
      let* x := shl64 rule (schar c mod 2 ^ 64)%Z (Z.of_nat i * 8)%Z in
      Ok (Z.lor sz x)).

Lemma sz_low l i sz : i < 8 -> sz_body X86 (repeat x00 8 ++ l) sz i = Ok sz.
Proof.
  intros H. unfold sz_body.
  assert (at_ (repeat x00 8 ++ l) i = Ok x00) as ->.
  { unfold at_. rewrite nth_error_app1 by (rewrite repeat_length; lia). rewrite nth_error_repeat by lia. reflexivity. }
  cbn [bind]. unfold shl64. rewrite (proj2 (Z.ltb_lt _ _)) by lia. cbn [bind].
  change (schar x00 mod 2 ^ 64)%Z with 0%Z. rewrite Z.mul_0_l, Z.mod_0_l, Z.lor_0_r by lia. reflexivity.
Qed.

Lemma sz_high done b rest : length done < 8 ->
  sz_body X86 (repeat x00 8 ++ done ++ b :: rest) (sz_acc done) (8 + length done) = Ok (sz_acc (done ++ [b])).
Proof.
  intros H. unfold sz_body. rewrite app_assoc, at_app_here by (rewrite app_length, repeat_length; lia).
  cbn [bind]. unfold shl64. rewrite (proj2 (Z.ltb_ge _ _)) by lia. cbn [bind].
  rewrite (sz_step done b) by lia. reflexivity.
Qed.

Lemma sz_high_loop rest : forall done, length done + length rest = 8 ->
  for_each (upto (8 + length done) 16) (sz_acc done) (sz_body X86 (repeat x00 8 ++ done ++ rest))
  = Ok (sz_acc (done ++ rest)).
Proof.
  induction rest as [|b rest IH]; intros done L.
  - cbn [length] in L. rewrite upto_nil by lia. now rewrite app_nil_r.
  - cbn [length] in L. rewrite upto_cons by lia. cbn [for_each].
    rewrite sz_high by lia.
    specialize (IH (done ++ [b])). rewrite app_length in IH. cbn [length] in IH.
    rewrite <- !app_assoc in IH. cbn [app] in IH |- *. replace (S (8 + length done)) with (8 + (length done + 1)) by lia.
    apply IH. lia.
Qed.

Lemma DecodeSz_x86 l : length l = 8 ->
  DecodeSz X86 (repeat x00 8 ++ l) =
  Ok (le_value (smear l) mod 2 ^ 32, le_value (smear l) / 2 ^ 32)%Z.
Proof.
  intros L. unfold DecodeSz. rewrite app_length, repeat_length, L. change (negb (8 + 8 =? 16)) with false. cbv iota.
  change (upto 0 (8 + 8)) with (upto 0 8 ++ upto 8 16). rewrite for_each_app.
  fold (sz_body X86 (repeat x00 8 ++ l)).
  rewrite for_each_fix. 2:{ intros i Hi. apply upto_in in Hi. apply sz_low. lia. }
  cbn [bind]. pose proof (sz_high_loop l [] L) as E. cbn [length app] in E.
  change (sz_acc []) with 0%Z in E. change (8 + 0) with 8 in E. rewrite E. cbn [bind].
  unfold sz_acc. rewrite L.
  replace (if sat l then (2 ^ 64 - 2 ^ (8 * Z.of_nat 8))%Z else 0%Z) with 0%Z by (destruct (sat l); reflexivity).
  rewrite Z.add_0_r.
  pose proof (le_value_bound (smear l)) as B. rewrite smear_length, L in B.
  change (256 ^ Z.of_nat 8)%Z with (2 ^ 64)%Z in B.
  change (2 ^ 32 - 1)%Z with (Z.ones 32). rewrite !Z.land_ones, Z.shiftr_div_pow2 by lia.
  f_equal. f_equal. apply Z.mod_small. split; [apply Z.div_pos; lia|].
  apply Z.div_lt_upper_bound; lia.
Qed.

Lemma DecodeSz_strict l : length l = 16 -> DecodeSz StrictCpp l = UB BadShift.
Proof.
  intros L. unfold DecodeSz. rewrite L. change (negb (16 =? 16)) with false. cbv iota.
  change (upto 0 16) with (upto 0 8 ++ [8] ++ upto 9 16). rewrite !for_each_app.
  fold (sz_body StrictCpp l).
  assert (A : forall idx sz, (forall i, In i idx -> i < 8) ->
    exists sz', for_each idx sz (sz_body StrictCpp l) = Ok sz').
  { induction idx as [|i idx IH]; intros sz H; [exists sz; reflexivity|].
    cbn [for_each]. unfold sz_body at 1.
    destruct (at_lt l i) as (c & -> & _); [specialize (H i (or_introl eq_refl)); lia|].
    cbn [bind]. unfold shl64. rewrite (proj2 (Z.ltb_lt _ _)).
    2:{ specialize (H i (or_introl eq_refl)). lia. }
    cbn [bind]. apply IH. intros. apply H. now right. }
  destruct (A (upto 0 8) 0%Z) as (sz & E).
  { intros i Hi. apply upto_in in Hi. lia. }
  rewrite E.
  assert (B : sz_body StrictCpp l sz 8 = UB BadShift).
  { unfold sz_body. destruct (at_lt l 8) as (c & -> & _); [lia|]. reflexivity. }
  cbn [bind for_each app]. rewrite B. reflexivity.
Qed.

Lemma DecodeSz_length rule l : length l <> 16 -> DecodeSz rule l = Throw InvalidArgument.
Proof. intros H. unfold DecodeSz. now rewrite (proj2 (Nat.eqb_neq _ _) H). Qed.

(** When the bytes of a number survive *)
Lemma le_bytes_nth n : forall v k, k < n -> (0 <= v)%Z ->
  exists b, nth_error (le_bytes n v) k = Some b /\ b2z b = byte_of v (Z.of_nat k).
Proof.
  induction n as [|n IH]; intros v k H Hv; [lia|]. cbn [le_bytes]. destruct k as [|k].
  - exists (z2b v). split; [reflexivity|]. rewrite b2z_z2b. unfold byte_of. cbn [Z.of_nat].
    change (256 ^ 0)%Z with 1%Z. now rewrite Z.div_1_r.
  - cbn [nth_error]. destruct (IH (v / 256)%Z k) as (b & E & V); [lia|apply Z.div_pos; lia|].
    exists b. split; [exact E|]. rewrite V. unfold byte_of. rewrite Nat2Z.inj_succ, Z.pow_succ_r by lia.
    rewrite Z.div_div by (try apply Z.pow_pos_nonneg; lia). reflexivity.
Qed.

Definition survives (l : list byte) : Prop :=
  forall i j a b, i < j -> nth_error l i = Some a -> nth_error l j = Some b ->
    (128 <= b2z a)%Z -> b = xff.

Lemma smear_survives l : smear l = l <-> survives l.
Proof.
  induction l as [|x l IH].
  - split; [|reflexivity]. intros _ i j a b _ H. destruct i; discriminate.
  - cbn [smear]. destruct (Z.ltb_spec (b2z x) 128) as [H|H].
    + split.
      * intros E. assert (E' : smear l = l) by congruence. apply IH in E'.
        intros i j a b L Ha Hb V. destruct j as [|j]; [lia|]. destruct i as [|i].
        -- cbn in Ha. assert (x = a) by congruence. subst. lia.
        -- apply (E' i j a b); [lia|exact Ha|exact Hb|exact V].
      * intros S. f_equal. apply IH. intros i j a b L Ha Hb V.
        apply (S (Datatypes.S i) (Datatypes.S j) a b); [lia|exact Ha|exact Hb|exact V].
    + split.
      * intros E. assert (E' : repeat xff (length l) = l) by congruence.
        intros i j a b L Ha Hb V. destruct j as [|j]; [lia|]. cbn [nth_error] in Hb.
        rewrite <- E' in Hb. apply nth_error_In in Hb. now apply repeat_spec in Hb.
      * intros S. f_equal. symmetry. apply Forall_eq_repeat. apply Forall_forall. intros y Hy.
        apply In_nth_error in Hy as (j & Hj). symmetry.
        apply (S 0 (Datatypes.S j) x y); [lia|reflexivity|exact Hj|exact H].
Qed.

Lemma byte_of_range v k : (0 <= byte_of v k < 256)%Z.
Proof. unfold byte_of. lia. Qed.

Lemma size_survives_iff r c : (0 <= r < 2 ^ 32)%Z -> (0 <= c < 2 ^ 32)%Z ->
  survives (le_bytes 8 (size_number r c)) <-> size_survives r c.
Proof.
  intros Hr Hc. assert (V : (0 <= size_number r c)%Z) by (unfold size_number; lia). split.
  - intros S i j Hij Hj Hi.
    destruct (le_bytes_nth 8 (size_number r c) (Z.to_nat i)) as (a & Ea & Va); [lia|exact V|].
    destruct (le_bytes_nth 8 (size_number r c) (Z.to_nat j)) as (b & Eb & Vb); [lia|exact V|].
    rewrite Z2Nat.id in Va, Vb by lia. rewrite <- Vb.
    rewrite (S (Z.to_nat i) (Z.to_nat j) a b); [reflexivity|lia|exact Ea|exact Eb|lia].
  - intros S i j a b Hij Ea Eb Ha.
    assert (Lj : j < 8).
    { apply Nat.nle_gt. intros Q. rewrite (proj2 (nth_error_None _ _)) in Eb; [discriminate|].
      rewrite le_bytes_length. exact Q. }
    destruct (le_bytes_nth 8 (size_number r c) i) as (a' & Ea' & Va); [lia|exact V|].
    destruct (le_bytes_nth 8 (size_number r c) j) as (b' & Eb' & Vb); [lia|exact V|].
    assert (a' = a) by congruence. assert (b' = b) by congruence. subst a' b'.
    apply b2z_inj. rewrite Vb. change (b2z xff) with 255%Z. apply (S (Z.of_nat i) (Z.of_nat j)); lia.
Qed.

Lemma EncodeSz_ok r c : (0 <= r < 2 ^ 32)%Z -> (0 <= c < 2 ^ 32)%Z -> EncodeSz r c = Ok (size_field r c).
Proof.
  intros Hr Hc. unfold EncodeSz. rewrite Z.shiftl_mul_pow2, lor_add by lia.
  rewrite Z.add_comm. fold (size_number r c). rewrite encode_std; [reflexivity|].
  intros Q. apply (f_equal (@length byte)) in Q. rewrite app_length, repeat_length in Q. cbn [length] in Q. lia.
Qed.

Lemma size_field_length r c : length (size_field r c) = 24.
Proof. unfold size_field. rewrite <- enc_rfc, enc_length, app_length, repeat_length, le_bytes_length. reflexivity. Qed.

Lemma size_field_decode r c : Base64Decode (size_field r c) standard = Ok (repeat x00 8 ++ le_bytes 8 (size_number r c)).
Proof.
  cbn [Base64Decode]. unfold size_field. rewrite <- enc_rfc. apply decode_enc; [|now left].
  intros Q. apply (f_equal (@length byte)) in Q. rewrite app_length, repeat_length in Q. cbn [length] in Q. lia.
Qed.

Lemma size_number_range r c : (0 <= r < 2 ^ 32)%Z -> (0 <= c < 2 ^ 32)%Z -> (0 <= size_number r c < 256 ^ 8)%Z.
Proof. intros. unfold size_number. change (256 ^ 8)%Z with (2 ^ 32 * 2 ^ 32)%Z. lia. Qed.

Lemma DecodeSz_field r c : (0 <= r < 2 ^ 32)%Z -> (0 <= c < 2 ^ 32)%Z ->
  DecodeSz X86 (repeat x00 8 ++ le_bytes 8 (size_number r c)) = Ok (c, r) <-> size_survives r c.
Proof.
  intros Hr Hc. rewrite <- size_survives_iff, <- smear_survives by assumption.
  pose proof (size_number_range r c Hr Hc) as V.
  rewrite DecodeSz_x86 by apply le_bytes_length.
  assert (LV : le_value (le_bytes 8 (size_number r c)) = size_number r c).
  { apply le_value_bytes. exact V. }
  split.
  - intros E. apply le_value_inj; [now rewrite smear_length|]. rewrite LV. revert E.
    generalize (le_value (smear (le_bytes 8 (size_number r c)))). intros x E.
    assert (E1 : (x mod 2 ^ 32 = c)%Z) by congruence. assert (E2 : (x / 2 ^ 32 = r)%Z) by congruence.
    rewrite (Z.div_mod x (2 ^ 32)), E1, E2 by lia. unfold size_number. lia.
  - intros ->. rewrite LV. unfold size_number. f_equal. f_equal; lia.
Qed.

Lemma DecodeSz_field_total r c : exists c' r', 
  DecodeSz X86 (repeat x00 8 ++ le_bytes 8 (size_number r c)) = Ok (c', r') /\
  (0 <= c' < 2 ^ 32)%Z /\ (0 <= r' < 2 ^ 32)%Z.
Proof.
  rewrite DecodeSz_x86 by apply le_bytes_length. do 2 eexists. split; [reflexivity|].
  pose proof (le_value_bound (smear (le_bytes 8 (size_number r c)))) as B.
  rewrite smear_length, le_bytes_length in B. change (256 ^ Z.of_nat 8)%Z with (2 ^ 32 * 2 ^ 32)%Z in B.
  split; [lia|]. split; [apply Z.div_pos; lia|apply Z.div_lt_upper_bound; lia].
Qed.

(** ** Substrings *)
Lemma substr_prefix a b n : n = Z.of_nat (length a) -> substr (a ++ b) 0 n = Ok a.
Proof.
  intros ->. unfold substr. rewrite (proj2 (Z.ltb_ge _ _)) by lia. f_equal.
  change (Z.to_nat 0) with 0. cbn [skipn]. rewrite app_length.
  replace (Z.to_nat (Z.min (Z.of_nat (length a)) (Z.of_nat (length a + length b)))) with (length a) by lia.
  now rewrite firstn_app, Nat.sub_diag, firstn_O, app_nil_r, firstn_all.
Qed.

Lemma skipn_exact {A} (a b : list A) n : n = length a -> skipn n (a ++ b) = b.
Proof. intros ->. now rewrite skipn_app, Nat.sub_diag, skipn_all. Qed.

Lemma substr_from_app a b n : n = Z.of_nat (length a) -> substr_from (a ++ b) n = Ok b.
Proof.
  intros ->. unfold substr_from. rewrite (proj2 (Z.ltb_ge _ _)) by (rewrite app_length; lia). f_equal.
  apply skipn_exact. lia.
Qed.

Lemma substr_mid a b c p n : p = Z.of_nat (length a) -> n = Z.of_nat (length b) ->
  substr (a ++ b ++ c) p n = Ok b.
Proof.
  intros -> ->. unfold substr. rewrite !app_length. rewrite (proj2 (Z.ltb_ge _ _)) by lia. f_equal.
  rewrite skipn_exact by lia.
  replace (Z.to_nat (Z.min _ _)) with (length b) by lia.
  now rewrite firstn_app, Nat.sub_diag, firstn_O, app_nil_r, firstn_all.
Qed.

Lemma contains_here s t : contains (s ++ t) s = true.
Proof.
  destruct (s ++ t) eqn:E; cbn [contains]; rewrite <- E;
    rewrite firstn_app, Nat.sub_diag, firstn_O, app_nil_r, firstn_all, streqb_refl; reflexivity.
Qed.

(** ** Framing *)
(** LayoutMatrix.cpp:196-220, the part after the Radix-64 decoding *)
Definition decode_payload (rule : shift_rule) (al : allocator) (Hash : list byte) : res bm :=
    let* parameters := substr_from Hash (size_sub (length Hash) parametersLen) in
    if negb (contains parameters sectionParameters) then Throw InvalidArgument
    else
    let* parameters := substr_from parameters (Z.of_nat (length sectionParameters)) in
    let* s := substr parameters 0 (Z.of_nat (length sectionSize)) in
    if negb (streqb s sectionSize) then Throw InvalidArgument
    else
    let* parameters := substr_from parameters (Z.of_nat (length sectionSize)) in
    let* szStr := substr parameters 0 24 in
    let* szBytes := Base64Decode szStr standard in
    let* sz := DecodeSz rule szBytes in
    let '(colCnt, rowCnt) := sz in
    let* parameters := substr_from parameters 24 in
    let* t := substr parameters 0 (Z.of_nat (length sectionEncodeType)) in
    if negb (streqb t sectionEncodeType) then Throw InvalidArgument
    else
    let* parameters := substr_from parameters (Z.of_nat (length sectionEncodeType)) in
    let* p0 := at_ parameters 0 in
    let* enc := DecodeEncodings p0 in
    let '(isRle, isBase64) := enc in
    let* Hash := substr Hash 0 (size_sub (length Hash) parametersLen) in
    if isRle : bool
    then let* bytes := Base64Decode Hash standard in
         Rle_DecodeMatrix al bytes (Z.to_nat rowCnt) (Z.to_nat colCnt)
    else let* m := FromString al Hash (Z.to_nat rowCnt) (Z.to_nat colCnt) in
         Ok (fst (LM_of_BM_move m)).

Lemma strBegin_length : length strBegin = 32. Proof. reflexivity. Qed.
Lemma strEnd_length : length strEnd = 30. Proof. reflexivity. Qed.
Lemma parametersLen_value : parametersLen = 62. Proof. reflexivity. Qed.

Lemma DecodeHash_framed rule al body : DecodeHash rule al (strBegin ++ body ++ strEnd) =
  (let* P := Base64Decode body radix64 in decode_payload rule al P).
Proof.
  unfold DecodeHash. rewrite !app_length, strBegin_length, strEnd_length.
  rewrite (proj2 (Nat.eqb_neq _ _)) by lia. rewrite substr_prefix by (rewrite strBegin_length; reflexivity). cbn [bind].
  rewrite streqb_refl. cbn [negb].
  rewrite app_assoc. replace ((strBegin ++ body) ++ strEnd) with ((strBegin ++ body) ++ strEnd ++ []) by now rewrite app_nil_r.
  rewrite substr_mid.
  2:{ unfold size_sub, wrap64. rewrite (proj2 (Z.ltb_ge _ _)) by lia. rewrite app_length, strBegin_length. lia. }
  2:{ now rewrite strEnd_length. }
  cbn [bind]. rewrite streqb_refl. cbn [negb]. rewrite app_nil_r, <- app_assoc.
  rewrite substr_mid.
  2:{ now rewrite strBegin_length. }
  2:{ unfold wrap64. rewrite (proj2 (Z.ltb_ge _ _)) by lia. lia. }
  reflexivity.
Qed.

Lemma decode_payload_framed rule al data sz f : length sz = 24 ->
  decode_payload rule al (data ++ sectionParameters ++ sectionSize ++ sz ++ sectionEncodeType ++ [f]) =
  (let* szBytes := Base64Decode sz standard in
   let* p := DecodeSz rule szBytes in
   let* enc := DecodeEncodings f in
   if fst enc
   then let* bytes := Base64Decode data standard in
        Rle_DecodeMatrix al bytes (Z.to_nat (snd p)) (Z.to_nat (fst p))
   else let* m := FromString al data (Z.to_nat (snd p)) (Z.to_nat (fst p)) in
        Ok (fst (LM_of_BM_move m))).
Proof.
  intros L. unfold decode_payload.
  assert (LP : length (sectionParameters ++ sectionSize ++ sz ++ sectionEncodeType ++ [f]) = 62).
  { rewrite !app_length, L. reflexivity. }
  assert (SS : size_sub (length (data ++ sectionParameters ++ sectionSize ++ sz ++ sectionEncodeType ++ [f])) parametersLen
     = Z.of_nat (length data)).
  { rewrite app_length, LP, parametersLen_value. unfold size_sub, wrap64. rewrite (proj2 (Z.ltb_ge _ _)) by lia. lia. }
  rewrite SS. rewrite substr_from_app by reflexivity. cbn [bind].
  rewrite contains_here. cbn [negb]. rewrite substr_from_app by reflexivity. cbn [bind].
  rewrite substr_prefix by reflexivity. cbn [bind]. rewrite streqb_refl. cbn [negb].
  rewrite substr_from_app by reflexivity. cbn [bind].
  rewrite substr_prefix by now rewrite L. cbn [bind].
  destruct (Base64Decode sz standard) as [sb| |]; cbn [bind]; try reflexivity.
  destruct (DecodeSz rule sb) as [[cc rr]| |]; cbn [bind fst snd]; try reflexivity.
  rewrite substr_from_app by now rewrite L. cbn [bind].
  rewrite substr_prefix by reflexivity. cbn [bind]. rewrite streqb_refl. cbn [negb].
  rewrite substr_from_app by reflexivity. cbn [bind]. change (at_ [f] 0) with (Ok f). cbn [bind].
  destruct (DecodeEncodings f) as [[a b]| |]; cbn [bind fst snd]; try reflexivity.
  rewrite substr_prefix by reflexivity. reflexivity.
Qed.

(** ** Encoding *)
Lemma Rle_Encode_bits al m A : shows m A -> nonempty A -> memory_ok al (arows A) (acols A) ->
  Rle_Encode al m = (let* st := for_each (abits A) ([], acell A 0 0, x00) rle_step in rle_finish st).
Proof.
  intros S (Nr & Nc) M. unfold Rle_Encode. rewrite (LM_not_ok al m A S M).
  rewrite (proj2 (Nat.eqb_neq _ _)), (proj2 (Nat.eqb_neq _ _)) by lia. cbn [orb].
  pose proof S as (H & Hr & Hc & G). rewrite G by assumption. cbn [bind]. rewrite Hr, Hc.
  rewrite (for2_bits _ rle_step); [reflexivity|].
  intros st i j Hi Hj. rewrite G by assumption. reflexivity.
Qed.

Lemma u32_range n : (0 <= u32 n < 2 ^ 32)%Z.
Proof. unfold u32. apply Z.mod_pos_bound. lia. Qed.

Lemma EncodeHash_ok al m A : shows m A -> nonempty A -> memory_ok al (arows A) (acols A) ->
  exists runs, runs <> [] /\ Rle_Encode al m = Ok runs /\ expand runs = abits A /\
    EncodeHash al m =
      (let* b := Base64Encode (hash_payload runs (u32 (arows A)) (u32 (acols A))) radix64 in
       Ok (strBegin ++ b ++ strEnd)).
Proof.
  intros S N M. destruct (Rle_Encode_ok al m A S N M) as (runs & E & X & L & _).
  assert (Nr : runs <> []) by (intros ->; cbn [length] in L; lia).
  exists runs. split; [exact Nr|]. split; [exact E|]. split; [exact X|].
  unfold EncodeHash. rewrite (LM_not_ok al m A S M).
  destruct N as (N1 & N2). rewrite (proj2 (Nat.eqb_neq _ _)), (proj2 (Nat.eqb_neq _ _)) by lia. cbn [orb].
  rewrite E. cbn [bind]. rewrite encode_std by exact Nr. cbn [bind].
  pose proof S as (_ & Hr & Hc & _). rewrite Hr, Hc, EncodeSz_ok by apply u32_range. cbn [bind].
  change (EncodeEncodings true true) with (@Ok byte x03). cbn [bind]. reflexivity.
Qed.

(** The hash depends on what the matrix shows only. *)
Lemma EncodeHash_shown al m m' A : shows m A -> shows m' A -> nonempty A ->
  memory_ok al (arows A) (acols A) -> EncodeHash al m = EncodeHash al m'.
Proof.
  intros S S' N M. destruct (EncodeHash_ok al m A S N M) as (r & _ & E & _ & ->).
  destruct (EncodeHash_ok al m' A S' N M) as (r' & _ & E' & _ & ->).
  rewrite (Rle_Encode_bits al m A S N M) in E. rewrite (Rle_Encode_bits al m' A S' N M) in E'.
  assert (r = r') by congruence. now subst.
Qed.

Lemma hash_payload_ne runs r c : hash_payload runs r c <> [].
Proof.
  intros Q. apply (f_equal (@length byte)) in Q. unfold hash_payload in Q.
  rewrite !app_length in Q. cbn [length] in Q. lia.
Qed.

Lemma radix_round s e : Base64Encode s radix64 = Ok e -> s <> [] -> Base64Decode e radix64 = Ok s.
Proof.
  intros E N. destruct (encode_lines 76 s N ltac:(lia)) as (t & M & L).
  change (Base64Encode s mime = Ok t) in M.
  rewrite (radix_encode s t N M) in E.
  destruct (_ =? 0)%Z eqn:Z1; [discriminate|]. destruct (_ =? 0)%Z eqn:Z2 in E; [discriminate|].
  assert (e = t ++ crc_text (hashed_part t)) as -> by congruence.
  assert (Nt : t <> []).
  { intros ->. cbn in Z1. discriminate. }
  rewrite radix_decode by (try exact Nt; apply crc_text_length).
  rewrite Z1, streqb_refl.
  apply (decode_sep_std t s); [exact N|].
  rewrite (in_lines_breaks _ _ _ L). apply std_no_breaks.
Qed.

(** Decoding the text of a hash. *)
Lemma decode_hash_payload rule al runs r c : runs <> [] ->
  decode_payload rule al (hash_payload runs r c) =
  (let* p := DecodeSz rule (repeat x00 8 ++ le_bytes 8 (size_number r c)) in
   Rle_DecodeMatrix al runs (Z.to_nat (snd p)) (Z.to_nat (fst p))).
Proof.
  intros N. unfold hash_payload.
  change (lit "__PARAMETERS____SIZE__") with (sectionParameters ++ sectionSize).
  change (lit "__ENCODE_TYPE__") with sectionEncodeType. rewrite <- (app_assoc sectionParameters).
  rewrite decode_payload_framed by apply size_field_length.
  rewrite size_field_decode. cbn [bind].
  destruct (DecodeSz rule _) as [p| |]; cbn [bind]; try reflexivity.
  change (DecodeEncodings x03) with (Ok (true, true)). cbn [bind fst].
  cbn [Base64Decode]. rewrite <- enc_rfc, decode_enc by (try exact N; now left). reflexivity.
Qed.

Lemma DecodeHash_encoded rule al al' m A h : shows m A -> nonempty A -> memory_ok al (arows A) (acols A) ->
  EncodeHash al m = Ok h ->
  exists runs, runs <> [] /\ Rle_Encode al m = Ok runs /\ expand runs = abits A /\
  DecodeHash rule al' h =
  (let* p := DecodeSz rule (repeat x00 8 ++ le_bytes 8 (size_number (u32 (arows A)) (u32 (acols A)))) in
   Rle_DecodeMatrix al' runs (Z.to_nat (snd p)) (Z.to_nat (fst p))).
Proof.
  intros S N M E. destruct (EncodeHash_ok al m A S N M) as (runs & Nr & R & X & Q).
  exists runs. split; [exact Nr|]. split; [exact R|]. split; [exact X|].
  rewrite Q in E. destruct (Base64Encode _ radix64) as [b| |] eqn:B; try discriminate.
  cbn [bind] in E. assert (h = strBegin ++ b ++ strEnd) as -> by congruence.
  rewrite DecodeHash_framed, (radix_round _ _ B (hash_payload_ne _ _ _)). cbn [bind].
  now apply decode_hash_payload.
Qed.

Lemma BM_ctor_cases al r c :
  BM_ctor al r c = mkbm (repeat (repeat x00 (cdiv8 c)) r) r c \/ BM_ctor al r c = bm_empty.
Proof.
  unfold BM_ctor, V_Resize. rewrite colBytes_cdiv8.
  destruct (al r (cdiv8 c)) as [| |i]; [now left| |].
  - right. reflexivity.
  - destruct (i <? r); [right|now left]. unfold BM_Reset. cbn [Bitmap].
    unfold V_Reset. destruct (_ ++ _); reflexivity.
Qed.

(** Whatever the heap does, the decoded matrix has the announced sizes or is empty. *)
Lemma DecodeMatrix_sizes al s r c : exists m, Rle_DecodeMatrix al s r c = Ok m /\ healthy m /\
  ((GetRowCount m = r /\ GetColumnCount m = c) \/ m = bm_empty).
Proof.
  destruct s as [|b s].
  - exists bm_empty. split; [reflexivity|]. split; [split; [reflexivity|constructor]|now right].
  - destruct (BM_ctor_cases al r c) as [E|E].
    + unfold Rle_DecodeMatrix. cbn [length Nat.eqb]. unfold LM_ctor. rewrite E.
      destruct (dec_loop r c (b :: s) _ (dec_start r c)) as ([[m k] j] & L & I).
      unfold dec_body in L. cbn [length] in L. rewrite L. cbn [bind]. exists m. split; [reflexivity|].
      destruct I as ((H & _) & Hr & Hc & _). split; [exact H|]. left. auto.
    + unfold Rle_DecodeMatrix. cbn [length Nat.eqb]. unfold LM_ctor. rewrite E.
      assert (R : forall n v, decode_run n (bm_empty, 0, 0) v = Ok (bm_empty, 0, 0)).
      { intros [|n] v; [reflexivity|]. cbn [decode_run]. rewrite Set_throw by (left; cbn; lia). reflexivity. }
      rewrite for_each_fix.
      * exists bm_empty. split; [reflexivity|]. split; [split; [reflexivity|constructor]|now right].
      * intros i Hi. apply upto_in in Hi. destruct (at_lt (b :: s) i) as (x & Ex & _); [cbn [length]; lia|].
        rewrite Ex. cbn [bind]. rewrite GetBit7. cbn [bind]. destruct (ClearBit7 x) as (cb & -> & _). apply R.
Qed.

Lemma rfc_inj a b : a <> [] -> b <> [] -> rfc_encode false "="%byte a = rfc_encode false "="%byte b -> a = b.
Proof.
  intros Na Nb E. rewrite <- !enc_rfc in E.
  pose proof (decode_enc false "="%byte a Na (or_introl eq_refl)) as D1.
  pose proof (decode_enc false "="%byte b Nb (or_introl eq_refl)) as D2. congruence.
Qed.

Lemma hash_payload_inj runs runs' r r' c c' : runs <> [] -> runs' <> [] ->
  (0 <= r < 2 ^ 32)%Z -> (0 <= c < 2 ^ 32)%Z -> (0 <= r' < 2 ^ 32)%Z -> (0 <= c' < 2 ^ 32)%Z ->
  hash_payload runs r c = hash_payload runs' r' c' -> runs = runs' /\ r = r' /\ c = c'.
Proof.
  intros N N' Hr Hc Hr' Hc' E. unfold hash_payload in E.
  assert (L : forall x r c, length (lit "__PARAMETERS____SIZE__" ++ size_field r c ++ lit "__ENCODE_TYPE__" ++ [x]) = 62).
  { intros. rewrite !app_length, size_field_length. reflexivity. }
  assert (K : forall (a b x y : list byte), length x = length y -> a ++ x = b ++ y -> a = b /\ x = y).
  { clear. induction a as [|h a IH]; intros b x y L E.
    - destruct b; [auto|]. cbn [app] in E. apply (f_equal (@length byte)) in E. cbn [length] in E.
      rewrite app_length in E. lia.
    - destruct b as [|h' b]; cbn [app] in E.
      + apply (f_equal (@length byte)) in E. cbn [length] in E. rewrite app_length in E. lia.
      + assert (h = h') by congruence. assert (T : a ++ x = b ++ y) by congruence.
        destruct (IH b x y L T) as (-> & ->). subst. auto. }
  destruct (K _ _ _ _ (eq_trans (L _ _ _) (eq_sym (L _ _ _))) E) as (E1 & E2).
  split; [now apply rfc_inj|].
  apply app_inv_head in E2. apply app_inv_tail in E2. unfold size_field in E2.
  apply rfc_inj in E2.
  - apply app_inv_head in E2.
    assert (V : size_number r c = size_number r' c').
    { rewrite <- (le_value_bytes 8 (size_number r c)) by now apply size_number_range.
      rewrite E2. apply le_value_bytes. now apply size_number_range. }
    unfold size_number in V. lia.
  - intros Q. apply (f_equal (@length byte)) in Q. rewrite app_length, repeat_length in Q. cbn [length] in Q. lia.
  - intros Q. apply (f_equal (@length byte)) in Q. rewrite app_length, repeat_length in Q. cbn [length] in Q. lia.
Qed.

(** ** Rejection *)
Lemma DecodeHash_no_begin rule al h : (forall t, h <> strBegin ++ t) -> DecodeHash rule al h = Throw InvalidArgument.
Proof.
  intros H. unfold DecodeHash. destruct (length h =? 0); [reflexivity|].
  unfold substr at 1. rewrite (proj2 (Z.ltb_ge _ _)) by lia. cbn [bind].
  change (Z.to_nat 0) with 0. rewrite skipn_O.
  destruct (streqb _ strBegin) eqn:E; [|reflexivity]. exfalso. apply streqb_eq in E.
  apply (H (skipn 32 h)). rewrite <- E. rewrite strBegin_length.
  destruct (le_dec 32 (length h)).
  - replace (Z.to_nat (Z.min (Z.of_nat 32) (Z.of_nat (length h)))) with 32 by lia. symmetry. apply firstn_skipn.
  - apply (f_equal (@length byte)) in E. rewrite firstn_length, strBegin_length in E. lia.
Qed.

Lemma DecodeHash_no_end rule al h : (forall t, h <> t ++ strEnd) -> DecodeHash rule al h = Throw InvalidArgument.
Proof.
  intros H.
  assert (B : (forall t, h <> strBegin ++ t) \/ exists t, h = strBegin ++ t).
  { destruct (list_eq_dec Byte.byte_eq_dec (firstn 32 h) strBegin) as [E|E].
    - right. exists (skipn 32 h). rewrite <- E. symmetry. apply firstn_skipn.
    - left. intros t ->. apply E. rewrite firstn_app, strBegin_length. rewrite firstn_O, app_nil_r. reflexivity. }
  destruct B as [B|(t & ->)]; [now apply DecodeHash_no_begin|].
  unfold DecodeHash. rewrite app_length, strBegin_length.
  rewrite (proj2 (Nat.eqb_neq _ _)) by lia. rewrite substr_prefix by now rewrite strBegin_length. cbn [bind].
  rewrite streqb_refl. cbn [negb].
  rewrite strEnd_length.
  assert (SB : size_sub (32 + length t) 30 = Z.of_nat (length (strBegin ++ t) - 30)).
  { unfold size_sub, wrap64. rewrite (proj2 (Z.ltb_ge _ _)) by lia. rewrite app_length, strBegin_length. lia. }
  rewrite SB. unfold substr at 1. rewrite (proj2 (Z.ltb_ge _ _)) by lia. cbn [bind].
  destruct (streqb _ strEnd) eqn:E; [|reflexivity]. exfalso. apply streqb_eq in E.
  rewrite Nat2Z.id in E. rewrite app_length, strBegin_length in E.
  replace (Z.to_nat (Z.min (Z.of_nat 30) (Z.of_nat (32 + length t)))) with 30 in E by lia.
  rewrite firstn_all2 in E by (rewrite skipn_length, app_length, strBegin_length; lia).
  apply (H (firstn (32 + length t - 30) (strBegin ++ t))). rewrite <- E at 1.
  symmetry. apply firstn_skipn.
Qed.

Lemma DecodeHash_strict al h m : DecodeHash StrictCpp al h <> Ok m.
Proof.
  assert (D : forall l, DecodeSz StrictCpp l = UB BadShift \/ DecodeSz StrictCpp l = Throw InvalidArgument).
  { intros l. destruct (Nat.eq_dec (length l) 16); [left; now apply DecodeSz_strict|right; now apply DecodeSz_length]. }
  unfold DecodeHash. destruct (length h =? 0); [discriminate|].
  destruct (substr h 0 _) as [b| |]; cbn [bind]; try discriminate.
  destruct (negb (streqb b strBegin)); [discriminate|].
  destruct (substr h (size_sub (length h) _) _) as [e| |]; cbn [bind]; try discriminate.
  destruct (negb (streqb e strEnd)); [discriminate|].
  destruct (substr h _ _) as [h1| |]; cbn [bind]; try discriminate.
  destruct (Base64Decode h1 radix64) as [P| |]; cbn [bind]; try discriminate.
  destruct (substr_from P _) as [q| |]; cbn [bind]; try discriminate.
  destruct (negb (contains q _)); [discriminate|].
  destruct (substr_from q _) as [q1| |]; cbn [bind]; try discriminate.
  destruct (substr q1 0 (Z.of_nat (length sectionSize))) as [q2| |]; cbn [bind]; try discriminate.
  destruct (negb (streqb q2 _)); [discriminate|].
  destruct (substr_from q1 _) as [q3| |]; cbn [bind]; try discriminate.
  destruct (substr q3 0 24) as [q4| |]; cbn [bind]; try discriminate.
  destruct (Base64Decode q4 standard) as [q5| |]; cbn [bind]; try discriminate.
  destruct (D q5) as [-> | ->]; discriminate.
Qed.

(** The payload: too short, or without its sections. *)
Lemma payload_short rule al P : length P < 62 -> decode_payload rule al P = Throw OutOfRange.
Proof.
  intros L. unfold decode_payload, substr_from. unfold size_sub at 1, wrap64. rewrite parametersLen_value.
  rewrite (proj2 (Z.ltb_lt _ 0)) by lia. rewrite (proj2 (Z.ltb_lt _ _)) by lia. reflexivity.
Qed.

Lemma reads_whole t : forall r, reads t r -> length t mod 4 = 0 -> forall u, r <> UB u.
Proof.
  intros r R. induction R; intros M u'; try discriminate.
  - assert (M' : length t mod 4 = 0).
    { cbn [length] in M. replace (S (S (S (S (length t))))) with (length t + 1 * 4) in M by lia.
      now rewrite Nat.mod_add in M by lia. }
    specialize (IHR M' u'). congruence.
Qed.

Lemma decode24 s : length s = 24 -> forall u, Base64Decode s standard <> UB u.
Proof.
  intros L u. destruct (reads_total s) as (r & R).
  pose proof (decode_reads s r ltac:(intros ->; discriminate) R) as D. cbn [Base64Decode]. rewrite D.
  pose proof (reads_whole s r R ltac:(now rewrite L)) as N.
  destruct r; try discriminate. specialize (N u0). congruence.
Qed.

Lemma payload_bad_sections al data params f1 f2 f3 f4 f5 :
  params = f1 ++ f2 ++ f3 ++ f4 ++ [f5] ->
  length f1 = 14 -> length f2 = 8 -> length f3 = 24 -> length f4 = 15 ->
  contains params sectionParameters = false \/ f2 <> sectionSize \/ f4 <> sectionEncodeType ->
  exists e, decode_payload X86 al (data ++ params) = Throw e.
Proof.
  intros Ep L1 L2 L3 L4 B. unfold decode_payload.
  assert (LP : length params = 62) by (rewrite Ep, !app_length, L1, L2, L3, L4; reflexivity).
  assert (SS : size_sub (length (data ++ params)) parametersLen = Z.of_nat (length data)).
  { rewrite app_length, LP, parametersLen_value. unfold size_sub, wrap64. rewrite (proj2 (Z.ltb_ge _ _)) by lia. lia. }
  rewrite SS. rewrite substr_from_app by reflexivity. cbn [bind].
  destruct (contains params sectionParameters) eqn:C; [|eexists; reflexivity]. cbn [negb].
  rewrite Ep. rewrite substr_from_app by now rewrite L1. cbn [bind].
  rewrite substr_prefix by now rewrite L2. cbn [bind].
  destruct (streqb f2 sectionSize) eqn:C2; [|eexists; reflexivity]. cbn [negb].
  rewrite substr_from_app by now rewrite L2. cbn [bind].
  rewrite substr_prefix by now rewrite L3. cbn [bind].
  pose proof (decode24 f3 L3) as NU.
  destruct (Base64Decode f3 standard) as [b|e|u]; cbn [bind]; [|eexists; reflexivity|exfalso; now apply (NU u)].
  destruct (Nat.eq_dec (length b) 16) as [Lb|Lb]; [|rewrite DecodeSz_length by exact Lb; eexists; reflexivity].
  assert (T : exists p, DecodeSz X86 b = Ok p).
  { unfold DecodeSz. rewrite Lb. change (negb (16 =? 16)) with false. cbv iota.
    assert (A : forall idx sz, (forall i, In i idx -> i < 16) ->
      exists sz', for_each idx sz (sz_body X86 b) = Ok sz').
    { induction idx as [|i idx IH]; intros sz H; [exists sz; reflexivity|].
      cbn [for_each]. unfold sz_body at 1.
      destruct (at_lt b i) as (c & -> & _); [specialize (H i (or_introl eq_refl)); lia|].
      cbn [bind]. unfold shl64. destruct (_ <? 64)%Z; cbn [bind]; apply IH; intros; apply H; now right. }
    destruct (A (upto 0 16) 0%Z) as (sz & E).
    { intros i Hi. apply upto_in in Hi. lia. }
    unfold sz_body in E. rewrite E. cbn [bind]. eexists; reflexivity. }
  destruct T as ((cc & rr) & ->). cbn [bind].
  rewrite substr_from_app by now rewrite L3. cbn [bind].
  rewrite substr_prefix by now rewrite L4. cbn [bind].
  destruct (streqb f4 sectionEncodeType) eqn:C4; [|eexists; reflexivity].
  apply streqb_eq in C2, C4. intuition congruence.
Qed.

(** ** Truncated texts *)
Lemma rfc_no_underscore s : Forall (fun c => c <> "_"%byte) (rfc_encode false "="%byte s).
Proof.
  rewrite <- enc_rfc. destruct (enc_chars false "="%byte s) as (body & -> & F).
  apply Forall_app. split.
  - eapply Forall_impl; [|exact F]. intros c Hc ->. vm_compute in Hc. intuition discriminate.
  - apply Forall_forall. intros c Hc. apply repeat_spec in Hc. subst. discriminate.
Qed.

Lemma radix_no_underscore s e : s <> [] -> Base64Encode s radix64 = Ok e -> Forall (fun c => c <> "_"%byte) e.
Proof.
  intros N E. destruct (encode_lines 76 s N ltac:(lia)) as (t & M & L).
  change (Base64Encode s mime = Ok t) in M. rewrite (radix_encode s t N M) in E.
  destruct (_ =? 0)%Z; [discriminate|]. destruct (_ =? 0)%Z in E; [discriminate|].
  assert (e = t ++ crc_text (hashed_part t)) as -> by congruence.
  apply Forall_app. split; [|apply rfc_no_underscore].
  pose proof (in_lines_breaks _ _ _ L) as B. rewrite std_no_breaks in B.
  apply Forall_forall. intros c Hc ->.
  assert (In "_"%byte (no_breaks t)) as I.
  { unfold no_breaks. apply filter_In. split; [exact Hc|reflexivity]. }
  rewrite B in I. pose proof (rfc_no_underscore s) as F. rewrite Forall_forall in F. now apply (F _ I).
Qed.

Lemma truncated_no_end body k : Forall (fun c => c <> "_"%byte) body -> k < 62 + length body ->
  forall t, firstn k (strBegin ++ body ++ strEnd) <> t ++ strEnd.
Proof.
  intros F K t E.
  assert (Lt : length t + 30 <= k).
  { apply (f_equal (@length byte)) in E. rewrite firstn_length, (app_length t), strEnd_length in E. lia. }
  assert (NU : nth_error (strBegin ++ body ++ strEnd) (length t + 14) = Some "_"%byte).
  { rewrite <- (firstn_skipn k (strBegin ++ body ++ strEnd)), E.
    rewrite nth_error_app1 by (rewrite app_length, strEnd_length; lia).
    rewrite nth_error_app2 by lia. replace (length t + 14 - length t) with 14 by lia. reflexivity. }
  assert (C0 : nth_error (strBegin ++ body ++ strEnd) (length t) = Some x0d).
  { rewrite <- (firstn_skipn k (strBegin ++ body ++ strEnd)), E.
    rewrite nth_error_app1 by (rewrite app_length, strEnd_length; lia).
    rewrite nth_error_app2 by lia. rewrite Nat.sub_diag. reflexivity. }
  assert (U1 : forall i, nth_error strBegin i = Some "_"%byte -> i = 14).
  { intros i H. assert (i < 32) by (rewrite <- strBegin_length; apply nth_error_Some; congruence).
    do 32 (destruct i as [|i]; [vm_compute in H; first [discriminate | reflexivity]|]). lia. }
  assert (U2 : forall i, nth_error strEnd i = Some "_"%byte -> i = 14).
  { intros i H. assert (i < 30) by (rewrite <- strEnd_length; apply nth_error_Some; congruence).
    do 30 (destruct i as [|i]; [vm_compute in H; first [discriminate | reflexivity]|]). lia. }
  destruct (lt_dec (length t + 14) 32) as [C|C]; [|destruct (lt_dec (length t + 14) (32 + length body)) as [C'|C']].
  - rewrite nth_error_app1 in NU by (rewrite strBegin_length; lia). apply U1 in NU.
    assert (length t = 0) as Q by lia. rewrite Q in C0. vm_compute in C0. discriminate.
  - rewrite nth_error_app2, nth_error_app1 in NU by (rewrite strBegin_length; lia).
    apply nth_error_In in NU. rewrite Forall_forall in F. now apply (F _ NU).
  - rewrite nth_error_app2, nth_error_app2 in NU by (rewrite strBegin_length; lia). apply U2 in NU.
    rewrite strBegin_length in NU. lia.
Qed.
