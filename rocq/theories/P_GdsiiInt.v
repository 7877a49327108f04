(** GDSII integers. *)
From Verif Require Import Prelude P_Prelude M_LayoutData M_Double M_GdsiiHelpers S_Gdsii.
Local Open Scope Z_scope.
Local Ltac Zify.zify_post_hook ::= Z.to_euclidean_division_equations.

Lemma le_bytes_2 z : le_bytes 2 z = [z2b z; z2b (z / 256)].
Proof. reflexivity. Qed.
Lemma le_bytes_4 z : le_bytes 4 z = [z2b z; z2b (z / 256); z2b (z / 256 / 256); z2b (z / 256 / 256 / 256)].
Proof. reflexivity. Qed.

Lemma swapped_word v b0 b1 : image16 v = [b0; b1] ->
  (let* tempByte := at_ (image16 v) 1 in let* b := at_ (image16 v) 0 in let* u := put_ (image16 v) 1 b in put_ u 0 tempByte) = Ok [b1; b0].
Proof. intros ->. reflexivity. Qed.

Definition res_is (x : res Z) (y : Z) : bool := match x with Ok z => z =? y | _ => false end.
Lemma word_sweep : forallb (fun a => forallb (fun b => res_is (Normalize_WORD (value16 [a; b])) (twos_complement [a; b])) all_bytes) all_bytes = true.
Proof. vm_cast_no_check (eq_refl true). Qed.
Lemma word_all b0 b1 : res_is (Normalize_WORD (value16 [b0; b1])) (twos_complement [b0; b1]) = true.
Proof. exact (sweep2 (fun a b => res_is (Normalize_WORD (value16 [a; b])) (twos_complement [a; b])) word_sweep b0 b1). Qed.

Lemma value16_image v : - 2 ^ 15 <= v < 2 ^ 15 -> value16 (image16 v) = v.
Proof.
  intros H. unfold value16, image16, to_int16. rewrite le_value_bytes.
  - lia.
  - change (256 ^ Z.of_nat 2) with (2 ^ 16). lia.
Qed.
Lemma value32_image v : int32 v -> value32 (image32 v) = v.
Proof.
  unfold int32. intros H. unfold value32, image32, to_int32. rewrite le_value_bytes.
  - lia.
  - change (256 ^ Z.of_nat 4) with (2 ^ 32). lia.
Qed.
Lemma image16_value b0 b1 : image16 (value16 [b0; b1]) = [b0; b1].
Proof.
  unfold value16, image16, to_int16. pose proof (le_value_range [b0; b1]) as R.
  change (256 ^ Z.of_nat (length [b0; b1])) with 65536 in R. 
  replace (((le_value [b0; b1] + 2 ^ 15) mod 2 ^ 16 - 2 ^ 15) mod 2 ^ 16) with (le_value [b0; b1]) by (clear - R; lia).
  apply (le_bytes_value [b0; b1]).
Qed.
Lemma image32_value l : length l = 4%nat -> image32 (value32 l) = l.
Proof.
  intros L. unfold value32, image32, to_int32. pose proof (le_value_range l) as R. rewrite L in R.
  change (256 ^ Z.of_nat 4) with 4294967296 in R. 
  replace (((le_value l + 2 ^ 31) mod 2 ^ 32 - 2 ^ 31) mod 2 ^ 32) with (le_value l) by (clear - R; lia).
  rewrite <- L. apply (le_bytes_value l).
Qed.

Lemma is_ok_eq (x : res Z) y : res_is x y = true -> x = Ok y.
Proof. destruct x as [z| |]; intros H; [|discriminate..]. apply Z.eqb_eq in H. rewrite H. reflexivity. Qed.
Lemma word_value b0 b1 : Normalize_WORD (value16 [b0; b1]) = Ok (twos_complement [b0; b1]).
Proof. apply is_ok_eq. exact (word_all b0 b1). Qed.
Lemma word_normalize v b0 b1 : - 2 ^ 15 <= v < 2 ^ 15 -> image16 v = [b0; b1] -> Normalize_WORD v = Ok (twos_complement [b0; b1]).
Proof. intros H E. rewrite <- (word_value b0 b1), <- E, (value16_image v H). reflexivity. Qed.

Lemma lxor_ones n x : 0 <= n -> 0 <= x < 2 ^ n -> Z.lxor x (Z.ones n) = Z.ones n - x.
Proof.
  intros Hn H. rewrite Z.lxor_comm. symmetry. replace (Z.ones n - x) with (Z.ldiff (Z.ones n) x).
  2: { symmetry. rewrite <- Z.sub_nocarry_ldiff; [reflexivity|].
       rewrite Z.ldiff_ones_r by lia. rewrite Z.shiftr_div_pow2, Z.div_small by lia. apply Z.shiftl_0_l. }
  apply Z.bits_inj'. intros k Hk. rewrite Z.ldiff_spec, Z.lxor_spec.
  destruct (Z.testbit (Z.ones n) k) eqn:E; [destruct (Z.testbit x k); reflexivity|].
  cbn [andb xorb]. destruct (Z.ltb_spec k n).
  - rewrite Z.ones_spec_low in E by lia. discriminate.
  - destruct (Z.eq_dec x 0) as [->|]; [now rewrite Z.bits_0|]. rewrite Z.bits_above_log2; [reflexivity|lia|].
    apply Z.log2_lt_pow2; [lia|]. apply Z.lt_le_trans with (2 ^ n); [lia|]. apply Z.pow_le_mono_r; lia.
Qed.

Lemma dword_arith v : int32 v ->
  (if Z.land (v mod 2 ^ 32) 2147483648 =? 0 then Ok v
   else let v := Z.land v 2147483647 in let v := Z.lxor v 2147483647 in let* v := chk32 (v + 1) in chk32 (v * -1)) =
  (if v =? - 2 ^ 31 then UB SignedOverflow else Ok v).
Proof.
  unfold int32. intros H.
  assert (B : Z.testbit (v mod 2 ^ 32) 31 = (v <? 0)).
  { rewrite Z.testbit_eqb by lia. destruct (Z.ltb_spec v 0); [apply Z.eqb_eq|apply Z.eqb_neq]; lia. }
  assert (E : (Z.land (v mod 2 ^ 32) 2147483648 =? 0) = negb (v <? 0)).
  { rewrite <- B. change 2147483648 with (2 ^ 31). destruct (Z.testbit (v mod 2 ^ 32) 31) eqn:T; cbn [negb].
    - apply Z.eqb_neq. intros Q. assert (F := Z.land_spec (v mod 2 ^ 32) (2 ^ 31) 31). rewrite Q, T, Z.pow2_bits_true, Z.bits_0 in F by lia. discriminate.
    - apply Z.eqb_eq. apply Z.bits_inj'. intros k Hk. rewrite Z.land_spec, Z.bits_0, Z.pow2_bits_eqb by lia.
      destruct (Z.eqb_spec 31 k) as [<-|]; [rewrite T; reflexivity|apply andb_false_r]. }
  rewrite E. destruct (Z.ltb_spec v 0); cbn [negb].
  - change 2147483647 with (Z.ones 31). cbv zeta. rewrite Z.land_ones by lia.
    rewrite lxor_ones by (first [lia|apply Z.mod_pos_bound; lia]).
    change (Z.ones 31) with (2 ^ 31 - 1). unfold chk32. destruct (Z.eqb_spec v (- 2 ^ 31)) as [->|]; [reflexivity|].
    replace ((- 2 ^ 31 <=? 2 ^ 31 - 1 - v mod 2 ^ 31 + 1) && (2 ^ 31 - 1 - v mod 2 ^ 31 + 1 <? 2 ^ 31)) with true by lia. cbn [bind].
    replace ((- 2 ^ 31 <=? (2 ^ 31 - 1 - v mod 2 ^ 31 + 1) * -1) && ((2 ^ 31 - 1 - v mod 2 ^ 31 + 1) * -1 <? 2 ^ 31)) with true by lia.
    f_equal. lia.
  - destruct (Z.eqb_spec v (- 2 ^ 31)); [lia|reflexivity].
Qed.

Lemma swap_ok v b0 b1 b2 b3 : image32 v = [b0; b1; b2; b3] -> swap_dword v = Ok (value32 [b3; b2; b1; b0]).
Proof. intros E. unfold swap_dword. rewrite E. reflexivity. Qed.

Lemma value32_twos b0 b1 b2 b3 : value32 [b3; b2; b1; b0] = twos_complement [b0; b1; b2; b3].
Proof.
  unfold value32, to_int32, twos_complement. cbn [le_value big_endian length].
  change (256 ^ Z.of_nat 4) with (2 ^ 32). change (256 ^ Z.of_nat 3) with (256 * 256 * 256). change (256 ^ Z.of_nat 2) with (256 * 256).
  change (256 ^ Z.of_nat 1) with 256. change (256 ^ Z.of_nat 0) with 1.
  pose proof (b2z_range b0). pose proof (b2z_range b1). pose proof (b2z_range b2). pose proof (b2z_range b3).
  destruct (Z.leb_spec 128 (b2z b0)); lia.
Qed.
Lemma value16_twos b0 b1 : value16 [b1; b0] = twos_complement [b0; b1].
Proof.
  unfold value16, to_int16, twos_complement. cbn [le_value big_endian length].
  change (256 ^ Z.of_nat 2) with 65536. change (256 ^ Z.of_nat 1) with 256. change (256 ^ Z.of_nat 0) with 1.
  pose proof (b2z_range b0). pose proof (b2z_range b1).
  destruct (Z.leb_spec 128 (b2z b0)); lia.
Qed.

Lemma value32_int l : int32 (value32 l).
Proof. unfold int32, value32, to_int32. lia. Qed.

Lemma dword_normalize v b0 b1 b2 b3 : image32 v = [b0; b1; b2; b3] ->
  Normalize_DWORD v = if twos_complement [b0; b1; b2; b3] =? - 2 ^ 31 then UB SignedOverflow else Ok (twos_complement [b0; b1; b2; b3]).
Proof.
  intros E. unfold Normalize_DWORD. rewrite (swap_ok _ _ _ _ _ E). cbn [bind].
  rewrite (dword_arith _ (value32_int _)), value32_twos. reflexivity.
Qed.

Lemma image32_four v : exists b0 b1 b2 b3, image32 v = [b0; b1; b2; b3].
Proof. unfold image32. rewrite le_bytes_4. eauto. Qed.
Lemma image16_two v : exists b0 b1, image16 v = [b0; b1].
Proof. unfold image16. rewrite le_bytes_2. eauto. Qed.

Lemma denormalize_dword v : int32 v ->
  exists w b0 b1 b2 b3, DeNormalize_DWORD v = Ok w /\ int32 w /\ image32 w = [b0; b1; b2; b3] /\ twos_complement [b0; b1; b2; b3] = v.
Proof.
  intros H. destruct (image32_four v) as (b0 & b1 & b2 & b3 & E). unfold DeNormalize_DWORD. rewrite (swap_ok _ _ _ _ _ E).
  eexists _, _, _, _, _. split; [reflexivity|]. split; [apply value32_int|]. split; [apply image32_value; reflexivity|].
  rewrite <- value32_twos, <- E. apply value32_image, H.
Qed.
Lemma denormalize_word v : - 2 ^ 15 <= v < 2 ^ 15 ->
  exists w b0 b1, DeNormalize_WORD v = Ok w /\ - 2 ^ 15 <= w < 2 ^ 15 /\ image16 w = [b0; b1] /\ twos_complement [b0; b1] = v.
Proof.
  intros H. destruct (image16_two v) as (b0 & b1 & E). 
  assert (D : DeNormalize_WORD v = Ok (value16 [b1; b0])) by (unfold DeNormalize_WORD; rewrite E; reflexivity). rewrite D.
  exists (value16 [b1; b0]), b1, b0. split; [reflexivity|]. split; [unfold value16, to_int16; lia|]. split; [apply image16_value|].
  rewrite <- value16_twos, <- E. apply value16_image, H.
Qed.
