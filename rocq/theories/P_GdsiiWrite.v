(** GDSII reals: writing. *)
From Coq Require Import Reals Lra.
From Flocq Require Import Core IEEE754.BinarySingleNaN.
From Flocq Require Import Mult_error.
From Verif Require Import Prelude P_Prelude M_Double S_Double P_Double M_GdsiiHelpers S_Gdsii P_GdsiiReal.
Local Open Scope R_scope.

(** ** The exponent *)
Lemma dpow2_sign n : (-1074 <= n < 1024)%Z -> Bsign (dpow2 n) = false.
Proof.
  intros H. pose proof (binary_normalize_correct 53 1024 _ _ mode_NE 1 n false) as C. cbv zeta in C. rewrite !rnd_fexp in C.
  replace (F2R (Float radix2 1 n)) with (pow2 n) in C by (unfold F2R; cbn [Fnum Fexp]; ring).
  rewrite rnd_exact in C by (apply generic_format_bpow; unfold FLT_exp; lia).
  rewrite Rlt_bool_true in C by (rewrite Rabs_pos_eq by apply bpow_ge_0; apply bpow_lt; lia).
  destruct C as (_ & _ & C). unfold dpow2. rewrite C. rewrite Rcompare_Gt by apply bpow_gt_0. reflexivity.
Qed.

Lemma div_pow v X n : real v X -> 0 <= X -> (-300 <= n <= 300)%Z ->
  (X = 0 \/ pow2 (-100) <= X) -> X * pow2 (- n) < pow2 1024 -> real (ddiv v (dpow2 n)) (X * pow2 (- n)).
Proof.
  intros RV P Hn Q L. assert (E : X * pow2 (- n) = X / pow2 n) by (rewrite bpow_opp; reflexivity).
  pose proof (bpow_gt_0 radix2 (- n)) as G.
  assert (F : fmt (X * pow2 (- n))).
  { destruct Q as [-> |Q]; [rewrite Rmult_0_l; apply generic_format_0|]. apply fmt_scale; [exact (real_fmt _ _ RV)|].
    rewrite Rabs_pos_eq by nra. apply Rle_trans with (pow2 (-100) * pow2 (- n)); [rewrite <- bpow_plus; apply bpow_le; lia|nra]. }
  rewrite E in *. apply ddiv_exact; [exact RV|apply real_dpow2; lia| |exact F|].
  - pose proof (bpow_gt_0 radix2 n). lra.
  - rewrite Rabs_pos_eq; [exact L|]. rewrite <- E. nra.
Qed.

Lemma test_exponent v X e : real v X -> Bsign v = false -> pow2 (-52) <= X -> (-64 <= e <= 63)%Z ->
  dle (ddiv v (dpow16 e)) (dz 1) = Rle_bool X (pow2 (4 * e)).
Proof.
  intros RV SV HX He. pose proof (bpow_gt_0 radix2 (- (4 * e))) as G. pose proof (bpow_gt_0 radix2 (-52)) as G0. pose proof (bpow_gt_0 radix2 (4 * e)) as G1.
  assert (I : pow2 (4 * e) * pow2 (- (4 * e)) = 1) by (rewrite <- bpow_plus; replace (4 * e + - (4 * e))%Z with 0%Z by lia; reflexivity).
  destruct (Rlt_or_le (X * pow2 (- (4 * e))) (pow2 1024)) as [L|L].
  - assert (RD : real (ddiv v (dpow16 e)) (X * pow2 (- (4 * e)))).
    { apply div_pow; [exact RV|lra|lia| |exact L]. right. apply Rle_trans with (pow2 (-52)); [apply bpow_le; lia|exact HX]. }
    rewrite (dle_ok _ _ _ _ RD (dz_exact 1 ltac:(lia))). change (IZR 1) with 1.
    destruct (Rle_bool_spec X (pow2 (4 * e))) as [H|H]; [apply Rle_bool_true|apply Rle_bool_false]; rewrite <- I;
      [apply Rmult_le_compat_r; lra|apply Rmult_lt_compat_r; lra].
  - rewrite Rle_bool_false.
    2: { apply (Rmult_lt_reg_r (pow2 (- (4 * e)))); [exact G|]. rewrite I. apply Rlt_le_trans with (2 := L). change 1 with (pow2 0). apply bpow_lt. lia. }
    destruct RV as (Fv & EX). destruct (real_dpow2 (4 * e) ltac:(lia)) as (Fp & Ep).
    assert (NZ : B2R (dpow16 e) <> 0). { unfold dpow16. rewrite Ep. lra. }
    pose proof (Bdiv_correct 53 1024 _ _ mode_NE v (dpow16 e) NZ) as C. rewrite !rnd_fexp in C.
    rewrite Rlt_bool_false in C.
    2: { assert (Q : B2R v / B2R (dpow16 e) = X * pow2 (- (4 * e))) by (unfold dpow16; rewrite Ep, EX, bpow_opp; reflexivity). rewrite Q.
         rewrite <- (rnd_exact (pow2 1024)) by (apply generic_format_bpow; unfold FLT_exp; lia).
         apply Rle_trans with (rnd (X * pow2 (- (4 * e)))); [apply rnd_le, L|apply Rle_abs]. }
    rewrite SV in C. unfold dpow16 in C at 2. rewrite dpow2_sign in C by lia. change (ddiv v (dpow16 e)) with (Bdiv mode_NE v (dpow16 e)).
    unfold dle, Bleb. rewrite C. vm_compute. reflexivity.
Qed.

Lemma find_seq v X : real v X -> Bsign v = false -> pow2 (-52) <= X -> forall n k m, (k + n = 128)%nat ->
  (forall i, (-64 <= i < Z.of_nat k - 64)%Z -> pow2 (4 * i) < X) ->
  (k <> 0%nat -> m = ddiv v (dpow16 (Z.of_nat k - 65))) ->
  let '(e, mm) := find_exponent v (map (fun i => Z.of_nat i - 64)%Z (seq k n)) m in
  ((-64 <= e <= 63)%Z /\ X <= pow2 (4 * e) /\ (forall i, (-64 <= i < e)%Z -> pow2 (4 * i) < X) /\ mm = ddiv v (dpow16 e)) \/
  (e = 64%Z /\ (forall i, (-64 <= i <= 63)%Z -> pow2 (4 * i) < X) /\ (mm = ddiv v (dpow16 63))).
Proof.
  intros RV SV HX. induction n as [|n IH]; intros k m K H M.
  - right. cbn [seq map find_exponent]. split; [reflexivity|]. split; [intros i Hi; apply H; lia|].
    rewrite M by lia. do 2 f_equal. lia.
  - cbn [seq map find_exponent]. rewrite (test_exponent v X) by (first [assumption|lia]).
    destruct (Rle_bool_spec X (pow2 (4 * (Z.of_nat k - 64)))) as [Q|Q].
    + left. split; [lia|]. split; [exact Q|]. split; [intros i Hi; apply H; lia|reflexivity].
    + apply (IH (S k)); [lia| |].
      * intros i Hi. destruct (Z.eq_dec i (Z.of_nat k - 64)) as [->|]; [exact Q|apply H; lia].
      * intros _. do 2 f_equal. lia.
Qed.

(** ** The bytes of the fraction *)
Lemma mod_div a b c : (0 < b -> 0 < c -> (a mod (b * c)) / b = (a / b) mod c)%Z.
Proof.
  intros Hb Hc. rewrite Z.rem_mul_r by lia. rewrite Z.add_comm, Z.mul_comm, Z.div_add_l by lia.
  rewrite (Z.div_small (a mod b) b) by (apply Z.mod_pos_bound; lia). lia.
Qed.

Lemma floor_IZR_pow z e : (0 <= e)%Z -> Zfloor (IZR z * pow2 (- e)) = (z / 2 ^ e)%Z.
Proof.
  intros H. rewrite bpow_opp, pow2_IZR by exact H. change (IZR z * / IZR (2 ^ e)) with (IZR z / IZR (2 ^ e)).
  apply Zfloor_div. apply Z.pow_nonzero; lia.
Qed.

Lemma fmod_floor p r n : real p r -> 0 <= r -> (0 < n <= 256)%Z ->
  exists r', real (dfmod p n) r' /\ Ztrunc r' = (Zfloor r mod n)%Z.
Proof.
  intros RP HR Hn. destruct p as [s|s| |s m e Hb].
  - destruct RP as (_ & Q). cbn [B2R] in Q. subst r. exists 0. split; [split; reflexivity|].
    rewrite (Ztrunc_IZR 0), (Zfloor_IZR 0). rewrite Z.mod_0_l by lia. reflexivity.
  - destruct RP as (Q & _). discriminate.
  - destruct RP as (Q & _). discriminate.
  - assert (s = false) as ->.
    { destruct s; [|reflexivity]. destruct RP as (_ & Q). cbn [B2R cond_Zopp] in Q. exfalso.
      assert (F2R (Float radix2 (- Z.pos m) e) < 0) by (apply F2R_lt_0; reflexivity). lra. }
    pose proof RP as RP'. destruct RP as (_ & Q). cbn [B2R cond_Zopp] in Q. unfold F2R in Q. cbn [Fnum Fexp] in Q. cbn [dfmod cond_Zopp].
    pose proof (bpow_gt_0 radix2 e) as G. pose proof (real_lt _ _ RP') as Lt. pose proof (bpow_lt radix2 60 1024 ltac:(lia)) as B60.
    assert (FM : (Z.pos m < 2 ^ 53)%Z /\ (-1074 <= e)%Z).
    { pose proof Hb as Hb'. unfold SpecFloat.bounded, SpecFloat.canonical_mantissa in Hb'. apply andb_true_iff in Hb'. destruct Hb' as (C & _).
      apply Zeq_bool_eq in C. unfold SpecFloat.fexp, SpecFloat.emin in C. split; [|lia].
      pose proof (Digits.Zdigits_correct radix2 (Z.pos m)) as D. rewrite <- Digits.Zpos_digits2_pos in D. 
      assert (Z.pos (Digits.digits2_pos m) <= 53)%Z by (change (SpecFloat.digits2_pos m) with (Digits.digits2_pos m) in C; lia).
      change (Z.abs (Z.pos m)) with (Z.pos m) in D. apply Z.lt_le_trans with (1 := proj2 D). change (2 ^ 53)%Z with (radix2 ^ 53)%Z. apply Z.pow_le_mono_r; [reflexivity|lia]. }
    destruct (Z.leb_spec 0 e) as [He|He].
    + assert (R0 : (0 <= (Z.pos m * 2 ^ e) mod n < n)%Z) by (apply Z.mod_pos_bound; lia).
      assert (A : IZR ((Z.pos m * 2 ^ e) mod n) * pow2 0 = IZR ((Z.pos m * 2 ^ e) mod n)) by (cbn [bpow]; ring).
      exists (IZR ((Z.pos m * 2 ^ e) mod n)). split.
      * rewrite <- A. apply real_normalize; rewrite A; [apply int_format; lia|]. rewrite <- abs_IZR. apply Rle_lt_trans with (pow2 60); [|exact B60].
        rewrite pow2_IZR by lia. apply IZR_le. lia.
      * rewrite Ztrunc_IZR. rewrite <- Q. rewrite pow2_IZR, <- mult_IZR, Zfloor_IZR by lia. reflexivity.
    + set (d := (- e)%Z) in *. assert (Hd : (0 < d)%Z) by (unfold d; lia). assert (Ed : e = (- d)%Z) by (unfold d; lia).
      assert (P : (0 < 2 ^ d)%Z) by (apply Z.pow_pos_nonneg; lia).
      set (z := (Z.pos m mod (n * 2 ^ d))%Z).
      assert (Hz : (0 <= z <= Z.pos m)%Z) by (unfold z; split; [apply Z.mod_pos_bound; nia|apply Z.mod_le; nia]).
      exists (IZR z * pow2 e). 
      assert (NN : 0 <= IZR z * pow2 e) by (apply Rmult_le_pos; [apply IZR_le; lia|lra]). split.
      * apply real_normalize.
        -- apply generic_format_FLT. exists (Float radix2 z e); cbn [Fnum Fexp]; [reflexivity| |].
           ++ change (radix2 ^ 53)%Z with (2 ^ 53)%Z. lia.
           ++ lia.
        -- rewrite Rabs_pos_eq by exact NN. rewrite Rabs_pos_eq in Lt by exact HR. apply Rle_lt_trans with r; [|exact Lt].
           rewrite <- Q. apply Rmult_le_compat_r; [lra|]. apply IZR_le. lia.
      * rewrite Ztrunc_floor by exact NN. rewrite <- Q, Ed, !floor_IZR_pow by lia. unfold z. rewrite Z.mul_comm. apply mod_div; lia.
Qed.

Lemma part_ok x N k : real x (IZR N) -> (0 <= N)%Z -> (k <= 6)%nat ->
  exists p, for_each (upto 0 k) x (fun p _ => Ok (ddiv p (dpow2 8))) = Ok p /\ real p (IZR N * pow2 (- (8 * Z.of_nat k))).
Proof.
  intros RX HN. induction k as [|k IH]; intros K.
  - exists x. split; [reflexivity|]. replace (IZR N * pow2 (- (8 * Z.of_nat 0))) with (IZR N) by (cbn; ring). exact RX.
  - destruct IH as (p & E & RP); [lia|]. replace (S k) with (k + 1)%nat by lia. rewrite upto_snoc, for_each_app, E by lia. cbn [bind for_each].
    eexists. split; [reflexivity|].
    replace (IZR N * pow2 (- (8 * Z.of_nat (k + 1)))) with (IZR N * pow2 (- (8 * Z.of_nat k)) * pow2 (- (8))).
    2: { rewrite Rmult_assoc, <- bpow_plus. do 2 f_equal. lia. }
    pose proof (bpow_gt_0 radix2 (- (8 * Z.of_nat k))) as G. pose proof (bpow_gt_0 radix2 (- (8))) as G8. apply IZR_le in HN. change (IZR 0) with 0 in HN.
    apply div_pow; [exact RP|nra|lia| |].
    + destruct (Z.eq_dec N 0) as [->|]; [left; ring|right]. assert (1 <= IZR N) by (apply (IZR_le 1); apply le_IZR in HN; lia).
      apply Rle_trans with (pow2 (- (8 * Z.of_nat k))); [apply bpow_le; lia|nra].
    + pose proof (real_lt _ _ RX) as L. rewrite Rabs_pos_eq in L by exact HN. apply Rle_lt_trans with (2 := L).
      assert (pow2 (- (8 * Z.of_nat k)) <= 1) by (change 1 with (pow2 0); apply bpow_le; lia).
      assert (pow2 (- (8)) <= 1) by (change 1 with (pow2 0); apply bpow_le; lia).
      assert (IZR N * pow2 (- (8 * Z.of_nat k)) <= IZR N * 1) by (apply Rmult_le_compat_l; lra).
      assert (0 <= IZR N * pow2 (- (8 * Z.of_nat k))) by (apply Rmult_le_pos; lra).
      assert (IZR N * pow2 (- (8 * Z.of_nat k)) * pow2 (- (8)) <= IZR N * pow2 (- (8 * Z.of_nat k)) * 1) by (apply Rmult_le_compat_l; lra). lra.
Qed.

Lemma bytes_ok x N : real x (IZR N) -> (0 <= N)%Z -> forall ks acc, Forall (fun k => (k <= 6)%nat) ks ->
  for_each ks acc (fun byteArray mantissa_ktr =>
    let* part_mantissa := for_each (upto 0 mantissa_ktr) x (fun p _ => Ok (ddiv p (dpow2 8))) in
    let* b := dcast 0 255 (dfmod part_mantissa 256) in
    Ok (byteArray ++ [z2b b])) = Ok (acc ++ map (fun k => z2b (N / 2 ^ (8 * Z.of_nat k))) ks).
Proof.
  intros RX HN. induction ks as [|k ks IH]; intros acc H; [cbn; rewrite app_nil_r; reflexivity|].
  inversion H as [|? ? Hk Hks]; subst. cbn [for_each map]. destruct (part_ok x N k RX HN Hk) as (p & E & RP). rewrite E. cbn [bind].
  pose proof (bpow_gt_0 radix2 (- (8 * Z.of_nat k))) as G. pose proof HN as HN'. apply IZR_le in HN'. change (IZR 0) with 0 in HN'.
  destruct (fmod_floor p _ 256 RP ltac:(nra) ltac:(lia)) as (r' & R' & T). rewrite (dcast_ok 0 255 _ _ R'), T.
  rewrite floor_IZR_pow by lia.
  assert (B := Z.mod_pos_bound (N / 2 ^ (8 * Z.of_nat k)) 256 ltac:(lia)).
  replace ((0 <=? (N / 2 ^ (8 * Z.of_nat k)) mod 256)%Z && ((N / 2 ^ (8 * Z.of_nat k)) mod 256 <=? 255)%Z) with true by lia.
  cbn [bind]. rewrite (IH _ Hks), z2b_mod, <- app_assoc. reflexivity.
Qed.

Lemma big_endian_bytes N n : big_endian (map (fun k => z2b (N / 2 ^ (8 * Z.of_nat k))) (rev (seq 0 n))) = (N mod 2 ^ (8 * Z.of_nat n))%Z.
Proof.
  induction n as [|n IH]; [cbn; rewrite Z.mod_1_r; reflexivity|].
  rewrite seq_S, rev_app_distr. cbn [rev app map big_endian]. rewrite IH, map_length, rev_length, seq_length, b2z_z2b.
  change 256%Z with (2 ^ 8)%Z. rewrite <- Z.pow_mul_r by lia.
  replace (8 * Z.of_nat (S n))%Z with (8 * Z.of_nat n + 8)%Z by lia. rewrite Z.pow_add_r by lia.
  rewrite Z.rem_mul_r; [|apply Z.pow_nonzero; lia|lia]. cbn [Nat.add]. lia.
Qed.

Lemma bytes7 x N b : real x (IZR N) -> (0 <= N)%Z -> exists ds,
  for_each [6; 5; 4; 3; 2; 1; 0]%nat [b] (fun byteArray mantissa_ktr =>
    let* part_mantissa := for_each (upto 0 mantissa_ktr) x (fun p _ => Ok (ddiv p (dpow2 8))) in
    let* b := dcast 0 255 (dfmod part_mantissa 256) in
    Ok (byteArray ++ [z2b b])) = Ok (b :: ds) /\ length ds = 7%nat /\ big_endian ds = (N mod 2 ^ 56)%Z.
Proof.
  intros RX HN. exists (map (fun k => z2b (N / 2 ^ (8 * Z.of_nat k))) [6; 5; 4; 3; 2; 1; 0]%nat). split; [|split; [reflexivity|]].
  - rewrite (bytes_ok x N RX HN); [reflexivity|]. repeat constructor.
  - exact (big_endian_bytes N 7).
Qed.

(** ** A double of at least 2^52 is an integer *)
Lemma large_int r : fmt r -> pow2 52 <= r -> exists N, r = IZR N.
Proof.
  intros F H. assert (P : 0 < r) by (pose proof (bpow_gt_0 radix2 52); lra).
  assert (M : (52 < mag radix2 r)%Z) by (apply mag_gt_bpow; rewrite Rabs_pos_eq; lra).
  unfold generic_format, scaled_mantissa, cexp, FLT_exp, F2R in F. cbn [Fnum Fexp] in F.
  rewrite F. set (c := Z.max (mag radix2 r - 53) (-1074)). assert (0 <= c)%Z by (unfold c; lia).
  rewrite (pow2_IZR c) by assumption. rewrite <- mult_IZR. eexists. reflexivity.
Qed.

(** ** The outcome *)
Lemma negative x : is_finite x = true -> dlt x (dz 0) = Rlt_bool (B2R x) 0.
Proof. intros F. apply (dlt_ok x (dz 0) (B2R x) 0); [split; auto|apply (dz_exact 0); lia]. Qed.

Lemma abs_real x : is_finite x = true -> real (Babs x) (Rabs (B2R x)) /\ Bsign (Babs x) = false.
Proof. intros F. split; [split; [rewrite is_finite_Babs; exact F|apply B2R_Babs]|destruct x; reflexivity]. Qed.

Lemma sign_byte x E : is_finite x = true -> (0 <= E < 128)%Z ->
  exists s, z2b (if dlt x (dz 0) then Z.lor E 128 else E) = z2b (128 * s + E) /\ (s = 0 \/ s = 1)%Z /\ 
    b2z (z2b (128 * s + E)) = (128 * s + E)%Z /\ (s = 1%Z <-> B2R x < 0).
Proof.
  intros F HE. rewrite (negative x F). 
  assert (L : Z.lor E 128 = (E + 128)%Z).
  { symmetry. rewrite Z.add_nocarry_lxor, Z.lxor_lor; [reflexivity| |]; apply Z.bits_inj'; intros k Hk; rewrite Z.land_spec, Z.bits_0;
      change 128%Z with (2 ^ 7)%Z; rewrite Z.pow2_bits_eqb by lia; destruct (Z.eqb_spec 7 k) as [<-|]; rewrite ?andb_false_r; try reflexivity;
      rewrite andb_true_r; destruct (Z.eq_dec E 0) as [->|]; [reflexivity|apply Z.bits_above_log2; [lia|apply Z.log2_lt_pow2; lia]|reflexivity|apply Z.bits_above_log2; [lia|apply Z.log2_lt_pow2; lia]]. }
  destruct (Rlt_bool_spec (B2R x) 0).
  - exists 1%Z. rewrite L. split; [f_equal; lia|]. split; [right; reflexivity|]. split; [apply b2z_z2b_small; lia|]. split; auto.
  - exists 0%Z. split; [f_equal; lia|]. split; [left; reflexivity|]. split; [apply b2z_z2b_small; lia|]. split; [lia|intros; lra].
Qed.

Lemma abs_sign (s : Z) (r : R) : (s = 0 \/ s = 1)%Z -> (s = 1%Z <-> r < 0) -> (if (s =? 0)%Z then 1 else -1) * Rabs r = r.
Proof.
  intros [-> | ->] H; cbn [Z.eqb].
  - rewrite Rabs_pos_eq; [ring|]. destruct (Rlt_or_le r 0) as [Q|Q]; [apply H in Q; discriminate|exact Q].
  - rewrite Rabs_left by (apply H; reflexivity). ring.
Qed.

Lemma denorm_small x : is_finite x = true -> Rabs (B2R x) < pow2 (-52) ->
  exists l, DeNormalize_DOUBLE x = Ok l /\ gdsii_real l 0.
Proof.
  intros F H. destruct (abs_real x F) as (RA & _). destruct (abs_real (Babs x) (proj1 RA)) as (RAA & _).
  unfold DeNormalize_DOUBLE. rewrite (dge_ok _ _ _ _ RAA (real_dpow2 (-52) ltac:(lia))).
  rewrite B2R_Babs, Rabs_Rabsolu, Rle_bool_false by exact H.
  destruct (sign_byte x (0 + 64) F ltac:(lia)) as (s & E & Hs & B & _). rewrite E.
  assert (R0 : real (dmul (dz 0) (dpow2 56)) (IZR 0)).
  { replace (IZR 0) with (0 * pow2 56) by ring. apply dmul_exact; [apply (dz_exact 0); lia|apply real_dpow2; lia| |].
    - rewrite Rmult_0_l. apply generic_format_0.
    - rewrite Rmult_0_l, Rabs_R0. apply bpow_gt_0. }
  destruct (bytes7 _ 0 (z2b (128 * s + (0 + 64))) R0 ltac:(lia)) as (ds & Q & L & BE). rewrite Q.
  eexists. split; [reflexivity|]. exists (z2b (128 * s + (0 + 64))), ds, s, 64%Z. split; [reflexivity|]. split; [exact L|]. split; [exact B|].
  split; [exact Hs|]. split; [lia|]. rewrite BE. change (0 mod 2 ^ 56)%Z with 0%Z. unfold Rdiv. ring.
Qed.

Lemma mantissa_ok v X e : real v X -> (-64 <= e <= 63)%Z -> pow2 (-52) <= X -> X < pow2 1024 -> pow2 (4 * e) < 16 * X -> X * pow2 (- (4 * e)) < pow2 800 ->
  exists N, real (dmul (ddiv v (dpow16 e)) (dpow2 56)) (IZR N) /\ IZR N = X * pow2 (56 - 4 * e) /\ (2 ^ 52 < N)%Z.
Proof.
  intros RV He HX HL HG HU. pose proof (bpow_gt_0 radix2 (-52)) as G0. pose proof (bpow_gt_0 radix2 (- (4 * e))) as G.
  assert (I : pow2 (4 * e) * pow2 (- (4 * e)) = 1) by (rewrite <- bpow_plus; replace (4 * e + - (4 * e))%Z with 0%Z by lia; reflexivity).
  assert (RD : real (ddiv v (dpow16 e)) (X * pow2 (- (4 * e)))).
  { apply div_pow; [exact RV|lra|lia| |apply Rlt_trans with (1 := HU), bpow_lt; lia]. right. apply Rle_trans with (2 := HX), bpow_le. lia. }
  assert (EQ : X * pow2 (- (4 * e)) * pow2 56 = X * pow2 (56 - 4 * e)) by (rewrite Rmult_assoc, <- bpow_plus; do 2 f_equal; lia).
  assert (RM : real (dmul (ddiv v (dpow16 e)) (dpow2 56)) (X * pow2 (56 - 4 * e))).
  { rewrite <- EQ. apply dmul_exact; [exact RD|apply real_dpow2; lia|apply fmt_up; [exact (real_fmt _ _ RD)|lia]|].
    rewrite Rabs_pos_eq by (pose proof (bpow_gt_0 radix2 56); apply Rmult_le_pos; nra). apply Rlt_trans with (pow2 (800 + 56)); [|apply bpow_lt; lia].
    rewrite bpow_plus. apply Rmult_lt_compat_r; [apply bpow_gt_0|exact HU]. }
  assert (GE : pow2 52 < X * pow2 (56 - 4 * e)).
  { rewrite <- EQ. change 56%Z with (52 + 4)%Z. rewrite bpow_plus. replace (pow2 4) with 16 by (rewrite pow2_IZR by lia; reflexivity).
    assert (O : 1 < 16 * X * pow2 (- (4 * e))) by (rewrite <- I; apply Rmult_lt_compat_r; assumption).
    replace (X * pow2 (- (4 * e)) * (pow2 52 * 16)) with (pow2 52 * (16 * X * pow2 (- (4 * e)))) by ring.
    rewrite <- (Rmult_1_r (pow2 52)) at 1. apply Rmult_lt_compat_l; [apply bpow_gt_0|exact O]. }
  destruct (large_int _ (real_fmt _ _ RM) (Rlt_le _ _ GE)) as (N & EN). exists N. rewrite <- EN. split; [exact RM|]. split; [reflexivity|].
  apply lt_IZR. rewrite <- pow2_IZR by lia. rewrite <- EN. exact GE.
Qed.

(** The three cases of a finite double of at least 2^-52. *)
Lemma denorm_cases x : is_finite x = true -> pow2 (-52) <= Rabs (B2R x) ->
  exists l, DeNormalize_DOUBLE x = Ok l /\
    ((Rabs (B2R x) < pow2 252 /\ (forall k, Rabs (B2R x) <> pow2 (4 * k)) -> gdsii_real l (B2R x)) /\
     (forall k, Rabs (B2R x) = pow2 (4 * k) -> (k <= 63)%Z -> gdsii_real l 0) /\
     (pow2 252 < Rabs (B2R x) -> exists r, gdsii_real l r /\ - pow2 (-256) < r <= 0)).
Proof.
  intros F H. destruct (abs_real x F) as (RA & SA). destruct (abs_real (Babs x) (proj1 RA)) as (RAA & _).
  unfold DeNormalize_DOUBLE. rewrite (dge_ok _ _ _ _ RAA (real_dpow2 (-52) ltac:(lia))).
  rewrite B2R_Babs, Rabs_Rabsolu, Rle_bool_true by exact H.
  pose proof (find_seq (Babs x) (Rabs (B2R x)) RA SA H 128 0 (dz 0) eq_refl ltac:(lia) ltac:(lia)) as FS.
  destruct (find_exponent (Babs x) (map (fun i => (Z.of_nat i - 64)%Z) (seq 0 128)) (dz 0)) as [e mm].
  pose proof (real_lt _ _ RA) as LT. rewrite Rabs_Rabsolu in LT. set (X := Rabs (B2R x)) in *.
  destruct FS as [(He & HX & HP & ->)|(-> & HP & ->)].
  - (* an exponent is found *)
    assert (e <> -64)%Z.
    { intros ->. pose proof (bpow_lt radix2 (4 * -64) (-52) ltac:(lia)). lra. }
    assert (P := HP (e - 1)%Z ltac:(lia)).
    assert (P16 : pow2 (4 * e) < 16 * X).
    { replace (4 * e)%Z with (4 * (e - 1) + 4)%Z by lia. rewrite bpow_plus. replace (pow2 4) with 16 by (rewrite pow2_IZR by lia; reflexivity). lra. }
    assert (I : pow2 (4 * e) * pow2 (- (4 * e)) = 1) by (rewrite <- bpow_plus; replace (4 * e + - (4 * e))%Z with 0%Z by lia; reflexivity).
    pose proof (bpow_gt_0 radix2 (- (4 * e))) as G.
    assert (U : X * pow2 (- (4 * e)) < pow2 800).
    { apply Rle_lt_trans with (pow2 (4 * e) * pow2 (- (4 * e))); [apply Rmult_le_compat_r; lra|]. rewrite I. change 1 with (pow2 0). apply bpow_lt. lia. }
    destruct (mantissa_ok (Babs x) X e RA He H LT P16 U) as (N & RN & EN & NL).
    destruct (sign_byte x (e + 64) F ltac:(lia)) as (s & E & Hs & B & Hn). rewrite E.
    destruct (bytes7 _ N (z2b (128 * s + (e + 64))) RN ltac:(lia)) as (ds & Q & L & BE). rewrite Q. eexists. split; [reflexivity|].
    assert (GR : gdsii_real (z2b (128 * s + (e + 64)) :: ds) ((if (s =? 0)%Z then 1 else -1) * (IZR (N mod 2 ^ 56) / IZR (2 ^ 56)) * pow2 (4 * e))).
    { exists (z2b (128 * s + (e + 64))), ds, s, (e + 64)%Z. split; [reflexivity|]. split; [exact L|]. split; [exact B|]. split; [exact Hs|].
      split; [lia|]. rewrite BE, pow16. do 2 f_equal. lia. }
    assert (NB : IZR N = X * pow2 (- (4 * e)) * IZR (2 ^ 56)).
    { rewrite EN, <- pow2_IZR by lia. rewrite Rmult_assoc, <- bpow_plus. do 2 f_equal. lia. }
    assert (P56 : 0 < IZR (2 ^ 56)) by (apply (IZR_lt 0); reflexivity).
    split; [|split].
    + intros (_ & NE). assert (X < pow2 (4 * e)) by (specialize (NE e); lra).
      assert (N < 2 ^ 56)%Z.
      { apply lt_IZR. rewrite NB. rewrite <- (Rmult_1_l (IZR (2 ^ 56))) at 2. apply Rmult_lt_compat_r; [exact P56|]. rewrite <- I. apply Rmult_lt_compat_r; assumption. }
      rewrite Z.mod_small in GR by lia. replace (B2R x) with ((if (s =? 0)%Z then 1 else -1) * (IZR N / IZR (2 ^ 56)) * pow2 (4 * e)); [exact GR|].
      rewrite NB, <- (abs_sign s (B2R x) Hs Hn). fold X. replace (X * pow2 (- (4 * e)) * IZR (2 ^ 56) / IZR (2 ^ 56)) with (X * pow2 (- (4 * e))) by (field; lra).
      rewrite !Rmult_assoc, (Rmult_comm (pow2 (- (4 * e)))), I. ring.
    + intros k EX Hk. rewrite EX in *.
      assert (k = e). { apply (lt_bpow radix2) in P. apply (le_bpow radix2) in HX. lia. } subst k.
      assert (N = 2 ^ 56)%Z as ->. { apply eq_IZR. rewrite NB, I. ring. }
      rewrite Z.mod_same in GR by lia. replace 0 with ((if (s =? 0)%Z then 1 else -1) * (IZR 0 / IZR (2 ^ 56)) * pow2 (4 * e)); [exact GR|]. unfold Rdiv. ring.
    + intros Q0. exfalso. pose proof (bpow_le radix2 (4 * e) 252 ltac:(lia)). lra.
  - (* too large *)
    assert (P63 := HP 63%Z ltac:(lia)). change (4 * 63)%Z with 252%Z in P63.
    assert (U : X * pow2 (- (4 * 63)) < pow2 800).
    { apply Rlt_le_trans with (pow2 1024 * pow2 (- (4 * 63))); [apply Rmult_lt_compat_r; [apply bpow_gt_0|exact LT]|]. rewrite <- bpow_plus. apply bpow_le. lia. }
    destruct (mantissa_ok (Babs x) X 63 RA ltac:(lia) H LT ltac:(change (4 * 63)%Z with 252%Z; pose proof (bpow_gt_0 radix2 252); lra) U) as (N & RN & EN & NL).
    assert (E : z2b (if dlt x (dz 0) then Z.lor (64 + 64) 128 else (64 + 64)%Z) = z2b 128) by (destruct (dlt x (dz 0)); reflexivity). rewrite E.
    destruct (bytes7 _ N (z2b 128) RN ltac:(lia)) as (ds & Q & L & BE). rewrite Q. eexists. split; [reflexivity|].
    split; [intros (Q0 & _); lra|]. split; [intros k EX Hk; pose proof (bpow_le radix2 (4 * k) 252 ltac:(lia)); lra|].
    intros _. exists (-1 * (IZR (N mod 2 ^ 56) / IZR (2 ^ 56)) * pow2 (-256)). split.
    + exists (z2b 128), ds, 1%Z, 0%Z. split; [reflexivity|]. split; [exact L|]. split; [reflexivity|]. split; [right; reflexivity|]. split; [lia|].
      rewrite BE, pow16. reflexivity.
    + pose proof (Z.mod_pos_bound N (2 ^ 56) ltac:(lia)) as (M1 & M2). apply IZR_le in M1. apply IZR_lt in M2. change (IZR 0) with 0 in M1.
      pose proof (bpow_gt_0 radix2 (-256)) as G.
      assert (0 <= IZR (N mod 2 ^ 56) / IZR (2 ^ 56) < 1).
      { split; [apply Rmult_le_pos; [exact M1|apply Rlt_le, Rinv_0_lt_compat; lra]|]. apply (Rmult_lt_reg_r (IZR (2 ^ 56))); [lra|].
        unfold Rdiv. rewrite Rmult_assoc, Rinv_l by lra. lra. }
      split; nra.
Qed.

Lemma denorm_special : (forall s, DeNormalize_DOUBLE (B754_infinity s) = UB BadCast) /\
  exists l, DeNormalize_DOUBLE B754_nan = Ok l /\ gdsii_real l 0.
Proof.
  split; [intros []; vm_compute; reflexivity|].
  exists [z2b 64; x00; x00; x00; x00; x00; x00; x00]. split; [vm_compute; reflexivity|].
  exists (z2b 64), [x00; x00; x00; x00; x00; x00; x00], 0%Z, 64%Z. split; [reflexivity|]. split; [reflexivity|]. split; [reflexivity|].
  split; [left; reflexivity|]. split; [lia|]. change (big_endian _) with 0%Z. unfold Rdiv. ring.
Qed.
