(** GDSII reals: reading. *)
From Coq Require Import Reals Lra.
From Flocq Require Import Core IEEE754.BinarySingleNaN.
From Flocq Require Import Mult_error.
From Verif Require Import Prelude P_Prelude M_Double S_Double P_Double M_GdsiiHelpers S_Gdsii.
Local Open Scope R_scope.

Notation fmt := (generic_format radix2 (FLT_exp (-1074) 53)).
Notation pow2 := (bpow radix2).

(** ** Exact operations *)
Lemma dmul_exact x y a b : real x a -> real y b -> fmt (a * b) -> Rabs (a * b) < pow2 1024 -> real (dmul x y) (a * b).
Proof.
  intros (Fx & <-) (Fy & <-) F H. pose proof (Bmult_correct 53 1024 _ _ mode_NE x y) as C.
  rewrite !rnd_fexp, (rnd_exact _ F) in C. rewrite Rlt_bool_true in C by assumption.
  destruct C as (C1 & C2 & _). split; [|assumption]. unfold dmul. rewrite C2, Fx, Fy. reflexivity.
Qed.
Lemma ddiv_exact x y a b : real x a -> real y b -> b <> 0 -> fmt (a / b) -> Rabs (a / b) < pow2 1024 -> real (ddiv x y) (a / b).
Proof.
  intros (Fx & <-) (Fy & <-) N F H. pose proof (Bdiv_correct 53 1024 _ _ mode_NE x y N) as C.
  rewrite !rnd_fexp, (rnd_exact _ F) in C. rewrite Rlt_bool_true in C by assumption.
  destruct C as (C1 & C2 & _). split; [|assumption]. unfold ddiv. now rewrite C2.
Qed.
Lemma real_normalize z e s : fmt (IZR z * pow2 e) -> Rabs (IZR z * pow2 e) < pow2 1024 ->
  real (binary_normalize 53 1024 _ _ mode_NE z e s) (IZR z * pow2 e).
Proof.
  intros F H. pose proof (binary_normalize_correct 53 1024 _ _ mode_NE z e s) as C. cbv zeta in C. rewrite !rnd_fexp in C.
  change (F2R (Float radix2 z e)) with (IZR z * pow2 e) in C. rewrite (rnd_exact _ F), Rlt_bool_true in C by assumption.
  destruct C as (C1 & C2 & _). split; assumption.
Qed.
Lemma real_dpow2 n : (-1074 <= n < 1024)%Z -> real (dpow2 n) (pow2 n).
Proof.
  intros H. replace (pow2 n) with (IZR 1 * pow2 n) by ring. apply real_normalize.
  - rewrite Rmult_1_l. apply generic_format_bpow. unfold FLT_exp. lia.
  - rewrite Rmult_1_l, Rabs_pos_eq by apply bpow_ge_0. apply bpow_lt. lia.
Qed.
Lemma real_fmt x r : real x r -> fmt r.
Proof. intros (_ & <-). apply B2R_format. Qed.
Lemma real_lt x r : real x r -> Rabs r < pow2 1024.
Proof. intros (_ & <-). apply abs_B2R_lt_emax. Qed.

(** ** Scaling *)
Lemma fmt_scale x k : fmt x -> pow2 (-1022) <= Rabs (x * pow2 k) -> fmt (x * pow2 k).
Proof.
  intros F H. destruct (Req_dec x 0) as [->|N]. { rewrite Rmult_0_l. apply generic_format_0. }
  apply mult_bpow_exact_FLT; [exact F|]. 
  assert (M : (-1022 < mag radix2 (x * pow2 k))%Z).
  { apply mag_gt_bpow. exact H. }
  rewrite mag_mult_bpow in M by exact N. lia.
Qed.
Lemma fmt_up x k : fmt x -> (0 <= k)%Z -> fmt (x * pow2 k).
Proof. intros F H. apply mult_bpow_pos_exact_FLT; assumption. Qed.
Lemma rnd_scale x k : x = 0 \/ (pow2 (-1022) <= Rabs x /\ pow2 (-1022) <= Rabs (x * pow2 k)) -> rnd (x * pow2 k) = rnd x * pow2 k.
Proof.
  intros [->|(H1 & H2)]. { rewrite Rmult_0_l, rnd_0, Rmult_0_l. reflexivity. }
  assert (N : x <> 0). { intros ->. rewrite Rabs_R0 in H1. pose proof (bpow_gt_0 radix2 (-1022)). lra. }
  unfold rnd. rewrite (round_FLT_FLX radix2 (-1074) 53 ZnearestE (x * pow2 k)), (round_FLT_FLX radix2 (-1074) 53 ZnearestE x) by exact H1 || exact H2.
  unfold round, scaled_mantissa, cexp. rewrite mag_mult_bpow by exact N. unfold FLX_exp, F2R. cbn [Fnum Fexp].
  replace (x * pow2 k * pow2 (- (mag radix2 x + k - 53))) with (x * pow2 (- (mag radix2 x - 53))).
  - rewrite Rmult_assoc, <- bpow_plus. do 2 f_equal. lia.
  - rewrite Rmult_assoc, <- bpow_plus. do 2 f_equal. lia.
Qed.

(** ** The fraction *)
Lemma big_endian_app l l' : big_endian (l ++ l') = (big_endian l * 256 ^ Z.of_nat (length l') + big_endian l')%Z.
Proof.
  induction l as [|b l IH]; [cbn; lia|]. cbn [app big_endian]. rewrite IH, app_length, Nat2Z.inj_add, Z.pow_add_r by lia. lia.
Qed.
Lemma big_endian_range l : (0 <= big_endian l < 256 ^ Z.of_nat (length l))%Z.
Proof.
  induction l as [|b l IH]; [cbn; lia|]. cbn [big_endian length]. rewrite Nat2Z.inj_succ, Z.pow_succ_r by lia.
  pose proof (b2z_range b). nia.
Qed.
Lemma pow2_IZR k : (0 <= k)%Z -> pow2 k = IZR (2 ^ k).
Proof. intros H. rewrite <- IZR_Zpower by exact H. reflexivity. Qed.

Lemma step_exact m v b : real m (IZR v) -> (0 <= v < 2 ^ 40)%Z -> real (dadd (dmul m (dz 256)) (dz (b2z b))) (IZR (v * 256 + b2z b)).
Proof.
  intros H R. pose proof (b2z_range b) as B.
  assert (M : real (dmul m (dz 256)) (IZR (v * 256))).
  { rewrite mult_IZR. apply dmul_exact; [exact H|apply dz_exact; lia| |].
    - rewrite <- mult_IZR. apply int_format. lia.
    - rewrite <- mult_IZR, <- abs_IZR, bpow_1024. apply IZR_lt. apply Z.lt_trans with (2 ^ 64)%Z; [lia|reflexivity]. }
  rewrite plus_IZR. destruct (dadd_ok _ _ _ _ M (dz_exact (b2z b) ltac:(lia))) as (F & E).
  - rewrite <- plus_IZR, <- abs_IZR. apply IZR_le. lia.
  - split; [exact F|]. rewrite E. apply rnd_exact. rewrite <- plus_IZR. apply int_format. lia.
Qed.
Lemma step_last m v b : real m (IZR v) -> (0 <= v < 2 ^ 48)%Z -> nearest (dadd (dmul m (dz 256)) (dz (b2z b))) (IZR (v * 256 + b2z b)).
Proof.
  intros H R. pose proof (b2z_range b) as B.
  assert (M : real (dmul m (dz 256)) (IZR (v * 256))).
  { rewrite mult_IZR. apply dmul_exact; [exact H|apply dz_exact; lia| |].
    - change 256%Z with (2 ^ 8)%Z. rewrite <- pow2_IZR by lia. apply fmt_up; [|lia]. apply int_format. lia.
    - rewrite <- mult_IZR, <- abs_IZR, bpow_1024. apply IZR_lt. apply Z.lt_trans with (2 ^ 64)%Z; [lia|reflexivity]. }
  rewrite plus_IZR. apply (dadd_ok _ _ _ _ M (dz_exact (b2z b) ltac:(lia))).
  rewrite <- plus_IZR, <- abs_IZR. apply IZR_le. lia.
Qed.

Lemma big7 b1 b2 b3 b4 b5 b6 b7 : big_endian [b1; b2; b3; b4; b5; b6; b7] =
  ((((((b2z b1 * 256 + b2z b2) * 256 + b2z b3) * 256 + b2z b4) * 256 + b2z b5) * 256 + b2z b6) * 256 + b2z b7)%Z.
Proof.
  cbn [big_endian length]. change (256 ^ Z.of_nat 6)%Z with (2 ^ 48)%Z. change (256 ^ Z.of_nat 5)%Z with (2 ^ 40)%Z. change (256 ^ Z.of_nat 4)%Z with (2 ^ 32)%Z.
  change (256 ^ Z.of_nat 3)%Z with (2 ^ 24)%Z. change (256 ^ Z.of_nat 2)%Z with (2 ^ 16)%Z. change (256 ^ Z.of_nat 1)%Z with 256%Z. change (256 ^ Z.of_nat 0)%Z with 1%Z. lia.
Qed.

Lemma fraction b0 b1 b2 b3 b4 b5 b6 b7 : exists m,
  for_each (upto 1 8) (dz 0) (fun m i => let* b := at_ [b0; b1; b2; b3; b4; b5; b6; b7] i in Ok (dadd (dmul m (dz 256)) (dz (b2z b)))) = Ok m /\
  nearest m (IZR (big_endian [b1; b2; b3; b4; b5; b6; b7])).
Proof.
  pose proof (dz_exact 0 ltac:(lia)) as R0.
  pose proof (b2z_range b1). pose proof (b2z_range b2). pose proof (b2z_range b3). pose proof (b2z_range b4).
  pose proof (b2z_range b5). pose proof (b2z_range b6). pose proof (b2z_range b7).
  assert (R1 := step_exact _ _ b1 R0 ltac:(lia)). assert (R2 := step_exact _ _ b2 R1 ltac:(lia)).
  assert (R3 := step_exact _ _ b3 R2 ltac:(lia)). assert (R4 := step_exact _ _ b4 R3 ltac:(lia)).
  assert (R5 := step_exact _ _ b5 R4 ltac:(lia)). assert (R6 := step_exact _ _ b6 R5 ltac:(lia)).
  assert (R7 := step_last _ _ b7 R6 ltac:(lia)).
  eexists. split; [reflexivity|]. rewrite big7. replace (0 * 256 + b2z b1)%Z with (b2z b1) in R7 by lia. exact R7.
Qed.

Lemma rnd_int_ge1 z : (1 <= z)%Z -> 1 <= rnd (IZR z).
Proof. intros H. rewrite <- (rnd_exact 1). - apply rnd_le. apply IZR_le. lia. - apply (int_format 1). lia. Qed.

Lemma head_bits b : exists s e, b2z b = (128 * s + e)%Z /\ (s = 0 \/ s = 1)%Z /\ (0 <= e < 128)%Z /\
  (Z.land (b2z b) 128 =? 0)%Z = (s =? 0)%Z /\ Z.land (b2z b) 127 = e.
Proof.
  exists (b2z b / 128)%Z, (b2z b mod 128)%Z. pose proof (b2z_range b).
  split; [apply Z.div_mod; lia|]. split; [assert (b2z b / 128 < 2)%Z by (apply Z.div_lt_upper_bound; lia); assert (0 <= b2z b / 128)%Z by (apply Z.div_pos; lia); lia|].
  split; [apply Z.mod_pos_bound; lia|].
  assert (Q := sweep (fun b => Bool.eqb (Z.land (b2z b) 128 =? 0)%Z (b2z b / 128 =? 0)%Z && (Z.land (b2z b) 127 =? b2z b mod 128)%Z) eq_refl b).
  cbv beta in Q. apply andb_true_iff in Q. destruct Q as (Q1 & Q2). split; [apply eqb_prop, Q1|apply Z.eqb_eq, Q2].
Qed.

Lemma pow16 n : powerRZ 16 n = pow2 (4 * n).
Proof.
  change 16 with (IZR (2 ^ 4)). rewrite <- (pow2_IZR 4) by lia.
  destruct n as [|p|p].
  - reflexivity.
  - cbn [powerRZ]. induction p as [|p IH] using Pos.peano_ind.
    + change (Pos.to_nat 1) with 1%nat. cbn [pow]. rewrite Rmult_1_r. reflexivity.
    + rewrite Pos2Nat.inj_succ. cbn [pow]. rewrite IH, <- bpow_plus. f_equal. lia.
  - cbn [powerRZ]. replace (4 * Z.neg p)%Z with (- (4 * Z.pos p))%Z by lia. rewrite bpow_opp. f_equal.
    induction p as [|p IH] using Pos.peano_ind.
    + change (Pos.to_nat 1) with 1%nat. cbn [pow]. rewrite Rmult_1_r. reflexivity.
    + rewrite Pos2Nat.inj_succ. cbn [pow]. rewrite IH, <- bpow_plus. f_equal. lia.
Qed.

Lemma eight (l : list byte) : length l = 8%nat -> exists b0 b1 b2 b3 b4 b5 b6 b7, l = [b0; b1; b2; b3; b4; b5; b6; b7].
Proof.
  intros L. do 8 (destruct l as [|? l]; [discriminate|]). destruct l; [|discriminate]. repeat eexists.
Qed.

Lemma normalize_double l r : gdsii_real l r -> exists x, Normalize_DOUBLE l = Ok x /\ nearest x r.
Proof.
  intros (b0 & ds & s & e & -> & L & B & Hs & He & ->).
  do 7 (destruct ds as [|? ds]; [discriminate|]). destruct ds; [|discriminate].
  destruct (head_bits b0) as (s' & e' & B' & Hs' & He' & Q1 & Q2).
  assert (s' = s /\ e' = e) as (-> & ->) by lia.
  unfold Normalize_DOUBLE. cbn [at_ nth_error bind].
  destruct (fraction b0 b b1 b2 b3 b4 b5 b6) as (m & E & N). rewrite E. cbn [bind]. rewrite Q1, Q2.
  eexists. split; [reflexivity|]. set (V := big_endian [b; b1; b2; b3; b4; b5; b6]) in *.
  assert (R : (0 <= V < 2 ^ 56)%Z) by (pose proof (big_endian_range [b; b1; b2; b3; b4; b5; b6]) as R; exact R).
  rewrite pow16. rewrite <- (pow2_IZR 56) by lia.
  set (k := (4 * (e - 64))%Z). assert (Hk : (-256 <= k <= 252)%Z) by (unfold k; lia).
  (* the rounded fraction *)
  assert (Z0 : V = 0%Z \/ (1 <= V)%Z) by lia.
  assert (RV : rnd (IZR V) = 0 /\ V = 0%Z \/ 1 <= rnd (IZR V) <= pow2 56 /\ (1 <= V)%Z).
  { destruct Z0 as [Z0|Z0]; [left; split; [rewrite Z0; apply rnd_0|exact Z0]|right]. split; [|exact Z0]. split; [apply rnd_int_ge1, Z0|].
    rewrite <- (rnd_exact (pow2 56)) by (apply generic_format_bpow; unfold FLT_exp; lia). apply rnd_le. rewrite pow2_IZR by lia. apply IZR_le. lia. }
  assert (SC : forall j, (-400 <= j <= 300)%Z -> fmt (rnd (IZR V) * pow2 j) /\ Rabs (rnd (IZR V) * pow2 j) < pow2 1024).
  { intros j Hj. assert (FV : fmt (rnd (IZR V))) by apply (real_fmt _ _ (nearest_real _ _ N)). pose proof (bpow_gt_0 radix2 j) as P. destruct RV as [(RV & _)|(RV & _)].
    - rewrite RV, Rmult_0_l, Rabs_R0. split; [apply generic_format_0|apply bpow_gt_0].
    - assert (A : Rabs (rnd (IZR V) * pow2 j) = rnd (IZR V) * pow2 j) by (apply Rabs_pos_eq; nra). split.
      + apply fmt_scale; [exact FV|]. rewrite A. apply Rle_trans with (pow2 j); [apply bpow_le; lia|]. nra.
      + rewrite A. apply Rle_lt_trans with (pow2 56 * pow2 j); [nra|]. rewrite <- bpow_plus. apply bpow_lt. lia. }
  assert (M1 : real (ddiv m (dpow2 (7 * 8))) (rnd (IZR V) * pow2 (-56))).
  { replace (rnd (IZR V) * pow2 (-56)) with (rnd (IZR V) / pow2 56) by (change (-56)%Z with (- (56))%Z; rewrite bpow_opp; reflexivity).
    pose proof (SC (-56)%Z ltac:(lia)) as (F & Lt). replace (rnd (IZR V) * pow2 (-56)) with (rnd (IZR V) / pow2 56) in F, Lt by (change (-56)%Z with (- (56))%Z; rewrite bpow_opp; reflexivity).
    apply ddiv_exact; [exact (nearest_real _ _ N)|apply (real_dpow2 (7 * 8)); lia| |exact F|exact Lt]. pose proof (bpow_gt_0 radix2 56). lra. }
  assert (M2 : real (dmul (ddiv m (dpow2 (7 * 8))) (dpow16 (e - 64))) (rnd (IZR V) * pow2 (k - 56))).
  { replace (rnd (IZR V) * pow2 (k - 56)) with (rnd (IZR V) * pow2 (-56) * pow2 k) by (rewrite Rmult_assoc, <- bpow_plus; do 2 f_equal; lia).
    pose proof (SC (k - 56)%Z ltac:(lia)) as (F & Lt). replace (rnd (IZR V) * pow2 (k - 56)) with (rnd (IZR V) * pow2 (-56) * pow2 k) in F, Lt by (rewrite Rmult_assoc, <- bpow_plus; do 2 f_equal; lia).
    apply dmul_exact; [exact M1|apply real_dpow2; lia|exact F|exact Lt]. }
  assert (RS : rnd (IZR V * pow2 (k - 56)) = rnd (IZR V) * pow2 (k - 56)).
  { apply rnd_scale. destruct Z0 as [Z0|Z0]; [left; rewrite Z0; reflexivity|right]. apply IZR_le in Z0. change (IZR 1) with 1 in Z0.
    pose proof (bpow_gt_0 radix2 (k - 56)) as P. rewrite !Rabs_pos_eq by nra. split.
    - apply Rle_trans with (pow2 0); [apply bpow_le; lia|exact Z0].
    - apply Rle_trans with (pow2 (k - 56)); [apply bpow_le; lia|]. nra. }
  assert (EQ : IZR V / pow2 56 * pow2 k = IZR V * pow2 (k - 56)).
  { unfold Rdiv. rewrite Rmult_assoc, <- bpow_opp, <- bpow_plus. do 2 f_equal. lia. }
  destruct (SC (k - 56)%Z ltac:(lia)) as (F & Lt).
  destruct Hs as [-> | ->]; cbn [Z.eqb].
  - rewrite Rmult_1_l, EQ. destruct M2 as (X & Y). split; [exact X|]. rewrite Y, RS. reflexivity.
  - assert (M3 : real (dmul (dmul (ddiv m (dpow2 (7 * 8))) (dpow16 (e - 64))) (dz (-1))) (rnd (IZR V) * pow2 (k - 56) * IZR (-1))).
    { apply dmul_exact; [exact M2|apply dz_exact; lia| |].
      - replace (rnd (IZR V) * pow2 (k - 56) * IZR (-1)) with (- (rnd (IZR V) * pow2 (k - 56))) by (change (IZR (-1)) with (-1); ring). apply generic_format_opp, F.
      - replace (rnd (IZR V) * pow2 (k - 56) * IZR (-1)) with (- (rnd (IZR V) * pow2 (k - 56))) by (change (IZR (-1)) with (-1); ring). rewrite Rabs_Ropp. exact Lt. }
    destruct M3 as (X & Y). split; [exact X|]. rewrite Y.
    replace (-1 * (IZR V / pow2 56) * pow2 k) with (- (IZR V * pow2 (k - 56))) by (rewrite <- EQ; ring).
    replace (rnd (- (IZR V * pow2 (k - 56)))) with (- rnd (IZR V * pow2 (k - 56))).
    + rewrite RS. change (IZR (-1)) with (-1). ring.
    + symmetry. apply round_NE_opp.
Qed.

Lemma gdsii_exists l : length l = 8%nat -> exists r, gdsii_real l r.
Proof.
  intros L. destruct l as [|b ds]; [discriminate|]. destruct (head_bits b) as (s & e & B & Hs & He & _).
  eexists. exists b, ds, s, e. split; [reflexivity|]. split; [cbn in L; lia|]. split; [exact B|]. split; [exact Hs|]. split; [exact He|reflexivity].
Qed.
