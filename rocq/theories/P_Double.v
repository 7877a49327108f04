(** Lemmas about doubles. *)
From Coq Require Import Reals Lra.
From Flocq Require Import Core IEEE754.BinarySingleNaN.
From Verif Require Import Prelude M_Double S_Double.
Local Open Scope R_scope.

#[export] Instance flt_valid : Valid_exp (FLT_exp (-1074) 53) := FLT_exp_valid (-1074) 53.

Lemma rnd_fexp r : round radix2 (SpecFloat.fexp 53 1024) (round_mode mode_NE) r = rnd r.
Proof. reflexivity. Qed.

Lemma rnd_le a b : a <= b -> rnd a <= rnd b.
Proof. intros H. apply round_le; auto with typeclass_instances. Qed.

Lemma rnd_0 : rnd 0 = 0.
Proof. apply round_0; auto with typeclass_instances. Qed.

Lemma rnd_exact r : generic_format radix2 (FLT_exp (-1074) 53) r -> rnd r = r.
Proof. intros H. apply round_generic; auto with typeclass_instances. Qed.

Lemma B2R_format (x : double) : generic_format radix2 (FLT_exp (-1074) 53) (B2R x).
Proof. apply (generic_format_B2R 53 1024). Qed.

Lemma rnd_B2R (x : double) : rnd (B2R x) = B2R x.
Proof. apply rnd_exact, B2R_format. Qed.

Lemma int_format z : (Z.abs z <= 2 ^ 53)%Z -> generic_format radix2 (FLT_exp (-1074) 53) (IZR z).
Proof.
  intros H. apply generic_format_FLT.
  destruct (Z.eq_dec (Z.abs z) (2 ^ 53)) as [E|N].
  - exists (Float radix2 (Z.sgn z * 2 ^ 52) 1); cbn [Fnum Fexp].
    + unfold F2R. cbn [Fnum Fexp bpow radix_val radix2]. rewrite <- mult_IZR. f_equal.
      change (Z.pow_pos 2 1) with 2%Z. destruct z; cbn [Z.abs Z.sgn] in *; lia.
    + destruct z; vm_compute; reflexivity || discriminate.
    + lia.
  - exists (Float radix2 z 0); cbn [Fnum Fexp].
    + unfold F2R. cbn [Fnum Fexp bpow]. ring.
    + change (radix2 ^ 53)%Z with (2 ^ 53)%Z. lia.
    + lia.
Qed.

Lemma bpow_1024 : bpow radix2 1024 = IZR (2 ^ 1024).
Proof. rewrite <- IZR_Zpower by lia. reflexivity. Qed.

Lemma small_lt r : Rabs r <= IZR (2 ^ 64) -> Rabs (rnd r) < bpow radix2 1024.
Proof.
  intros H. apply Rle_lt_trans with (IZR (2 ^ 64)).
  - apply abs_round_le_generic; auto with typeclass_instances.
    change (IZR (2 ^ 64)) with (bpow radix2 64) at 1.
    + replace (IZR (2 ^ 64)) with (bpow radix2 64); [apply generic_format_bpow; unfold FLT_exp; lia|].
      rewrite <- IZR_Zpower by lia. reflexivity.
  - rewrite bpow_1024. apply IZR_lt. now apply Z.pow_lt_mono_r.
Qed.

(** Conversion of any 64-bit (signed or unsigned) integer. *)
Lemma dz_ok z : (Z.abs z <= 2 ^ 64)%Z -> nearest (dz z) (IZR z).
Proof.
  intros H. pose proof (binary_normalize_correct 53 1024 _ _ mode_NE z 0 false) as C.
  cbv zeta in C. rewrite !rnd_fexp in C.
  replace (F2R (Float radix2 z 0)) with (IZR z) in C by (unfold F2R; cbn [Fnum Fexp bpow]; ring).
  rewrite Rlt_bool_true in C.
  - destruct C as (C1 & C2 & _). split; [exact C2|exact C1].
  - apply small_lt. rewrite <- abs_IZR. apply IZR_le. exact H.
Qed.

Lemma dz_exact z : (Z.abs z <= 2 ^ 53)%Z -> real (dz z) (IZR z).
Proof.
  intros H. destruct (dz_ok z) as (F & E); [lia|]. split; [exact F|]. rewrite E. apply rnd_exact.
  now apply int_format.
Qed.

Lemma dadd_ok x y a b : real x a -> real y b -> Rabs (a + b) <= IZR (2 ^ 64) ->
  nearest (dadd x y) (a + b).
Proof.
  intros (Fx & <-) (Fy & <-) H. pose proof (Bplus_correct 53 1024 _ _ mode_NE x y Fx Fy) as C.
  rewrite !rnd_fexp in C. rewrite Rlt_bool_true in C by now apply small_lt.
  destruct C as (C1 & C2 & _). split; assumption.
Qed.

Lemma dsub_ok x y a b : real x a -> real y b -> Rabs (a - b) <= IZR (2 ^ 64) ->
  nearest (dsub x y) (a - b).
Proof.
  intros (Fx & <-) (Fy & <-) H. pose proof (Bminus_correct 53 1024 _ _ mode_NE x y Fx Fy) as C.
  rewrite !rnd_fexp in C. rewrite Rlt_bool_true in C by now apply small_lt.
  destruct C as (C1 & C2 & _). split; assumption.
Qed.

Lemma dmul_ok x y a b : real x a -> real y b -> Rabs (a * b) <= IZR (2 ^ 64) ->
  nearest (dmul x y) (a * b).
Proof.
  intros (Fx & <-) (Fy & <-) H. pose proof (Bmult_correct 53 1024 _ _ mode_NE x y) as C.
  rewrite !rnd_fexp in C. rewrite Rlt_bool_true in C by now apply small_lt.
  destruct C as (C1 & C2 & _). split; [|assumption].
  unfold dmul. rewrite C2, Fx, Fy. reflexivity.
Qed.

Lemma ddiv_ok x y a b : real x a -> real y b -> b <> 0 -> Rabs (a / b) <= IZR (2 ^ 64) ->
  nearest (ddiv x y) (a / b).
Proof.
  intros (Fx & <-) (Fy & <-) N H. pose proof (Bdiv_correct 53 1024 _ _ mode_NE x y N) as C.
  rewrite !rnd_fexp in C. rewrite Rlt_bool_true in C by now apply small_lt.
  destruct C as (C1 & C2 & _). split; [|assumption]. unfold ddiv. now rewrite C2.
Qed.

Lemma nearest_real x r : nearest x r -> real x (rnd r).
Proof. intros H. exact H. Qed.

Lemma real_nearest x r : real x r -> nearest x r.
Proof. intros (F & <-). split; [exact F|]. now rewrite rnd_B2R. Qed.

(** A real has at most one double (up to the sign of zero), so comparisons depend on reals only. *)
Lemma dle_ok x y a b : real x a -> real y b -> dle x y = Rle_bool a b.
Proof. intros (Fx & <-) (Fy & <-). now apply (Bleb_correct 53 1024). Qed.
Lemma dlt_ok x y a b : real x a -> real y b -> dlt x y = Rlt_bool a b.
Proof. intros (Fx & <-) (Fy & <-). now apply (Bltb_correct 53 1024). Qed.
Lemma dge_ok x y a b : real x a -> real y b -> dge x y = Rle_bool b a.
Proof. intros Hx Hy. now apply (dle_ok y x). Qed.
Lemma dgt_ok x y a b : real x a -> real y b -> dgt x y = Rlt_bool b a.
Proof. intros Hx Hy. now apply (dlt_ok y x). Qed.
Lemma deq_ok x y a b : real x a -> real y b -> deq x y = Req_bool a b.
Proof. intros (Fx & <-) (Fy & <-). now apply (Beqb_correct 53 1024). Qed.

(** Concrete doubles: mantissa and exponent as the machine has them. *)
Lemma real_SF (x : double) s m e : B2SF x = SpecFloat.S754_finite s m e ->
  real x (F2R (Float radix2 (cond_Zopp s (Zpos m)) e)).
Proof. destruct x; intros H; try discriminate. inversion H; subst. split; reflexivity. Qed.

(** dlit p q is the double nearest to p/q. *)
Lemma dlit_ok p q : (0 <= p <= 2 ^ 53)%Z -> (0 < q <= 2 ^ 53)%Z -> nearest (dlit p q) (IZR p / IZR q).
Proof.
  intros Hp Hq. unfold dlit.
  apply ddiv_ok; try (apply dz_exact; lia).
  - apply not_0_IZR. lia.
  - rewrite Rabs_pos_eq.
    + apply Rle_trans with (IZR p / 1).
      * apply Rmult_le_compat_l; [apply IZR_le; lia|]. apply Rinv_le; [lra|]. apply IZR_le. lia.
      * unfold Rdiv. rewrite Rinv_1, Rmult_1_r. apply IZR_le. lia.
    + apply Rmult_le_pos; [apply IZR_le; lia|]. left. apply Rinv_0_lt_compat, IZR_lt. lia.
Qed.

(** truncation to an integer *)
Lemma Btrunc_ok (x : double) r : real x r -> Btrunc x = Ztrunc r.
Proof.
  intros (F & <-). apply eq_IZR. rewrite Btrunc_correct.
  - unfold round, scaled_mantissa, cexp, F2R. cbn [Fnum Fexp FIX_exp bpow]. now rewrite !Rmult_1_r.
  - exact double_emax.
Qed.

Lemma dtrunc_ok x r : real x r -> real (dtrunc x) (IZR (Ztrunc r)).
Proof.
  intros (F & <-). destruct (Bnearbyint_correct 53 1024 _ mode_ZR x) as (C1 & C2 & _). split.
  - unfold dtrunc. now rewrite C2.
  - unfold dtrunc. rewrite C1. unfold round, scaled_mantissa, cexp, F2R. cbn [Fnum Fexp FIX_exp bpow round_mode].
    now rewrite !Rmult_1_r.
Qed.

Lemma dround_ok x r : real x r -> real (dround x) (IZR (ZnearestA r)).
Proof.
  intros (F & <-). destruct (Bnearbyint_correct 53 1024 _ mode_NA x) as (C1 & C2 & _). split.
  - unfold dround. now rewrite C2.
  - unfold dround. rewrite C1. unfold round, scaled_mantissa, cexp, F2R. cbn [Fnum Fexp FIX_exp bpow round_mode].
    now rewrite !Rmult_1_r.
Qed.

Lemma dcast_ok lo hi x r : real x r ->
  dcast lo hi x = if ((lo <=? Ztrunc r) && (Ztrunc r <=? hi))%Z then Ok (Ztrunc r) else UB BadCast.
Proof. intros H. unfold dcast. rewrite (Btrunc_ok x r H). destruct H as (-> & _). reflexivity. Qed.
