(** C63-C65: the numbers of GDSII files. *)
From Coq Require Import Reals Lra.
From Flocq Require Import Core IEEE754.BinarySingleNaN.
From Verif Require Import Prelude P_Prelude M_LayoutData M_Double S_Double P_Double M_GdsiiHelpers S_Gdsii P_GdsiiInt P_GdsiiReal P_GdsiiWrite.
Local Open Scope Z_scope.

(** ** C63 *)
(** [image16 v], [image32 v]: the bytes of the integer v in memory. *)
Theorem C63_words : forall v b0 b1, - 2 ^ 15 <= v < 2 ^ 15 -> image16 v = [b0; b1] ->
  Normalize_WORD v = Ok (twos_complement [b0; b1]).
Proof. exact word_normalize. Qed.

Theorem C63_double_words : forall v b0 b1 b2 b3, image32 v = [b0; b1; b2; b3] ->
  Normalize_DWORD v = if twos_complement [b0; b1; b2; b3] =? - 2 ^ 31 then UB SignedOverflow
                      else Ok (twos_complement [b0; b1; b2; b3]).
Proof. exact dword_normalize. Qed.

(** Every image occurs, and writing is the inverse of reading. *)
Theorem C63_all_images : (forall b0 b1, exists v, - 2 ^ 15 <= v < 2 ^ 15 /\ image16 v = [b0; b1]) /\
  (forall b0 b1 b2 b3, exists v, int32 v /\ image32 v = [b0; b1; b2; b3]).
Proof.
  split.
  - intros b0 b1. exists (value16 [b0; b1]). split; [|apply image16_value]. unfold value16, to_int16.
    pose proof (Z.mod_pos_bound (le_value [b0; b1] + 2 ^ 15) (2 ^ 16) eq_refl). lia.
  - intros b0 b1 b2 b3. exists (value32 [b0; b1; b2; b3]). split; [apply value32_int|apply image32_value; reflexivity].
Qed.

Theorem C63_writing : (forall v, - 2 ^ 15 <= v < 2 ^ 15 ->
    exists w b0 b1, DeNormalize_WORD v = Ok w /\ image16 w = [b0; b1] /\ twos_complement [b0; b1] = v /\ Normalize_WORD w = Ok v) /\
  (forall v, int32 v ->
    exists w b0 b1 b2 b3, DeNormalize_DWORD v = Ok w /\ image32 w = [b0; b1; b2; b3] /\ twos_complement [b0; b1; b2; b3] = v /\
      (v <> - 2 ^ 31 -> Normalize_DWORD w = Ok v)).
Proof.
  split.
  - intros v H. destruct (denormalize_word v H) as (w & b0 & b1 & E & R & I & T). exists w, b0, b1. split; [exact E|]. split; [exact I|]. split; [exact T|].
    rewrite <- T. apply word_normalize; assumption.
  - intros v H. destruct (denormalize_dword v H) as (w & b0 & b1 & b2 & b3 & E & R & I & T). exists w, b0, b1, b2, b3. split; [exact E|]. split; [exact I|]. split; [exact T|].
    intros N. rewrite (dword_normalize _ _ _ _ _ I), T. destruct (Z.eqb_spec v (- 2 ^ 31)); [contradiction|reflexivity].
Qed.

(** The claim without the exception is false. *)
Theorem C63_most_negative_refuted :
  ~ (forall v b0 b1 b2 b3, image32 v = [b0; b1; b2; b3] -> Normalize_DWORD v = Ok (twos_complement [b0; b1; b2; b3])).
Proof. intros H. specialize (H 128 x80 x00 x00 x00 eq_refl). vm_compute in H. discriminate. Qed.

Example C63_hypotheses_met : exists v w,
  Normalize_WORD (-257) = Ok v /\ v = -2 /\ image16 (-257) = [xff; xfe] /\ Normalize_DWORD (-2) = Ok w /\ w = -16777217 /\
  Normalize_DWORD 128 = UB SignedOverflow.
Proof. run_example. Qed.

(** ** C64 *)
Theorem C64_reals_are_read_correctly_rounded : forall l, length l = 8%nat ->
  exists r x, gdsii_real l r /\ Normalize_DOUBLE l = Ok x /\ nearest x r.
Proof.
  intros l L. destruct (gdsii_exists l L) as (r & G). destruct (normalize_double l r G) as (x & E & N). exists r, x. auto.
Qed.
(** The value of an image is unique, so the above determines the result. *)
Theorem C64_value_is_unique : forall l r r', gdsii_real l r -> gdsii_real l r' -> r = r'.
Proof.
  intros l r r' (b & ds & s & e & -> & L & B & Hs & He & ->) (b' & ds' & s' & e' & Q & L' & B' & Hs' & He' & ->).
  injection Q as <- <-. assert (s = s' /\ e = e') as (-> & ->) by lia. reflexivity.
Qed.

(** 0.001 as GDSII writes it: 3E 41 89 37 4B C6 A7 F0 *)
Example C64_hypotheses_met : length (map z2b [62; 65; 137; 55; 75; 198; 167; 240]) = 8%nat /\
  gdsii_real (map z2b [62; 65; 137; 55; 75; 198; 167; 240]) (IZR 18446744073709552 / IZR (2 ^ 56) * powerRZ 16 (-2))%R /\
  exists x, Normalize_DOUBLE (map z2b [62; 65; 137; 55; 75; 198; 167; 240]) = Ok x /\ deq x (dlit 1 1000) = true.
Proof.
  split; [reflexivity|]. split.
  - exists (z2b 62), (map z2b [65; 137; 55; 75; 198; 167; 240]), 0, 62. split; [reflexivity|]. split; [reflexivity|]. split; [reflexivity|].
    split; [left; reflexivity|]. split; [lia|].
    replace (big_endian (map z2b [65; 137; 55; 75; 198; 167; 240])) with 18446744073709552 by (vm_compute; reflexivity).
    cbn [Z.eqb]. rewrite Rmult_1_l. reflexivity.
  - eexists. split; [reflexivity|]. vm_compute. reflexivity.
Qed.

(** ** C65 *)
Local Open Scope R_scope.
(** Finite doubles: those that are not a power of 16 and not too large survive; powers of 16
    and small numbers become 0; large ones become tiny negative numbers. *)
Theorem C65_writing_reals : forall x, is_finite x = true ->
  exists l y, DeNormalize_DOUBLE x = Ok l /\ length l = 8%nat /\ Normalize_DOUBLE l = Ok y /\
    (powerRZ 16 (-13) <= Rabs (B2R x) < powerRZ 16 63 -> (forall k, Rabs (B2R x) <> powerRZ 16 k) -> gdsii_real l (B2R x) /\ y = x) /\
    (forall k, Rabs (B2R x) = powerRZ 16 k -> (k <= 63)%Z -> gdsii_real l 0 /\ B2R y = 0) /\
    (Rabs (B2R x) < powerRZ 16 (-13) -> gdsii_real l 0 /\ B2R y = 0) /\
    (powerRZ 16 63 < Rabs (B2R x) -> exists r, gdsii_real l r /\ - powerRZ 16 (-64) < r <= 0 /\ nearest y r).
Proof.
  intros x F. 
  assert (GL : forall l r, gdsii_real l r -> length l = 8%nat).
  { intros l r (b & ds & s & e & -> & L & _). cbn. lia. }
  assert (Z0 : forall y, nearest y 0 -> B2R y = 0) by (intros y (_ & ->); apply rnd_0).
  assert (P13 : powerRZ 16 (-13) = bpow radix2 (-52)) by apply pow16.
  assert (P63 : powerRZ 16 63 = bpow radix2 252) by apply pow16.
  assert (P64 : powerRZ 16 (-64) = bpow radix2 (-256)) by apply pow16.
  rewrite P13, P63, P64.
  destruct (Rlt_or_le (Rabs (B2R x)) (bpow radix2 (-52))) as [Q|Q].
  - destruct (denorm_small x F Q) as (l & E & G). destruct (normalize_double l 0 G) as (y & Ey & Ny). exists l, y.
    split; [exact E|]. split; [exact (GL l 0 G)|]. split; [exact Ey|]. split; [intros (? & _); lra|]. split; [intros k _ _; auto|]. split; [auto|].
    intros H. pose proof (bpow_lt radix2 (-52) 252 ltac:(lia)). lra.
  - destruct (denorm_cases x F Q) as (l & E & H1 & H2 & H3).
    assert (N8 : length l = 8%nat /\ exists y, Normalize_DOUBLE l = Ok y).
    { assert (L : length l = 8%nat).
      { destruct (Rlt_or_le (bpow radix2 252) (Rabs (B2R x))) as [B|B].
        - destruct (H3 B) as (r & G & _). exact (GL _ _ G).
        - destruct (Req_dec (Rabs (B2R x)) (bpow radix2 252)) as [E2|E2].
          + apply (GL l 0), (H2 63%Z E2). lia.
          + destruct (Coq.Logic.Classical_Prop.classic (exists k, Rabs (B2R x) = bpow radix2 (4 * k))) as [(k & Ek)|NK].
            * apply (GL l 0), (H2 k Ek). rewrite Ek in B. apply (le_bpow radix2) in B. lia.
            * apply (GL l (B2R x)), H1. split; [lra|]. intros k Ek. apply NK. exists k. exact Ek. }
      split; [exact L|]. destruct (gdsii_exists l L) as (r & G). destruct (normalize_double l r G) as (y & Ey & _). exists y. exact Ey. }
    destruct N8 as (L & y & Ey). exists l, y. split; [exact E|]. split; [exact L|]. split; [exact Ey|].
    assert (NR : forall r, gdsii_real l r -> nearest y r).
    { intros r G. destruct (normalize_double l r G) as (y' & Ey' & N'). rewrite Ey in Ey'. injection Ey' as <-. exact N'. }
    split; [|split; [|split]].
    + intros (_ & B) NK. assert (G : gdsii_real l (B2R x)) by (apply H1; split; [exact B|intros k; rewrite <- pow16; apply NK]).
      split; [exact G|]. destruct (NR _ G) as (Fy & Ry). rewrite rnd_B2R in Ry.
      assert (X0 : B2R x <> 0). { intros Q0. rewrite Q0, Rabs_R0 in Q. pose proof (bpow_gt_0 radix2 (-52)). lra. }
      apply B2R_inj; [destruct y; try discriminate; [cbn in Ry; congruence|reflexivity]|destruct x; try discriminate; [cbn in X0; congruence|reflexivity]|exact Ry].
    + intros k Ek Hk. assert (G : gdsii_real l 0) by (apply (H2 k); [rewrite Ek; apply pow16|exact Hk]). split; [exact G|]. apply Z0, NR, G.
    + intros B. lra.
    + intros B. destruct (H3 B) as (r & G & R). exists r. split; [exact G|]. split; [exact R|apply NR, G].
Qed.

(** NaN becomes 0; for the infinities the behaviour is undefined. *)
Theorem C65_special_values : (forall s, DeNormalize_DOUBLE (B754_infinity s) = UB BadCast) /\
  exists l, DeNormalize_DOUBLE B754_nan = Ok l /\ gdsii_real l 0.
Proof. exact denorm_special. Qed.

(** In particular 1.0 does not survive. *)
Theorem C65_round_trip_refuted :
  ~ (forall x l, is_finite x = true -> Bleb (dlit 1 1000000000) x = true -> Bleb x (dz 1000) = true -> DeNormalize_DOUBLE x = Ok l -> 
       exists y, Normalize_DOUBLE l = Ok y /\ B2R y = B2R x).
Proof.
  intros H. destruct (dz_exact 1 ltac:(lia)) as (F1 & R1). destruct (C65_writing_reals (dz 1) F1) as (l & y & E & _ & Ey & _ & H2 & _).
  specialize (H (dz 1) l F1 ltac:(vm_compute; reflexivity) ltac:(vm_compute; reflexivity) E). destruct H as (y' & Ey' & Q). rewrite Ey in Ey'. injection Ey' as <-.
  destruct (H2 0%Z) as (_ & Z0); [rewrite R1, Rabs_R1; reflexivity|lia|]. rewrite Z0, R1 in Q. change (IZR 1) with 1 in Q. lra.
Qed.

Example C65_hypotheses_met : exists l,
  DeNormalize_DOUBLE (dlit 1 1000) = Ok l /\ l = map z2b [62; 65; 137; 55; 75; 198; 167; 240]%Z /\
  DeNormalize_DOUBLE (dz 16) = Ok (z2b 65 :: repeat x00 7) /\ DeNormalize_DOUBLE (dz (-3)) = Ok (map z2b [193; 48; 0; 0; 0; 0; 0; 0]%Z).
Proof. run_example. Qed.

Print Assumptions C63_words.
Print Assumptions C63_double_words.
Print Assumptions C63_all_images.
Print Assumptions C63_writing.
Print Assumptions C63_most_negative_refuted.
Print Assumptions C64_reals_are_read_correctly_rounded.
Print Assumptions C64_value_is_unique.
Print Assumptions C65_writing_reals.
Print Assumptions C65_special_values.
Print Assumptions C65_round_trip_refuted.
