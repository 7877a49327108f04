(** Facts about rounding to binary64 that the zonding proofs need. *)
From Coq Require Import Reals Lra.
From Flocq Require Import Core IEEE754.BinarySingleNaN.
From Verif Require Import Prelude M_Double S_Double P_Double.
Local Open Scope R_scope.

Notation fexp := (FLT_exp (-1074) 53).
Notation format := (generic_format radix2 fexp).

Lemma rnd_opp x : rnd (- x) = - rnd x.
Proof. unfold rnd. apply round_NE_opp. Qed.

Lemma rnd_format x : format (rnd x).
Proof. unfold rnd. apply generic_format_round; typeclasses eauto. Qed.

Lemma rnd_nearest x f : format f -> Rabs (rnd x - x) <= Rabs (f - x).
Proof.
  intros Hf. destruct (round_N_pt radix2 fexp (fun x => negb (Z.even x)) x) as (_ & H).
  unfold rnd, ZnearestE. now apply H.
Qed.

Lemma rnd_ge a x : format a -> a <= x -> a <= rnd x.
Proof. intros Fa H. rewrite <- (rnd_exact a Fa). now apply rnd_le. Qed.

Lemma rnd_le_f a x : format a -> x <= a -> rnd x <= a.
Proof. intros Fa H. rewrite <- (rnd_exact a Fa). now apply rnd_le. Qed.

Lemma format_opp a : format a -> format (- a).
Proof. apply generic_format_opp. Qed.

(** the gap below a number is at least half the gap above it *)
Lemma fexp_step e : (fexp e - 1 <= fexp (e - 1))%Z.
Proof. unfold FLT_exp. lia. Qed.

Lemma pred_pos_gap x : 0 < x -> format x -> ulp radix2 fexp x <= 2 * (x - pred_pos radix2 fexp x) /\
  x - pred_pos radix2 fexp x <= ulp radix2 fexp x.
Proof.
  intros Hx Fx. unfold pred_pos. destruct (Req_bool_spec x (bpow radix2 (mag radix2 x - 1))) as [E|E].
  - rewrite (ulp_neq_0 radix2 fexp x) by lra. unfold cexp.
    pose proof (fexp_step (mag radix2 x)) as S.
    assert (M : (fexp (mag radix2 x - 1) <= fexp (mag radix2 x))%Z) by (unfold FLT_exp; lia).
    split; [|].
    + replace (2 * (x - (x - bpow radix2 (fexp (mag radix2 x - 1))))) with (bpow radix2 1 * bpow radix2 (fexp (mag radix2 x - 1)))
        by (change (bpow radix2 1) with 2; ring).
      rewrite <- bpow_plus. apply bpow_le. lia.
    + replace (x - (x - bpow radix2 (fexp (mag radix2 x - 1)))) with (bpow radix2 (fexp (mag radix2 x - 1))) by ring.
      apply bpow_le. exact M.
  - pose proof (ulp_ge_0 radix2 fexp x). lra.
Qed.

Lemma gap s : format s -> succ radix2 fexp s - s <= 2 * (s - pred radix2 fexp s).
Proof.
  intros Fs. unfold pred, succ.
  destruct (Rle_bool_spec 0 s) as [Hs|Hs], (Rle_bool_spec 0 (- s)) as [Ho|Ho].
  - assert (s = 0) by lra. subst s. rewrite Ropp_0. pose proof (ulp_ge_0 radix2 fexp 0). lra.
  - rewrite !Ropp_involutive. pose proof (pred_pos_gap s ltac:(lra) Fs). lra.
  - pose proof (pred_pos_gap (- s) ltac:(lra) ltac:(now apply format_opp)) as P.
    rewrite !ulp_opp in *. pose proof (ulp_ge_0 radix2 fexp s). lra.
  - lra.
Qed.

(** Going up by h and back down by at most h/4 does not end below the start. *)
Lemma up_and_back a h p : format a -> 0 <= h -> 0 <= p -> 4 * p <= h -> a <= rnd (rnd (a + h) - p).
Proof.
  intros Fa Hh Hp Hph. set (s := rnd (a + h)).
  assert (Fs : format s) by apply rnd_format.
  assert (Sa : a <= s) by (apply rnd_ge; [exact Fa|lra]).
  destruct (Rle_or_lt a (s - p)) as [L|L]; [now apply rnd_ge|].
  (* s < a + p: a gap above s wider than h *)
  assert (Hs : s < a + h) by lra.
  assert (G : h < succ radix2 fexp s - s).
  { destruct (Rlt_or_le h (succ radix2 fexp s - s)) as [G|G]; [exact G|exfalso].
    (* then succ s is closer *)
    assert (Q : succ radix2 fexp s <= a + h \/ a + h < succ radix2 fexp s) by lra.
    assert (FS : format (succ radix2 fexp s)) by (apply generic_format_succ; [typeclasses eauto|exact Fs]).
    assert (P : s < succ radix2 fexp s).
    { destruct (Req_dec s 0) as [E|E].
      - rewrite E, succ_0. apply Rlt_le_trans with (2 := Rle_refl _). rewrite ulp_FLT_small; [apply bpow_gt_0| |].
        + reflexivity.
        + rewrite Rabs_R0. apply bpow_gt_0.
      - apply succ_gt_id. exact E. }
    pose proof (rnd_nearest (a + h) _ FS) as N. fold s in N.
    rewrite (Rabs_left (s - (a + h))) in N by lra.
    unfold Rabs in N. destruct (Rcase_abs (succ radix2 fexp s - (a + h))); lra. }
  pose proof (gap s Fs) as GG.
  destruct (Rle_or_lt s a) as [E|E].
  - assert (s = a) by lra. clear E. rename H into E. 
    (* a - p is closer to a than to pred a *)
    assert (Q : pred radix2 fexp a < a - 2 * p) by (rewrite E in *; lra).
    assert (N : rnd (s - p) <= a) by (apply rnd_le_f; [exact Fa|lra]).
    destruct (Rle_or_lt a (rnd (s - p))) as [Z|Z]; [exact Z|exfalso].
    assert (N2 : rnd (s - p) <= pred radix2 fexp a).
    { apply pred_ge_gt; try assumption; try typeclasses eauto. apply rnd_format. }
    pose proof (rnd_nearest (s - p) a Fa) as M.
    rewrite E in *. rewrite (Rabs_left (rnd (a - p) - (a - p))) in M by lra.
    replace (a - (a - p)) with p in M by ring. rewrite (Rabs_pos_eq p Hp) in M. lra.
  - assert (a <= pred radix2 fexp s).
    { apply pred_ge_gt; try assumption; typeclasses eauto. }
    exfalso. lra.
Qed.

Lemma down_and_back a h p : format a -> 0 <= h -> 0 <= p -> 4 * p <= h -> rnd (rnd (a - h) + p) <= a.
Proof.
  intros Fa Hh Hp Hph.
  pose proof (up_and_back (- a) h p (format_opp a Fa) Hh Hp Hph) as U.
  replace (- a + h) with (- (a - h)) in U by ring. rewrite rnd_opp in U.
  replace (- rnd (a - h) - p) with (- (rnd (a - h) + p)) in U by ring. rewrite rnd_opp in U. lra.
Qed.

(** the fractional part of a nonnegative double is a double *)
Lemma frac_format x : format x -> 0 <= x -> format (x - IZR (Zfloor x)).
Proof.
  intros Fx Hx. 
  pose proof (Zfloor_lb x) as L. pose proof (Zfloor_ub x) as U.
  unfold generic_format in Fx. set (e := cexp radix2 fexp x) in *.
  set (m := Ztrunc (scaled_mantissa radix2 fexp x)) in *.
  assert (E : x = IZR m * bpow radix2 e) by exact Fx.
  destruct (Z_le_gt_dec 0 e) as [He|He].
  - (* an integer *)
    assert (I : x = IZR (m * Zpower 2 e)).
    { rewrite E, mult_IZR. f_equal. rewrite <- IZR_Zpower by exact He. reflexivity. }
    rewrite I, Zfloor_IZR. replace (_ - _) with 0 by ring. apply generic_format_0.
  - (* (m - floor * 2^-e) * 2^e *)
    assert (P : IZR (Zfloor x) = IZR (Zfloor x * Zpower 2 (- e)) * bpow radix2 e).
    { rewrite mult_IZR. change (IZR (Zpower 2 (- e))) with (IZR (Zpower radix2 (- e))).
      rewrite IZR_Zpower by lia. rewrite Rmult_assoc, <- bpow_plus. replace (- e + e)%Z with 0%Z by lia.
      cbn [bpow]. ring. }
    set (k := (m - Zfloor x * Zpower 2 (- e))%Z).
    assert (F : x - IZR (Zfloor x) = F2R (Float radix2 k e)).
    { unfold F2R, k. cbn [Fnum Fexp]. rewrite minus_IZR, Rmult_minus_distr_r, <- E, <- P. reflexivity. }
    rewrite F. apply generic_format_F2R. intros Hk. unfold cexp. rewrite <- F.
    (* the fractional part is not larger than x *)
    assert (M : (mag radix2 (x - IZR (Zfloor x)) <= mag radix2 x)%Z).
    { apply mag_le_abs.
      - rewrite F. unfold F2R. cbn [Fnum Fexp]. pose proof (bpow_gt_0 radix2 e). apply IZR_neq in Hk. 
        apply Rmult_integral_contrapositive_currified; [exact Hk|lra].
      - rewrite !Rabs_pos_eq by lra. assert (0 <= IZR (Zfloor x)); [|lra]. apply IZR_le. apply Zfloor_lub. exact Hx. }
    unfold e, cexp. unfold FLT_exp in *. lia.
Qed.
