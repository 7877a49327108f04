(** Lemmas about zonding: which cells a rectangle sets. *)
From Coq Require Import Reals Lra.
From Flocq Require Import Core IEEE754.BinarySingleNaN.
From Verif Require Import Prelude P_Prelude M_Double S_Double P_Double P_Round M_LayoutData M_Loop P_Loop M_Vector2D M_BitMatrix S_Matrix P_BitMatrix
  M_Zond S_Zond P_Zond P_ZondReal.
Local Open Scope R_scope.

Lemma tiny_pos : 0 < / IZR (2 ^ 32).
Proof. apply Rinv_0_lt_compat, IZR_lt. reflexivity. Qed.

Lemma cell_size_pos x q : cell_size x q -> real x q /\ 0 < q <= IZR (2 ^ 60).
Proof. intros (H & H1). pose proof tiny_pos. split; [exact H|lra]. Qed.

(** powers of two scale doubles that are not tiny *)
Lemma scale_format x q k : cell_size x q -> (-3 <= k <= 0)%Z -> format (q * bpow radix2 k).
Proof.
  intros ((F & E) & (L & U)) Hk. pose proof tiny_pos as T.
  assert (Fq : format q) by (rewrite <- E; apply B2R_format).
  unfold generic_format in Fq. set (e := cexp radix2 fexp q) in *. set (m := Ztrunc (scaled_mantissa radix2 fexp q)) in *.
  assert (Q : q * bpow radix2 k = F2R (Float radix2 m (e + k))).
  { rewrite Fq at 1. unfold F2R. cbn [Fnum Fexp]. rewrite bpow_plus. ring. }
  rewrite Q. apply generic_format_F2R. intros Hm. rewrite <- Q. unfold cexp.
  assert (M : mag radix2 (q * bpow radix2 k) = (mag radix2 q + k)%Z :> Z).
  { apply mag_mult_bpow. lra. }
  rewrite M.
  assert (G : (-31 <= mag radix2 q)%Z).
  { apply mag_ge_bpow. rewrite Rabs_pos_eq by lra. apply Rle_trans with (2 := L).
    change (bpow radix2 (-31 - 1)) with (/ IZR (Zpower_pos 2 32)). apply Req_le. f_equal. }
  unfold e, cexp, FLT_exp in *. lia.
Qed.

Lemma half_exact x q : cell_size x q -> rnd (q / 2) = q / 2.
Proof. intros H. apply rnd_exact. apply (scale_format x q (-1) H). lia. Qed.

Lemma eighth_exact x q : cell_size x q -> format (q / 8).
Proof. intros H. pose proof (scale_format x q (-3) H ltac:(lia)) as G. replace (q / 8) with (q * bpow radix2 (-3)); [exact G|].
  unfold Rdiv. f_equal. Qed.

Lemma tol_le x q e : cell_size x q -> 0 <= e <= 1 / 8 -> 0 <= rnd (q * e) /\ 4 * rnd (q * e) <= q / 2.
Proof.
  intros H E. pose proof (cell_size_pos x q H) as (_ & Q & _). split.
  - rewrite <- rnd_0. apply rnd_le. nra.
  - assert (rnd (q * e) <= q / 8); [|lra]. apply rnd_le_f; [now apply (eighth_exact x)|]. nra.
Qed.

Lemma int32_format a : int32 a -> format (IZR a).
Proof. intros H. apply int_format. unfold int32 in H. lia. Qed.

(** ** A rectangle that contains the workspace passes the test *)
Lemma le_up_yes c a x q e : int32 a -> cell_size x q -> 0 <= e <= 1 / 8 -> (c <= a)%Z ->
  le_up (IZR c) (IZR a) q (rnd (q * e)).
Proof.
  intros Ha Hq He Hc. unfold le_up. rewrite (half_exact x q Hq).
  destruct (tol_le x q e Hq He) as (T1 & T2). pose proof (cell_size_pos x q Hq) as (_ & Q & _).
  apply Rle_trans with (IZR a); [now apply IZR_le|].
  apply up_and_back; [now apply int32_format|lra|exact T1|exact T2].
Qed.

Lemma ge_down_yes c a x q e : int32 a -> cell_size x q -> 0 <= e <= 1 / 8 -> (a <= c)%Z ->
  ge_down (IZR c) (IZR a) q (rnd (q * e)).
Proof.
  intros Ha Hq He Hc. unfold ge_down. rewrite (half_exact x q Hq).
  destruct (tol_le x q e Hq He) as (T1 & T2). pose proof (cell_size_pos x q Hq) as (_ & Q & _).
  apply Rle_trans with (IZR a); [|now apply IZR_le].
  apply down_and_back; [now apply int32_format|lra|exact T1|exact T2].
Qed.

Lemma contains_test z lt rb qx qy e : ws32 (angleCoords z) -> coord32 lt -> coord32 rb ->
  cell_size (dx z) qx -> cell_size (dy z) qy -> real (eps z) e -> 0 <= e <= 1 / 8 ->
  contains_ws lt rb (angleCoords z) -> covers_test z lt rb = true.
Proof.
  intros W L R X Y E Ee (C1 & C2 & C3 & C4).
  pose proof (cell_size_pos _ _ X) as (RX & QX). pose proof (cell_size_pos _ _ Y) as (RY & QY).
  apply (covers_test_ok z lt rb qx qy e); try assumption; try lra.
  destruct W as ((W1 & W2) & (W3 & W4)).
  split; [now apply (le_up_yes _ _ (dx z))|]. split; [now apply (ge_down_yes _ _ (dx z))|].
  split; [now apply (ge_down_yes _ _ (dy z))|]. now apply (le_up_yes _ _ (dy z)).
Qed.

(** ** A rectangle one whole cell short of an edge fails the test *)
Lemma half_int_format a : int32 a -> format (IZR a + 1 / 2) /\ format (IZR a - 1 / 2).
Proof.
  intros H. unfold int32 in H. split.
  - replace (IZR a + 1 / 2) with (IZR (2 * a + 1) / 2) by (rewrite plus_IZR, mult_IZR; field).
    apply half_format. lia.
  - replace (IZR a - 1 / 2) with (IZR (2 * a - 1) / 2) by (rewrite minus_IZR, mult_IZR; field).
    apply half_format. lia.
Qed.

Lemma le_up_no c a x q e : int32 a -> int32 c -> cell_size x q -> 0 <= e <= 1 / 8 -> IZR a + q <= IZR c ->
  ~ le_up (IZR c) (IZR a) q (rnd (q * e)).
Proof.
  intros Ha Hc Hq He H. unfold le_up. rewrite (half_exact x q Hq).
  destruct (tol_le x q e Hq He) as (T1 & T2). pose proof (cell_size_pos x q Hq) as (_ & Q & _).
  assert (D : (a < c)%Z) by (apply lt_IZR; lra).
  assert (D1 : IZR a + 1 <= IZR c) by (rewrite <- (plus_IZR a 1); apply IZR_le; lia).
  destruct (half_int_format c Hc) as (_ & F).
  assert (U : rnd (IZR a + q / 2) <= IZR c - 1 / 2).
  { apply rnd_le_f; [exact F|]. destruct (Rle_or_lt q 1); lra. }
  assert (V : rnd (rnd (IZR a + q / 2) - rnd (q * e)) <= IZR c - 1 / 2) by (apply rnd_le_f; [exact F|lra]).
  lra.
Qed.

Lemma ge_down_no c a x q e : int32 a -> int32 c -> cell_size x q -> 0 <= e <= 1 / 8 -> IZR c <= IZR a - q ->
  ~ ge_down (IZR c) (IZR a) q (rnd (q * e)).
Proof.
  intros Ha Hc Hq He H. unfold ge_down. rewrite (half_exact x q Hq).
  destruct (tol_le x q e Hq He) as (T1 & T2). pose proof (cell_size_pos x q Hq) as (_ & Q & _).
  assert (D : (c < a)%Z) by (apply lt_IZR; lra).
  assert (D1 : IZR c + 1 <= IZR a) by (rewrite <- (plus_IZR c 1); apply IZR_le; lia).
  destruct (half_int_format c Hc) as (F & _).
  assert (U : IZR c + 1 / 2 <= rnd (IZR a - q / 2)).
  { apply rnd_ge; [exact F|]. destruct (Rle_or_lt q 1); lra. }
  assert (V : IZR c + 1 / 2 <= rnd (rnd (IZR a - q / 2) + rnd (q * e))) by (apply rnd_ge; [exact F|lra]).
  lra.
Qed.

Lemma short_test z lt rb qx qy e : ws32 (angleCoords z) -> coord32 lt -> coord32 rb ->
  cell_size (dx z) qx -> cell_size (dy z) qy -> real (eps z) e -> 0 <= e <= 1 / 8 ->
  one_cell_short lt rb (angleCoords z) qx qy -> covers_test z lt rb = false.
Proof.
  intros W L R X Y E Ee C.
  pose proof (cell_size_pos _ _ X) as (RX & QX). pose proof (cell_size_pos _ _ Y) as (RY & QY).
  destruct (covers_test z lt rb) eqn:T; [exfalso|reflexivity].
  apply (covers_test_ok z lt rb qx qy e) in T; try assumption; try lra.
  destruct W as ((W1 & W2) & (W3 & W4)), L as (L1 & L2), R as (R1 & R2), T as (T1 & T2 & T3 & T4).
  destruct C as [C|[C|[C|C]]].
  - exact (le_up_no _ _ (dx z) _ _ W1 L1 X Ee C T1).
  - exact (ge_down_no _ _ (dx z) _ _ W3 R1 X Ee C T2).
  - exact (ge_down_no _ _ (dy z) _ _ W2 L2 Y Ee C T3).
  - exact (le_up_no _ _ (dy z) _ _ W4 R2 Y Ee C T4).
Qed.

(** ** The index values *)
Lemma position_div d q n : 0 < q -> (0 <= d)%Z -> (0 <= n <= 2 ^ 53)%Z -> position d q < IZR n -> IZR d / q < IZR n.
Proof.
  intros Q D N H. destruct (Rlt_or_le (IZR d / q) (IZR n)) as [K|K]; [exact K|exfalso].
  assert (IZR n <= position d q); [|lra]. unfold position. apply rnd_ge; [apply int_format; lia|exact K].
Qed.

Lemma position_ok d x q : cell_size x q -> (0 <= d)%Z -> int32 d -> position_fits (position d q) ->
  real (ddiv (dz d) x) (position d q) /\ 0 <= position d q.
Proof.
  intros X D H P. pose proof (cell_size_pos _ _ X) as (RX & QX). split.
  - apply position_real; [exact RX|lra|exact H|].
    apply Rabs_small. unfold position_fits in P.
    pose proof (position_div d q (2 ^ 31 - 1) ltac:(lra) D ltac:(lia) P).
    assert (0 <= IZR d / q). { apply Rmult_le_pos; [now apply IZR_le|]. left. now apply Rinv_0_lt_compat. }
    assert (IZR (2 ^ 31 - 1) <= IZR (2 ^ 64)) by (apply IZR_le; lia). lra.
  - apply position_sign; [lra|exact D].
Qed.

Lemma tol_real x q ep e : real x q -> 0 < q <= IZR (2 ^ 60) -> real ep e -> 0 <= e <= 1 / 8 -> e * q <= 1 / 4 ->
  real (dmul ep x) (rnd (e * q)) /\ 0 <= rnd (e * q) <= 1 / 4.
Proof.
  intros X Q E Ee T. split.
  - apply nearest_real. apply dmul_ok; try assumption. apply p64, Rabs_small. nra.
  - split; [rewrite <- rnd_0; apply rnd_le; nra|]. apply rnd_le_f; [|lra].
    apply generic_format_FLT. exists (Float radix2 1 (-2)); [|cbn; lia|cbn; lia].
    unfold F2R. cbn [Fnum Fexp]. change (bpow radix2 (-2)) with (/ 4). field.
Qed.

Lemma norm_range b e t bf bs : 0 <= b -> b <= e -> e < IZR (2 ^ 31 - 1) -> (0 <= bf < 2 ^ 31)%Z -> (0 <= bs < 2 ^ 31)%Z ->
  (0 <= fst (norm_spec b e t bf bs) < 2 ^ 31)%Z /\ (0 <= snd (norm_spec b e t bf bs) < 2 ^ 31)%Z.
Proof.
  intros B0 BE E1 Hf Hs. unfold norm_spec.
  pose proof (floor_nonneg b B0). pose proof (floor_nonneg e ltac:(lra)).
  pose proof (floor_lt e _ E1). pose proof (Zfloor_le b e BE).
  pose proof (ZnearestA_range e _ ltac:(lra) E1).
  destruct (Zfloor e - Zfloor b =? 0)%Z eqn:K.
  - destruct (_ && _); cbn [fst snd]; lia.
  - cbn [fst snd]. destruct (Rle_bool b (IZR bf)), (Rle_bool (IZR bs) e); try (destruct (Rle_bool (rnd (1 / 2 - t)) _));
      try (destruct (Rle_bool (b - _) _)); lia.
Qed.

Lemma position_any d x q : cell_size x q -> int32 d -> real (ddiv (dz d) x) (position d q).
Proof.
  intros X H. pose proof (cell_size_pos _ _ X) as (RX & QX). destruct X as (_ & (XL & _)).
  apply position_real; [exact RX|lra|exact H|].
  pose proof (IZR32 d H) as B. unfold Rdiv. rewrite Rabs_mult.
  assert (I : / q <= IZR (2 ^ 32)).
  { rewrite <- (Rinv_inv (IZR (2 ^ 32))). apply Rinv_le; [apply tiny_pos|exact XL]. }
  assert (0 < / q) by (apply Rinv_0_lt_compat; lra).
  rewrite (Rabs_pos_eq (/ q)) by lra.
  replace (2 ^ 64)%Z with (2 ^ 32 * 2 ^ 32)%Z by reflexivity. rewrite mult_IZR.
  apply Rmult_le_compat; [apply Rabs_pos|lra| |exact I].
  apply Rle_trans with (IZR (2 ^ 31)); [apply Rabs_small; lra|apply IZR_le; lia].
Qed.

(** The cells drawn by a rectangle that starts inside the workspace and fails the test. *)
Definition axis (n : Z * Z) (r k : Z) : bool := ((fst n <=? k) && (k <=? snd n) && (k <? r))%Z.

Lemma rect_cells z g m A lt rb qx qy e r c : shows m A -> corners g lt rb ->
  boundIndicies z = full_bounds r c -> (1 <= r < 2 ^ 31)%Z -> (1 <= c < 2 ^ 31)%Z ->
  tuned z qx qy e -> ws32 (angleCoords z) -> coord32 lt -> coord32 rb ->
  let w := angleCoords z in
  differences_fit lt rb w ->
  (cx (leftTop w) <= cx lt <= cx rb)%Z -> (cy rb <= cy lt <= cy (leftTop w))%Z ->
  position_fits (col_to rb w qx) -> position_fits (row_to rb w qy) ->
  covers_test z lt rb = false ->
  exists m', ZondRectangle z g m = (m', Ok tt) /\
    shows m' (adraw A (fun i j =>
      axis (norm_spec (row_from lt w qy) (row_to rb w qy) (rnd (e * qy)) 0 (r - 1)) r i
      && axis (norm_spec (col_from lt w qx) (col_to rb w qx) (rnd (e * qx)) 0 (c - 1)) c j)).
Proof.
  intros S (G1 & G2) HB Hr Hc (X & Y & E & Ee & Ex & Ey) W L R w (D1 & D2 & D3 & D4) HX HY PX PY T.
  pose proof (cell_size_pos _ _ X) as (RX & QX). pose proof (cell_size_pos _ _ Y) as (RY & QY).
  unfold ZondRectangle, at_. rewrite G1, G2. rewrite T. unfold rect_indices. fold w. cbv zeta.
  rewrite !sub32_ok by assumption. cbn [bind].
  assert (PX' : position_fits (col_from lt w qx)).
  { unfold position_fits in *. apply Rle_lt_trans with (2 := PX). apply position_mono; [lra|lia]. }
  assert (PY' : position_fits (row_from lt w qy)).
  { unfold position_fits in *. apply Rle_lt_trans with (2 := PY). apply position_mono; [lra|lia]. }
  unfold col_from, col_to, row_from, row_to in *.
  destruct (position_ok (cx lt - cx (leftTop w)) _ _ X ltac:(lia) D1 PX') as (J1 & J1').
  destruct (position_ok (cx rb - cx (leftTop w)) _ _ X ltac:(lia) D2 PX) as (J2 & J2').
  destruct (position_ok (cy (leftTop w) - cy lt) _ _ Y ltac:(lia) D3 PY') as (I1 & I1').
  destruct (position_ok (cy (leftTop w) - cy rb) _ _ Y ltac:(lia) D4 PY) as (I2 & I2').
  pose proof (position_mono (cx lt - cx (leftTop w)) (cx rb - cx (leftTop w)) qx ltac:(lra) ltac:(lia)) as J12.
  pose proof (position_mono (cy (leftTop w) - cy lt) (cy (leftTop w) - cy rb) qy ltac:(lra) ltac:(lia)) as I12.
  destruct (tol_real _ _ _ _ RX QX E Ee Ex) as (TX & TX').
  destruct (tol_real _ _ _ _ RY QY E Ee Ey) as (TY & TY').
  set (jb := position (cx lt - cx (leftTop w)) qx) in *. set (je := position (cx rb - cx (leftTop w)) qx) in *.
  set (ib := position (cy (leftTop w) - cy lt) qy) in *. set (ie := position (cy (leftTop w) - cy rb) qy) in *.
  unfold position_fits in *.
  assert (LL : IZR (2 ^ 31 - 1) < IZR (2 ^ 31)) by (apply IZR_lt; lia).
  unfold NormIndicies. cbv zeta. rewrite HB. cbn [iBegin iEnd jBegin jEnd full_bounds].
  rewrite (NormPair_ok _ _ _ _ ib ie qy (rnd (e * qy)) 0 (r - 1) I1 I2 RY TY) by (try lia; lra). cbn [bind].
  rewrite (NormPair_ok _ _ _ _ jb je qx (rnd (e * qx)) 0 (c - 1) J1 J2 RX TX) by (try lia; lra). cbn [bind].
  destruct (norm_range ib ie (rnd (e * qy)) 0 (r - 1)) as (NI1 & NI2); [lra|lra|lra|lia|lia|].
  destruct (norm_range jb je (rnd (e * qx)) 0 (c - 1)) as (NJ1 & NJ2); [lra|lra|lra|lia|lia|].
  set (ni := norm_spec ib ie (rnd (e * qy)) 0 (r - 1)) in *. set (nj := norm_spec jb je (rnd (e * qx)) 0 (c - 1)) in *.
  cbn [iBegin iEnd jBegin jEnd]. rewrite !Z.add_0_r.
  rewrite (to_size_small (fst ni)), (to_size_small (snd ni)), (to_size_small (fst nj)), (to_size_small (snd nj)) by lia.
  edestruct (for32_block A (fst ni) (Z.max (fst ni - 1) (Z.min (snd ni) (r - 1))) (fst nj) (Z.max (fst nj - 1) (Z.min (snd nj) (c - 1)))
    (fun i => (to_size i <=? snd ni) && (0 <=? to_size i) && (to_size i <=? r - 1))%Z
    (fun j => (to_size j <=? snd nj) && (0 <=? to_size j) && (to_size j <=? c - 1))%Z m) as (m' & E1 & E2).
  - lia.
  - lia.
  - lia.
  - lia.
  - intros i Hi. rewrite to_size_small by lia. lia.
  - rewrite to_size_small by lia. lia.
  - intros i Hi. rewrite to_size_small by lia. lia.
  - rewrite to_size_small by lia. lia.
  - exact S.
  - exists m'. split; [exact E1|]. eapply shows_ext; [exact E2|].
    repeat split. cbn [arows acols acell adraw]. intros a b Ha Hb. f_equal. unfold block, axis. lia.
Qed.

(** ** Which cells those are, in terms of positions *)
Lemma mid_bounds t : 0 <= t <= 1 / 4 ->
  1 / 2 <= rnd (1 / 2 + t) <= 1 / 2 + 2 * t /\ 1 / 2 - 2 * t <= rnd (1 / 2 - t) <= 1 / 2.
Proof.
  intros H. assert (F : format (1 / 2)) by (apply (half_format 1); lia).
  pose proof (rnd_ge (1 / 2) (1 / 2 + t) F ltac:(lra)).
  pose proof (rnd_le_f (1 / 2) (1 / 2 - t) F ltac:(lra)).
  pose proof (rnd_nearest (1 / 2 + t) _ F) as N1. pose proof (rnd_nearest (1 / 2 - t) _ F) as N2.
  rewrite (Rabs_left1 (1 / 2 - (1 / 2 + t))) in N1 by lra. rewrite (Rabs_pos_eq (1 / 2 - (1 / 2 - t))) in N2 by lra.
  apply Rabs_le_inv in N1. apply Rabs_le_inv in N2. lra.
Qed.

Lemma IZR_lt_1 a b : (a < b)%Z -> IZR a + 1 <= IZR b.
Proof. intros H. rewrite <- (plus_IZR a 1). apply IZR_le. lia. Qed.

Lemma lt_1_IZR a b : IZR a < IZR b + 1 -> (a <= b)%Z.
Proof. intros H. rewrite <- (plus_IZR b 1) in H. apply lt_IZR in H. lia. Qed.

Lemma ZnearestA_pos e : 0 <= e -> ZnearestA e = if Rle_bool (1 / 2) (e - IZR (Zfloor e)) then (Zfloor e + 1)%Z else Zfloor e.
Proof.
  intros H. pose proof (Zfloor_lb e). pose proof (Zfloor_ub e). pose proof (floor_nonneg e H).
  destruct (Rle_bool_spec (1 / 2) (e - IZR (Zfloor e))) as [K|K].
  - unfold Znearest. rewrite (proj2 (Z.leb_le 0 (Zfloor e))) by lia.
    assert (C : Zceil e = (Zfloor e + 1)%Z).
    { apply Zceil_floor_neq. lra. }
    destruct (Rcompare_spec (e - IZR (Zfloor e)) (/ 2)); try exact C. lra.
  - unfold Znearest. rewrite Rcompare_Lt by lra. reflexivity.
Qed.

(** Cases of the normalisation as inequalities. *)
Ltac norm_cases b e :=
  let E := fresh in
  pose proof (Zfloor_lb b); pose proof (Zfloor_ub b); pose proof (Zfloor_lb e); pose proof (Zfloor_ub e).

Lemma axis_first b e t r k : 0 <= b -> b <= e -> 0 <= t <= 1 / 4 -> (0 <= k)%Z -> b <= IZR k + 1 / 2 ->
  (Zfloor b < Zfloor e)%Z -> (fst (norm_spec b e t 0 r) <= k)%Z.
Proof.
  intros B0 BE T K0 BK FL. destruct (mid_bounds t T) as (M1 & _).
  unfold norm_spec. replace (Zfloor e - Zfloor b =? 0)%Z with false by lia. cbn [fst].
  destruct (Rle_bool_spec b (IZR 0)); [exact K0|].
  pose proof (Zfloor_lb b). pose proof (Zfloor_ub b).
  destruct (Rle_bool_spec (b - IZR (Zfloor b)) (rnd (1 / 2 + t))).
  - apply lt_1_IZR. lra.
  - apply lt_1_IZR. rewrite plus_IZR. lra.
Qed.

Lemma axis_centre b e t r k : 0 <= b -> b <= e -> 0 <= t <= 1 / 4 -> (0 <= k < r)%Z ->
  b <= IZR k + 1 / 2 <= e -> axis (norm_spec b e t 0 (r - 1)) r k = true.
Proof.
  intros B0 BE T K0 (BK & KE). destruct (mid_bounds t T) as (M1 & M2).
  pose proof (Zfloor_lb b). pose proof (Zfloor_ub b). pose proof (Zfloor_lb e). pose proof (Zfloor_ub e).
  pose proof (Zfloor_le b e BE) as FF.
  assert (A : (fst (norm_spec b e t 0 (r - 1)) <= k)%Z /\ (k <= snd (norm_spec b e t 0 (r - 1)))%Z).
  { destruct (Z.eq_dec (Zfloor e) (Zfloor b)) as [Q|Q].
    - assert (KK : k = Zfloor b).
      { rewrite Q in *. assert (k <= Zfloor b)%Z by (apply lt_1_IZR; lra).
        assert (Zfloor b <= k)%Z by (apply lt_1_IZR; lra). lia. }
      unfold norm_spec. replace (Zfloor e - Zfloor b =? 0)%Z with true by lia.
      rewrite Rle_bool_true by (subst k; lra). rewrite Rle_bool_true by (rewrite Q; subst k; lra). cbn [andb fst snd]. lia.
    - split; [apply axis_first; try assumption; try lra; lia|].
      unfold norm_spec. replace (Zfloor e - Zfloor b =? 0)%Z with false by lia. cbn [snd].
      destruct (Rle_bool_spec (IZR (r - 1)) e) as [R1|R1]; [lia|].
      rewrite ZnearestA_pos by lra.
      destruct (Rle_bool_spec (rnd (1 / 2 - t)) (e - IZR (Zfloor e))).
      + destruct (Rle_bool_spec (1 / 2) (e - IZR (Zfloor e))); apply lt_1_IZR; rewrite ?plus_IZR; lra.
      + apply lt_1_IZR. rewrite minus_IZR. lra. }
  unfold axis. lia.
Qed.

Lemma axis_near b e t r k : 0 <= b -> b <= e -> 0 <= t <= 1 / 4 -> (1 <= r)%Z ->
  axis (norm_spec b e t 0 (r - 1)) r k = true -> (0 <= k < r)%Z /\ b <= IZR k + 1 / 2 + 2 * t /\ IZR k + 1 / 2 <= e + 1.
Proof.
  intros B0 BE T R0 A. destruct (mid_bounds t T) as (M1 & M2).
  pose proof (Zfloor_lb b). pose proof (Zfloor_ub b). pose proof (Zfloor_lb e). pose proof (Zfloor_ub e).
  pose proof (Zfloor_le b e BE) as FF. pose proof (floor_nonneg b B0) as F0.
  assert (A' : (fst (norm_spec b e t 0 (r - 1)) <= k /\ k <= snd (norm_spec b e t 0 (r - 1)) /\ k < r)%Z) by (unfold axis in A; lia).
  clear A. destruct A' as (A1 & A2 & A3). unfold norm_spec in *.
  destruct (Z.eq_dec (Zfloor e) (Zfloor b)) as [Q|Q].
  - replace (Zfloor e - Zfloor b =? 0)%Z with true in * by lia.
    destruct (Rle_bool_spec (b - IZR (Zfloor b)) (rnd (1 / 2 + t))), (Rle_bool_spec (rnd (1 / 2 - t)) (e - IZR (Zfloor e)));
      cbn [andb fst snd] in *; try (exfalso; lia).
    assert (k = Zfloor b) by lia. subst k. rewrite Q in *. split; [lia|]. lra.
  - replace (Zfloor e - Zfloor b =? 0)%Z with false in * by lia. cbn [fst snd] in *.
    assert (L : (0 <= k)%Z /\ b <= IZR k + 1 / 2 + 2 * t).
    { destruct (Rle_bool_spec b (IZR 0)).
      - split; [lia|]. apply IZR_le in A1. lra.
      - destruct (Rle_bool_spec (b - IZR (Zfloor b)) (rnd (1 / 2 + t))).
        + apply IZR_le in A1 as A1'. split; [lia|lra].
        + apply IZR_le in A1 as A1'. rewrite plus_IZR in A1'. split; [lia|lra]. }
    split; [lia|]. split; [apply L|].
    destruct (Rle_bool_spec (IZR (r - 1)) e).
    + apply IZR_le in A2. lra.
    + rewrite ZnearestA_pos in A2 by lra.
      destruct (Rle_bool_spec (rnd (1 / 2 - t)) (e - IZR (Zfloor e))).
      * destruct (Rle_bool_spec (1 / 2) (e - IZR (Zfloor e))); apply IZR_le in A2; rewrite ?plus_IZR in A2; lra.
      * apply IZR_le in A2. rewrite minus_IZR in A2. lra.
Qed.

Lemma axis_overshoot b e t r k : 0 <= b -> b <= e -> 0 <= t <= 1 / 4 -> (0 <= k < r)%Z ->
  b <= IZR k + 1 / 2 -> e + 2 * t < IZR k + 1 / 2 ->
  (axis (norm_spec b e t 0 (r - 1)) r k = true <->
   (Zfloor b < Zfloor e)%Z /\
   (k = (Zfloor e + 1)%Z /\ 1 / 2 <= e - IZR (Zfloor e) \/ k = (r - 1)%Z /\ IZR (r - 1) <= e)).
Proof.
  intros B0 BE T K0 BK KE. destruct (mid_bounds t T) as (M1 & M2).
  pose proof (Zfloor_lb b). pose proof (Zfloor_ub b). pose proof (Zfloor_lb e). pose proof (Zfloor_ub e).
  pose proof (Zfloor_le b e BE) as FF. pose proof (floor_nonneg b B0) as F0.
  destruct (Z.eq_dec (Zfloor e) (Zfloor b)) as [Q|Q].
  - split; [|lia]. intros A. exfalso. unfold axis, norm_spec in A.
    replace (Zfloor e - Zfloor b =? 0)%Z with true in * by lia.
    destruct (Rle_bool_spec (b - IZR (Zfloor b)) (rnd (1 / 2 + t))), (Rle_bool_spec (rnd (1 / 2 - t)) (e - IZR (Zfloor e)));
      cbn [andb fst snd] in *; try lia.
    assert (k = Zfloor b) by lia. subst k. rewrite Q in *. lra.
  - assert (FL : (Zfloor b < Zfloor e)%Z) by lia.
    pose proof (axis_first b e t (r - 1) k B0 BE T ltac:(lia) BK FL) as A1.
    assert (AX : axis (norm_spec b e t 0 (r - 1)) r k = true <-> (k <= snd (norm_spec b e t 0 (r - 1)))%Z) by (unfold axis; lia).
    rewrite AX. clear AX A1. unfold norm_spec. replace (Zfloor e - Zfloor b =? 0)%Z with false by lia. cbn [snd].
    destruct (Rle_bool_spec (IZR (r - 1)) e) as [R1|R1].
    + split.
      * intros A. split; [exact FL|]. right. split; [|exact R1].
        assert (r - 1 <= k)%Z; [|lia].
        (* k + 1/2 > e >= r - 1 *)
        apply lt_1_IZR. lra.
      * intros _. lia.
    + rewrite ZnearestA_pos by lra. split.
      * intros A. split; [exact FL|]. left.
        destruct (Rle_bool_spec (rnd (1 / 2 - t)) (e - IZR (Zfloor e))) as [P|P].
        -- destruct (Rle_bool_spec (1 / 2) (e - IZR (Zfloor e))) as [P2|P2].
           ++ split; [|exact P2]. assert (Zfloor e + 1 <= k)%Z; [|lia].
              apply lt_1_IZR. rewrite plus_IZR. assert (Zfloor e < k)%Z; [|apply IZR_lt_1 in H3; lra].
              apply lt_IZR. destruct (Z_le_gt_dec k (Zfloor e)) as [Z|Z]; [apply IZR_le in Z; lra|apply IZR_lt; lia].
           ++ exfalso. apply IZR_le in A. lra.
        -- exfalso. apply IZR_le in A. rewrite minus_IZR in A. lra.
      * intros (_ & [(K & P)|(K & P)]).
        -- destruct (Rle_bool_spec (rnd (1 / 2 - t)) (e - IZR (Zfloor e))); [|lra].
           rewrite Rle_bool_true by exact P. lia.
        -- lra.
Qed.
