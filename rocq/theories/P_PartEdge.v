(** Lemmas: the edges between fragments. *)
From Coq Require Import Reals Lra Lia.
From Flocq Require Import Core IEEE754.BinarySingleNaN.
From Verif Require Import Prelude P_Prelude M_Double S_Double P_Double M_LayoutData M_Zond P_Round P_ZondReal P_EndToEnd M_Generator M_Partition S_Partition P_Partition.
Local Open Scope R_scope.

Lemma rnd_abs x n : (0 <= n <= 64)%Z -> Rabs x <= IZR (2 ^ n) -> Rabs (rnd x - x) <= u53 * IZR (2 ^ n).
Proof.
  intros Hn H. assert (P : 1 <= IZR (2 ^ n)) by (apply IZR_le; pose proof (Z.pow_pos_nonneg 2 n); lia). pose proof u53_pos as U.
  destruct (Rle_dec (/ IZR (2 ^ 100)) (Rabs x)) as [L|L].
  - eapply Rle_trans; [apply rnd_rel, L|]. apply Rmult_le_compat_l; lra.
  - pose proof (rnd_nearest x 0 (generic_format_0 radix2 fexp)) as N. replace (Rabs (0 - x)) with (Rabs x) in N by (rewrite <- Rabs_Ropp; f_equal; ring).
    assert (/ IZR (2 ^ 100) <= u53) by (apply Rinv_le; [apply IZR_lt; reflexivity|apply IZR_le; discriminate]).
    assert (u53 * 1 <= u53 * IZR (2 ^ n)) by (apply Rmult_le_compat_l; lra). lra.
Qed.

Lemma trunc_close v : Rabs (IZR (Ztrunc v) - v) < 1.
Proof.
  destruct (Rle_dec 0 v) as [L|L].
  - rewrite Ztrunc_floor by exact L. pose proof (Zfloor_lb v). pose proof (Zfloor_ub v). apply Rabs_lt. lra.
  - rewrite Ztrunc_ceil by lra. pose proof (Zceil_ub v). pose proof (Zceil_lb v). apply Rabs_lt. lra.
Qed.

Lemma trunc_range v : IZR (- 2 ^ 31 - 1) < v < IZR (2 ^ 31) -> (- 2 ^ 31 <= Ztrunc v <= 2 ^ 31 - 1)%Z.
Proof.
  intros (A & B). destruct (Rle_dec 0 v) as [L|L].
  - rewrite Ztrunc_floor by exact L. pose proof (Zfloor_lb v) as Q. assert (IZR (Zfloor v) < IZR (2 ^ 31)) as Q' by lra. apply lt_IZR in Q'.
    assert (0 <= Zfloor v)%Z by (apply Zfloor_lub; exact L). lia.
  - rewrite Ztrunc_ceil by lra. pose proof (Zceil_ub v) as Q. assert (IZR (- 2 ^ 31 - 1) < IZR (Zceil v)) as Q' by lra. apply lt_IZR in Q'.
    assert (Zceil v <= 0)%Z by (apply Zceil_glb; lra). lia.
Qed.

(** The k-th edge, before truncation, is where it should be but for 2^-19. *)
Lemma edge_close a W c k d : (Z.abs a <= 2 ^ 31)%Z -> (0 <= W < 2 ^ 31)%Z -> (1 <= c < 2 ^ 31)%Z -> (0 <= k <= c)%Z ->
  d = rnd (IZR W / IZR c) ->
  Rabs (IZR k * d) <= IZR (2 ^ 32) /\ Rabs (IZR a + rnd (IZR k * d)) <= IZR (2 ^ 33) /\ 0 <= d /\
  Rabs (rnd (IZR a + rnd (IZR k * d)) - (IZR a + IZR k * IZR W / IZR c)) <= / IZR (2 ^ 19).
Proof.
  intros Ha HW Hc Hk ->. set (q := IZR W / IZR c).
  assert (C1 : 1 <= IZR c) by (apply IZR_le; lia). assert (W1 : 0 <= IZR W <= IZR (2 ^ 31)) by (split; apply IZR_le; lia).
  assert (K1 : 0 <= IZR k <= IZR c) by (split; apply IZR_le; lia).
  assert (A1 : Rabs (IZR a) <= IZR (2 ^ 31)) by (rewrite <- abs_IZR; apply IZR_le; lia).
  assert (Q0 : 0 <= q) by (apply Rmult_le_pos; [lra|left; apply Rinv_0_lt_compat; lra]).
  assert (Q1 : IZR c * q = IZR W) by (unfold q; field; lra).
  assert (KQ : 0 <= IZR k * q <= IZR W) by (split; [apply Rmult_le_pos; lra|rewrite <- Q1; apply Rmult_le_compat_r; lra]).
  pose proof u53_pos as U.
  assert (D : Rabs (rnd q - q) <= u53 * q).
  { destruct (Z.eq_dec W 0) as [->|N]; [unfold q, Rdiv; rewrite Rmult_0_l, rnd_0, Rmult_0_r, Rminus_0_r, Rabs_R0; lra|].
    assert (1 <= IZR W) by (apply IZR_le; lia).
    assert (/ IZR (2 ^ 100) <= q).
    { unfold q, Rdiv. assert (/ IZR (2 ^ 100) <= / IZR c) by (apply Rinv_le; [lra|apply IZR_le; lia]).
      assert (0 < / IZR c) by (apply Rinv_0_lt_compat; lra). nra. }
    pose proof (rnd_rel q) as R. rewrite (Rabs_pos_eq q) in R by exact Q0. apply R. assumption. }
  assert (D' : 0 <= rnd q) by (rewrite <- rnd_0; apply rnd_le, Q0).
  assert (E1 : Rabs (IZR k * rnd q - IZR k * q) <= u53 * IZR (2 ^ 31)).
  { replace (IZR k * rnd q - IZR k * q) with (IZR k * (rnd q - q)) by ring. rewrite Rabs_mult, (Rabs_pos_eq (IZR k)) by lra.
    apply Rle_trans with (IZR k * (u53 * q)); [apply Rmult_le_compat_l; lra|].
    replace (IZR k * (u53 * q)) with (u53 * (IZR k * q)) by ring. apply Rmult_le_compat_l; lra. }
  assert (P31 : u53 * IZR (2 ^ 31) = / IZR (2 ^ 22)). { unfold u53. change (2 ^ 53)%Z with (2 ^ 22 * 2 ^ 31)%Z. rewrite mult_IZR. field. split; apply IZR_neq; discriminate. }
  assert (P32 : u53 * IZR (2 ^ 32) = / IZR (2 ^ 21)). { unfold u53. change (2 ^ 53)%Z with (2 ^ 21 * 2 ^ 32)%Z. rewrite mult_IZR. field. split; apply IZR_neq; discriminate. }
  assert (P33 : u53 * IZR (2 ^ 33) = / IZR (2 ^ 20)). { unfold u53. change (2 ^ 53)%Z with (2 ^ 20 * 2 ^ 33)%Z. rewrite mult_IZR. field. split; apply IZR_neq; discriminate. }
  assert (T : / IZR (2 ^ 22) + / IZR (2 ^ 21) + / IZR (2 ^ 20) <= / IZR (2 ^ 19)).
  { change (2 ^ 19)%Z with 524288%Z. change (2 ^ 20)%Z with 1048576%Z. change (2 ^ 21)%Z with 2097152%Z. change (2 ^ 22)%Z with 4194304%Z. lra. }
  assert (S22 : / IZR (2 ^ 22) <= 1) by (change (2 ^ 22)%Z with 4194304%Z; lra). assert (S21 : / IZR (2 ^ 21) <= 1) by (change (2 ^ 21)%Z with 2097152%Z; lra).
  assert (V31 : IZR (2 ^ 31) = 2147483648) by reflexivity. assert (V32 : IZR (2 ^ 32) = 4294967296) by reflexivity. assert (V33 : IZR (2 ^ 33) = 8589934592) by reflexivity.
  assert (B1 : Rabs (IZR k * rnd q) <= IZR (2 ^ 32)). { apply Rabs_le_inv in E1. apply Rabs_le. lra. }
  pose proof (rnd_abs (IZR k * rnd q) 32 ltac:(lia) B1) as E2.
  assert (B2 : Rabs (IZR a + rnd (IZR k * rnd q)) <= IZR (2 ^ 33)).
  { apply Rabs_le_inv in E1. apply Rabs_le_inv in E2. apply Rabs_le_inv in A1. apply Rabs_le. lra. }
  pose proof (rnd_abs (IZR a + rnd (IZR k * rnd q)) 33 ltac:(lia) B2) as E3.
  split; [exact B1|]. split; [exact B2|]. split; [exact D'|].
  replace (IZR k * IZR W / IZR c) with (IZR k * q) by (unfold q, Rdiv; ring).
  apply Rabs_le_inv in E1. apply Rabs_le_inv in E2. apply Rabs_le_inv in E3. apply Rabs_le. lra.
Qed.

Definition edge (a : Z) (d : R) (k : nat) : Z := Ztrunc (rnd (IZR a + rnd (IZR (Z.of_nat k) * d))).

Lemma edge_mono a d k : 0 <= d -> (edge a d k <= edge a d (S k))%Z.
Proof.
  intros H. unfold edge. apply Ztrunc_le, rnd_le. apply Rplus_le_compat_l, rnd_le, Rmult_le_compat_r; [exact H|]. apply IZR_le. lia.
Qed.

Lemma edge_zero a d : (Z.abs a <= 2 ^ 53)%Z -> edge a d 0 = a.
Proof.
  intros H. unfold edge. change (IZR (Z.of_nat 0)) with 0. rewrite Rmult_0_l, rnd_0, Rplus_0_r, rnd_exact by (apply int_format; exact H). apply Ztrunc_IZR.
Qed.

Lemma edge_near a W c d k : (Z.abs a <= 2 ^ 31)%Z -> (0 <= W < 2 ^ 31)%Z -> (1 <= c < 2 ^ 31)%Z -> (Z.of_nat k <= c)%Z ->
  d = rnd (IZR W / IZR c) -> Rabs (IZR (edge a d k) - (IZR a + IZR (Z.of_nat k) * IZR W / IZR c)) < 1 + / IZR (2 ^ 19).
Proof.
  intros Ha HW Hc Hk Hd. destruct (edge_close a W c (Z.of_nat k) d Ha HW Hc ltac:(lia) Hd) as (_ & _ & _ & E).
  unfold edge. set (v := rnd (IZR a + rnd (IZR (Z.of_nat k) * d))) in *. pose proof (trunc_close v) as T.
  apply Rabs_le_inv in E. apply Rabs_lt_inv in T. apply Rabs_lt. lra.
Qed.

Lemma edge_last a W c d k : (Z.abs a <= 2 ^ 31)%Z -> (0 <= W < 2 ^ 31)%Z -> (1 <= c < 2 ^ 31)%Z -> Z.of_nat k = c ->
  d = rnd (IZR W / IZR c) -> (Z.abs (edge a d k - (a + W)) <= 1)%Z.
Proof.
  intros Ha HW Hc Hk Hd. pose proof (edge_near a W c d k Ha HW Hc ltac:(lia) Hd) as E. rewrite Hk in E.
  assert (1 <= IZR c) by (apply IZR_le; lia). replace (IZR c * IZR W / IZR c) with (IZR W) in E by (field; lra).
  rewrite <- plus_IZR, <- minus_IZR, <- abs_IZR in E.
  assert (/ IZR (2 ^ 19) < 1) by (change (2 ^ 19)%Z with 524288%Z; lra).
  assert (IZR (Z.abs (edge a d k - (a + W))) < IZR 2) as L by lra. apply lt_IZR in L. lia.
Qed.

(** What the code computes. *)
Lemma edge_x a W c x k d : (Z.abs a <= 2 ^ 31)%Z -> (- 2 ^ 31 <= a)%Z -> (a + W < 2 ^ 31)%Z -> (0 <= W < 2 ^ 31)%Z -> (1 <= c < 2 ^ 31)%Z -> (Z.of_nat k <= c)%Z ->
  d = rnd (IZR W / IZR c) -> real x d -> cast_int32 (dadd (dz a) (dmul (dz (Z.of_nat k)) x)) = Ok (edge a d k).
Proof.
  intros Ha Ha1 Ha2 HW Hc Hk Hd Rx. destruct (edge_close a W c (Z.of_nat k) d Ha HW Hc ltac:(lia) Hd) as (B1 & B2 & D0 & E).
  assert (L32 : IZR (2 ^ 32) <= IZR (2 ^ 64)) by (apply IZR_le; discriminate). assert (L33 : IZR (2 ^ 33) <= IZR (2 ^ 64)) by (apply IZR_le; discriminate).
  assert (R1 : real (dz (Z.of_nat k)) (IZR (Z.of_nat k))) by (apply dz_exact; lia).
  assert (R2 : real (dz a) (IZR a)) by (apply dz_exact; lia).
  pose proof (nearest_real _ _ (dmul_ok _ _ _ _ R1 Rx ltac:(lra))) as R3.
  pose proof (nearest_real _ _ (dadd_ok _ _ _ _ R2 R3 ltac:(lra))) as R4.
  unfold cast_int32. rewrite (dcast_ok _ _ _ _ R4). fold (edge a d k).
  assert (T : (- 2 ^ 31 <= edge a d k <= 2 ^ 31 - 1)%Z).
  { unfold edge. apply trunc_range. assert (1 <= IZR c) by (apply IZR_le; lia). assert (0 <= IZR W) by (apply IZR_le; lia).
    assert (0 <= IZR (Z.of_nat k) <= IZR c) by (split; apply IZR_le; lia).
    assert (KW : 0 <= IZR (Z.of_nat k) * IZR W / IZR c <= IZR W).
    { split; [apply Rmult_le_pos; [apply Rmult_le_pos; lra|left; apply Rinv_0_lt_compat; lra]|].
      apply Rmult_le_reg_r with (IZR c); [lra|]. unfold Rdiv. rewrite Rmult_assoc, Rinv_l, Rmult_1_r by lra. rewrite (Rmult_comm (IZR W)). apply Rmult_le_compat_r; lra. }
    assert (A1 : IZR (- 2 ^ 31) <= IZR a) by (apply IZR_le; lia). assert (A2 : IZR (a + W) <= IZR (2 ^ 31 - 1)) by (apply IZR_le; lia).
    rewrite plus_IZR in A2. change (IZR (- 2 ^ 31)) with (-2147483648) in A1. change (IZR (2 ^ 31 - 1)) with 2147483647 in A2.
    change (IZR (- 2 ^ 31 - 1)) with (-2147483649). change (IZR (2 ^ 31)) with 2147483648.
    assert (/ IZR (2 ^ 19) < 1) by (change (2 ^ 19)%Z with 524288%Z; lra). apply Rabs_le_inv in E. lra. }
  destruct (Z.leb_spec (- 2 ^ 31) (edge a d k)) as [_|Q]; [|lia]. destruct (Z.leb_spec (edge a d k) (2 ^ 31 - 1)) as [_|Q]; [|lia]. reflexivity.
Qed.

Lemma edge_y a H r y k d : (- 2 ^ 31 <= a < 2 ^ 31)%Z -> (- 2 ^ 31 <= a - H)%Z -> (0 <= H < 2 ^ 31)%Z -> (1 <= r < 2 ^ 31)%Z -> (Z.of_nat k <= r)%Z ->
  d = rnd (IZR H / IZR r) -> real y d -> cast_int32 (dsub (dz a) (dmul (dz (Z.of_nat k)) y)) = Ok (- edge (- a) d k)%Z.
Proof.
  intros Ha Ha1 HH Hr Hk Hd Ry. destruct (edge_close (- a) H r (Z.of_nat k) d ltac:(lia) HH Hr ltac:(lia) Hd) as (B1 & B2 & D0 & E).
  assert (L32 : IZR (2 ^ 32) <= IZR (2 ^ 64)) by (apply IZR_le; discriminate). assert (L33 : IZR (2 ^ 33) <= IZR (2 ^ 64)) by (apply IZR_le; discriminate).
  assert (R1 : real (dz (Z.of_nat k)) (IZR (Z.of_nat k))) by (apply dz_exact; lia).
  assert (R2 : real (dz a) (IZR a)) by (apply dz_exact; lia).
  pose proof (nearest_real _ _ (dmul_ok _ _ _ _ R1 Ry ltac:(lra))) as R3.
  assert (O : IZR a - rnd (IZR (Z.of_nat k) * d) = - (IZR (- a) + rnd (IZR (Z.of_nat k) * d))) by (rewrite opp_IZR; ring).
  assert (B3 : Rabs (IZR a - rnd (IZR (Z.of_nat k) * d)) <= IZR (2 ^ 64)) by (rewrite O, Rabs_Ropp; lra).
  pose proof (nearest_real _ _ (dsub_ok _ _ _ _ R2 R3 B3)) as R4.
  unfold cast_int32. rewrite (dcast_ok _ _ _ _ R4). rewrite O, rnd_opp, Ztrunc_opp. fold (edge (- a) d k).
  assert (T : (- 2 ^ 31 <= - edge (- a) d k <= 2 ^ 31 - 1)%Z).
  { unfold edge. rewrite <- Ztrunc_opp. apply trunc_range. assert (1 <= IZR r) by (apply IZR_le; lia). assert (0 <= IZR H) by (apply IZR_le; lia).
    assert (0 <= IZR (Z.of_nat k) <= IZR r) by (split; apply IZR_le; lia).
    assert (KW : 0 <= IZR (Z.of_nat k) * IZR H / IZR r <= IZR H).
    { split; [apply Rmult_le_pos; [apply Rmult_le_pos; lra|left; apply Rinv_0_lt_compat; lra]|].
      apply Rmult_le_reg_r with (IZR r); [lra|]. unfold Rdiv. rewrite Rmult_assoc, Rinv_l, Rmult_1_r by lra. rewrite (Rmult_comm (IZR H)). apply Rmult_le_compat_r; lra. }
    assert (A1 : IZR a <= IZR (2 ^ 31 - 1)) by (apply IZR_le; lia). assert (A2 : IZR (- 2 ^ 31) <= IZR (a - H)) by (apply IZR_le; lia).
    rewrite minus_IZR in A2. rewrite opp_IZR in E |- *. change (IZR (- 2 ^ 31)) with (-2147483648) in A2. change (IZR (2 ^ 31 - 1)) with 2147483647 in A1.
    change (IZR (- 2 ^ 31 - 1)) with (-2147483649). change (IZR (2 ^ 31)) with 2147483648.
    assert (/ IZR (2 ^ 19) < 1) by (change (2 ^ 19)%Z with 524288%Z; lra). apply Rabs_le_inv in E. lra. }
  destruct (Z.leb_spec (- 2 ^ 31) (- edge (- a) d k)) as [_|Q]; [|lia]. destruct (Z.leb_spec (- edge (- a) d k) (2 ^ 31 - 1)) as [_|Q]; [|lia]. reflexivity.
Qed.

(** Integer quotients come out right. *)
Lemma quotient_ok t D : (0 <= t < 2 ^ 31)%Z -> (1 <= D < 2 ^ 31)%Z -> cast_size (ddiv (dz t) (dz D)) = Ok (t / D)%Z.
Proof.
  intros Ht HD. assert (R1 : real (dz t) (IZR t)) by (apply dz_exact; lia). assert (R2 : real (dz D) (IZR D)) by (apply dz_exact; lia).
  assert (D1 : 1 <= IZR D) by (apply IZR_le; lia). assert (T0 : 0 <= IZR t) by (apply IZR_le; lia). set (q := IZR t / IZR D).
  assert (Q0 : 0 <= q) by (apply Rmult_le_pos; [lra|left; apply Rinv_0_lt_compat; lra]).
  assert (QD : q * IZR D = IZR t) by (unfold q; field; lra).
  assert (Qt : q <= IZR t). { rewrite <- QD. rewrite <- (Rmult_1_r q) at 1. apply Rmult_le_compat_l; lra. }
  assert (T1 : IZR t <= IZR (2 ^ 31)) by (apply IZR_le; lia). assert (L : IZR (2 ^ 31) <= IZR (2 ^ 64)) by (apply IZR_le; discriminate).
  assert (R3 : real (ddiv (dz t) (dz D)) (rnd q)). { apply nearest_real, ddiv_ok; [exact R1|exact R2|lra|]. fold q. rewrite Rabs_pos_eq by exact Q0. lra. }
  unfold cast_size. rewrite (dcast_ok _ _ _ _ R3).
  pose proof (Z.div_mod t D ltac:(lia)) as DM. pose proof (Z.mod_pos_bound t D ltac:(lia)) as MB. set (m := (t / D)%Z) in *.
  assert (M0 : (0 <= m < 2 ^ 31)%Z) by (unfold m; split; [apply Z.div_pos; lia|apply Z.div_lt_upper_bound; nia]).
  assert (A : IZR m <= q). { apply Rmult_le_reg_r with (IZR D); [lra|]. rewrite QD, <- mult_IZR. apply IZR_le. nia. }
  assert (B : (IZR m + 1 - q) * IZR D >= 1). { replace ((IZR m + 1 - q) * IZR D) with (IZR m * IZR D + IZR D - q * IZR D) by ring. rewrite QD, <- mult_IZR, <- plus_IZR, <- minus_IZR. apply IZR_ge. nia. }
  assert (E : rnd q < IZR m + 1).
  { pose proof u53_pos as U. destruct (Z.eq_dec t 0) as [->|N]. { unfold q, Rdiv. rewrite Rmult_0_l, rnd_0. assert (0 <= IZR m) by (apply IZR_le; lia). lra. }
    assert (1 <= IZR t) by (apply IZR_le; lia).
    assert (/ IZR (2 ^ 100) <= q).
    { unfold q, Rdiv. assert (/ IZR (2 ^ 100) <= / IZR D) by (apply Rinv_le; [lra|apply IZR_le; lia]). assert (0 < / IZR D) by (apply Rinv_0_lt_compat; lra). nra. }
    pose proof (rnd_rel q) as R. rewrite (Rabs_pos_eq q) in R by exact Q0. specialize (R ltac:(assumption)). apply Rabs_le_inv in R.
    assert (U1 : u53 * IZR t < 1). { unfold u53. apply Rmult_lt_reg_l with (IZR (2 ^ 53)); [apply IZR_lt; reflexivity|]. rewrite <- Rmult_assoc, Rinv_r, Rmult_1_l, Rmult_1_r by (apply IZR_neq; discriminate). apply IZR_lt. lia. }
    assert (U2 : (u53 * q) * IZR D = u53 * IZR t) by (rewrite Rmult_assoc, QD; reflexivity).
    assert (u53 * q < IZR m + 1 - q). { apply Rmult_lt_reg_r with (IZR D); [lra|]. rewrite U2. lra. } lra. }
  assert (F : IZR m <= rnd q) by (rewrite <- (rnd_exact (IZR m)) by (apply int_format; lia); apply rnd_le, A).
  assert (Ztrunc (rnd q) = m) as ->.
  { rewrite Ztrunc_floor by (eapply Rle_trans; [|exact F]; apply IZR_le; lia). apply Zfloor_imp. rewrite plus_IZR. split; assumption. }
  destruct (Z.leb_spec 0 m) as [_|Q]; [|lia]. destruct (Z.leb_spec m (2 ^ 64 - 1)) as [_|Q]; [|lia]. reflexivity.
Qed.
