(** Lemmas about zonding: the floating-point part. *)
From Coq Require Import Reals Lra.
From Flocq Require Import Core IEEE754.BinarySingleNaN.
From Verif Require Import Prelude P_Prelude M_Double S_Double P_Double P_Round M_LayoutData M_Loop P_Loop M_Vector2D M_BitMatrix S_Matrix P_BitMatrix
  M_Zond S_Zond P_Zond.
Local Open Scope R_scope.

Lemma half_format z : (Z.abs z < 2 ^ 53)%Z -> format (IZR z / 2).
Proof.
  intros H. apply generic_format_FLT. exists (Float radix2 z (-1)).
  - unfold F2R. cbn [Fnum Fexp]. change (bpow radix2 (-1)) with (/ 2). reflexivity.
  - cbn [Fnum]. exact H.
  - cbn [Fexp]. lia.
Qed.

Lemma mid_real : real (dlit 1 2) (1 / 2).
Proof.
  destruct (dlit_ok 1 2 ltac:(lia) ltac:(lia)) as (F & E). split; [exact F|].
  rewrite E. apply rnd_exact. apply half_format. lia.
Qed.

Lemma d0_real : real (dz 0) 0.
Proof. apply (dz_exact 0). lia. Qed.

Lemma p64 r : Rabs r <= 4 -> Rabs r <= IZR (2 ^ 64).
Proof. intros H. apply Rle_trans with (1 := H). apply IZR_le. lia. Qed.

Lemma Rabs_small r c : - c <= r <= c -> Rabs r <= c.
Proof. intros H. unfold Rabs. destruct (Rcase_abs r); lra. Qed.

Lemma Ztrunc_floor_pos r : 0 <= r -> Ztrunc r = Zfloor r.
Proof. apply Ztrunc_floor. Qed.

Lemma floor_nonneg r : 0 <= r -> (0 <= Zfloor r)%Z.
Proof. intros H. apply Zfloor_lub. exact H. Qed.

Lemma floor_lt r n : r < IZR n -> (Zfloor r < n)%Z.
Proof. intros H. apply lt_IZR. apply Rle_lt_trans with (2 := H). apply Zfloor_lb. Qed.

Definition norm_spec (b e t : R) (bf bs : Z) : Z * Z :=
  let kb := Zfloor b in
  let ke := Zfloor e in
  let fb := b - IZR kb in
  let fe := e - IZR ke in
  if (ke - kb =? 0)%Z then
    if Rle_bool fb (rnd (1 / 2 + t)) && Rle_bool (rnd (1 / 2 - t)) fe then (kb, kb) else (1, 0)%Z
  else
    (if Rle_bool b (IZR bf) then bf else if Rle_bool fb (rnd (1 / 2 + t)) then kb else (kb + 1)%Z,
     if Rle_bool (IZR bs) e then bs else if Rle_bool (rnd (1 / 2 - t)) fe then ZnearestA e else (ke - 1)%Z).

Lemma frac_real B b : real B b -> 0 <= b -> b < IZR (2 ^ 31) -> real (dsub B (dtrunc B)) (b - IZR (Zfloor b)).
Proof.
  intros HB H0 H1. pose proof (Zfloor_lb b). pose proof (Zfloor_ub b).
  pose proof (dtrunc_ok B b HB) as T. rewrite Ztrunc_floor_pos in T by exact H0.
  destruct (dsub_ok B (dtrunc B) b (IZR (Zfloor b)) HB T) as (F & E).
  - apply p64. apply Rabs_small. lra.
  - split; [exact F|]. rewrite E. apply rnd_exact. apply frac_format; [|exact H0].
    destruct HB as (_ & <-). apply B2R_format.
Qed.

Lemma ZnearestA_range e n : 0 <= e -> e < IZR n -> (0 <= ZnearestA e <= n)%Z.
Proof.
  intros H0 H1. unfold Znearest. pose proof (floor_nonneg e H0). pose proof (floor_lt e n H1).
  assert (Zceil e <= n)%Z by (apply Zceil_glb; lra).
  assert (0 <= Zceil e)%Z.
  { apply le_IZR. apply Rle_trans with (1 := H0). apply Zceil_ub. }
  destruct (Rcompare _ _); try (split; lia). destruct (Z.leb _ _); split; lia.
Qed.

Lemma NormPair_ok B E D Ep b e d t bf bs :
  real B b -> real E e -> real D d -> real (dmul Ep D) t ->
  0 <= b -> b <= e -> e < IZR (2 ^ 31) -> 0 < d -> 0 <= t <= 1 / 2 ->
  (0 <= bf <= 2 ^ 53)%Z -> (0 <= bs <= 2 ^ 53)%Z ->
  NormPair B E D Ep bf bs = Ok (norm_spec b e t bf bs).
Proof.
  intros HB HE HD HT B0 BE E1 D0 T0 Hbf Hbs. unfold NormPair.
  rewrite (dgt_ok _ _ _ _ d0_real HB), (dgt_ok _ _ _ _ d0_real HE), (dlt_ok _ _ _ _ HE HB),
    (dge_ok _ _ _ _ d0_real HD).
  rewrite !Rlt_bool_false by lra. rewrite Rle_bool_false by lra. cbn [orb].
  assert (FB : real (dsub B (dtrunc B)) (b - IZR (Zfloor b))) by (apply frac_real; [exact HB|lra|lra]).
  assert (FE : real (dsub E (dtrunc E)) (e - IZR (Zfloor e))) by (apply frac_real; [exact HE|lra|lra]).
  assert (MP : real (dadd (dlit 1 2) (dmul Ep D)) (rnd (1 / 2 + t))).
  { apply nearest_real, dadd_ok; [apply mid_real|exact HT|]. apply p64, Rabs_small. lra. }
  assert (MM : real (dsub (dlit 1 2) (dmul Ep D)) (rnd (1 / 2 - t))).
  { apply nearest_real, dsub_ok; [apply mid_real|exact HT|]. apply p64, Rabs_small. lra. }
  pose proof (floor_nonneg b B0) as KB0. pose proof (floor_nonneg e ltac:(lra)) as KE0.
  pose proof (floor_lt e _ E1) as KE1. pose proof (floor_lt b _ (Rle_lt_trans _ _ _ BE E1)) as KB1.
  pose proof (Zfloor_le b e BE) as KBE.
  unfold cast_int32. rewrite (dcast_ok _ _ _ _ HE), (dcast_ok _ _ _ _ HB).
  rewrite !Ztrunc_floor_pos by lra.
  replace ((_ <=? Zfloor e) && _)%Z with true by lia. replace ((_ <=? Zfloor b) && _)%Z with true by lia.
  cbn [bind]. rewrite sub32_ok by (unfold int32; lia). cbn [bind].
  unfold cast_size.
  rewrite (dcast_ok _ _ _ _ HB), (dcast_ok _ _ _ _ HE), (dcast_ok _ _ _ _ (dround_ok _ _ HE)).
  rewrite Ztrunc_IZR, (Ztrunc_floor_pos b B0), (Ztrunc_floor_pos e) by lra.
  pose proof (ZnearestA_range e _ ltac:(lra) E1) as ZA.
  replace ((_ <=? Zfloor e) && _)%Z with true by lia. replace ((_ <=? Zfloor b) && _)%Z with true by lia.
  replace ((_ <=? ZnearestA e) && _)%Z with true by lia. cbn [bind].
  unfold norm_spec.
  rewrite (dge_ok _ _ _ _ FB MM), (dle_ok _ _ _ _ FB MP), (dge_ok _ _ _ _ FE MM), (dle_ok _ _ _ _ FE MP),
    (dge_ok _ _ _ _ MP FB), (dle_ok _ _ _ _ MM FE),
    (dle_ok _ _ _ _ HB (dz_exact bf ltac:(lia))), (dge_ok _ _ _ _ HE (dz_exact bs ltac:(lia))).
  destruct (Zfloor e - Zfloor b =? 0)%Z eqn:K.
  - assert (KK : Zfloor e = Zfloor b) by lia. rewrite KK in *.
    set (x := b - IZR (Zfloor b)) in *. set (y := e - IZR (Zfloor b)) in *.
    assert (XY : x <= y) by (unfold x, y; lra).
    destruct (Rle_bool_spec x (rnd (1 / 2 + t))) as [P1|P1], (Rle_bool_spec (rnd (1 / 2 - t)) y) as [P2|P2];
      cbn [andb orb]; rewrite ?orb_true_r, ?andb_false_r, ?andb_true_r, ?orb_false_r; try reflexivity.
    + rewrite (Rle_bool_false _ x) by lra. reflexivity.
    + rewrite (Rle_bool_false y) by lra. reflexivity.
  - rewrite !to_size_small by lia. 
    destruct (Rle_bool b (IZR bf)); cbn [bind].
    + destruct (Rle_bool (IZR bs) e); cbn [bind]; [reflexivity|]. destruct (Rle_bool (rnd (1 / 2 - t)) _); reflexivity.
    + destruct (Rle_bool (b - _) _); cbn [bind];
      (destruct (Rle_bool (IZR bs) e); cbn [bind]; [reflexivity|]; destruct (Rle_bool (rnd (1 / 2 - t)) _); reflexivity).
Qed.

(** NormPair throws as soon as one end is left of the workspace *)
Lemma NormPair_neg B E D Ep b e bf bs : real B b -> real E e -> b < 0 \/ e < 0 \/ e < b ->
  NormPair B E D Ep bf bs = Throw InvalidArgument.
Proof.
  intros HB HE H. unfold NormPair.
  rewrite (dgt_ok _ _ _ _ d0_real HB), (dgt_ok _ _ _ _ d0_real HE), (dlt_ok _ _ _ _ HE HB).
  destruct H as [H|[H|H]].
  - rewrite (Rlt_bool_true b 0) by lra. reflexivity.
  - rewrite (Rlt_bool_true e 0) by lra. rewrite orb_true_r. reflexivity.
  - rewrite (Rlt_bool_true e b) by lra. destruct (_ || _); reflexivity.
Qed.

(** the index values *)
Lemma IZR32 z : int32 z -> - IZR (2 ^ 31) <= IZR z < IZR (2 ^ 31).
Proof. unfold int32. intros H. rewrite <- opp_IZR. split; [apply IZR_le|apply IZR_lt]; lia. Qed.

Lemma position_sign d q : 0 < q -> (0 <= d)%Z -> 0 <= position d q.
Proof.
  intros Q D. unfold position. rewrite <- rnd_0. apply rnd_le. apply Rmult_le_pos; [now apply IZR_le|].
  left. now apply Rinv_0_lt_compat.
Qed.

Lemma position_mono a b q : 0 < q -> (a <= b)%Z -> position a q <= position b q.
Proof.
  intros Q D. unfold position. apply rnd_le. apply Rmult_le_compat_r; [|now apply IZR_le].
  left. now apply Rinv_0_lt_compat.
Qed.

Lemma position_neg d q : 0 < q -> q <= IZR (2 ^ 60) -> (d < 0)%Z -> position d q < 0.
Proof.
  intros Q Q1 D. unfold position.
  assert (F : format (- / IZR (2 ^ 60))).
  { apply format_opp. apply generic_format_FLT. exists (Float radix2 1 (-60)).
    - unfold F2R. cbn [Fnum Fexp]. rewrite Rmult_1_l. reflexivity.
    - cbn. lia.
    - cbn [Fexp]. lia. }
  assert (P : 0 < / IZR (2 ^ 60)) by (apply Rinv_0_lt_compat, IZR_lt; lia).
  apply Rle_lt_trans with (- / IZR (2 ^ 60)); [|lra].
  apply rnd_le_f; [exact F|].
  assert (I : / IZR (2 ^ 60) <= / q) by (apply Rinv_le; lra).
  assert (IZR d <= -1) by (apply IZR_le; lia).
  unfold Rdiv. assert (0 < / q) by lra. nra.
Qed.

(** The position of a coordinate is computed without overflow when it is below 2^31 cells. *)
Lemma position_real d x q : real x q -> 0 < q -> int32 d -> Rabs (IZR d / q) <= IZR (2 ^ 64) ->
  real (ddiv (dz d) x) (position d q).
Proof.
  intros HX Q D H. apply nearest_real. apply ddiv_ok; [|exact HX|lra|exact H].
  apply dz_exact. unfold int32 in D. lia.
Qed.

(** The test for a covering rectangle. *)
Definition le_up (c a q p : R) : Prop := c <= rnd (rnd (a + rnd (q / 2)) - p).
Definition ge_down (c a q p : R) : Prop := rnd (rnd (a - rnd (q / 2)) + p) <= c.

Lemma rnd_bound r n : (0 <= n <= 64)%Z -> Rabs r <= IZR (2 ^ n) -> Rabs (rnd r) <= IZR (2 ^ n).
Proof.
  intros Hn H. assert (F : format (IZR (2 ^ n))).
  { apply generic_format_FLT. exists (Float radix2 1 n).
    - unfold F2R. cbn [Fnum Fexp]. rewrite <- IZR_Zpower by lia. change (Zpower radix2 n) with (2 ^ n)%Z. ring.
    - cbn. lia.
    - cbn [Fexp]. lia. }
  apply Rabs_le_inv in H. apply Rabs_le. split.
  - apply rnd_ge; [now apply format_opp|lra].
  - apply rnd_le_f; [exact F|lra].
Qed.

Lemma half_real x q : real x q -> 0 <= q <= IZR (2 ^ 60) -> real (ddiv x (dz 2)) (rnd (q / 2)).
Proof.
  intros HX H. apply nearest_real. apply ddiv_ok; [exact HX|apply dz_exact; lia|lra|].
  apply Rabs_small. assert (IZR (2 ^ 60) <= IZR (2 ^ 64)) by (apply IZR_le; lia). lra.
Qed.

Lemma cover_up a x q eps e : int32 a -> real x q -> 0 <= q <= IZR (2 ^ 60) -> real eps e -> 0 <= e <= 1 ->
  real (dsub (dadd (dz a) (ddiv x (dz 2))) (dmul x eps)) (rnd (rnd (IZR a + rnd (q / 2)) - rnd (q * e))) /\
  real (dadd (dsub (dz a) (ddiv x (dz 2))) (dmul x eps)) (rnd (rnd (IZR a - rnd (q / 2)) + rnd (q * e))).
Proof.
  intros Ha Hx Hq He Ee.
  pose proof (half_real x q Hx Hq) as HH.
  assert (B60 : IZR (2 ^ 60) <= IZR (2 ^ 62)) by (apply IZR_le; lia).
  assert (P : real (dmul x eps) (rnd (q * e))).
  { apply nearest_real. apply dmul_ok; try assumption. apply Rabs_small.
    assert (IZR (2 ^ 60) <= IZR (2 ^ 64)) by (apply IZR_le; lia). nra. }
  assert (HB : Rabs (rnd (q / 2)) <= IZR (2 ^ 60)) by (apply rnd_bound; [lia|]; apply Rabs_small; lra).
  assert (PB : Rabs (rnd (q * e)) <= IZR (2 ^ 60)) by (apply rnd_bound; [lia|]; apply Rabs_small; nra).
  pose proof (IZR32 a Ha) as A32.
  assert (A60 : IZR (2 ^ 31) <= IZR (2 ^ 60)) by (apply IZR_le; lia).
  apply Rabs_le_inv in HB. apply Rabs_le_inv in PB.
  assert (E61 : IZR (2 ^ 61) = 2 * IZR (2 ^ 60)) by (rewrite <- mult_IZR; reflexivity).
  assert (E64 : IZR (2 ^ 64) = 16 * IZR (2 ^ 60)) by (rewrite <- mult_IZR; reflexivity).
  assert (HZ : real (dz a) (IZR a)) by (apply dz_exact; unfold int32 in Ha; lia).
  assert (S1 : Rabs (rnd (IZR a + rnd (q / 2))) <= IZR (2 ^ 61)) by (apply rnd_bound; [lia|]; apply Rabs_small; lra).
  assert (S2 : Rabs (rnd (IZR a - rnd (q / 2))) <= IZR (2 ^ 61)) by (apply rnd_bound; [lia|]; apply Rabs_small; lra).
  apply Rabs_le_inv in S1. apply Rabs_le_inv in S2.
  split; apply nearest_real.
  - apply dsub_ok; [|exact P|apply Rabs_small; lra].
    apply nearest_real. apply dadd_ok; [exact HZ|exact HH|apply Rabs_small; lra].
  - apply dadd_ok; [|exact P|apply Rabs_small; lra].
    apply nearest_real. apply dsub_ok; [exact HZ|exact HH|apply Rabs_small; lra].
Qed.

Lemma covers_test_ok z lt rb qx qy e : ws32 (angleCoords z) -> coord32 lt -> coord32 rb ->
  real (dx z) qx -> 0 <= qx <= IZR (2 ^ 60) -> real (dy z) qy -> 0 <= qy <= IZR (2 ^ 60) ->
  real (eps z) e -> 0 <= e <= 1 ->
  let w := angleCoords z in
  covers_test z lt rb = true <->
    (le_up (IZR (cx lt)) (IZR (cx (leftTop w))) qx (rnd (qx * e)) /\
     ge_down (IZR (cx rb)) (IZR (cx (rightBot w))) qx (rnd (qx * e)) /\
     ge_down (IZR (cy lt)) (IZR (cy (leftTop w))) qy (rnd (qy * e)) /\
     le_up (IZR (cy rb)) (IZR (cy (rightBot w))) qy (rnd (qy * e))).
Proof.
  intros ((W1 & W2) & (W3 & W4)) (L1 & L2) (R1 & R2) DX QX DY QY EP EE w. subst w. unfold covers_test. cbv zeta.
  assert (Z32 : forall c, int32 c -> real (dz c) (IZR c)) by (intros c Hc; apply dz_exact; unfold int32 in Hc; lia).
  rewrite (dle_ok _ _ _ _ (Z32 _ L1) (proj1 (cover_up _ _ _ _ _ W1 DX QX EP EE))).
  rewrite (dge_ok _ _ _ _ (Z32 _ R1) (proj2 (cover_up _ _ _ _ _ W3 DX QX EP EE))).
  rewrite (dge_ok _ _ _ _ (Z32 _ L2) (proj2 (cover_up _ _ _ _ _ W2 DY QY EP EE))).
  rewrite (dle_ok _ _ _ _ (Z32 _ R2) (proj1 (cover_up _ _ _ _ _ W4 DY QY EP EE))).
  unfold le_up, ge_down. rewrite !andb_true_iff. split.
  - intros ((H1 & H2) & (H3 & H4)).
    repeat split; match goal with
      | |- ?a <= ?b => destruct (Rle_bool_spec a b); [assumption|discriminate] end.
  - intros (H1 & H2 & H3 & H4). repeat split; apply Rle_bool_true; assumption.
Qed.
