(** Proofs about M_BitMatrix: every method against the abstract array. *)
From Verif Require Import Prelude P_Prelude M_ByteHandler P_ByteHandler M_Vector2D M_BitMatrix S_Matrix.

Lemma colBytes_cdiv8 J : colBytes J = cdiv8 J.
Proof.
  unfold colBytes, cdiv8, bitsInByte.
  pose proof (Nat.div_mod J 8 ltac:(lia)). pose proof (Nat.mod_upper_bound J 8 ltac:(lia)).
  destruct (J mod 8 =? 0) eqn:E.
  - apply Nat.eqb_eq in E. apply (Nat.div_unique _ _ _ 7); lia.
  - apply Nat.eqb_neq in E. apply (Nat.div_unique _ _ _ (J mod 8 - 1)); lia.
Qed.

Lemma cdiv8_spec J : J <= 8 * cdiv8 J < J + 8.
Proof.
  unfold cdiv8. pose proof (Nat.div_mod (J + 7) 8 ltac:(lia)).
  pose proof (Nat.mod_upper_bound (J + 7) 8 ltac:(lia)). lia.
Qed.

Lemma cdiv8_pos J : 0 < J -> 0 < cdiv8 J.
Proof. pose proof (cdiv8_spec J). lia. Qed.

Lemma cdiv8_lt J j : j < J -> j / 8 < cdiv8 J.
Proof. intro H. pose proof (cdiv8_spec J). apply Nat.div_lt_upper_bound; lia. Qed.

Lemma mod8_lt j : j mod 8 < 8.
Proof. apply Nat.mod_upper_bound. lia. Qed.

Lemma divmod8_eq a b : a / 8 = b / 8 -> a mod 8 = b mod 8 -> a = b.
Proof.
  intros E1 E2. rewrite (Nat.div_mod a 8), (Nat.div_mod b 8) by lia. congruence.
Qed.

(** Raw bit view, padding included. *)
Definition raw (m : bm) (i j : nat) : bool :=
  match UnsafeGet m i j with Ok v => v | _ => false end.

Lemma cell_ok m i k : healthy m -> i < Isize m -> k < cdiv8 (Jsize m) ->
  exists b, cell_ m i k = Ok b.
Proof.
  intros (HL & HF) Hi Hk. unfold cell_.
  destruct (at_lt (Bitmap m) i ltac:(lia)) as (r & Er & Ir). rewrite Er. cbn [bind].
  rewrite Forall_forall in HF. specialize (HF r Ir).
  destruct (at_lt r k ltac:(lia)) as (b & Eb & _). eauto.
Qed.

Lemma UnsafeGet_cell m i j b : cell_ m i (j / 8) = Ok b ->
  UnsafeGet m i j = Ok (Z.testbit (b2z b) (Z.of_nat (7 - j mod 8))).
Proof.
  intro E. unfold UnsafeGet. change bitsInByte with 8. rewrite E. cbn [bind].
  pose proof (mod8_lt j).
  pose proof (GetBit_value b (7 - j mod 8) ltac:(lia)) as G. unfold GetBit in G.
  assert (8 <=? 7 - j mod 8 = false) as F by (apply Nat.leb_gt; lia). rewrite F in G.
  exact G.
Qed.

Lemma UnsafeGet_raw m i j : healthy m -> i < Isize m -> j < 8 * cdiv8 (Jsize m) ->
  UnsafeGet m i j = Ok (raw m i j).
Proof.
  intros H Hi Hj. unfold raw.
  destruct (cell_ok m i (j / 8) H Hi) as (b & E); [apply Nat.div_lt_upper_bound; lia|].
  rewrite (UnsafeGet_cell _ _ _ _ E). reflexivity.
Qed.

Lemma Get_raw m i j : healthy m -> i < Isize m -> j < Jsize m -> Get m i j = Ok (raw m i j).
Proof.
  intros H Hi Hj. unfold Get.
  assert ((Isize m <=? i) || (Jsize m <=? j) = false) as ->
    by (apply orb_false_iff; split; apply Nat.leb_gt; lia).
  rewrite <- UnsafeGet_raw by (assumption || (pose proof (cdiv8_spec (Jsize m)); lia)).
  change bitsInByte with 8.
  destruct (cell_ok m i (j / 8) H Hi (cdiv8_lt _ _ Hj)) as (b & E).
  rewrite (UnsafeGet_cell _ _ _ _ E), E. cbn [bind].
  apply GetBit_value. pose proof (mod8_lt j). lia.
Qed.

Lemma Get_throw m i j : Isize m <= i \/ Jsize m <= j -> Get m i j = Throw RuntimeError.
Proof.
  intro H. unfold Get.
  assert ((Isize m <=? i) || (Jsize m <=? j) = true) as ->; [|reflexivity].
  apply orb_true_iff. rewrite !Nat.leb_le. exact H.
Qed.

(** Writing one byte. *)
Lemma put_cell_ok m i k b : healthy m -> i < Isize m -> k < cdiv8 (Jsize m) ->
  exists m', put_cell_ m i k b = Ok m' /\ healthy m' /\ Isize m' = Isize m /\ Jsize m' = Jsize m /\
    forall a c, raw m' a c =
      if (a =? i) && (c / 8 =? k) then Z.testbit (b2z b) (Z.of_nat (7 - c mod 8)) else raw m a c.
Proof.
  intros (HL & HF) Hi Hk. unfold put_cell_.
  destruct (at_lt (Bitmap m) i ltac:(lia)) as (r & Er & Ir). rewrite Er. cbn [bind].
  assert (length r = cdiv8 (Jsize m)) as Lr by (rewrite Forall_forall in HF; auto).
  rewrite put_lt by lia. cbn [bind]. rewrite put_lt by lia. cbn [bind].
  eexists. split; [reflexivity|].
  split; [|split; [reflexivity|split; [reflexivity|]]].
  - split; cbn [Bitmap Isize Jsize].
    + rewrite upd_length. exact HL.
    + apply Forall_upd; [exact HF|]. rewrite upd_length. exact Lr.
  - intros a c. unfold raw.
    assert (cell_ (mkbm (upd (Bitmap m) i (upd r k b)) (Isize m) (Jsize m)) a (c / 8) =
            if (a =? i) && (c / 8 =? k) then Ok b else cell_ m a (c / 8)) as C.
    { unfold cell_. cbn [Bitmap].
      destruct (a =? i) eqn:Ea.
      - apply Nat.eqb_eq in Ea. subst a. rewrite at_upd_same by lia. rewrite Er. cbn [bind andb].
        destruct (c / 8 =? k) eqn:Ec.
        + apply Nat.eqb_eq in Ec. rewrite Ec. apply at_upd_same. lia.
        + apply Nat.eqb_neq in Ec. apply at_upd_other. exact Ec.
      - apply Nat.eqb_neq in Ea. rewrite at_upd_other by exact Ea. reflexivity. }
    destruct ((a =? i) && (c / 8 =? k)) eqn:E.
    + rewrite (UnsafeGet_cell _ _ _ _ C). reflexivity.
    + unfold UnsafeGet. change bitsInByte with 8. rewrite C. reflexivity.
Qed.

(** Setting one raw bit. *)
Lemma UnsafeSet_ok m i j v : healthy m -> i < Isize m -> j < 8 * cdiv8 (Jsize m) ->
  exists m', UnsafeSet m i j v = Ok m' /\ healthy m' /\ Isize m' = Isize m /\ Jsize m' = Jsize m /\
    forall a c, raw m' a c = if (a =? i) && (c =? j) then v else raw m a c.
Proof.
  intros H Hi Hj.
  assert (j / 8 < cdiv8 (Jsize m)) as Hj8 by (apply Nat.div_lt_upper_bound; lia).
  destruct (cell_ok m i (j / 8) H Hi Hj8) as (b & E).
  unfold UnsafeSet. change bitsInByte with 8. rewrite E. cbn [bind].
  pose proof (mod8_lt j) as Mj.
  change (8 - 1 - j mod 8) with (7 - j mod 8).
  match goal with |- context[put_cell_ m i (j/8) ?x] => set (b' := x) end.
  destruct (put_cell_ok m i (j / 8) b' H Hi Hj8) as (m' & Em & Hm & I1 & I2 & R).
  exists m'. split; [exact Em|]. split; [exact Hm|]. split; [exact I1|]. split; [exact I2|].
  intros a c. rewrite R.
  destruct (a =? i) eqn:Ea; cbn [andb]; [|reflexivity].
  apply Nat.eqb_eq in Ea. subst a.
  pose proof (mod8_lt c) as Mc.
  destruct (c / 8 =? j / 8) eqn:Ec.
  - apply Nat.eqb_eq in Ec. unfold b'.
    rewrite (SetBit_raw b (7 - j mod 8) v (7 - c mod 8)) by lia.
    destruct (c =? j) eqn:Ecj.
    + apply Nat.eqb_eq in Ecj. subst c. rewrite Nat.eqb_refl. reflexivity.
    + apply Nat.eqb_neq in Ecj.
      assert (7 - c mod 8 <> 7 - j mod 8) as N.
      { intro N. apply Ecj. apply divmod8_eq; [exact Ec|lia]. }
      apply Nat.eqb_neq in N. rewrite N. unfold raw.
      rewrite (UnsafeGet_cell m i c b); [reflexivity|]. rewrite Ec. exact E.
  - apply Nat.eqb_neq in Ec.
    assert (c <> j) as N by (intro; subst; contradiction).
    apply Nat.eqb_neq in N. rewrite N. reflexivity.
Qed.

Lemma Set_UnsafeSet m i j v : i < Isize m -> j < Jsize m -> Set_ m i j v = UnsafeSet m i j v.
Proof.
  intros Hi Hj. unfold Set_, UnsafeSet.
  assert ((Isize m <=? i) || (Jsize m <=? j) = false) as ->
    by (apply orb_false_iff; split; apply Nat.leb_gt; lia).
  change bitsInByte with 8. destruct (cell_ m i (j / 8)) as [b| |]; cbn [bind]; try reflexivity.
  unfold SetBit. pose proof (mod8_lt j).
  assert (8 <=? 8 - 1 - j mod 8 = false) as -> by (apply Nat.leb_gt; lia). reflexivity.
Qed.

Lemma Set_ok m i j v : healthy m -> i < Isize m -> j < Jsize m ->
  exists m', Set_ m i j v = Ok m' /\ healthy m' /\ Isize m' = Isize m /\ Jsize m' = Jsize m /\
    forall a c, raw m' a c = if (a =? i) && (c =? j) then v else raw m a c.
Proof.
  intros H Hi Hj. rewrite Set_UnsafeSet by assumption. apply UnsafeSet_ok; try assumption.
  pose proof (cdiv8_spec (Jsize m)). lia.
Qed.

Lemma Set_throw m i j v : Isize m <= i \/ Jsize m <= j -> Set_ m i j v = Throw RuntimeError.
Proof.
  intro H. unfold Set_.
  assert ((Isize m <=? i) || (Jsize m <=? j) = true) as ->; [|reflexivity].
  apply orb_true_iff. rewrite !Nat.leb_le. exact H.
Qed.

(** From the raw view to what callers see. *)
Lemma shows_intro m r c f : healthy m -> Isize m = r -> Jsize m = c ->
  (forall i j, i < r -> j < c -> raw m i j = f i j) -> shows m (mkamat r c f).
Proof.
  intros H <- <- F. repeat split; try apply H; try reflexivity.
  cbn [arows acols acell]. intros i j Hi Hj. rewrite Get_raw by assumption.
  rewrite F by assumption. reflexivity.
Qed.

Lemma shows_elim m A : shows m A -> healthy m /\ Isize m = arows A /\ Jsize m = acols A /\
  forall i j, i < arows A -> j < acols A -> raw m i j = acell A i j.
Proof.
  intros (H & Hr & Hc & G). unfold GetRowCount, GetColumnCount in *.
  repeat split; try apply H; try assumption.
  intros i j Hi Hj. specialize (G i j Hi Hj).
  rewrite Get_raw in G by (assumption || lia). congruence.
Qed.

Lemma shows_self m : healthy m -> shows m (mkamat (Isize m) (Jsize m) (raw m)).
Proof. intro H. apply shows_intro; auto. Qed.

(** Nested counting loops. *)
Lemma for2_inv {S} (I : nat -> nat -> S -> Prop) (f : S -> nat -> nat -> res S) i0 i1 j0 j1 s0 :
  i0 <= i1 -> j0 <= j1 -> I i0 j0 s0 ->
  (forall i s, i0 <= i < i1 -> I i j1 s -> I (i + 1) j0 s) ->
  (forall i j s, i0 <= i < i1 -> j0 <= j < j1 -> I i j s ->
     exists s', f s i j = Ok s' /\ I i (j + 1) s') ->
  exists s, for_each (upto i0 i1) s0 (fun s i => for_each (upto j0 j1) s (fun s j => f s i j)) = Ok s
            /\ I i1 j0 s.
Proof.
  intros Hi Hj H0 Hn Hs.
  apply (for_upto_inv (fun i s => I i j0 s)); [exact Hi|exact H0|].
  intros i s Ri HI.
  destruct (for_upto_inv (fun j s => I i j s) (fun s j => f s i j) j0 j1 s Hj HI) as (s' & E & HI').
  - intros j s' Rj HI'. apply Hs; assumption.
  - exists s'. split; [exact E|]. apply Hn; assumption.
Qed.

(** SetRange on in-range arguments (nat version of the loop). *)
Lemma range_loop m i0 j0 i1 j1 v : healthy m -> i0 <= i1 -> i1 < Isize m -> j0 <= j1 ->
  j1 < 8 * cdiv8 (Jsize m) ->
  exists m', for_each (upto i0 (i1 + 1)) m (fun m i =>
               for_each (upto j0 (j1 + 1)) m (fun m j => UnsafeSet m i j v)) = Ok m' /\
    healthy m' /\ Isize m' = Isize m /\ Jsize m' = Jsize m /\
    forall a c, raw m' a c =
      if (i0 <=? a) && (a <=? i1) && (j0 <=? c) && (c <=? j1) then v else raw m a c.
Proof.
  intros H Hi Hi1 Hj Hj1.
  destruct (for2_inv
    (fun i j s => healthy s /\ Isize s = Isize m /\ Jsize s = Jsize m /\
       forall a c, raw s a c =
         if (i0 <=? a) && (j0 <=? c) && (c <=? j1) && ((a <? i) || ((a =? i) && (c <? j)))
         then v else raw m a c)
    (fun m i j => UnsafeSet m i j v) i0 (i1 + 1) j0 (j1 + 1) m) as (m' & E & HI); try lia.
  - repeat split; try apply H. intros a c.
    destruct ((i0 <=? a) && (j0 <=? c) && (c <=? j1) && ((a <? i0) || (a =? i0) && (c <? j0))) eqn:E;
      [|reflexivity]. exfalso. lia.
  - intros i s Ri (S1 & S2 & S3 & R). repeat split; try apply S1; try assumption.
    intros a c. rewrite R.
    replace ((i0 <=? a) && (j0 <=? c) && (c <=? j1) && ((a <? i + 1) || (a =? i + 1) && (c <? j0)))
      with ((i0 <=? a) && (j0 <=? c) && (c <=? j1) && ((a <? i) || (a =? i) && (c <? j1 + 1)));
      [reflexivity|lia].
  - intros i j s Ri Rj (S1 & S2 & S3 & R).
    destruct (UnsafeSet_ok s i j v S1 ltac:(lia) ltac:(rewrite S3; lia)) as (s' & Es & T1 & T2 & T3 & R').
    exists s'. split; [exact Es|]. repeat split; try apply T1; try congruence.
    intros a c. rewrite R', R.
    destruct ((a =? i) && (c =? j)) eqn:E1.
    + destruct ((i0 <=? a) && (j0 <=? c) && (c <=? j1) && ((a <? i) || (a =? i) && (c <? j + 1))) eqn:E2;
        [reflexivity|exfalso; lia].
    + replace ((i0 <=? a) && (j0 <=? c) && (c <=? j1) && ((a <? i) || (a =? i) && (c <? j + 1)))
        with ((i0 <=? a) && (j0 <=? c) && (c <=? j1) && ((a <? i) || (a =? i) && (c <? j)));
        [reflexivity|lia].
  - exists m'. split; [exact E|]. destruct HI as (S1 & S2 & S3 & R).
    repeat split; try apply S1; try assumption. intros a c. rewrite R.
    replace ((i0 <=? a) && (j0 <=? c) && (c <=? j1) && ((a <? i1 + 1) || (a =? i1 + 1) && (c <? j0)))
      with ((i0 <=? a) && (a <=? i1) && (j0 <=? c) && (c <=? j1)); [reflexivity|lia].
Qed.

Lemma SetRange_loop m i0 j0 i1 j1 v : i0 <= i1 -> i1 <= Isize m -> j0 <= j1 -> j1 <= Jsize m ->
  SetRange m (Z.of_nat i0) (Z.of_nat j0) (Z.of_nat i1) (Z.of_nat j1) v =
  for_each (upto i0 (i1 + 1)) m (fun m i =>
    for_each (upto j0 (j1 + 1)) m (fun m j => UnsafeSet m i j v)).
Proof.
  intros. unfold SetRange.
  assert ((Z.of_nat i1 <? Z.of_nat i0) || (Z.of_nat (Isize m) <? Z.of_nat i1) = false)%Z as -> by lia.
  assert ((Z.of_nat j1 <? Z.of_nat j0) || (Z.of_nat (Jsize m) <? Z.of_nat j1) = false)%Z as -> by lia.
  rewrite !Nat2Z.id. reflexivity.
Qed.

Lemma SetRange_throw m i0 j0 i1 j1 v :
  (i1 < i0 \/ Z.of_nat (Isize m) < i1 \/ j1 < j0 \/ Z.of_nat (Jsize m) < j1)%Z ->
  SetRange m i0 j0 i1 j1 v = Throw RuntimeError.
Proof.
  intro H. unfold SetRange.
  destruct ((i1 <? i0) || (Z.of_nat (Isize m) <? i1))%Z eqn:E; [reflexivity|].
  destruct ((j1 <? j0) || (Z.of_nat (Jsize m) <? j1))%Z eqn:E2; [reflexivity|]. lia.
Qed.

(** A write in the row past the end. *)
Lemma UnsafeSet_row_ub m i j v : healthy m -> Isize m <= i -> UnsafeSet m i j v = UB OobIndex.
Proof.
  intros (HL & _) Hi. unfold UnsafeSet, cell_. rewrite at_ge by lia. reflexivity.
Qed.

Lemma UnsafeSet_col_ub m i j v : healthy m -> i < Isize m -> 8 * cdiv8 (Jsize m) <= j ->
  UnsafeSet m i j v = UB OobIndex.
Proof.
  intros (HL & HF) Hi Hj. unfold UnsafeSet, cell_.
  destruct (at_lt (Bitmap m) i ltac:(lia)) as (r & Er & Ir). rewrite Er. cbn [bind].
  rewrite Forall_forall in HF. specialize (HF r Ir). change bitsInByte with 8.
  rewrite at_ge; [reflexivity|]. rewrite HF. apply Nat.div_le_lower_bound; lia.
Qed.

(** i1 = rows: UB, whatever the columns (in their accepted range). *)
Lemma SetRange_row_ub m i0 j0 j1 v : healthy m -> i0 <= Isize m -> j0 <= j1 -> j1 <= Jsize m ->
  SetRange m (Z.of_nat i0) (Z.of_nat j0) (Z.of_nat (Isize m)) (Z.of_nat j1) v = UB OobIndex.
Proof.
  intros H Hi Hj Hj1. rewrite SetRange_loop by lia.
  destruct (Nat.eq_dec j1 (8 * cdiv8 (Jsize m))) as [Ej|Ej].
  - (* the column end is itself past the row *)
    destruct (Nat.eq_dec i0 (Isize m)) as [Ei|Ei].
    + subst i0. rewrite (upto_snoc (Isize m)) by lia. rewrite upto_nil by lia. cbn [app for_each].
      rewrite (upto_cons j0) by lia. cbn [for_each]. rewrite UnsafeSet_row_ub by (assumption || lia). reflexivity.
    + rewrite upto_cons by lia.
      cbn [for_each].
      rewrite (upto_snoc j0) by lia.
      rewrite for_each_app.
      destruct (for_upto_inv (fun k s => healthy s /\ Isize s = Isize m /\ Jsize s = Jsize m)
        (fun m j => UnsafeSet m i0 j v) j0 j1 m Hj) as (s & Es & (S1 & S2 & S3)).
      * auto.
      * intros k s Rk (S1 & S2 & S3).
        destruct (UnsafeSet_ok s i0 k v S1) as (s' & Es & T1 & T2 & T3 & _); try (rewrite ?S2, ?S3; lia).
        exists s'. repeat split; try apply T1; congruence.
      * rewrite Es. cbn [for_each]. rewrite UnsafeSet_col_ub; [reflexivity|exact S1|lia|rewrite S3; lia].
  - assert (j1 < 8 * cdiv8 (Jsize m)) as Hj8 by (pose proof (cdiv8_spec (Jsize m)); lia).
    rewrite (upto_snoc i0) by lia.
    rewrite for_each_app.
    destruct (for2_inv (fun i k s => healthy s /\ Isize s = Isize m /\ Jsize s = Jsize m)
        (fun m i j => UnsafeSet m i j v) i0 (Isize m) j0 (j1 + 1) m) as (s & Es & (S1 & S2 & S3));
      try lia; auto.
    { intros i k s Ri Rk (S1 & S2 & S3).
      destruct (UnsafeSet_ok s i k v S1) as (s' & Es & T1 & T2 & T3 & _); try (rewrite ?S2, ?S3; lia).
      exists s'. repeat split; try apply T1; congruence. }
    rewrite Es. cbn [for_each].
    rewrite (upto_cons j0) by lia. cbn [for_each]. rewrite UnsafeSet_row_ub by (assumption || lia). reflexivity.
Qed.

(** j1 = cols, a multiple of 8. *)
Lemma SetRange_col_ub m i0 j0 i1 v : healthy m -> i0 <= i1 -> i1 < Isize m -> j0 <= Jsize m ->
  Jsize m mod 8 = 0 ->
  SetRange m (Z.of_nat i0) (Z.of_nat j0) (Z.of_nat i1) (Z.of_nat (Jsize m)) v = UB OobIndex.
Proof.
  intros H Hi Hi1 Hj Hm. rewrite SetRange_loop by lia.
  assert (8 * cdiv8 (Jsize m) = Jsize m) as E8.
  { pose proof (cdiv8_spec (Jsize m)). pose proof (Nat.div_mod (Jsize m) 8 ltac:(lia)). lia. }
  rewrite upto_cons by lia.
  cbn [for_each].
  rewrite (upto_snoc j0) by lia.
  rewrite for_each_app.
  destruct (for_upto_inv (fun k s => healthy s /\ Isize s = Isize m /\ Jsize s = Jsize m)
    (fun m j => UnsafeSet m i0 j v) j0 (Jsize m) m Hj) as (s & Es & (S1 & S2 & S3)).
  - auto.
  - intros k s Rk (S1 & S2 & S3).
    destruct (UnsafeSet_ok s i0 k v S1) as (s' & Es & T1 & T2 & T3 & _); try (rewrite ?S2, ?S3; lia).
    exists s'. repeat split; try apply T1; congruence.
  - rewrite Es. cbn [for_each]. rewrite UnsafeSet_col_ub; [reflexivity|exact S1|lia|rewrite S3; lia].
Qed.

(** ** Abstract statements *)
Lemma healthy_empty : healthy bm_empty.
Proof. split; [reflexivity|constructor]. Qed.

Lemma V_Resize_inf {T} (d : T) r c : V_Resize d infinite_memory r c = (repeat (repeat d c) r, Ok tt).
Proof. reflexivity. Qed.

Lemma healthy_new r c : healthy (mkbm (repeat (repeat x00 (cdiv8 c)) r) r c).
Proof.
  split; cbn [Bitmap Isize Jsize].
  - apply repeat_length.
  - apply Forall_forall. intros x Hx. apply repeat_spec in Hx. subst. apply repeat_length.
Qed.

Lemma nth_error_repeat_lt {A} (x : A) n k : k < n -> nth_error (repeat x n) k = Some x.
Proof.
  revert k. induction n; intros [|k] H; cbn; try lia; [reflexivity|]. apply IHn. lia.
Qed.

Lemma raw_new r c i j : raw (mkbm (repeat (repeat x00 (cdiv8 c)) r) r c) i j = false.
Proof.
  unfold raw, UnsafeGet, cell_. cbn [Bitmap]. unfold at_.
  destruct (nth_error (repeat (repeat x00 (cdiv8 c)) r) i) eqn:E; cbn [bind]; [|reflexivity].
  apply nth_error_In, repeat_spec in E. subst.
  destruct (nth_error (repeat x00 (cdiv8 c)) (j / bitsInByte)) eqn:E; cbn [bind]; [|reflexivity].
  apply nth_error_In, repeat_spec in E. subst.
  change (b2z x00) with 0%Z. rewrite Z.land_0_l, Z.shiftr_0_l. reflexivity.
Qed.

Lemma shows_new r c : shows (mkbm (repeat (repeat x00 (cdiv8 c)) r) r c) (azero r c).
Proof.
  apply shows_intro; try reflexivity; [apply healthy_new|].
  intros. apply raw_new.
Qed.

(** Whatever the heap does, the constructor gives the zero matrix or the empty one. *)
Definition alloc_fails (al : allocator) (r c : nat) : Prop :=
  exists e, snd (V_Resize (T := byte) x00 al r (cdiv8 c)) = Throw e.

Lemma V_Resize_cases (al : allocator) (d : byte) r c :
  (V_Resize d al r c = (repeat (repeat d c) r, Ok tt)) \/
  (exists x, V_Resize d al r c = (x, Throw BadAlloc)).
Proof.
  unfold V_Resize. destruct (al r c); [left; reflexivity|right; eauto|].
  destruct (i <? r); [right; eauto|left; reflexivity].
Qed.

Lemma BM_ctor_cases al r c :
  (BM_ctor al r c = mkbm (repeat (repeat x00 (cdiv8 c)) r) r c /\ ~ alloc_fails al r c) \/
  (BM_ctor al r c = bm_empty /\ alloc_fails al r c).
Proof.
  unfold BM_ctor, alloc_fails. rewrite colBytes_cdiv8.
  destruct (V_Resize_cases al x00 r (cdiv8 c)) as [E|(x & E)]; rewrite E.
  - left. split; [reflexivity|]. intros (e & Ee). discriminate.
  - right. split; [destruct x; reflexivity|]. exists BadAlloc. reflexivity.
Qed.

Lemma BM_ctor_inf r c : BM_ctor infinite_memory r c = mkbm (repeat (repeat x00 (cdiv8 c)) r) r c.
Proof. unfold BM_ctor. rewrite colBytes_cdiv8. reflexivity. Qed.

Lemma Resize_ok al m r c : 0 < r -> 0 < c -> ~ alloc_fails al r c ->
  exists m', Resize al m r c = (m', Ok tt) /\ shows m' (azero r c).
Proof.
  intros Hr Hc Ha. unfold Resize.
  assert ((r =? 0) || (c =? 0) = false) as -> by lia.
  rewrite colBytes_cdiv8.
  destruct (V_Resize_cases al x00 r (cdiv8 c)) as [E|(x & E)].
  - rewrite E. eexists. split; [reflexivity|]. apply shows_new.
  - exfalso. apply Ha. unfold alloc_fails. rewrite E. exists BadAlloc. reflexivity.
Qed.

Lemma Resize_zero al m r c : r = 0 \/ c = 0 -> Resize al m r c = (m, Throw RuntimeError).
Proof.
  intro H. unfold Resize. assert ((r =? 0) || (c =? 0) = true) as -> by lia. reflexivity.
Qed.

Lemma shows_Set m A i j v : shows m A -> i < arows A -> j < acols A ->
  exists m', Set_ m i j v = Ok m' /\ shows m' (aset A i j v).
Proof.
  intros H Hi Hj. apply shows_elim in H as (H & Hr & Hc & R).
  destruct (Set_ok m i j v H ltac:(lia) ltac:(lia)) as (m' & E & T1 & T2 & T3 & R').
  exists m'. split; [exact E|]. apply shows_intro; try congruence.
  intros a b Ha Hb. rewrite R'. destruct ((a =? i) && (b =? j)); [reflexivity|]. apply R; assumption.
Qed.

Lemma shows_SetRange m A i0 j0 i1 j1 v : shows m A -> i0 <= i1 -> i1 < arows A -> j0 <= j1 -> j1 < acols A ->
  exists m', SetRange m (Z.of_nat i0) (Z.of_nat j0) (Z.of_nat i1) (Z.of_nat j1) v = Ok m' /\
             shows m' (aset_range A i0 j0 i1 j1 v).
Proof.
  intros H Hi Hi1 Hj Hj1. apply shows_elim in H as (H & Hr & Hc & R).
  rewrite SetRange_loop by lia. pose proof (cdiv8_spec (Jsize m)).
  destruct (range_loop m i0 j0 i1 j1 v H Hi ltac:(lia) Hj ltac:(lia)) as (m' & E & T1 & T2 & T3 & R').
  exists m'. split; [exact E|]. apply shows_intro; try congruence.
  intros a b Ha Hb. rewrite R', R by assumption. reflexivity.
Qed.

Lemma shows_SetRange_pad m A i0 j0 i1 v : shows m A -> i0 <= i1 -> i1 < arows A -> j0 <= acols A ->
  acols A mod 8 <> 0 ->
  exists m', SetRange m (Z.of_nat i0) (Z.of_nat j0) (Z.of_nat i1) (Z.of_nat (acols A)) v = Ok m' /\
             shows m' (aset_range A i0 j0 i1 (acols A - 1) v).
Proof.
  intros H Hi Hi1 Hj Hm. apply shows_elim in H as (H & Hr & Hc & R).
  assert (acols A < 8 * cdiv8 (Jsize m)) as Hp.
  { rewrite Hc. pose proof (cdiv8_spec (acols A)) as [L _].
    destruct (Nat.eq_dec (acols A) (8 * cdiv8 (acols A))) as [E|E]; [|lia].
    exfalso. apply Hm. rewrite E, Nat.mul_comm. apply Nat.mod_mul. lia. }
  rewrite SetRange_loop by lia.
  destruct (range_loop m i0 j0 i1 (acols A) v H Hi ltac:(lia) Hj Hp) as (m' & E & T1 & T2 & T3 & R').
  exists m'. split; [exact E|]. apply shows_intro; try congruence.
  intros a b Ha Hb. rewrite R', R by assumption. 
  replace ((i0 <=? a) && (a <=? i1) && (j0 <=? b) && (b <=? acols A))
    with ((i0 <=? a) && (a <=? i1) && (j0 <=? b) && (b <=? acols A - 1)) by lia.
  reflexivity.
Qed.

Lemma testbit7 x k : k < 8 ->
  Z.testbit (b2z x) (Z.of_nat (7 - k)) = Z.testbit (b2z x) (7 - Z.of_nat k).
Proof. intro H. f_equal. lia. Qed.

Lemma V_ColCount_healthy m : healthy m -> 0 < Isize m -> V_ColCount (Bitmap m) = Ok (cdiv8 (Jsize m)).
Proof.
  intros (HL & HF) Hi. unfold V_ColCount.
  destruct (at_lt (Bitmap m) 0 ltac:(lia)) as (r & Er & Ir). rewrite Er. cbn [bind].
  rewrite Forall_forall in HF. rewrite HF by assumption. reflexivity.
Qed.

Lemma SetByte_put m i k b : healthy m -> i < Isize m -> k <= cdiv8 (Jsize m) ->
  SetByte m i k b = put_cell_ m i k b.
Proof.
  intros H Hi Hk. unfold SetByte, V_RowCount. pose proof H as (HL & _).
  assert (length (Bitmap m) <=? i = false) as -> by (apply Nat.leb_gt; lia).
  rewrite V_ColCount_healthy by (assumption || lia). cbn [bind].
  assert (cdiv8 (Jsize m) <? k = false) as -> by (apply Nat.ltb_ge; lia). reflexivity.
Qed.

Lemma SetByte_throw m i k b : healthy m -> Isize m <= i \/ cdiv8 (Jsize m) < k ->
  SetByte m i k b = Throw InvalidArgument.
Proof.
  intros H Ho. unfold SetByte, V_RowCount. pose proof H as (HL & _).
  destruct (length (Bitmap m) <=? i) eqn:E; [reflexivity|].
  apply Nat.leb_gt in E.
  rewrite V_ColCount_healthy by (assumption || lia). cbn [bind].
  assert (cdiv8 (Jsize m) <? k = true) as -> by (apply Nat.ltb_lt; lia). reflexivity.
Qed.

Lemma SetByte_ub m i b : healthy m -> i < Isize m ->
  SetByte m i (cdiv8 (Jsize m)) b = UB OobIndex.
Proof.
  intros H Hi. rewrite SetByte_put by (assumption || lia).
  destruct H as (HL & HF). unfold put_cell_.
  destruct (at_lt (Bitmap m) i ltac:(lia)) as (r & Er & Ir). rewrite Er. cbn [bind].
  rewrite Forall_forall in HF. rewrite put_ge; [reflexivity|]. rewrite (HF r Ir). lia.
Qed.

Lemma shows_SetByte m A i k b : shows m A -> i < arows A -> k < cdiv8 (acols A) ->
  exists m', SetByte m i k b = Ok m' /\ shows m' (aset_byte A i k b).
Proof.
  intros H Hi Hk. apply shows_elim in H as (H & Hr & Hc & R).
  rewrite <- Hr in Hi. rewrite <- Hc in Hk.
  rewrite SetByte_put by (assumption || lia).
  destruct (put_cell_ok m i k b H Hi Hk) as (m' & E & T1 & T2 & T3 & R').
  exists m'. split; [exact E|]. apply shows_intro; try congruence.
  intros a c Ha Hc'. rewrite R', R by assumption.
  rewrite testbit7 by apply mod8_lt. reflexivity.
Qed.

Lemma shows_Ones m A : shows m A -> nonempty A ->
  (Z.of_nat (arows A) < 2 ^ 64)%Z -> (Z.of_nat (acols A) < 2 ^ 64)%Z ->
  exists m', Ones m = Ok m' /\ shows m' (afill A true).
Proof.
  intros H (Hr0 & Hc0) Br Bc. pose proof H as H'. apply shows_elim in H' as (_ & Hr & Hc & _).
  unfold Ones. rewrite !Z.mod_small by lia.
  replace (Z.of_nat (Isize m) - 1)%Z with (Z.of_nat (arows A - 1)) by lia.
  replace (Z.of_nat (Jsize m) - 1)%Z with (Z.of_nat (acols A - 1)) by lia.
  destruct (shows_SetRange m A 0 0 (arows A - 1) (acols A - 1) true H) as (m' & E & S); try lia.
  exists m'. split; [exact E|]. apply shows_elim in S as (S1 & S2 & S3 & R).
  apply shows_intro; try assumption. intros i j Hi Hj. rewrite R by assumption. cbn.
  destruct ((i <=? arows A - 1) && true && (j <=? acols A - 1)) eqn:E2; [reflexivity|lia].
Qed.

Lemma Ones_empty m : Isize m = 0 -> Jsize m = 0 -> Ones m = Throw RuntimeError.
Proof.
  intros E1 E2. unfold Ones. apply SetRange_throw. right. left. rewrite E1. cbn. lia.
Qed.

Lemma raw_out m i j : healthy m -> Isize m <= i \/ 8 * cdiv8 (Jsize m) <= j -> raw m i j = false.
Proof.
  intros (HL & HF) H. unfold raw, UnsafeGet, cell_. change bitsInByte with 8.
  destruct (le_lt_dec (Isize m) i).
  - rewrite at_ge by lia. reflexivity.
  - destruct (at_lt (Bitmap m) i ltac:(lia)) as (r & Er & Ir). rewrite Er. cbn [bind].
    rewrite Forall_forall in HF. rewrite at_ge; [reflexivity|]. rewrite (HF r Ir).
    apply Nat.div_le_lower_bound; lia.
Qed.

Lemma div_lt_iff (c k : nat) : c < 8 * k <-> c / 8 < k.
Proof.
  split; intro H; [apply Nat.div_lt_upper_bound; lia|].
  pose proof (Nat.div_mod c 8 ltac:(lia)). pose proof (mod8_lt c). lia.
Qed.

Lemma Zeros_ok m : healthy m ->
  exists m', Zeros m = Ok m' /\ healthy m' /\ Isize m' = Isize m /\ Jsize m' = Jsize m /\
    forall a c, raw m' a c = false.
Proof.
  intro H. unfold Zeros, V_RowCount. pose proof H as (HL & _). rewrite HL.
  destruct (for_upto_inv
    (fun i s => healthy s /\ Isize s = Isize m /\ Jsize s = Jsize m /\
       forall a c, raw s a c = if a <? i then false else raw m a c)
    (fun m i => let* cc := V_ColCount (Bitmap m) in
                for_each (upto 0 cc) m (fun m j => put_cell_ m i j x00)) 0 (Isize m) m) as (m' & E & HI).
  - lia.
  - repeat split; try apply H.
  - intros i s Ri (S1 & S2 & S3 & R). rewrite V_ColCount_healthy by (assumption || lia). cbn [bind].
    destruct (for_upto_inv
      (fun k t => healthy t /\ Isize t = Isize m /\ Jsize t = Jsize m /\
         forall a c, raw t a c = if (a <? i) || ((a =? i) && (c / 8 <? k)) then false else raw m a c)
      (fun m j => put_cell_ m i j x00) 0 (cdiv8 (Jsize s)) s) as (t & Et & HI).
    + lia.
    + repeat split; try apply S1; try assumption. intros a c. rewrite R.
      replace ((a <? i) || (a =? i) && (c / 8 <? 0)) with (a <? i) by lia. reflexivity.
    + intros k t Rk (T1 & T2 & T3 & RT).
      destruct (put_cell_ok t i k x00 T1) as (t' & Et & U1 & U2 & U3 & RU); try (rewrite ?T2, ?T3, <- ?S3; lia).
      exists t'. split; [exact Et|]. repeat split; try apply U1; try congruence.
      intros a c. rewrite RU, RT. change (b2z x00) with 0%Z. rewrite Z.testbit_0_l.
      destruct ((a =? i) && (c / 8 =? k)) eqn:E1.
      * destruct ((a <? i) || (a =? i) && (c / 8 <? k + 1)) eqn:E2; [reflexivity|lia].
      * replace ((a <? i) || (a =? i) && (c / 8 <? k + 1)) with ((a <? i) || (a =? i) && (c / 8 <? k)) by lia.
        reflexivity.
    + exists t. split; [exact Et|]. destruct HI as (T1 & T2 & T3 & RT).
      repeat split; try apply T1; try assumption. intros a c. rewrite RT.
      destruct ((a <? i) || (a =? i) && (c / 8 <? cdiv8 (Jsize s))) eqn:E1.
      * replace (a <? i + 1) with true by lia. reflexivity.
      * destruct (a <? i + 1) eqn:E2; [|reflexivity]. apply raw_out; [exact H|].
        right. apply Nat.le_ngt. rewrite div_lt_iff. rewrite <- S3. lia.
  - exists m'. split; [exact E|]. destruct HI as (S1 & S2 & S3 & R).
    repeat split; try apply S1; try assumption. intros a c. rewrite R.
    destruct (a <? Isize m) eqn:E1; [reflexivity|]. apply raw_out; [exact H|]. lia.
Qed.

Lemma shows_Zeros m A : shows m A -> exists m', Zeros m = Ok m' /\ shows m' (afill A false).
Proof.
  intro H. apply shows_elim in H as (H & Hr & Hc & R).
  destruct (Zeros_ok m H) as (m' & E & T1 & T2 & T3 & R').
  exists m'. split; [exact E|]. apply shows_intro; try congruence; auto.
Qed.

(** operator! *)
Lemma V_Check_rect {T} (d : list (list T)) k : Forall (fun r => length r = k) d -> d <> [] -> 0 < k ->
  V_CheckParameters d = true.
Proof.
  intros HF Hne Hk. destruct d as [|r0 d]; [contradiction|]. unfold V_CheckParameters.
  apply forallb_forall. intros r Hr. rewrite Forall_forall in HF.
  rewrite (HF r Hr), (HF r0 (or_introl eq_refl)). rewrite Nat.eqb_refl.
  destruct k; [lia|]. reflexivity.
Qed.

Lemma BM_not_healthy m : healthy m -> BM_not m = (Isize m =? 0) || (Jsize m =? 0).
Proof.
  intros (HL & HF). unfold BM_not, V_not.
  destruct (Isize m) as [|n] eqn:EI.
  - destruct (Bitmap m); [reflexivity|discriminate].
  - destruct (Jsize m) as [|c] eqn:EJ.
    + destruct (negb (V_CheckParameters (Bitmap m))); reflexivity.
    + rewrite (V_Check_rect _ (cdiv8 (S c))); [reflexivity|exact HF| |apply cdiv8_pos; lia].
      intro E. rewrite E in HL. discriminate.
Qed.

(** XOR *)
Lemma xor_bits x y k : (0 <= k < 8)%Z ->
  Z.testbit (b2z (z2b (Z.lxor (b2z x) (b2z y)))) k = xorb (Z.testbit (b2z x) k) (Z.testbit (b2z y) k).
Proof. intro H. rewrite testbit_z2b by exact H. apply Z.lxor_spec. Qed.

Lemma raw_cell m i j b : cell_ m i (j / 8) = Ok b -> raw m i j = Z.testbit (b2z b) (Z.of_nat (7 - j mod 8)).
Proof. intro E. unfold raw. rewrite (UnsafeGet_cell _ _ _ _ E). reflexivity. Qed.

Lemma xor_ok al a b : healthy a -> healthy b -> Isize a = Isize b -> Jsize a = Jsize b ->
  0 < Isize a -> 0 < Jsize a -> ~ alloc_fails al (Isize a) (Jsize a) ->
  exists m', bm_xor al a b = Ok m' /\ healthy m' /\ Isize m' = Isize a /\ Jsize m' = Jsize a /\
    forall i j, raw m' i j = xorb (raw a i j) (raw b i j).
Proof.
  intros Ha Hb EI EJ HI HJ Hal. unfold bm_xor.
  assert (negb (Jsize a =? Jsize b) || negb (Isize a =? Isize b) = false) as ->
    by (rewrite EI, EJ, !Nat.eqb_refl; reflexivity).
  destruct (BM_ctor_cases al (Isize a) (Jsize a)) as [(E & _)|(_ & F)]; [|contradiction].
  rewrite E. rewrite BM_not_healthy by apply healthy_new. cbn [Isize Jsize].
  assert ((Isize a =? 0) || (Jsize a =? 0) = false) as -> by lia.
  unfold V_RowCount. pose proof Ha as (HL & _). rewrite HL.
  set (z := mkbm _ _ _) in *.
  destruct (for_upto_inv
    (fun i s => healthy s /\ Isize s = Isize a /\ Jsize s = Jsize a /\
       forall u c, raw s u c = if u <? i then xorb (raw a u c) (raw b u c) else false)
    (fun r i =>
        let* cc := V_ColCount (Bitmap a) in
        for_each (upto 0 cc) r (fun r j =>
          let* x := cell_ a i j in
          let* y := cell_ b i j in
          put_cell_ r i j (z2b (Z.lxor (b2z x) (b2z y))))) 0 (Isize a) z) as (m' & E' & HInv).
  - lia.
  - split; [apply healthy_new|]. repeat split. intros u c. apply raw_new.
  - intros i s Ri (S1 & S2 & S3 & R). rewrite V_ColCount_healthy by (assumption || lia). cbn [bind].
    destruct (for_upto_inv
      (fun k t => healthy t /\ Isize t = Isize a /\ Jsize t = Jsize a /\
         forall u c, raw t u c = if (u <? i) || ((u =? i) && (c / 8 <? k))
                                 then xorb (raw a u c) (raw b u c) else false)
      (fun r j => let* x := cell_ a i j in
          let* y := cell_ b i j in
          put_cell_ r i j (z2b (Z.lxor (b2z x) (b2z y)))) 0 (cdiv8 (Jsize a)) s) as (t & Et & HInv).
    + lia.
    + repeat split; try apply S1; try assumption. intros u c. rewrite R.
      replace ((u <? i) || (u =? i) && (c / 8 <? 0)) with (u <? i) by lia. reflexivity.
    + intros k t Rk (T1 & T2 & T3 & RT).
      destruct (cell_ok a i k Ha) as (x & Ex); try lia.
      destruct (cell_ok b i k Hb) as (y & Ey); try (rewrite <- ?EJ; lia).
      rewrite Ex, Ey. cbn [bind].
      destruct (put_cell_ok t i k (z2b (Z.lxor (b2z x) (b2z y))) T1) as (t' & Et & U1 & U2 & U3 & RU);
        try (rewrite ?T2, ?T3; lia).
      exists t'. split; [exact Et|]. repeat split; try apply U1; try congruence.
      intros u c. rewrite RU, RT.
      destruct ((u =? i) && (c / 8 =? k)) eqn:E1.
      * assert (u = i) as -> by lia. assert (c / 8 = k) as Eck by lia.
        replace ((i <? i) || (i =? i) && (c / 8 <? k + 1)) with true by lia.
        rewrite xor_bits by (pose proof (mod8_lt c); lia).
        rewrite (raw_cell a i c x) by (rewrite Eck; exact Ex).
        rewrite (raw_cell b i c y) by (rewrite Eck; exact Ey). reflexivity.
      * replace ((u <? i) || (u =? i) && (c / 8 <? k + 1)) with ((u <? i) || (u =? i) && (c / 8 <? k)) by lia.
        reflexivity.
    + exists t. split; [exact Et|]. destruct HInv as (T1 & T2 & T3 & RT).
      repeat split; try apply T1; try assumption. intros u c. rewrite RT.
      destruct ((u <? i) || (u =? i) && (c / 8 <? cdiv8 (Jsize a))) eqn:E1.
      * replace (u <? i + 1) with true by lia. reflexivity.
      * destruct (u <? i + 1) eqn:E2; [|reflexivity].
        assert (8 * cdiv8 (Jsize a) <= c) as Hc by (apply Nat.le_ngt; rewrite div_lt_iff; lia).
        rewrite (raw_out a), (raw_out b); [reflexivity|exact Hb|right; rewrite <- EJ; exact Hc|exact Ha|right; exact Hc].
  - exists m'. split; [exact E'|]. destruct HInv as (S1 & S2 & S3 & R).
    repeat split; try apply S1; try assumption. intros i j. rewrite R.
    destruct (i <? Isize a) eqn:E1; [reflexivity|].
    rewrite (raw_out a), (raw_out b); [reflexivity|exact Hb|left; lia|exact Ha|left; lia].
Qed.

Lemma xor_mismatch al a b : Isize a <> Isize b \/ Jsize a <> Jsize b ->
  bm_xor al a b = Throw InvalidArgument.
Proof.
  intro H. unfold bm_xor.
  assert (negb (Jsize a =? Jsize b) || negb (Isize a =? Isize b) = true) as -> by lia. reflexivity.
Qed.

Lemma xor_noresult al a b : Isize a = Isize b -> Jsize a = Jsize b ->
  Isize a = 0 \/ Jsize a = 0 \/ alloc_fails al (Isize a) (Jsize a) ->
  bm_xor al a b = Throw RuntimeError.
Proof.
  intros EI EJ H. unfold bm_xor.
  assert (negb (Jsize a =? Jsize b) || negb (Isize a =? Isize b) = false) as ->
    by (rewrite EI, EJ, !Nat.eqb_refl; reflexivity).
  destruct (BM_ctor_cases al (Isize a) (Jsize a)) as [(E & F)|(E & F)]; rewrite E.
  - rewrite BM_not_healthy by apply healthy_new. cbn [Isize Jsize].
    assert ((Isize a =? 0) || (Jsize a =? 0) = true) as ->; [|reflexivity].
    destruct H as [H|[H|H]]; [lia|lia|contradiction].
  - reflexivity.
Qed.

Lemma shows_xor al a b A B : shows a A -> shows b B -> arows A = arows B -> acols A = acols B ->
  nonempty A -> ~ alloc_fails al (arows A) (acols A) ->
  exists m', bm_xor al a b = Ok m' /\ shows m' (axor A B).
Proof.
  intros Ha Hb Er Ec (N1 & N2) Hal.
  apply shows_elim in Ha as (Ha & Ha1 & Ha2 & Ra).
  apply shows_elim in Hb as (Hb & Hb1 & Hb2 & Rb).
  destruct (xor_ok al a b Ha Hb) as (m' & E & T1 & T2 & T3 & R); try congruence; try lia.
  exists m'. split; [exact E|]. apply shows_intro; try congruence.
  intros i j Hi Hj. rewrite R, Ra, Rb by (assumption || congruence). reflexivity.
Qed.

Lemma shows_same m A B : shows m A -> arows A = arows B -> acols A = acols B ->
  (forall i j, i < arows A -> j < acols A -> acell A i j = acell B i j) -> shows m B.
Proof.
  intros (H & Hr & Hc & G) Er Ec E. split; [exact H|]. split; [congruence|]. split; [congruence|].
  intros i j Hi Hj. rewrite <- E by congruence. apply G; congruence.
Qed.

Lemma shows_Randm engine m A : shows m A ->
  exists m', Randm engine m = Ok m' /\
    shows m' (mkamat (arows A) (acols A) (fun i j => Z.even (engine (i * acols A + j)))).
Proof.
  intros H. apply shows_elim in H as (H & Hr & Hc & _). unfold Randm.
  destruct (for2_inv (fun i j s => snd s = i * Jsize m + j /\ healthy (fst s) /\ Isize (fst s) = Isize m /\ Jsize (fst s) = Jsize m /\
      forall a c, c < Jsize m -> a < i \/ a = i /\ c < j -> raw (fst s) a c = Z.even (engine (a * Jsize m + c)))
    (fun s i j => let '(m, n) := s in let* m' := UnsafeSet m i j ((engine n mod 2 =? 0)%Z) in Ok (m', S n)) 0 (Isize m) 0 (Jsize m) (m, 0))
    as ((m' & n) & E & _ & T1 & T2 & T3 & R).
  - lia.
  - lia.
  - repeat split; try assumption; try reflexivity; try apply H. intros; lia.
  - intros i (s & n) Hi (N & S1 & S2 & S3 & R). cbn [fst snd] in *. repeat split; try assumption; try apply S1; [lia|].
    intros a c Hc' L. apply R; [exact Hc'|]. lia.
  - intros i j (s & n) Hi Hj (N & S1 & S2 & S3 & R). cbn [fst snd] in *. pose proof (cdiv8_spec (Jsize m)).
    destruct (UnsafeSet_ok s i j ((engine n mod 2 =? 0)%Z) S1 ltac:(lia) ltac:(rewrite S3; lia)) as (s' & Es & U1 & U2 & U3 & R').
    exists (s', S n). split; [rewrite Es; reflexivity|]. cbn [fst snd]. repeat split; try congruence; try apply U1; [lia|].
    intros a c Hc' L. rewrite R'. destruct ((a =? i) && (c =? j)) eqn:Q.
    + assert (a = i) as -> by lia. assert (c = j) as -> by lia. rewrite <- N, Zeven_mod. unfold Zeq_bool.
      destruct (Z.eqb_spec (engine n mod 2) 0) as [->|Z]; [reflexivity|]. destruct (Z.compare_spec (engine n mod 2) 0); [contradiction|reflexivity|reflexivity].
    + apply R; [exact Hc'|]. lia.
  - exists m'. split.
    + rewrite E. reflexivity.
    + apply shows_intro; cbn [fst] in *; try congruence. intros a c Ha Hc'. rewrite <- Hc. apply R; [lia|left; lia].
Qed.
