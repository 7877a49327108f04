(** Serialize / DeserializeMatrix / FromString. *)
From Verif Require Import Prelude P_Prelude M_ByteHandler P_ByteHandler M_Vector2D M_BitMatrix
  S_Matrix P_BitMatrix P_Cells.

(** One step of the packing loop. *)
Definition pack_step (st : list byte * byte * nat) (v : bool) : res (list byte * byte * nat) :=
  let '(byteVec, currValue, bitCnt) := st in
  let* currValue := SetBit currValue bitCnt v in
  let bitCnt := bitCnt + 1 in
  if bitCnt =? 8 then Ok (byteVec ++ [currValue], x00, 0) else Ok (byteVec, currValue, bitCnt).

Definition pack_inv (bits : list bool) (st : list byte * byte * nat) : Prop :=
  let '(out, cur, cnt) := st in
  length bits = 8 * length out + cnt /\ cnt < 8 /\
  (forall k t, k < length out -> t < 8 ->
     Z.testbit (b2z (nth k out x00)) (Z.of_nat t) = nth (8 * k + t) bits false) /\
  (forall t, t < 8 -> Z.testbit (b2z cur) (Z.of_nat t) = nth (8 * length out + t) bits false).

Lemma pack_step_inv bits st v : pack_inv bits st ->
  exists st', pack_step st v = Ok st' /\ pack_inv (bits ++ [v]) st'.
Proof.
  destruct st as [[out cur] cnt]. intros (HL & HC & HO & HB). unfold pack_step.
  destruct (SetBit_ok cur cnt v HC) as (cur' & E & B). rewrite E. cbn [bind].
  assert (forall t, t < 8 -> Z.testbit (b2z cur') (Z.of_nat t) = nth (8 * length out + t) (bits ++ [v]) false) as B'.
  { intros t Ht. rewrite B by exact Ht. destruct (t =? cnt) eqn:Et.
    - apply Nat.eqb_eq in Et. subst t. rewrite app_nth2 by lia.
      replace (8 * length out + cnt - length bits) with 0 by lia. reflexivity.
    - apply Nat.eqb_neq in Et. rewrite HB by exact Ht.
      destruct (lt_dec (8 * length out + t) (length bits)) as [L|L].
      + rewrite app_nth1 by exact L. reflexivity.
      + rewrite !nth_overflow; [reflexivity| |]; rewrite ?app_length; cbn; lia. }
  assert (forall k t, k < length out -> t < 8 ->
     Z.testbit (b2z (nth k out x00)) (Z.of_nat t) = nth (8 * k + t) (bits ++ [v]) false) as O'.
  { intros k t Hk Ht. rewrite HO by assumption. rewrite app_nth1 by lia. reflexivity. }
  destruct (cnt + 1 =? 8) eqn:E8.
  - apply Nat.eqb_eq in E8. eexists. split; [reflexivity|]. repeat split.
    + rewrite !app_length. cbn. lia.
    + lia.
    + intros k t Hk Ht. rewrite app_length in Hk. cbn in Hk.
      destruct (Nat.eq_dec k (length out)) as [->|N].
      * rewrite app_nth2, Nat.sub_diag by lia. cbn [nth]. apply B'. exact Ht.
      * rewrite app_nth1 by lia. apply O'; lia.
    + intros t Ht. change (b2z x00) with 0%Z. rewrite Z.testbit_0_l.
      rewrite nth_overflow; [reflexivity|]. rewrite !app_length. cbn. lia.
  - apply Nat.eqb_neq in E8. eexists. split; [reflexivity|]. repeat split; try assumption.
    + rewrite app_length. cbn. lia.
    + lia.
Qed.

Lemma pack_loop bits : exists st, for_each bits ([], x00, 0) pack_step = Ok st /\ pack_inv bits st.
Proof.
  apply (for_each_inv pack_inv pack_step bits).
  - repeat split; cbn; try lia. intros t Ht. rewrite Z.testbit_0_l. destruct t; reflexivity.
  - intros pre v post s _ HI. apply pack_step_inv. exact HI.
Qed.

Lemma shows_not m A : shows m A -> BM_not m = (arows A =? 0) || (acols A =? 0).
Proof. intro H. apply shows_elim in H as (H & <- & <- & _). apply BM_not_healthy. exact H. Qed.

Lemma shows_UnsafeGet m A i j : shows m A -> i < arows A -> j < acols A ->
  UnsafeGet m i j = Ok (acell A i j).
Proof.
  intros H Hi Hj. apply shows_elim in H as (H & Hr & Hc & R).
  rewrite UnsafeGet_raw; [rewrite R by assumption; reflexivity|exact H|lia|].
  pose proof (cdiv8_spec (Jsize m)). lia.
Qed.

Lemma SerializeMatrix_ok m A : shows m A -> nonempty A ->
  exists out, SerializeMatrix m = Ok out /\ length out = arows A * acols A / 8 /\
    forall k t, k < length out -> t < 8 ->
      Z.testbit (b2z (nth k out x00)) (Z.of_nat t) = nth (8 * k + t) (abits A) false.
Proof.
  intros H (N1 & N2). unfold SerializeMatrix. rewrite (shows_not m A H).
  assert ((arows A =? 0) || (acols A =? 0) = false) as -> by lia.
  pose proof H as H'. apply shows_elim in H' as (_ & -> & -> & _).
  rewrite (for2_bits _ pack_step A).
  - destruct (pack_loop (abits A)) as ([[out cur] cnt] & E & (HL & HC & HO & HB)).
    rewrite E. cbn [bind]. exists out. split; [reflexivity|]. split; [|exact HO].
    rewrite abits_length in HL. apply (Nat.div_unique _ _ _ cnt); lia.
  - intros [[o c] n] i j Hi Hj. rewrite (shows_UnsafeGet m A i j H Hi Hj). reflexivity.
Qed.

Lemma Serialize_ok m A : shows m A -> nonempty A ->
  exists out, Serialize m = Ok (x08 :: le_bytes 8 (Z.of_nat (arows A)) ++
                                x08 :: le_bytes 8 (Z.of_nat (acols A)) ++ out) /\
    length out = arows A * acols A / 8 /\
    forall k t, k < length out -> t < 8 ->
      Z.testbit (b2z (nth k out x00)) (Z.of_nat t) = nth (8 * k + t) (abits A) false.
Proof.
  intros H N. destruct (SerializeMatrix_ok m A H N) as (out & E & L & B).
  exists out. split; [|split; assumption]. unfold Serialize, SerializeSizes.
  rewrite (shows_not m A H). destruct N as (N1 & N2).
  assert ((arows A =? 0) || (acols A =? 0) = false) as -> by lia.
  rewrite E. cbn [bind]. apply shows_elim in H as (_ & -> & -> & _).
  change (z2b 8) with x08. rewrite <- app_comm_cons, <- app_assoc. reflexivity.
Qed.

Lemma Serialize_empty m : BM_not m = true -> Serialize m = Throw RuntimeError.
Proof. intro H. unfold Serialize. rewrite H. reflexivity. Qed.

(** ** Reading sizes *)
Lemma le_value_app a b : le_value (a ++ b) = (le_value a + 256 ^ Z.of_nat (length a) * le_value b)%Z.
Proof.
  induction a as [|x a IH]; cbn [app le_value length];
    [change (Z.of_nat 0) with 0%Z; rewrite Z.pow_0_r; lia|].
  rewrite IH, Nat2Z.inj_succ, Z.pow_succ_r by lia. ring.
Qed.

Lemma le_value_zeros n : le_value (repeat x00 n) = 0%Z.
Proof. induction n; cbn [repeat le_value]; [reflexivity|]. rewrite IHn. reflexivity. Qed.

Lemma upd_app_hd {A} (a : list A) x b y k : length a = k -> upd (a ++ x :: b) k y = a ++ y :: b.
Proof. intros <-. induction a; cbn; [reflexivity|]. f_equal. exact IHa. Qed.

Lemma firstn_snoc {A} (l : list A) n x : nth_error l n = Some x -> firstn (n + 1) l = firstn n l ++ [x].
Proof.
  revert n. induction l as [|a l IH]; intros [|n] H; cbn in *; try discriminate.
  - injection H as ->. reflexivity.
  - f_equal. apply IH. exact H.
Qed.

Lemma nth_error_skipn {A} (l : list A) p n : nth_error (skipn p l) n = nth_error l (p + n).
Proof.
  revert l. induction p as [|p IH]; intros l; [reflexivity|]. destruct l; cbn; [destruct n; reflexivity|]. apply IH.
Qed.

Lemma skipn_skipn {A} (l : list A) p q : skipn p (skipn q l) = skipn (p + q) l.
Proof.
  revert l. induction q as [|q IH]; intro l; [rewrite Nat.add_0_r; reflexivity|].
  destruct l; cbn [skipn]; [rewrite !skipn_nil; reflexivity|].
  rewrite IH. replace (p + S q) with (S (p + q)) by lia. reflexivity.
Qed.

Lemma nth_skipn {A} (l : list A) p n d : nth n (skipn p l) d = nth (p + n) l d.
Proof.
  revert l. induction p as [|p IH]; intros l; [reflexivity|]. destruct l; cbn; [destruct n; reflexivity|]. apply IH.
Qed.

Lemma read_size_ok s pos n : n <= 8 -> pos + n <= length s ->
  read_size s pos n = Ok (le_value (firstn n (skipn pos s)), pos + n).
Proof.
  intros Hn Hl. unfold read_size.
  destruct (for_upto_inv
    (fun i st => st = (firstn i (skipn pos s) ++ repeat x00 (8 - i), pos + i))
    (fun (st : list byte * nat) i => let '(buf, pos) := st in
      if 8 <=? i then UB BufferOverflow else let* b := at_ s pos in Ok (upd buf i b, pos + 1))
    0 n (repeat x00 8, pos)) as (st & E & HI).
  - lia.
  - cbn [firstn app]. f_equal. lia.
  - intros k st Rk ->. assert (8 <=? k = false) as -> by lia.
    assert (exists b, nth_error s (pos + k) = Some b) as (b & Eb).
    { destruct (nth_error s (pos + k)) eqn:E; [eauto|]. apply nth_error_None in E. lia. }
    unfold at_. rewrite Eb. cbn [bind]. eexists. split; [reflexivity|].
    f_equal; [|lia].
    assert (length (firstn k (skipn pos s)) = k) as Lk by (rewrite firstn_length, skipn_length; lia).
    replace (8 - k) with (S (8 - (k + 1))) by lia. cbn [repeat].
    rewrite upd_app_hd by exact Lk.
    rewrite (firstn_snoc _ k b) by (rewrite nth_error_skipn; exact Eb).
    rewrite <- app_assoc. reflexivity.
  - rewrite E. subst st. cbn [bind]. f_equal. f_equal.
    rewrite le_value_app, le_value_zeros. lia.
Qed.

Lemma read_size_bad s pos n : pos <= length s -> 8 < n \/ length s < pos + n -> exists u, read_size s pos n = UB u.
Proof.
  intros Hp0 H. unfold read_size.
  set (f := fun (st : list byte * nat) i => let '(buf, pos) := st in
      if 8 <=? i then UB BufferOverflow else let* b := at_ s pos in Ok (upd buf i b, pos + 1)).
  remember (Nat.min 8 (length s - pos)) as stop eqn:Estop.
  assert (stop < n) as Hs by lia.
  assert (upto 0 n = upto 0 stop ++ stop :: upto (stop + 1) n) as ->.
  { unfold upto. rewrite !Nat.sub_0_r. replace n with (stop + S (n - (stop + 1))) at 1 by lia.
    rewrite seq_app. cbn [seq Nat.add]. rewrite Nat.add_1_r. reflexivity. }
  rewrite for_each_app.
  destruct (for_upto_inv (fun i (st : list byte * nat) => snd st = pos + i) f 0 stop (repeat x00 8, pos))
    as ([buf p] & E & HI).
  - lia.
  - cbn. lia.
  - intros k [buf p] Rk Hp. cbn in Hp. subst p. unfold f.
    assert (8 <=? k = false) as -> by lia.
    rewrite (at_nth s (pos + k) x00) by lia. cbn [bind]. eexists. split; [reflexivity|]. cbn. lia.
  - rewrite E. cbn in HI. subst p. cbn [for_each]. unfold f at 1.
    destruct (8 <=? stop) eqn:E8; [cbn; eauto|].
    rewrite at_ge by lia. cbn. eauto.
Qed.

(** ** Deserialising *)
Definition payload_bit (payload : list byte) (n : nat) : bool :=
  Z.testbit (b2z (nth (n / 8) payload x00)) (Z.of_nat (n mod 8)).

Definition des_step (s : list byte) (st : bm * nat * nat) (p : nat * nat) : res (bm * nat * nat) :=
  let '(m, pos, bitCnt) := st in
  let* b := at_ s pos in
  let* v := GetBit b bitCnt in
  let* m := Set_ m (fst p) (snd p) v in
  let bitCnt := bitCnt + 1 in
  if bitCnt =? 8 then Ok (m, pos + 1, 0) else Ok (m, pos, bitCnt).

Lemma succ_divmod8 n : (n mod 8 + 1 =? 8 = true -> (n + 1) / 8 = n / 8 + 1 /\ (n + 1) mod 8 = 0) /\
  (n mod 8 + 1 =? 8 = false -> (n + 1) / 8 = n / 8 /\ (n + 1) mod 8 = n mod 8 + 1).
Proof.
  pose proof (Nat.div_mod n 8 ltac:(lia)). pose proof (mod8_lt n).
  split; intro E.
  - assert (n mod 8 = 7) by lia. split.
    + symmetry. apply (Nat.div_unique _ _ _ 0); lia.
    + symmetry. apply (Nat.mod_unique _ _ (n / 8 + 1) 0); lia.
  - assert (n mod 8 + 1 < 8) by lia. split.
    + symmetry. apply (Nat.div_unique _ _ _ (n mod 8 + 1)); lia.
    + symmetry. apply (Nat.mod_unique _ _ (n / 8) (n mod 8 + 1)); lia.
Qed.

Definition des_inv (s : list byte) (p0 r c : nat) (n : nat) (st : bm * nat * nat) : Prop :=
  exists m, st = (m, p0 + n / 8, n mod 8) /\ healthy m /\ Isize m = r /\ Jsize m = c /\
    forall i j, i < r -> j < c ->
      raw m i j = (i * c + j <? n) && payload_bit (skipn p0 s) (i * c + j).

Lemma des_step_ok s p0 r c n st i j : des_inv s p0 r c n st -> i < r -> j < c -> n = i * c + j ->
  p0 + n / 8 < length s -> exists st', des_step s st (i, j) = Ok st' /\ des_inv s p0 r c (n + 1) st'.
Proof.
  intros (m & -> & Hm & HI & HJ & R) Hi Hj Hn Hl. unfold des_step. cbn [fst snd].
  rewrite (at_nth s _ x00 Hl). cbn [bind].
  rewrite GetBit_value by apply mod8_lt. cbn [bind].
  destruct (Set_ok m i j (Z.testbit (b2z (nth (p0 + n / 8) s x00)) (Z.of_nat (n mod 8))) Hm ltac:(lia) ltac:(lia))
    as (m' & E & T1 & T2 & T3 & R').
  rewrite E. cbn [bind].
  destruct (succ_divmod8 n) as (D1 & D2).
  assert (forall i0 j0, i0 < r -> j0 < c ->
     raw m' i0 j0 = (i0 * c + j0 <? n + 1) && payload_bit (skipn p0 s) (i0 * c + j0)) as RR.
  { intros a b Ha Hb. rewrite R', R by assumption.
    destruct ((a =? i) && (b =? j)) eqn:Eab.
    - assert (a = i) as -> by lia. assert (b = j) as -> by lia.
      rewrite <- Hn. replace (n <? n + 1) with true by lia. cbn [andb].
      unfold payload_bit. rewrite nth_skipn. reflexivity.
    - assert (a * c + b <> n) by (intro; subst n; assert (a = i) by nia; assert (b = j) by nia; lia).
      replace (a * c + b <? n + 1) with (a * c + b <? n) by lia. reflexivity. }
  destruct (n mod 8 + 1 =? 8) eqn:E8.
  - destruct (D1 eq_refl) as (D & M). eexists. split; [reflexivity|]. exists m'.
    split; [rewrite D, M; f_equal; f_equal; lia|]. repeat split; try apply T1; try congruence. exact RR.
  - destruct (D2 eq_refl) as (D & M). eexists. split; [reflexivity|]. exists m'.
    split; [rewrite D, M; reflexivity|]. repeat split; try apply T1; try congruence. exact RR.
Qed.

Lemma des_init s p0 r c :
  des_inv s p0 r c (length (@nil (nat * nat))) (mkbm (repeat (repeat x00 (cdiv8 c)) r) r c, p0, 0).
Proof.
  exists (mkbm (repeat (repeat x00 (cdiv8 c)) r) r c). cbn [length].
  change (0 / 8) with 0. change (0 mod 8) with 0. rewrite Nat.add_0_r.
  split; [reflexivity|]. split; [apply healthy_new|]. split; [reflexivity|]. split; [reflexivity|].
  intros. rewrite raw_new. reflexivity.
Qed.

Lemma des_loop_ok s p0 r c : r * c <= 8 * (length s - p0) ->
  exists st, for_each (cells r c) (mkbm (repeat (repeat x00 (cdiv8 c)) r) r c, p0, 0) (des_step s) = Ok st
             /\ des_inv s p0 r c (r * c) st.
Proof.
  intro HL.
  destruct (for_each_inv (fun pre st => des_inv s p0 r c (length pre) st) (des_step s) (cells r c)
    (mkbm (repeat (repeat x00 (cdiv8 c)) r) r c, p0, 0)) as (st & E & HI).
  - apply des_init.
  - intros pre (i, j) post st Es HI. apply cells_split in Es as (Hi & Hj & Ln).
    destruct (des_step_ok s p0 r c (length pre) st i j HI Hi Hj Ln) as (st' & E' & HI').
    + assert (length pre < r * c) by nia.
      assert (length pre / 8 < length s - p0) by (apply Nat.div_lt_upper_bound; lia). lia.
    + exists st'. split; [exact E'|]. rewrite app_length. cbn [length]. exact HI'.
  - rewrite cells_length in HI. eauto.
Qed.

Lemma des_loop_short s p0 r c : p0 <= length s -> 8 * (length s - p0) < r * c ->
  exists u, for_each (cells r c) (mkbm (repeat (repeat x00 (cdiv8 c)) r) r c, p0, 0) (des_step s) = UB u.
Proof.
  intros Hp HL. set (k := 8 * (length s - p0)) in *.
  rewrite <- (firstn_skipn k (cells r c)). rewrite for_each_app.
  assert (length (firstn k (cells r c)) = k) as Lk by (rewrite firstn_length, cells_length; lia).
  destruct (for_each_inv (fun pre st => des_inv s p0 r c (length pre) st) (des_step s)
    (firstn k (cells r c)) (mkbm (repeat (repeat x00 (cdiv8 c)) r) r c, p0, 0)) as (st & E & HI).
  - apply des_init.
  - intros pre (i, j) post st Es HI.
    assert (length pre < k) as Lp by (apply (f_equal (@length _)) in Es; rewrite Lk, app_length in Es; cbn in Es; lia).
    assert (cells r c = pre ++ (i, j) :: (post ++ skipn k (cells r c))) as Ec.
    { rewrite <- (firstn_skipn k (cells r c)) at 1. rewrite Es, <- app_assoc. reflexivity. }
    apply cells_split in Ec as (Hi & Hj & Ln).
    destruct (des_step_ok s p0 r c (length pre) st i j HI Hi Hj Ln) as (st' & E' & HI').
    + assert (length pre / 8 < length s - p0) by (apply Nat.div_lt_upper_bound; lia). lia.
    + exists st'. split; [exact E'|]. rewrite app_length. cbn [length]. exact HI'.
  - rewrite E. rewrite Lk in HI. destruct HI as (m & -> & _).
    destruct (skipn k (cells r c)) as [|p t] eqn:Ek.
    + apply (f_equal (@length _)) in Ek. rewrite skipn_length, cells_length in Ek. cbn [length] in Ek. lia.
    + cbn [for_each]. unfold des_step at 1. unfold k at 1. rewrite Nat.mul_comm, Nat.div_mul by lia.
      rewrite at_ge by lia. cbn [bind]. eauto.
Qed.

(** Parsed header of a byte vector [s] with first byte [b0]. *)
Definition hdr_k (s : list byte) : nat := Z.to_nat (b2z (nth 0 s x00)).
Definition hdr_rows (s : list byte) : nat := Z.to_nat (le_value (firstn (hdr_k s) (skipn 1 s))).
Definition hdr_cols (s : list byte) : nat :=
  Z.to_nat (le_value (firstn (hdr_k s) (skipn (2 + hdr_k s) s))).

Lemma Des_unfold al s : s <> [] -> hdr_k s <= 8 -> 2 + 2 * hdr_k s <= length s ->
  DeserializeMatrix al s =
  let* st := for_each (cells (hdr_rows s) (hdr_cols s))
               (BM_ctor al (hdr_rows s) (hdr_cols s), 2 + 2 * hdr_k s, 0) (des_step s) in
  let '(m, _, _) := st in Ok m.
Proof.
  intros Hne Hk Hl. unfold DeserializeMatrix. destruct s as [|b0 t] eqn:Es; [contradiction|].
  rewrite <- Es in *. 
  assert (Z.to_nat (b2z b0) = hdr_k s) as -> by (rewrite Es; reflexivity).
  rewrite read_size_ok by lia. cbn [bind].
  rewrite (at_nth s _ x00) by lia. cbn [bind].
  rewrite read_size_ok by lia. cbn [bind].
  replace (1 + hdr_k s + 1 + hdr_k s) with (2 + 2 * hdr_k s) by lia.
  replace (1 + hdr_k s + 1) with (2 + hdr_k s) by lia.
  fold (hdr_rows s) (hdr_cols s).
  rewrite for2_cells. reflexivity.
Qed.

Lemma Des_ok al s : s <> [] -> hdr_k s <= 8 -> 2 + 2 * hdr_k s <= length s ->
  ~ alloc_fails al (hdr_rows s) (hdr_cols s) ->
  hdr_rows s * hdr_cols s <= 8 * (length s - (2 + 2 * hdr_k s)) ->
  exists m, DeserializeMatrix al s = Ok m /\
    shows m (mkamat (hdr_rows s) (hdr_cols s)
               (fun i j => payload_bit (skipn (2 + 2 * hdr_k s) s) (i * hdr_cols s + j))).
Proof.
  intros Hne Hk Hl Ha Hp. rewrite Des_unfold by assumption.
  destruct (BM_ctor_cases al (hdr_rows s) (hdr_cols s)) as [(E & _)|(_ & F)]; [|contradiction].
  rewrite E.
  destruct (des_loop_ok s (2 + 2 * hdr_k s) (hdr_rows s) (hdr_cols s) Hp) as (st & Est & (m & -> & Hm & HI & HJ & R)).
  rewrite Est. cbn [bind]. exists m. split; [reflexivity|].
  apply shows_intro; try assumption. intros i j Hi Hj. rewrite R by assumption.
  replace (i * hdr_cols s + j <? hdr_rows s * hdr_cols s) with true by nia. reflexivity.
Qed.

Lemma Des_short al s : s <> [] -> hdr_k s <= 8 -> 2 + 2 * hdr_k s <= length s ->
  ~ alloc_fails al (hdr_rows s) (hdr_cols s) ->
  8 * (length s - (2 + 2 * hdr_k s)) < hdr_rows s * hdr_cols s ->
  exists u, DeserializeMatrix al s = UB u.
Proof.
  intros Hne Hk Hl Ha Hp. rewrite Des_unfold by assumption.
  destruct (BM_ctor_cases al (hdr_rows s) (hdr_cols s)) as [(E & _)|(_ & F)]; [|contradiction].
  rewrite E.
  destruct (des_loop_short s (2 + 2 * hdr_k s) (hdr_rows s) (hdr_cols s) Hl Hp) as (u & Eu).
  rewrite Eu. cbn. eauto.
Qed.

Lemma Des_bad_header al s : s <> [] -> 8 < hdr_k s \/ length s < 2 + 2 * hdr_k s ->
  exists u, DeserializeMatrix al s = UB u.
Proof.
  intros Hne H. unfold DeserializeMatrix. destruct s as [|b0 t] eqn:Es; [contradiction|].
  rewrite <- Es in *.
  assert (Z.to_nat (b2z b0) = hdr_k s) as -> by (rewrite Es; reflexivity).
  assert (1 <= length s) as L0 by (rewrite Es; cbn; lia).
  destruct (le_lt_dec (hdr_k s) 8) as [L|L].
  - destruct (le_lt_dec (1 + hdr_k s) (length s)) as [L1|L1].
    + rewrite read_size_ok by lia. cbn [bind].
      destruct (le_lt_dec (length s) (1 + hdr_k s)) as [L2|L2].
      * rewrite at_ge by lia. cbn. eauto.
      * rewrite (at_nth s _ x00) by lia. cbn [bind].
        destruct (read_size_bad s (1 + hdr_k s + 1) (hdr_k s)) as (u & Eu); [lia|lia|].
        rewrite Eu. cbn. eauto.
    + destruct (read_size_bad s 1 (hdr_k s)) as (u & Eu); [lia|lia|]. rewrite Eu. cbn. eauto.
  - destruct (read_size_bad s 1 (hdr_k s)) as (u & Eu); [lia|lia|]. rewrite Eu. cbn. eauto.
Qed.

Lemma Des_noalloc al s : s <> [] -> hdr_k s <= 8 -> 2 + 2 * hdr_k s < length s ->
  0 < hdr_rows s * hdr_cols s -> alloc_fails al (hdr_rows s) (hdr_cols s) ->
  DeserializeMatrix al s = Throw RuntimeError.
Proof.
  intros Hne Hk Hl Hp Ha. rewrite Des_unfold by (assumption || lia).
  destruct (BM_ctor_cases al (hdr_rows s) (hdr_cols s)) as [(_ & F)|(E & _)]; [contradiction|].
  rewrite E.
  destruct (cells (hdr_rows s) (hdr_cols s)) as [|p t] eqn:Ec.
  - apply (f_equal (@length _)) in Ec. rewrite cells_length in Ec. cbn in Ec. lia.
  - cbn [for_each]. unfold des_step at 1. rewrite (at_nth s _ x00) by lia. cbn [bind].
    rewrite GetBit_value by lia. cbn [bind]. rewrite Set_throw by (cbn; lia). reflexivity.
Qed.

(** ** Round trip *)
Section RoundTrip.
Variables (m : bm) (A : amat) (s : list byte).
Hypothesis Hm : shows m A.
Hypothesis HN : nonempty A.
Hypothesis Br : (Z.of_nat (arows A) < 2 ^ 64)%Z.
Hypothesis Bc : (Z.of_nat (acols A) < 2 ^ 64)%Z.
Hypothesis Hs : Serialize m = Ok s.

Lemma ser_shape : exists out, s = x08 :: le_bytes 8 (Z.of_nat (arows A)) ++
                                x08 :: le_bytes 8 (Z.of_nat (acols A)) ++ out /\
    length out = arows A * acols A / 8 /\
    forall k t, k < length out -> t < 8 ->
      Z.testbit (b2z (nth k out x00)) (Z.of_nat t) = nth (8 * k + t) (abits A) false.
Proof.
  destruct (Serialize_ok m A Hm HN) as (out & E & L & B). rewrite Hs in E.
  exists out. split; [congruence|]. split; assumption.
Qed.

Lemma ser_hdr out : s = x08 :: le_bytes 8 (Z.of_nat (arows A)) ++
                                x08 :: le_bytes 8 (Z.of_nat (acols A)) ++ out ->
  hdr_k s = 8 /\ hdr_rows s = arows A /\ hdr_cols s = acols A /\ skipn 18 s = out /\
  length s = 18 + length out.
Proof.
  intro E. assert (hdr_k s = 8) as K by (rewrite E; reflexivity).
  assert (length (le_bytes 8 (Z.of_nat (arows A))) = 8) as L1 by apply le_bytes_length.
  assert (length (le_bytes 8 (Z.of_nat (acols A))) = 8) as L2 by apply le_bytes_length.
  split; [exact K|]. unfold hdr_rows, hdr_cols. rewrite K.
  change (2 + 8) with 10.
  assert (skipn 1 s = le_bytes 8 (Z.of_nat (arows A)) ++ x08 :: le_bytes 8 (Z.of_nat (acols A)) ++ out) as S1
    by (rewrite E; reflexivity).
  assert (skipn 10 s = le_bytes 8 (Z.of_nat (acols A)) ++ out) as S2.
  { change 10 with (9 + 1). rewrite <- (skipn_skipn s), S1.
    rewrite skipn_app, L1, skipn_all2 by lia. reflexivity. }
  assert (skipn 18 s = out) as S3.
  { change 18 with (8 + 10). rewrite <- (skipn_skipn s), S2.
    rewrite skipn_app, L2, skipn_all2 by lia. reflexivity. }
  split; [|split; [|split]].
  - rewrite S1, firstn_app, L1, Nat.sub_diag, firstn_O, app_nil_r, firstn_all2 by lia.
    rewrite le_value_bytes by (change (256 ^ Z.of_nat 8)%Z with (2 ^ 64)%Z; lia). lia.
  - rewrite S2, firstn_app, L2, Nat.sub_diag, firstn_O, app_nil_r, firstn_all2 by lia.
    rewrite le_value_bytes by (change (256 ^ Z.of_nat 8)%Z with (2 ^ 64)%Z; lia). lia.
  - exact S3.
  - rewrite E. cbn [length]. rewrite app_length, L1. cbn [length]. rewrite app_length, L2. lia.
Qed.

Lemma roundtrip_ok al : (arows A * acols A) mod 8 = 0 -> ~ alloc_fails al (arows A) (acols A) ->
  exists m', DeserializeMatrix al s = Ok m' /\ shows m' A.
Proof.
  intros H8 Ha. destruct ser_shape as (out & E & L & B).
  destruct (ser_hdr out E) as (K & ER & EC & SK & LS).
  pose proof (Nat.div_mod (arows A * acols A) 8 ltac:(lia)) as D.
  destruct (Des_ok al s) as (m' & Em & S).
  - rewrite E. discriminate.
  - lia.
  - lia.
  - rewrite ER, EC. exact Ha.
  - rewrite ER, EC, K, LS. lia.
  - exists m'. split; [exact Em|]. apply shows_elim in S as (S1 & S2 & S3 & R).
    cbn [arows acols acell] in *. rewrite ER in *. rewrite EC in *.
    destruct A as [ar ac f] eqn:EA. cbn [arows acols acell] in *.
    apply shows_intro; try assumption. intros i j Hi Hj. rewrite R by assumption.
    rewrite K. change (2 + 2 * 8) with 18. rewrite SK. unfold payload_bit.
    assert (i * ac + j < ar * ac) as Hb by nia.
    pose proof (Nat.div_mod (i * ac + j) 8 ltac:(lia)) as D2.
    rewrite B.
    + rewrite <- D2. pose proof (abits_nth (mkamat ar ac f) i j Hi Hj) as N.
      cbn [acols acell] in N. apply nth_error_nth with (d := false) in N. exact N.
    + rewrite L. apply Nat.div_lt_upper_bound; [lia|]. lia.
    + apply mod8_lt.
Qed.

Lemma roundtrip_ub al : (arows A * acols A) mod 8 <> 0 -> ~ alloc_fails al (arows A) (acols A) ->
  exists u, DeserializeMatrix al s = UB u.
Proof.
  intros H8 Ha. destruct ser_shape as (out & E & L & B).
  destruct (ser_hdr out E) as (K & ER & EC & SK & LS).
  pose proof (Nat.div_mod (arows A * acols A) 8 ltac:(lia)) as D.
  apply Des_short.
  - rewrite E. discriminate.
  - lia.
  - lia.
  - rewrite ER, EC. exact Ha.
  - rewrite ER, EC, K, LS. lia.
Qed.
End RoundTrip.

(** ** FromString *)
Lemma ceil8 n : n / 8 + (if n mod 8 =? 0 then 0 else 1) = cdiv8 n.
Proof.
  rewrite <- colBytes_cdiv8. unfold colBytes, bitsInByte. destruct (n mod 8 =? 0); lia.
Qed.

Lemma cdiv8_le n : cdiv8 n <= n.
Proof. pose proof (cdiv8_spec n). destruct n; [reflexivity|]. lia. Qed.

Definition fs_step (s : list byte) (st : bm * nat) (p : nat * nat) : res (bm * nat) :=
  let '(m, k) := st in
  let* b := at_ s k in
  let* m := SetByte m (fst p) (snd p) b in
  Ok (m, k + 1).

Definition fs_inv (s : list byte) (r c n : nat) (st : bm * nat) : Prop :=
  snd st = n /\
  shows (fst st) (mkamat r c (fun i j =>
    if (i <? cdiv8 r) && (i * cdiv8 c + j / 8 <? n)
    then Z.testbit (b2z (nth (i * cdiv8 c + j / 8) s x00)) (7 - Z.of_nat (j mod 8)) else false)).

Lemma fs_init s r c : fs_inv s r c 0 (mkbm (repeat (repeat x00 (cdiv8 c)) r) r c, 0).
Proof.
  split; [reflexivity|]. cbn [fst]. apply shows_intro; try reflexivity; [apply healthy_new|].
  intros i j _ _. rewrite raw_new. rewrite andb_comm. reflexivity.
Qed.

Lemma fs_step_ok s r c st i j : i < cdiv8 r -> j < cdiv8 c -> fs_inv s r c (i * cdiv8 c + j) st ->
  i * cdiv8 c + j < length s ->
  exists st', fs_step s st (i, j) = Ok st' /\ fs_inv s r c (i * cdiv8 c + j + 1) st'.
Proof.
  intros Hi Hj (En & S) Hl. destruct st as [m n]. cbn [fst snd] in En, S. subst n.
  unfold fs_step. cbn [fst snd].
  rewrite (at_nth s _ x00 Hl). cbn [bind]. pose proof (cdiv8_le r).
  destruct (shows_SetByte _ _ i j (nth (i * cdiv8 c + j) s x00) S) as (m' & E & S'); cbn [arows acols]; try lia.
  rewrite E. cbn [bind]. eexists. split; [reflexivity|]. split; [reflexivity|]. cbn [fst].
  apply shows_elim in S' as (S1 & S2 & S3 & R). cbn [arows acols acell aset_byte] in *.
  apply shows_intro; try assumption. intros a b Ha Hb. rewrite R by assumption.
  assert (b / 8 < cdiv8 c) by (apply cdiv8_lt; exact Hb).
  destruct ((a =? i) && (b / 8 =? j)) eqn:Eab.
  - assert (a = i) as -> by lia. assert (b / 8 = j) as -> by lia.
    replace ((i <? cdiv8 r) && (i * cdiv8 c + j <? i * cdiv8 c + j + 1)) with true by lia. reflexivity.
  - assert (a * cdiv8 c + b / 8 <> i * cdiv8 c + j)
      by (intro; assert (a = i) by nia; assert (b / 8 = j) by nia; lia).
    replace (a * cdiv8 c + b / 8 <? i * cdiv8 c + j + 1) with (a * cdiv8 c + b / 8 <? i * cdiv8 c + j) by lia.
    reflexivity.
Qed.

Lemma FromString_unfold al s r c :
  (Z.of_nat (length s) = (Z.of_nat r * Z.of_nat c) mod 2 ^ 32)%Z ->
  FromString al s r c =
  let* st := for_each (cells (cdiv8 r) (cdiv8 c)) (BM_ctor al r c, 0) (fs_step s) in
  let '(m, _) := st in Ok m.
Proof.
  intro H. unfold FromString. apply Z.eqb_eq in H. rewrite H. cbn [negb].
  rewrite !ceil8, for2_cells. f_equal.
Qed.

Lemma FromString_len al s r c :
  (Z.of_nat (length s) <> (Z.of_nat r * Z.of_nat c) mod 2 ^ 32)%Z ->
  FromString al s r c = Throw InvalidArgument.
Proof. intro H. unfold FromString. apply Z.eqb_neq in H. rewrite H. reflexivity. Qed.

Lemma FromString_ok al s r c :
  (Z.of_nat (length s) = (Z.of_nat r * Z.of_nat c) mod 2 ^ 32)%Z ->
  cdiv8 r * cdiv8 c <= length s -> ~ alloc_fails al r c ->
  exists m, FromString al s r c = Ok m /\
    shows m (mkamat r c (fun i j =>
      if i <? cdiv8 r
      then Z.testbit (b2z (nth (i * cdiv8 c + j / 8) s x00)) (7 - Z.of_nat (j mod 8)) else false)).
Proof.
  intros H HL Ha. rewrite FromString_unfold by exact H.
  destruct (BM_ctor_cases al r c) as [(E & _)|(_ & F)]; [|contradiction]. rewrite E.
  destruct (for_each_inv (fun pre st => fs_inv s r c (length pre) st) (fs_step s)
    (cells (cdiv8 r) (cdiv8 c)) (mkbm (repeat (repeat x00 (cdiv8 c)) r) r c, 0)) as ([m n] & Es & HI).
  - apply fs_init.
  - intros pre (i, j) post st Es HI. apply cells_split in Es as (Hi & Hj & Ln). rewrite Ln in HI.
    destruct (fs_step_ok s r c st i j Hi Hj HI) as (st' & E' & HI'); [nia|].
    exists st'. split; [exact E'|]. rewrite app_length, Ln. exact HI'.
  - rewrite Es. cbn [bind]. exists m. split; [reflexivity|].
    destruct HI as (_ & S). cbn [fst] in S. rewrite cells_length in S.
    apply shows_elim in S as (S1 & S2 & S3 & R). cbn [arows acols acell] in *.
    apply shows_intro; try assumption. intros i j Hi Hj. rewrite R by assumption.
    pose proof (cdiv8_lt c j Hj).
    destruct (i <? cdiv8 r) eqn:Ei; [|reflexivity]. cbn [andb].
    replace (i * cdiv8 c + j / 8 <? cdiv8 r * cdiv8 c) with true by nia. reflexivity.
Qed.

Lemma FromString_ub al s r c :
  (Z.of_nat (length s) = (Z.of_nat r * Z.of_nat c) mod 2 ^ 32)%Z ->
  length s < cdiv8 r * cdiv8 c -> ~ alloc_fails al r c ->
  exists u, FromString al s r c = UB u.
Proof.
  intros H HL Ha. rewrite FromString_unfold by exact H.
  destruct (BM_ctor_cases al r c) as [(E & _)|(_ & F)]; [|contradiction]. rewrite E.
  set (k := length s) in *. set (C := cells (cdiv8 r) (cdiv8 c)).
  rewrite <- (firstn_skipn k C). rewrite for_each_app.
  assert (length (firstn k C) = k) as Lk by (unfold C; rewrite firstn_length, cells_length; lia).
  destruct (for_each_inv (fun pre st => fs_inv s r c (length pre) st) (fs_step s)
    (firstn k C) (mkbm (repeat (repeat x00 (cdiv8 c)) r) r c, 0)) as ([m n] & Es & HI).
  - apply fs_init.
  - intros pre (i, j) post st Es HI.
    assert (length pre < k) as Lp by (apply (f_equal (@length _)) in Es; rewrite Lk, app_length in Es; cbn in Es; lia).
    assert (C = pre ++ (i, j) :: (post ++ skipn k C)) as Ec.
    { rewrite <- (firstn_skipn k C) at 1. rewrite Es, <- app_assoc. reflexivity. }
    apply cells_split in Ec as (Hi & Hj & Ln). rewrite Ln in HI.
    destruct (fs_step_ok s r c st i j Hi Hj HI) as (st' & E' & HI'); [fold k; lia|].
    exists st'. split; [exact E'|]. rewrite app_length, Ln. exact HI'.
  - rewrite Es. rewrite Lk in HI. destruct HI as (En & _). cbn [fst snd] in En. subst n.
    destruct (skipn k C) as [|p t] eqn:Ek.
    + apply (f_equal (@length _)) in Ek. unfold C in Ek. rewrite skipn_length, cells_length in Ek. cbn [length] in Ek. lia.
    + cbn [for_each]. unfold fs_step at 1. rewrite at_ge by (unfold k; lia). cbn. eauto.
Qed.
