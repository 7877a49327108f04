(** Lemmas about the run-length codecs. *)
From Verif Require Import Prelude P_Prelude M_ByteHandler P_ByteHandler M_Vector2D M_BitMatrix
  S_Matrix P_BitMatrix P_Cells P_Serial P_Vector2D M_LayoutCore M_Rle S_Rle.
Local Ltac Zify.zify_post_hook ::= Z.to_euclidean_division_equations.

Lemma expand_app a b : expand (a ++ b) = expand a ++ expand b.
Proof. unfold expand. apply flat_map_app. Qed.

Lemma run_length b : length (run b) = Z.to_nat (b2z b mod 128).
Proof. apply repeat_length. Qed.

Lemma expand_length_le s : length (expand s) <= 127 * length s.
Proof.
  induction s as [|b s IH]; [cbn; lia|].
  change (expand (b :: s)) with (run b ++ expand s). rewrite app_length, run_length.
  cbn [length]. assert (0 <= b2z b mod 128 < 128)%Z by (apply Z.mod_pos_bound; lia). lia.
Qed.

(** The byte written for a run *)
Definition kbyte (n : nat) (v : bool) : byte := z2b (Z.of_nat n + if v then 128 else 0).

Lemma SetBit7 key v : (b2z key < 128)%Z ->
  SetBit key 7 v = Ok (kbyte (Z.to_nat (b2z key)) v).
Proof.
  intros H. unfold kbyte. rewrite Z2Nat.id by (pose proof (b2z_range key); lia).
  assert (A : forall b, (if (b2z b <? 128)%Z then
      match SetBit b 7 v with Ok x => beqb x (z2b (b2z b + if v then 128 else 0)) | _ => false end
      else true) = true) by (destruct v; refine (sweep (fun b => _) _); vm_compute; reflexivity).
  specialize (A key). destruct (b2z key <? 128)%Z eqn:E; [|lia].
  destruct (SetBit key 7 v); try discriminate. apply beqb_eq in A. now subst.
Qed.

Lemma run_kbyte n v : n < 128 -> run (kbyte n v) = repeat v n.
Proof.
  intros H. unfold run, kbyte.
  rewrite b2z_z2b_small by (destruct v; lia).
  replace (Z.to_nat ((Z.of_nat n + (if v then 128 else 0)) mod 128)) with n by (destruct v; lia).
  f_equal. destruct v.
  - replace (Z.of_nat n + 128)%Z with (Z.of_nat n + 1 * 2 ^ 7)%Z by lia.
    rewrite Z.add_nocarry_lxor.
    + rewrite Z.lxor_spec. replace (Z.testbit (Z.of_nat n) 7) with false; [reflexivity|].
      symmetry. apply Z.bits_above_log2; [lia|].
      destruct (Z.eq_dec (Z.of_nat n) 0) as [->|]; [reflexivity|]. apply Z.log2_lt_pow2; lia.
    + change (1 * 2 ^ 7)%Z with (Z.shiftl 1 7). apply Z.bits_inj'. intros k Hk.
      rewrite Z.land_spec, Z.bits_0.
      destruct (Z.ltb_spec k 7).
      * rewrite Z.shiftl_spec_low by lia. apply andb_false_r.
      * replace (Z.testbit (Z.of_nat n) k) with false; [reflexivity|].
        symmetry. destruct (Z.eq_dec (Z.of_nat n) 0) as [->|]; [apply Z.bits_0|].
        apply Z.bits_above_log2; [lia|].
        assert (Z.log2 (Z.of_nat n) < 7)%Z by (apply Z.log2_lt_pow2; lia). lia.
  - rewrite Z.add_0_r. symmetry.
    destruct (Z.eq_dec (Z.of_nat n) 0) as [->|]; [reflexivity|].
    symmetry. apply Z.bits_above_log2; [lia|]. apply Z.log2_lt_pow2; lia.
Qed.

(** ** Encoders *)
Definition enc_inv (bits : list bool) (st : list byte * bool * byte) : Prop :=
  let '(enc, curr, key) := st in
  (b2z key < 127)%Z /\ expand enc ++ repeat curr (Z.to_nat (b2z key)) = bits /\
  length enc <= length bits - 1 /\ (bits <> [] -> 0 < Z.to_nat (b2z key) + length enc).

Lemma repeat_snoc {A} (x : A) n : repeat x n ++ [x] = repeat x (S n).
Proof. induction n; cbn; [reflexivity|]. now rewrite IHn. Qed.

Lemma b2z_inc k : (b2z k < 127)%Z -> b2z (inc8 k) = (b2z k + 1)%Z.
Proof. intros H. unfold inc8. apply b2z_z2b_small. pose proof (b2z_range k). lia. Qed.

Lemma rle_step_ok bits st v : enc_inv bits st ->
  (bits = [] -> v = snd (fst st)) ->
  exists st', rle_step st v = Ok st' /\ enc_inv (bits ++ [v]) st'.
Proof.
  destruct st as [[enc curr] key]. intros (K & E & L & P) F. cbn [fst snd] in F.
  pose proof (b2z_range key) as RK.
  unfold rle_step. destruct (Bool.eqb curr v) eqn:Ev.
  - apply eqb_prop in Ev. subst v. cbn [bind].
    pose proof (b2z_inc key K) as BI.
    destruct (beqb (inc8 key) g_maxRleCounterValue) eqn:M.
    + apply beqb_eq in M. rewrite M in *.
      change (SetBit g_maxRleCounterValue g_lastBitPos curr) with (SetBit x7f 7 curr).
      rewrite SetBit7 by (cbn; lia). cbn [bind].
      eexists. split; [reflexivity|].
      assert (b2z key = 126%Z) as K6 by (change (b2z g_maxRleCounterValue) with 127%Z in BI; lia).
      cbn [enc_inv]. split; [cbn; lia|]. split; [|split].
      * rewrite expand_app. change (expand [kbyte (Z.to_nat (b2z x7f)) curr])
          with (run (kbyte (Z.to_nat (b2z x7f)) curr) ++ []).
        rewrite run_kbyte by (cbn; lia). rewrite <- E, K6.
        change (Z.to_nat (b2z x7f)) with 127. change (Z.to_nat (b2z x00)) with 0.
        change (Z.to_nat 126) with 126. cbn [repeat].
        rewrite !app_nil_r, <- app_assoc. reflexivity.
      * rewrite !app_length. cbn [length].
        assert (126 <= length bits). { rewrite <- E, app_length, repeat_length, K6. lia. } lia.
      * intros _. rewrite app_length. cbn [length]. lia.
    + eexists. split; [reflexivity|]. cbn [enc_inv]. rewrite BI.
      assert (b2z key + 1 <> 127)%Z.
      { intros Q. apply beqb_neq in M. apply M. apply b2z_inj. rewrite BI, Q. reflexivity. }
      split; [lia|]. split; [|split].
      * rewrite <- E, <- app_assoc, repeat_snoc. f_equal. f_equal. lia.
      * rewrite app_length. cbn [length]. lia.
      * intros _. lia.
  - assert (bits <> []) as Nb.
    { intros ->. rewrite (F eq_refl), eqb_reflx in Ev. discriminate. }
    assert (1 <= length bits) by (destruct bits; [congruence|cbn [length]; lia]).
    assert (v = negb curr) as -> by (clear - Ev; destruct curr, v; cbn in *; congruence).
    change g_lastBitPos with 7. rewrite SetBit7 by lia. cbn [bind].
    change (beqb x01 g_maxRleCounterValue) with false. cbv iota beta.
    eexists. split; [reflexivity|]. cbn [enc_inv]. split; [cbn; lia|]. split; [|split].
    + rewrite expand_app. unfold expand at 2. cbn [flat_map].
      rewrite run_kbyte, app_nil_r, E by lia. reflexivity.
    + rewrite !app_length. cbn [length]. lia.
    + intros _. rewrite app_length. cbn [length]. lia.
Qed.

Lemma rle_loop bits : forall pre st, enc_inv pre st ->
  (pre = [] -> forall v rest, bits = v :: rest -> v = snd (fst st)) ->
  exists st', for_each bits st rle_step = Ok st' /\ enc_inv (pre ++ bits) st'.
Proof.
  induction bits as [|v bits IH]; intros pre st I F.
  - exists st. rewrite app_nil_r. auto.
  - destruct (rle_step_ok pre st v I) as (st1 & E1 & I1).
    { intros Hp. apply (F Hp v bits). reflexivity. }
    destruct (IH (pre ++ [v]) st1 I1) as (st2 & E2 & I2).
    { intros Q. destruct pre; discriminate. }
    exists st2. cbn [for_each]. rewrite E1, E2. split; [reflexivity|].
    rewrite <- app_assoc in I2. exact I2.
Qed.

Lemma rle_encode_bits bits v0 rest : bits = v0 :: rest ->
  exists s, (let* st := for_each bits ([], v0, x00) rle_step in rle_finish st) = Ok s /\
    expand s = bits /\ 0 < length s <= length bits.
Proof.
  intros Eb. destruct (rle_loop bits [] ([], v0, x00)) as ([[enc curr] key] & E & I).
  - cbn [enc_inv]. repeat split; cbn; try lia. congruence.
  - intros _ v r Er. cbn [fst snd]. congruence.
  - cbn [app] in I. destruct I as (K & X & L & _). rewrite E. cbn [bind rle_finish].
    change g_lastBitPos with 7. rewrite SetBit7 by lia. cbn [bind].
    eexists. split; [reflexivity|]. split.
    + rewrite expand_app. unfold expand at 2. cbn [flat_map].
      pose proof (b2z_range key). rewrite run_kbyte, app_nil_r, X by lia. reflexivity.
    + rewrite app_length. cbn [length]. rewrite Eb in L |- *. cbn [length] in *. lia.
Qed.

Lemma BM_copy_same al m A : shows m A -> memory_ok al (arows A) (acols A) -> BM_copy al m = m.
Proof.
  intros ((H1 & H2) & Hr & Hc & _) M. unfold GetRowCount, GetColumnCount in *.
  unfold BM_copy. rewrite H1, colBytes_cdiv8, Hr, Hc, M.
  rewrite <- Hr, <- Hc. destruct m as [d I J]. reflexivity.
Qed.

Lemma LM_not_ok al m A : shows m A -> memory_ok al (arows A) (acols A) ->
  LM_not al m = (arows A =? 0) || (acols A =? 0).
Proof.
  intros S M. unfold LM_not. rewrite (BM_copy_same al m A S M). now apply shows_not.
Qed.

Lemma Rle_Encode_ok al m A : shows m A -> nonempty A -> memory_ok al (arows A) (acols A) ->
  exists s, Rle_Encode al m = Ok s /\ expand s = abits A /\
    0 < length s <= arows A * acols A /\ arows A * acols A <= 127 * length s.
Proof.
  intros S (Nr & Nc) M. unfold Rle_Encode. rewrite (LM_not_ok al m A S M).
  rewrite (proj2 (Nat.eqb_neq _ _)), (proj2 (Nat.eqb_neq _ _)) by lia. cbn [orb].
  pose proof S as (H & Hr & Hc & G). rewrite G by assumption. cbn [bind].
  rewrite Hr, Hc.
  rewrite (for2_bits _ rle_step).
  2:{ intros st i j Hi Hj. rewrite G by assumption. reflexivity. }
  assert (B : exists rest, abits A = acell A 0 0 :: rest).
  { pose proof (abits_nth A 0 0 Nr Nc) as N0. destruct (abits A) as [|b rest]; [discriminate|].
    cbn in N0. exists rest. congruence. }
  destruct B as (rest & B).
  destruct (rle_encode_bits (abits A) _ _ B) as (s & E & X & L). exists s.
  split; [exact E|]. split; [exact X|]. rewrite abits_length in L. split; [exact L|].
  rewrite <- abits_length, <- X. apply expand_length_le.
Qed.

(** ** DecodeMatrix *)
(** After [n] bits of the expansion were stored, with (k, j) the position of the next one. *)
Definition dec_inv (r c : nat) (l : list bool) (st : bm * nat * nat) : Prop :=
  let '(m, k, j) := st in
  shows m (filled r c l) /\ Isize m = r /\ Jsize m = c /\
  ((k * c + j = length l /\ j < c /\ k <= r /\ (k = r -> j = 0)) \/
   (r * c <= length l /\ (r <= k \/ c <= j))).

Lemma shows_eq m A B : shows m A -> arows A = arows B -> acols A = acols B ->
  (forall i j, i < arows A -> j < acols A -> acell A i j = acell B i j) -> shows m B.
Proof.
  intros (H & Hr & Hc & G) Er Ec E. split; [exact H|]. split; [congruence|]. split; [congruence|].
  intros i j Hi Hj. rewrite <- E by congruence. apply G; congruence.
Qed.

Lemma row_major_inj c a b k j : b < c -> j < c -> a * c + b = k * c + j -> a = k /\ b = j.
Proof.
  intros Hb Hj E.
  assert (a = k).
  { transitivity ((a * c + b) / c).
    - apply (Nat.div_unique (a * c + b) c a b Hb). lia.
    - symmetry. rewrite E. apply (Nat.div_unique (k * c + j) c k j Hj). lia. }
  subst. lia.
Qed.

Lemma filled_snoc r c l k j v : k < r -> j < c -> k * c + j = length l ->
  forall m, shows m (aset (filled r c l) k j v) -> shows m (filled r c (l ++ [v])).
Proof.
  intros Hk Hj L m S. eapply shows_eq; [exact S| | |]; cbn [arows acols acell aset filled]; auto.
  intros a b Ha Hb.
  destruct (Nat.eq_dec (a * c + b) (length l)) as [Q|Q].
  - assert (a = k /\ b = j) as (-> & ->) by (apply (row_major_inj c); lia).
    rewrite !Nat.eqb_refl. cbn [andb]. rewrite app_nth2, Q, Nat.sub_diag by lia. reflexivity.
  - assert ((a =? k) && (b =? j) = false) as ->.
    { apply andb_false_iff. destruct (Nat.eq_dec a k) as [->|Ne].
      - right. apply Nat.eqb_neq. intros ->. lia.
      - left. apply Nat.eqb_neq. exact Ne. }
    destruct (lt_dec (a * c + b) (length l)).
    + now rewrite app_nth1.
    + rewrite (nth_overflow l), (nth_overflow (l ++ [v])); [reflexivity| |lia].
      rewrite app_length. cbn [length]. lia.
Qed.

Lemma filled_more r c l l' : r * c <= length l -> forall m, shows m (filled r c l) ->
  shows m (filled r c (l ++ l')).
Proof.
  intros L m S. eapply shows_eq; [exact S| | |]; cbn [arows acols acell filled]; auto.
  intros a b Ha Hb. rewrite app_nth1; [reflexivity|]. nia.
Qed.

Lemma decode_run_ok r c v n : forall l st, dec_inv r c l st ->
  exists st', decode_run n st v = Ok st' /\ dec_inv r c (l ++ repeat v n) st'.
Proof.
  induction n as [|n IH]; intros l [[m k] j] I.
  - exists (m, k, j). cbn [decode_run repeat]. rewrite app_nil_r. auto.
  - cbn [decode_run repeat]. destruct I as (S & Hr & Hc & P).
    destruct (lt_dec k r) as [Lk|Lk]; [destruct (lt_dec j c) as [Lj|Lj]|].
    + destruct P as [(E & _ & _ & _)|(E & [?|?])]; try lia.
      destruct (shows_Set m _ k j v S Lk Lj) as (m' & Em & S').
      rewrite Em.
      assert (Z : Isize m' = r /\ Jsize m' = c).
      { destruct S' as (_ & A1 & A2 & _). split; [exact A1|exact A2]. }
      destruct Z as (Zr & Zc).
      pose proof (filled_snoc r c l k j v Lk Lj E m' S') as S2.
      change (v :: repeat v n) with ([v] ++ repeat v n). rewrite app_assoc.
      unfold GetColumnCount. rewrite Zc.
      destruct (j + 1 =? c) eqn:Q.
      * apply Nat.eqb_eq in Q. apply IH. split; [exact S2|]. split; [exact Zr|]. split; [exact Zc|].
        left. rewrite app_length. cbn [length]. nia.
      * apply Nat.eqb_neq in Q. apply IH. split; [exact S2|]. split; [exact Zr|]. split; [exact Zc|].
        left. rewrite app_length. cbn [length]. nia.
    + rewrite Set_throw by (right; lia). exists (m, k, j). split; [reflexivity|].
      destruct P as [(E & ? & _ & _)|(E & Q)]; [lia|].
      split; [apply filled_more; assumption|]. split; [exact Hr|]. split; [exact Hc|].
      right. rewrite app_length. lia.
    + rewrite Set_throw by (left; lia). exists (m, k, j). split; [reflexivity|].
      assert (r * c <= length l) by (destruct P as [(E & ? & ? & ?)|(E & Q)]; nia).
      split; [apply filled_more; assumption|]. split; [exact Hr|]. split; [exact Hc|].
      right. rewrite app_length. lia.
Qed.

Lemma GetBit7 b : GetBit b g_lastBitPos = Ok (Z.testbit (b2z b) 7).
Proof. apply (GetBit_value b 7). lia. Qed.

Lemma ClearBit7 b : exists b', SetBit b g_lastBitPos false = Ok b' /\ b2z b' = (b2z b mod 128)%Z.
Proof.
  assert (A : forall b, match SetBit b 7 false with Ok x => Z.eqb (b2z x) (b2z b mod 128) | _ => false end = true)
    by (refine (sweep (fun b => _) _); vm_compute; reflexivity).
  specialize (A b). change g_lastBitPos with 7. destruct (SetBit b 7 false) as [x| |]; try discriminate.
  exists x. split; [reflexivity|]. now apply Z.eqb_eq.
Qed.

Definition dec_body (s : list byte) := (fun (st : bm * nat * nat) i =>
      let* tmp := at_ s i in
      let* value := GetBit tmp g_lastBitPos in
      let* cnt := SetBit tmp g_lastBitPos false in
      decode_run (Z.to_nat (b2z cnt)) st value).

Lemma dec_loop r c s st0 : dec_inv r c [] st0 ->
  exists st, for_each (upto 0 (length s)) st0 (dec_body s) = Ok st /\ dec_inv r c (expand s) st.
Proof.
  intros I0.
  destruct (for_upto_inv (fun n st => dec_inv r c (expand (firstn n s)) st) (dec_body s) 0 (length s) st0)
    as (st & E & I); try lia.
  - exact I0.
  - intros n st Hn I. destruct (nth_error s n) as [b|] eqn:N.
    2:{ apply nth_error_None in N. lia. }
    destruct (ClearBit7 b) as (cb & C & V).
    destruct (decode_run_ok r c (Z.testbit (b2z b) 7) (Z.to_nat (b2z cb)) _ st I) as (st' & E & I').
    exists st'. split.
    + unfold dec_body, at_. rewrite N. cbn [bind]. rewrite GetBit7. cbn [bind]. rewrite C. exact E.
    + rewrite (firstn_snoc s n b N), expand_app. unfold expand at 2. cbn [flat_map].
      rewrite app_nil_r. unfold run. rewrite <- V. exact I'.
  - exists st. rewrite firstn_all in I. auto.
Qed.

Lemma dec_start r c : dec_inv r c [] (mkbm (repeat (repeat x00 (cdiv8 c)) r) r c, 0, 0).
Proof.
  split; [|split; [reflexivity|split; [reflexivity|]]].
  - eapply shows_eq; [apply shows_new| | |]; cbn [azero filled arows acols acell]; auto.
    intros i j _ _. now destruct (i * c + j).
  - destruct (Nat.eq_dec c 0) as [->|]; [right; cbn [length]; lia|].
    left. cbn [length]. lia.
Qed.

Lemma DecodeMatrix_ok al s r c : s <> [] -> memory_ok al r c ->
  exists m, Rle_DecodeMatrix al s r c = Ok m /\ shows m (filled r c (expand s)).
Proof.
  intros N M. unfold Rle_DecodeMatrix. rewrite (proj2 (Nat.eqb_neq _ _)).
  2:{ destruct s; [congruence|cbn [length]; lia]. }
  assert (LM_ctor al r c = mkbm (repeat (repeat x00 (cdiv8 c)) r) r c) as ->.
  { unfold LM_ctor, BM_ctor, V_Resize. rewrite colBytes_cdiv8, M. reflexivity. }
  destruct (dec_loop r c s _ (dec_start r c)) as ([[m k] j] & E & I).
  unfold dec_body in E. rewrite E. cbn [bind]. exists m. split; [reflexivity|]. apply I.
Qed.

Lemma for_each_fix {S A} (l : list A) (s0 : S) f : (forall x, In x l -> f s0 x = Ok s0) ->
  for_each l s0 f = Ok s0.
Proof.
  induction l as [|x l IH]; intros H; cbn [for_each]; [reflexivity|].
  rewrite H by now left. apply IH. intros y Hy. apply H. now right.
Qed.

Lemma DecodeMatrix_oom al s r c : s <> [] -> out_of_memory al r c ->
  Rle_DecodeMatrix al s r c = Ok bm_empty.
Proof.
  intros N M. unfold Rle_DecodeMatrix. rewrite (proj2 (Nat.eqb_neq _ _)).
  2:{ destruct s; [congruence|cbn [length]; lia]. }
  assert (C : LM_ctor al r c = bm_empty).
  { unfold LM_ctor, BM_ctor, V_Resize. rewrite colBytes_cdiv8.
    destruct M as [-> | (i & Hi & ->)]; [reflexivity|].
    rewrite (proj2 (Nat.ltb_lt i r) Hi). unfold BM_Reset. cbn [Bitmap].
    unfold V_Reset. destruct (_ ++ _); reflexivity. }
  rewrite C.
  assert (R : forall n v, decode_run n (bm_empty, 0, 0) v = Ok (bm_empty, 0, 0)).
  { intros [|n] v; [reflexivity|]. cbn [decode_run]. rewrite Set_throw by (left; cbn; lia). reflexivity. }
  rewrite for_each_fix; [reflexivity|].
  intros i Hi. apply upto_in in Hi. destruct (at_lt s i ltac:(lia)) as (b & E & _). rewrite E.
  cbn [bind]. rewrite GetBit7. cbn [bind]. destruct (ClearBit7 b) as (cb & -> & _). apply R.
Qed.

Lemma filled_abits A : asame (filled (arows A) (acols A) (abits A)) A.
Proof.
  split; [reflexivity|]. split; [reflexivity|]. cbn [filled arows acols acell]. intros i j Hi Hj.
  apply nth_error_nth. now apply abits_nth.
Qed.

Lemma shows_asame m A B : shows m A -> asame A B -> shows m B.
Proof. intros S (E1 & E2 & E3). eapply shows_eq; eauto. Qed.

(** ** Byte strings *)
Lemma ByteEncode_bits s : Rle_ByteEncode s =
  (let* s0 := at_ s 0 in
   let* st := for_each (string_bits s) ([], Z.testbit (b2z s0) 7, x00) rle_step in rle_finish st).
Proof.
  unfold Rle_ByteEncode. destruct (at_ s 0) as [s0| |]; cbn [bind]; try reflexivity.
  rewrite GetBit7. cbn [bind]. f_equal.
  assert (G : forall pre t n st, n = length pre ->
    for_each (upto n (n + length t)) st (fun st i =>
      for_each [7; 6; 5; 4; 3; 2; 1; 0] st (fun st j =>
        let* c := at_ (pre ++ t) i in let* v := GetBit c j in rle_step st v))
    = for_each (string_bits t) st rle_step).
  { intros pre t. revert pre. induction t as [|b t IH]; intros pre n st Hn.
    - rewrite upto_nil by (cbn [length]; lia). reflexivity.
    - cbn [length]. rewrite upto_cons by lia. cbn [for_each].
      change (string_bits (b :: t)) with (map (fun k => Z.testbit (b2z b) k) [7; 6; 5; 4; 3; 2; 1; 0]%Z ++ string_bits t).
      rewrite for_each_app.
      assert (H : for_each [7; 6; 5; 4; 3; 2; 1; 0] st (fun st j =>
        let* c := at_ (pre ++ b :: t) n in let* v := GetBit c j in rle_step st v)
        = for_each (map (fun k => Z.testbit (b2z b) k) [7; 6; 5; 4; 3; 2; 1; 0]%Z) st rle_step).
      { assert (A : at_ (pre ++ b :: t) n = Ok b).
        { unfold at_. rewrite nth_error_app2, Hn, Nat.sub_diag by lia. reflexivity. }
        rewrite A. change [7; 6; 5; 4; 3; 2; 1; 0]%Z with (map Z.of_nat [7; 6; 5; 4; 3; 2; 1; 0]).
        rewrite map_map, for_each_map. apply for_each_ext. intros st' j Hj. cbn [bind].
        rewrite GetBit_value; [reflexivity|]. cbn in Hj. lia. }
      cbn [for_each] in H. rewrite H. clear H.
      match goal with |- match ?X with _ => _ end = _ => destruct X as [st1| |] end; try reflexivity.
      specialize (IH (pre ++ [b]) (S n) st1). rewrite <- app_assoc in IH. cbn [app] in IH.
      replace (n + 1) with (S n) by lia. replace (n + S (length t)) with (S n + length t) by lia.
      apply IH. rewrite app_length. cbn [length]. lia. }
  exact (G [] s 0 _ eq_refl).
Qed.

Lemma ByteEncode_ok s : s <> [] ->
  exists e, Rle_ByteEncode s = Ok e /\ expand e = string_bits s /\ 0 < length e <= 8 * length s.
Proof.
  intros N. rewrite ByteEncode_bits. destruct s as [|b s]; [congruence|].
  change (at_ (b :: s) 0) with (Ok b). cbn [bind].
  destruct (rle_encode_bits (string_bits (b :: s)) (Z.testbit (b2z b) 7)
     (skipn 1 (string_bits (b :: s))) eq_refl) as (e & E & X & L).
  exists e. split; [exact E|]. split; [exact X|].
  assert (length (string_bits (b :: s)) = 8 * length (b :: s)); [|lia].
  clear. induction (b :: s) as [|x t IH]; [reflexivity|].
  change (string_bits (x :: t)) with (map (fun k => Z.testbit (b2z x) k) [7; 6; 5; 4; 3; 2; 1; 0]%Z ++ string_bits t).
  rewrite app_length, IH. cbn [length map]. lia.
Qed.

Lemma byte_run_ok n : forall b v, byte_decode_run n b v = Ok tt.
Proof.
  induction n; intros; cbn [byte_decode_run]; [reflexivity|].
  destruct (SetBit_ok b 7 v) as (b' & E & _); [lia|]. rewrite E. cbn [bind]. apply IHn.
Qed.

Lemma ByteDecode_empty s : Rle_ByteDecode s = Ok [].
Proof.
  unfold Rle_ByteDecode. destruct (length s =? 0); [reflexivity|].
  rewrite for_each_fix; [reflexivity|].
  intros i Hi. apply upto_in in Hi. destruct (at_lt s i ltac:(lia)) as (b & E & _). rewrite E.
  cbn [bind]. rewrite (GetBit_value b 7) by lia. cbn [bind].
  destruct (ClearBit7 b) as (cb & -> & _). apply byte_run_ok.
Qed.
