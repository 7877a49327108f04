(** Flipped bits in a text followed by the Base64 form of its checksum. *)
From Verif Require Import Prelude P_Prelude M_Crc32 S_Crc32 P_Crc32 M_Base64 S_Base64 P_Base64 S_Flips P_Flips.

Lemma text_bit_app a b i : text_bit (a ++ b) i =
  if i <? 8 * length a then text_bit a i else text_bit b (i - 8 * length a).
Proof.
  unfold text_bit. destruct (Nat.ltb_spec i (8 * length a)) as [H|H].
  - rewrite nth_error_app1; [reflexivity|]. apply Nat.div_lt_upper_bound; lia.
  - rewrite nth_error_app2 by (apply Nat.div_le_lower_bound; lia).
    assert (D : i / 8 = (i - 8 * length a) / 8 + length a) by (rewrite <- Nat.div_add by lia; f_equal; lia).
    assert (M : i mod 8 = (i - 8 * length a) mod 8).
    { rewrite <- (Nat.mod_add (i - 8 * length a) (length a) 8) by lia. f_equal. lia. }
    rewrite D, M. now replace ((i - 8 * length a) / 8 + length a - length a) with ((i - 8 * length a) / 8) by lia.
Qed.

Lemma filter_map (A B : Type) (f : B -> bool) (g : A -> B) l : filter f (map g l) = map g (filter (fun x => f (g x)) l).
Proof. induction l as [|x l IH]; cbn [map filter]; [reflexivity|]. rewrite IH. destruct (f (g x)); reflexivity. Qed.

Lemma seq_shift_by n : forall k, seq k n = map (fun i => i + k) (seq 0 n).
Proof.
  induction n as [|n IH]; intros k; cbn [seq map]; [reflexivity|]. f_equal.
  rewrite (IH (S k)), (IH 1), map_map. apply map_ext. intros; lia.
Qed.

Lemma flipped_app a b a' b' : length a = length a' -> length b = length b' ->
  length (flipped (a ++ b) (a' ++ b')) = length (flipped a a') + length (flipped b b').
Proof.
  intros La Lb. unfold flipped. rewrite app_length, Nat.mul_add_distr_l, seq_app, filter_app, app_length.
  f_equal.
  - f_equal. apply filter_ext_in. intros i I. apply in_seq in I. rewrite !text_bit_app, <- La.
    now rewrite (proj2 (Nat.ltb_lt _ _)) by lia.
  - rewrite seq_shift_by, filter_map, map_length. f_equal. apply filter_ext. intros i.
    rewrite !text_bit_app, <- La, (proj2 (Nat.ltb_ge _ _)) by lia. cbn [Nat.add].
    now replace (i + 8 * length a - 8 * length a) with i by lia.
Qed.

Lemma flips_cut a b u k : flips k (a ++ b) u -> exists a' b' i j, u = a' ++ b' /\
  flips i a a' /\ flips j b b' /\ i + j = k.
Proof.
  intros (L & N). rewrite app_length in L.
  assert (La : length a = length (firstn (length a) u)) by (rewrite firstn_length; lia).
  assert (Lb : length b = length (skipn (length a) u)) by (rewrite skipn_length; lia).
  exists (firstn (length a) u), (skipn (length a) u).
  exists (length (flipped a (firstn (length a) u))), (length (flipped b (skipn (length a) u))).
  split; [now rewrite firstn_skipn|]. split; [split; [exact La|reflexivity]|].
  split; [split; [exact Lb|reflexivity]|].
  rewrite <- flipped_app, firstn_skipn by assumption. exact N.
Qed.

Lemma flips_0 s t : flips 0 s t <-> s = t.
Proof.
  split.
  - intros (L & N). apply le_value_inj; [exact L|]. apply Z.lxor_eq.
    rewrite flipped_value by exact L. destruct (flipped s t); [reflexivity|discriminate N].
  - intros <-. split; [reflexivity|]. unfold flipped.
    induction (seq 0 (8 * length s)) as [|x l IH]; cbn [filter]; [reflexivity|].
    rewrite xorb_nilpotent. exact IH.
Qed.

Lemma flips_differ k s t : flips (S k) s t -> s <> t.
Proof. intros F E. apply flips_0 in E. destruct F as (_ & F), E as (_ & E). congruence. Qed.

(** One flipped bit leaves all bytes but one alone. *)
Lemma flips_1_byte s t : flips 1 s t -> exists i, forall j, j <> i -> nth_error s j = nth_error t j.
Proof.
  intros (L & N). destruct (flipped s t) as [|p [|]] eqn:F; try discriminate N.
  exists (p / 8). intros j J.
  destruct (nth_error s j) as [x|] eqn:Es, (nth_error t j) as [y|] eqn:Et; try reflexivity.
  2:{ apply nth_error_None in Et. assert (nth_error s j <> None) by congruence. apply nth_error_Some in H. lia. }
  2:{ apply nth_error_None in Es. assert (nth_error t j <> None) by congruence. apply nth_error_Some in H. lia. }
  f_equal. apply b2z_inj. apply Z.bits_inj'. intros n Hn. destruct (Z_lt_ge_dec n 8) as [H|H].
  2:{ rewrite !testbit_byte_hi by lia. reflexivity. }
  assert (Q : forall u c, nth_error u j = Some c -> text_bit u (j * 8 + Z.to_nat n) = Z.testbit (b2z c) n).
  { intros u c E. unfold text_bit. rewrite Nat.div_add_l, Nat.div_small, Nat.add_0_r, E by lia.
    rewrite Nat.add_comm, Nat.mod_add, Nat.mod_small, Z2Nat.id by lia. reflexivity. }
  rewrite <- (Q s x Es), <- (Q t y Et).
  destruct (Bool.bool_dec (text_bit s (j * 8 + Z.to_nat n)) (text_bit t (j * 8 + Z.to_nat n))) as [E|E]; [exact E|].
  exfalso. assert (I : In (j * 8 + Z.to_nat n) (flipped s t)).
  { apply filter_In. split.
    - apply in_seq. assert (j < length s) by (apply nth_error_Some; congruence). lia.
    - destruct (text_bit s _), (text_bit t _); try reflexivity; congruence. }
  rewrite F in I. destruct I as [I|[]]. apply J. subst p.
  rewrite Nat.div_add_l, Nat.div_small by lia. lia.
Qed.

(** ** The letters of a checksum and its bits *)
Lemma sbit_text_bit s n : sbit s (8 * (n / 8) + (7 - n mod 8)) = text_bit s n.
Proof.
  unfold sbit, text_bit. pose proof (Nat.mod_upper_bound n 8 ltac:(lia)) as U.
  rewrite (Nat.mul_comm 8), Nat.div_add_l, (Nat.div_small (7 - n mod 8)), Nat.add_0_r by lia.
  rewrite (Nat.add_comm (n / 8 * 8)), Nat.mod_add, (Nat.mod_small (7 - n mod 8)) by lia.
  now replace (7 - (7 - n mod 8)) with (n mod 8) by lia.
Qed.

Lemma bits_value_inj : forall l l' a a', length l = length l' -> (0 <= a)%Z -> (0 <= a')%Z ->
  bits_value a l = bits_value a' l' -> a = a' /\ l = l'.
Proof.
  induction l as [|x l IH]; intros [|y l'] a a' L Ha Ha' E; try discriminate L.
  - cbn [bits_value] in E. auto.
  - cbn [bits_value length] in *. injection L as L.
    apply IH in E; [|exact L|destruct x; lia|destruct y; lia].
    destruct E as (E & ->). destruct x, y; split; try reflexivity; lia.
Qed.

Lemma bits_value_range : forall l a, (0 <= a)%Z ->
  (0 <= bits_value a l < (a + 1) * 2 ^ Z.of_nat (length l))%Z.
Proof.
  induction l as [|x l IH]; intros a Ha; cbn [bits_value length].
  - change (2 ^ Z.of_nat 0)%Z with 1%Z. lia.
  - rewrite Nat2Z.inj_succ, Z.pow_succ_r by lia.
    specialize (IH (2 * a + (if x then 1 else 0))%Z ltac:(destruct x; lia)).
    pose proof (Z.pow_pos_nonneg 2 (Z.of_nat (length l)) ltac:(lia) ltac:(lia)).
    split; [apply IH|]. eapply Z.lt_le_trans; [apply IH|]. destruct x; nia.
Qed.

Lemma sextet_range s q : (0 <= sextet s q < 64)%Z.
Proof. apply (bits_value_range (map (fun t => sbit s (6 * q + t)) (seq 0 6)) 0). lia. Qed.

Lemma letters s q : length s = 4 -> q < 6 -> nth_error (std_text s) q = Some (letter false (sextet s q)).
Proof.
  intros L Q. unfold std_text, rfc_encode. rewrite L. change ((8 * 4 + 5) / 6) with 6.
  rewrite nth_error_app1 by (rewrite map_length, seq_length; exact Q).
  apply (map_nth_error (fun q => letter false (sextet s q)) q (seq 0 6) (d := q)). do 6 (destruct q as [|q]; [reflexivity|]). lia.
Qed.

Lemma same_letter_same_bits s t q j : length s = 4 -> length t = 4 -> q < 6 -> j < 6 ->
  nth_error (std_text s) q = nth_error (std_text t) q -> sbit s (6 * q + j) = sbit t (6 * q + j).
Proof.
  intros Ls Lt Q J E. rewrite !letters in E by assumption.
  assert (E' : letter false (sextet s q) = letter false (sextet t q)) by congruence.
  apply (f_equal symbol) in E'. rewrite !symbol_letter in E' by apply sextet_range.
  assert (E2 : sextet s q = sextet t q) by congruence. unfold sextet in E2.
  apply bits_value_inj in E2; [|now rewrite !map_length|lia|lia]. destruct E2 as (_ & E2).
  apply (f_equal (fun l => nth j l false)) in E2.
  rewrite !(nth_indep _ false (sbit s (6 * q + 0))) in E2 by (rewrite map_length, seq_length; lia).
  rewrite (map_nth (fun t => sbit s (6 * q + t)) (seq 0 6) 0) in E2.
  rewrite (nth_indep _ (sbit s (6 * q + 0)) (sbit t (6 * q + 0))) in E2 by (rewrite map_length, seq_length; lia).
  rewrite (map_nth (fun t0 => sbit t (6 * q + t0)) (seq 0 6) 0) in E2.
  now rewrite seq_nth in E2 by lia.
Qed.

Lemma text_bit_le v n : (0 <= v < 2 ^ 32)%Z -> text_bit (le_bytes 4 v) n = Z.testbit v (Z.of_nat n).
Proof. intros H. rewrite <- testbit_le_value, le_value_bytes; [reflexivity|exact H]. Qed.

Definition home (n : nat) : nat := (8 * (n / 8) + (7 - n mod 8)) / 6.

Lemma home_lt n : n < 32 -> home n < 6.
Proof.
  intros H. unfold home. apply Nat.div_lt_upper_bound; [lia|].
  pose proof (Nat.mod_upper_bound n 8 ltac:(lia)). pose proof (Nat.div_lt_upper_bound n 8 4 ltac:(lia) ltac:(lia)). lia.
Qed.

Lemma same_bit v w n : (0 <= v < 2 ^ 32)%Z -> (0 <= w < 2 ^ 32)%Z -> n < 32 ->
  nth_error (std_text (le_bytes 4 v)) (home n) = nth_error (std_text (le_bytes 4 w)) (home n) ->
  Z.testbit v (Z.of_nat n) = Z.testbit w (Z.of_nat n).
Proof.
  intros Hv Hw N E. set (p := 8 * (n / 8) + (7 - n mod 8)).
  assert (P : p < 32).
  { unfold p. pose proof (Nat.mod_upper_bound n 8 ltac:(lia)). pose proof (Nat.div_lt_upper_bound n 8 4 ltac:(lia) ltac:(lia)). lia. }
  assert (B : forall x, (0 <= x < 2 ^ 32)%Z -> Z.testbit x (Z.of_nat n) = sbit (le_bytes 4 x) (6 * (p / 6) + p mod 6)).
  { intros x Hx. rewrite <- Nat.div_mod by lia. unfold p. rewrite sbit_text_bit. symmetry. now apply text_bit_le. }
  rewrite !B by assumption. apply same_letter_same_bits; try apply le_bytes_length.
  - apply Nat.div_lt_upper_bound; lia.
  - apply Nat.mod_upper_bound. lia.
  - exact E.
Qed.

(** ** One bit of the text and one letter of the checksum *)
Definition mask (f : nat -> bool) : Z := pow_sum (filter f (seq 0 32)).

Lemma mask_bit d f : Z.land d (mask f) <> 0%Z -> exists n, n < 32 /\ f n = true /\ Z.testbit d (Z.of_nat n) = true.
Proof.
  intros H.
  destruct (existsb (fun n => Z.testbit d (Z.of_nat n)) (filter f (seq 0 32))) eqn:E.
  - apply existsb_exists in E as (n & J & T). apply filter_In in J as (J & K). apply in_seq in J.
    exists n. repeat split; [lia|exact K|exact T].
  - exfalso. apply H. apply Z.bits_inj'. intros n Hn. rewrite <- (Z2Nat.id n Hn), Z.land_spec, Z.bits_0.
    unfold mask. rewrite pow_sum_bit by apply NoDup_filter, seq_NoDup.
    destruct (in_dec _ _ _) as [J|J]; [|apply andb_false_r]. rewrite andb_true_r.
    destruct (Z.testbit d (Z.of_nat (Z.to_nat n))) eqn:T; [|reflexivity].
    assert (F : existsb (fun n => Z.testbit d (Z.of_nat n)) (filter f (seq 0 32)) = true)
      by (apply existsb_exists; eauto). congruence.
Qed.

Definition elsewhere (i : nat) : Z := mask (fun n => negb (home n =? i)).
Definition elsewheres : list Z := map elsewhere (seq 0 6).
(** Bits in at least two letters; the first test is the quick one. *)
Definition spread_ (m0 m3 : Z) (l : list Z) (d : Z) : bool :=
  (if Z.land d m0 =? 0 then false else if Z.land d m3 =? 0 then false else true)%Z
  || forallb (fun m => negb (Z.land d m =? 0)%Z) l.
Definition spread : Z -> bool := spread_ (mask (fun n => home n =? 0)) (mask (fun n => home n =? 3)) elsewheres.

Fixpoint walk (n : nat) (c : Z) (f : Z -> bool) : bool :=
  match n with O => true | S n' => let d := crc_bit c in f d && walk n' d f end.

Lemma walk_ok f n : forall c, walk n c f = true -> forall a, 1 <= a <= n -> f (crc_bits a c) = true.
Proof.
  induction n; intros c H a Ha; [lia|]. cbn [walk] in H. cbv zeta in H. apply andb_prop in H as (H1 & H2).
  destruct (Nat.eq_dec a 1) as [->|N]; [exact H1|]. destruct a as [|a]; [lia|]. cbn [crc_bits]. apply IHn; [exact H2|lia].
Qed.

Definition far : nat := Z.to_nat 1048576.
Lemma table_far : walk far 1 spread = true.
Proof.
  unfold spread. set (l := elsewheres). vm_compute in l. subst l.
  set (m0 := mask (fun n => home n =? 0)). vm_compute in m0. subst m0.
  set (m3 := mask _). vm_compute in m3. subst m3. vm_compute. reflexivity.
Qed.

Lemma quick_bit d i m0 m3 (f0 f3 : nat -> bool) : m0 = mask f0 -> m3 = mask f3 ->
  (forall n, f0 n = true -> home n = 0) -> (forall n, f3 n = true -> home n = 3) ->
  (if Z.land d m0 =? 0 then false else if Z.land d m3 =? 0 then false else true)%Z = true ->
  exists n, n < 32 /\ home n <> i /\ Z.testbit d (Z.of_nat n) = true.
Proof.
  intros -> -> H0 H3 H.
  destruct (Z.land d (mask f0) =? 0)%Z eqn:E0; [discriminate H|].
  destruct (Z.land d (mask f3) =? 0)%Z eqn:E3; [discriminate H|].
  apply Z.eqb_neq, mask_bit in E0 as (n & Ln & Fn & Tn). apply Z.eqb_neq, mask_bit in E3 as (m & Lm & Fm & Tm).
  apply H0 in Fn. apply H3 in Fm. destruct (Nat.eq_dec i 0) as [->|N0].
  - exists m. split; [exact Lm|]. split; [|exact Tm]. rewrite Fm. discriminate.
  - exists n. split; [exact Ln|]. split; [|exact Tn]. rewrite Fn. congruence.
Qed.

Lemma slow_bit d (g : nat -> nat -> bool) l : forallb (fun m => negb (Z.land d m =? 0)%Z) (map (fun i => mask (g i)) l) = true ->
  forall i, In i l -> exists n, n < 32 /\ g i n = true /\ Z.testbit d (Z.of_nat n) = true.
Proof.
  intros H i I. rewrite forallb_forall in H. specialize (H (mask (g i)) (in_map (fun i => mask (g i)) l i I)).
  apply negb_true_iff, Z.eqb_neq in H. exact (mask_bit _ _ H).
Qed.

Lemma spread_bit d i : spread d = true -> i < 6 -> exists n, n < 32 /\ home n <> i /\ Z.testbit d (Z.of_nat n) = true.
Proof.
  intros H I. unfold spread, spread_ in H. apply orb_prop in H as [H|H].
  - revert H. apply (quick_bit d i _ _ (fun n => Nat.eqb (home n) 0) (fun n => Nat.eqb (home n) 3) eq_refl eq_refl);
      intros n; apply Nat.eqb_eq.
  - unfold elsewheres, elsewhere in H.
    destruct (slow_bit d (fun i n => negb (Nat.eqb (home n) i)) (seq 0 6) H i ltac:(apply in_seq; lia)) as (n & L & F & T).
    exists n. split; [exact L|]. split; [|exact T]. apply negb_true_iff, Nat.eqb_neq in F. exact F.
Qed.

Lemma one_and_one body body' h' : (8 * Z.of_nat (length body) <= 1048576)%Z -> flips 1 body body' ->
  flips 1 (crc_text body) h' -> crc_text body' <> h'.
Proof.
  intros L F G E. destruct (one_flip body body' F) as (n & Hn & D).
  assert (R : Z.of_nat far = 1048576%Z) by (unfold far; apply Z2Nat.id; lia).
  pose proof (walk_ok spread far 1 table_far n ltac:(lia)) as S.
  destruct (flips_1_byte _ _ G) as (i & U). rewrite <- E in U.
  assert (V : forall b, b < 32 -> home b <> i -> Z.testbit (crc_bits n 1) (Z.of_nat b) = false).
  { intros b B N. rewrite <- D, Z.lxor_spec. rewrite (same_bit (crc32 body) (crc32 body') b); [apply xorb_nilpotent| | | |];
      try apply crc32_range; [exact B|]. apply U. exact N. }
  destruct (le_dec 6 i) as [I|I].
  - destruct (spread_bit _ 0 S (Nat.lt_0_succ 5)) as (b & B & _ & T). rewrite V in T; [discriminate T|exact B|].
    intros Q. pose proof (home_lt b B) as H. rewrite Q in H. clear - H I. lia.
  - destruct (spread_bit _ i S (proj2 (Nat.lt_nge i 6) I)) as (b & B & N & T). rewrite V in T; [discriminate T|exact B|exact N].
Qed.

(** One or two flipped bits anywhere in a text with a correct checksum. *)
Lemma flips_rejected k body u : 1 <= k <= 2 -> (8 * Z.of_nat (length body) <= 1048576)%Z ->
  flips k (body ++ crc_text body) u ->
  exists body' h', u = body' ++ h' /\ length body' = length body /\ length h' = 8 /\ crc_text body' <> h'.
Proof.
  intros K L F. destruct (flips_cut _ _ _ _ F) as (body' & h' & i & j & -> & Fi & Fj & S).
  exists body', h'. split; [reflexivity|]. split; [symmetry; apply Fi|].
  split; [rewrite <- (crc_text_length body); symmetry; apply Fj|].
  intros E.
  destruct i as [|[|[|i]]]; [|destruct j as [|[|j]]| |lia].
  - apply flips_0 in Fi as <-. destruct j as [|j]; [lia|]. apply flips_differ in Fj. congruence.
  - apply flips_0 in Fj. 
    assert (Q : crc32 body = crc32 body') by (apply crc_text_inj; congruence).
    destruct (one_flip _ _ Fi) as (n & _ & D). rewrite Q, Z.lxor_nilpotent in D. symmetry in D. revert D. apply crc_1_nonzero.
  - revert E. apply (one_and_one body); assumption.
  - lia.
  - assert (j = 0) by lia. subst j. apply flips_0 in Fj.
    assert (Q : crc32 body = crc32 body') by (apply crc_text_inj; congruence).
    revert Q. apply two_flips; [exact Fi|lia].
Qed.

(** Up to three (five) flipped bits in the payload only. *)
Definition within_reach (k : nat) (len : Z) : Prop :=
  match k with
  | 1 | 2 => (8 * len <= 2 ^ 32 - 1)%Z
  | 3 => (8 * len <= 91639)%Z
  | 4 => (8 * len <= 3006)%Z
  | 5 => (8 * len <= 300)%Z
  | _ => False
  end.

Lemma flips_detected k s t : flips k s t -> within_reach k (Z.of_nat (length s)) -> crc32 s <> crc32 t.
Proof.
  intros F R. destruct k as [|[|[|[|[|[|k]]]]]]; cbn [within_reach] in R.
  - destruct R.
  - intros E. destruct (one_flip _ _ F) as (n & _ & D). rewrite E, Z.lxor_nilpotent in D. symmetry in D. revert D. apply crc_1_nonzero.
  - apply two_flips; assumption.
  - apply three_flips; assumption.
  - apply four_flips; assumption.
  - apply five_flips; assumption.
  - destruct R.
Qed.
