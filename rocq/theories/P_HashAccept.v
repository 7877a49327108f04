(** Lemmas for C119. *)
From Verif Require Import Prelude P_Prelude M_ByteHandler M_Vector2D M_BitMatrix S_Matrix P_BitMatrix P_Cells P_Serial P_Vector2D
  M_LayoutCore M_Rle S_Rle P_Rle M_Crc32 S_Crc32 P_Crc32 M_Base64 S_Base64 P_Base64 M_Hash S_Hash P_Hash S_HashAccept Props_Base64.
Local Open Scope nat_scope.

Lemma schar_bit b k : (0 <= k)%Z -> Z.testbit (schar b) k = signed_bit b k.
Proof.
  intros K. unfold signed_bit. pose proof (b2z_range b) as R. unfold schar.
  destruct (Z.ltb_spec (b2z b) 128) as [H|H].
  - destruct (Z.leb_spec k 7); [rewrite Z.min_l by lia; reflexivity|]. rewrite Z.min_r by lia.
    rewrite (testbit_above _ 7 k), (testbit_above _ 7 7) by lia. reflexivity.
  - destruct (Z.ltb_spec k 8).
    + rewrite Z.min_l by lia. rewrite <- (Z.mod_pow2_bits_low (b2z b - 256) 8 k) by lia.
      f_equal. symmetry. apply Z.mod_unique with (-1)%Z; lia.
    + rewrite Z.min_r by lia. 
      assert (Z.testbit (b2z b) 7 = true) as ->.
      { apply Z.testbit_true; [lia|]. change (2 ^ 7)%Z with 128%Z.
        rewrite <- (Z.div_unique (b2z b) 128 1 (b2z b - 128)) by lia. reflexivity. }
      replace (b2z b - 256)%Z with (- (256 - b2z b - 1) - 1)%Z by lia.
      replace (- (256 - b2z b - 1) - 1)%Z with (Z.lnot (255 - b2z b)) by (unfold Z.lnot; lia).
      rewrite Z.lnot_spec by lia. rewrite (testbit_above _ 8 k) by lia. reflexivity.
Qed.

Lemma shl_x86 v i : i < 16 -> shl64 X86 v (Z.of_nat i * 8)%Z = Ok ((v * 2 ^ Z.of_nat (8 * (i mod 8))) mod 2 ^ 64)%Z.
Proof.
  intros H. unfold shl64.
  do 16 (destruct i as [|i]; [reflexivity|]). lia.
Qed.

Lemma shifted_bit b p k : (0 <= p)%Z -> (0 <= k < 64)%Z ->
  Z.testbit ((schar b mod 2 ^ 64 * 2 ^ p) mod 2 ^ 64) k = (p <=? k)%Z && signed_bit b (k - p).
Proof.
  intros P K. rewrite Z.mul_mod_idemp_l by lia. rewrite Z.mod_pow2_bits_low by lia.
  rewrite <- Z.shiftl_mul_pow2 by lia. rewrite Z.shiftl_spec by lia.
  destruct (Z.leb_spec p k); cbn [andb].
  - apply schar_bit. lia.
  - apply Z.testbit_neg_r. lia.
Qed.

Lemma sz_loop s idx : length s = 16 -> (forall i, In i idx -> i < 16) -> forall sz, (0 <= sz < 2 ^ 64)%Z ->
  exists sz', for_each idx sz (sz_body X86 s) = Ok sz' /\ (0 <= sz' < 2 ^ 64)%Z /\
    forall k, (0 <= k < 64)%Z -> Z.testbit sz' k = Z.testbit sz k ||
      existsb (fun i => (Z.of_nat (8 * (i mod 8)) <=? k)%Z && signed_bit (nth i s x00) (k - Z.of_nat (8 * (i mod 8)))) idx.
Proof.
  intros L. induction idx as [|i idx IH]; intros H sz B.
  - exists sz. split; [reflexivity|]. split; [exact B|]. intros k _. cbn [existsb]. now rewrite orb_false_r.
  - cbn [for_each]. unfold sz_body at 1.
    destruct (at_lt s i) as (c & E & E'); [specialize (H i (or_introl eq_refl)); lia|].
    rewrite E. cbn [bind]. rewrite shl_x86 by (apply H; now left). cbn [bind].
    set (x := ((schar c mod 2 ^ 64 * 2 ^ Z.of_nat (8 * (i mod 8))) mod 2 ^ 64)%Z).
    assert (Bx : (0 <= x < 2 ^ 64)%Z) by (apply Z.mod_pos_bound; lia).
    assert (Bo : (0 <= Z.lor sz x < 2 ^ 64)%Z).
    { split; [apply Z.lor_nonneg; lia|]. destruct (Z.eq_dec (Z.lor sz x) 0) as [->|N]; [lia|].
      apply Z.log2_lt_pow2; [assert (0 <= Z.lor sz x)%Z by (apply Z.lor_nonneg; lia); lia|]. rewrite Z.log2_lor by lia.
      assert (LG : forall y, (0 <= y < 2 ^ 64)%Z -> (Z.log2 y < 64)%Z).
      { intros y Hy. destruct (Z.eq_dec y 0) as [->|]; [cbn; lia|]. apply Z.log2_lt_pow2; lia. }
      apply Z.max_lub_lt; apply LG; assumption. }
    destruct (IH ltac:(intros; apply H; now right) _ Bo) as (sz' & E2 & B2 & Q). exists sz'.
    split; [exact E2|]. split; [exact B2|]. intros k K. rewrite (Q k K), Z.lor_spec. cbn [existsb].
    assert (nth i s x00 = c) as -> by (apply nth_error_nth; unfold at_ in E; destruct (nth_error s i); congruence).
    unfold x. rewrite shifted_bit by lia. now rewrite orb_assoc.
Qed.

Lemma bits_eq32 a b : (0 <= a < 2 ^ 32)%Z -> (0 <= b < 2 ^ 32)%Z ->
  (forall k, (0 <= k < 32)%Z -> Z.testbit a k = Z.testbit b k) -> a = b.
Proof.
  intros A B H. apply Z.bits_inj'. intros k K. destruct (Z.ltb_spec k 32); [apply H; lia|].
  rewrite (testbit_above a 32 k), (testbit_above b 32 k) by lia. reflexivity.
Qed.

Lemma DecodeSz_exact s c r : DecodeSz X86 s = Ok (c, r) <-> stored_sizes s r c.
Proof.
  destruct (Nat.eq_dec (length s) 16) as [L|L].
  2:{ rewrite DecodeSz_length by exact L. split; [discriminate|]. intros (F & _). contradiction. }
  destruct (sz_loop s (upto 0 16) L ltac:(intros i Hi; apply upto_in in Hi; lia) 0%Z ltac:(lia)) as (sz & E & B & Q).
  unfold DecodeSz. rewrite L. change (negb (16 =? 16)) with false. cbv iota.
  unfold sz_body in E. rewrite E. cbn [bind].
  change (2 ^ 32 - 1)%Z with (Z.ones 32). rewrite !Z.land_ones by lia.
  assert (C0 : forall k, (0 <= k < 32)%Z -> Z.testbit (sz mod 2 ^ 32) k = size_bit s k).
  { intros k K. rewrite Z.mod_pow2_bits_low by lia. rewrite Q by lia. rewrite Z.bits_0. reflexivity. }
  assert (R0 : forall k, (0 <= k < 32)%Z -> Z.testbit (Z.shiftr sz 32 mod 2 ^ 32) k = size_bit s (32 + k)).
  { intros k K. rewrite Z.mod_pow2_bits_low by lia. rewrite Z.shiftr_spec by lia. rewrite (Z.add_comm k 32), Q by lia.
    rewrite Z.bits_0. reflexivity. }
  pose proof (Z.mod_pos_bound sz (2 ^ 32) ltac:(lia)) as Bc.
  pose proof (Z.mod_pos_bound (Z.shiftr sz 32) (2 ^ 32) ltac:(lia)) as Br.
  split.
  - intros X. injection X as <- <-. split; [exact L|]. split; [exact Br|]. split; [exact Bc|]. intros k K.
    split; [exact (C0 k K)|exact (R0 k K)].
  - intros (_ & Hr & Hc & H). f_equal. f_equal; apply bits_eq32; try assumption.
    + intros k K. rewrite (C0 k K). symmetry. apply H. exact K.
    + intros k K. rewrite (R0 k K). symmetry. apply H. exact K.
Qed.

Lemma contains_occurs s pat : contains s pat = true <-> occurs pat s.
Proof.
  split.
  - induction s as [|x s IH]; cbn [contains]; intros H; apply orb_true_iff in H as [H|H].
    + apply streqb_eq in H. exists [], (skipn (length pat) []). cbn [app]. rewrite <- H at 1. symmetry. apply firstn_skipn.
    + discriminate H.
    + apply streqb_eq in H. exists [], (skipn (length pat) (x :: s)). cbn [app]. rewrite <- H at 1. symmetry. apply firstn_skipn.
    + destruct (IH H) as (a & b & ->). exists (x :: a), b. reflexivity.
  - intros (a & b & ->). induction a as [|x a IH]; [exact (contains_here pat b)|]. cbn [app contains]. rewrite IH. apply orb_true_r.
Qed.

(** The payload, section by section. *)
Definition after_sections (al : allocator) (data size : list byte) (f : byte) : res bm :=
   let* szBytes := Base64Decode size standard in
   let* p := DecodeSz X86 szBytes in
   let* enc := DecodeEncodings f in
   if fst enc
   then let* bytes := Base64Decode data standard in
        Rle_DecodeMatrix al bytes (Z.to_nat (snd p)) (Z.to_nat (fst p))
   else let* m := FromString al data (Z.to_nat (snd p)) (Z.to_nat (fst p)) in
        Ok (fst (LM_of_BM_move m)).

Lemma payload_good al data f1 sz f : length f1 = 14 -> length sz = 24 ->
  occurs sectionParameters (f1 ++ sectionSize ++ sz ++ sectionEncodeType ++ [f]) ->
  decode_payload X86 al (data ++ f1 ++ sectionSize ++ sz ++ sectionEncodeType ++ [f]) = after_sections al data sz f.
Proof.
  intros L1 L O. apply contains_occurs in O. unfold decode_payload, after_sections.
  assert (LP : length (f1 ++ sectionSize ++ sz ++ sectionEncodeType ++ [f]) = 62).
  { rewrite !app_length, L1, L. reflexivity. }
  assert (SS : size_sub (length (data ++ f1 ++ sectionSize ++ sz ++ sectionEncodeType ++ [f])) parametersLen
     = Z.of_nat (length data)).
  { rewrite app_length, LP, parametersLen_value. unfold size_sub, wrap64. rewrite (proj2 (Z.ltb_ge _ _)) by lia. lia. }
  rewrite SS. rewrite substr_from_app by reflexivity. cbn [bind].
  rewrite O. cbn [negb]. rewrite substr_from_app by (rewrite L1; reflexivity). cbn [bind].
  rewrite substr_prefix by reflexivity. cbn [bind]. rewrite streqb_refl. cbn [negb].
  rewrite substr_from_app by reflexivity. cbn [bind].
  rewrite substr_prefix by now rewrite L. cbn [bind].
  destruct (Base64Decode sz standard) as [sb| |]; cbn [bind]; try reflexivity.
  destruct (DecodeSz X86 sb) as [[cc rr]| |]; cbn [bind fst snd]; try reflexivity.
  rewrite substr_from_app by now rewrite L. cbn [bind].
  rewrite substr_prefix by reflexivity. cbn [bind]. rewrite streqb_refl. cbn [negb].
  rewrite substr_from_app by reflexivity. cbn [bind]. change (at_ [f] 0) with (Ok f). cbn [bind].
  destruct (DecodeEncodings f) as [[a b]| |]; cbn [bind fst snd]; try reflexivity.
  rewrite substr_prefix by reflexivity. reflexivity.
Qed.

Lemma split_at {A} (l : list A) n : n <= length l -> exists a b, l = a ++ b /\ length a = n.
Proof.
  intros H. exists (firstn n l), (skipn n l). split; [symmetry; apply firstn_skipn|]. rewrite firstn_length. lia.
Qed.

(** Every payload either throws, or has its sections. *)
Lemma payload_split al P : (exists e, decode_payload X86 al P = Throw e) \/
  exists data f1 sz f, P = data ++ f1 ++ sectionSize ++ sz ++ sectionEncodeType ++ [f] /\ length f1 = 14 /\ length sz = 24 /\
    occurs sectionParameters (f1 ++ sectionSize ++ sz ++ sectionEncodeType ++ [f]).
Proof.
  destruct (Nat.ltb_spec (length P) 62) as [H|H]; [left; eexists; apply payload_short, H|].
  destruct (split_at P (length P - 62) ltac:(lia)) as (data & w & -> & Ld).
  rewrite app_length in Ld, H. assert (Lw : length w = 62) by lia.
  destruct (split_at w 14 ltac:(lia)) as (f1 & w1 & -> & L1). rewrite app_length in Lw.
  destruct (split_at w1 8 ltac:(lia)) as (f2 & w2 & -> & L2). rewrite app_length in Lw.
  destruct (split_at w2 24 ltac:(lia)) as (f3 & w3 & -> & L3). rewrite app_length in Lw.
  destruct (split_at w3 15 ltac:(lia)) as (f4 & w4 & -> & L4). rewrite app_length in Lw.
  destruct w4 as [|f5 [|]]; cbn [length] in Lw; try lia.
  destruct (contains (f1 ++ f2 ++ f3 ++ f4 ++ [f5]) sectionParameters) eqn:C.
  2:{ left. apply (payload_bad_sections al data _ f1 f2 f3 f4 f5 eq_refl L1 L2 L3 L4). now left. }
  destruct (streqb f2 sectionSize) eqn:E2.
  2:{ left. apply (payload_bad_sections al data _ f1 f2 f3 f4 f5 eq_refl L1 L2 L3 L4). right. left.
      intros ->. rewrite streqb_refl in E2. discriminate. }
  destruct (streqb f4 sectionEncodeType) eqn:E4.
  2:{ left. apply (payload_bad_sections al data _ f1 f2 f3 f4 f5 eq_refl L1 L2 L3 L4). right. right.
      intros ->. rewrite streqb_refl in E4. discriminate. }
  apply streqb_eq in E2, E4. subst f2 f4. right. exists data, f1, f3, f5.
  split; [reflexivity|]. split; [exact L1|]. split; [exact L3|]. apply contains_occurs, C.
Qed.
