(** C34-C40: matrix hash, its size and encoding fields, matrix files.
    Specifications: S_Hash (size field, hash text), S_Matrix ([shows]), S_Crc32 ([burst]). *)
From Verif Require Import Prelude P_Prelude M_ByteHandler P_ByteHandler M_Vector2D M_BitMatrix S_Matrix
  P_BitMatrix P_Cells P_Serial M_LayoutCore M_Rle S_Rle P_Rle M_Crc32 S_Crc32 P_Crc32 M_Base64 S_Base64 P_Base64
  M_Hash S_Hash P_Hash Props_Base64.
Local Ltac Zify.zify_post_hook ::= Z.to_euclidean_division_equations.

(** ** C34 *)
Theorem C34_encode : forall r c, (0 <= r < 2 ^ 32)%Z -> (0 <= c < 2 ^ 32)%Z ->
  EncodeSz r c = Ok (size_field r c) /\ length (size_field r c) = 24.
Proof. intros r c Hr Hc. split; [now apply EncodeSz_ok|apply size_field_length]. Qed.

Theorem C34_decode_strict : forall s, length s = 16 -> DecodeSz StrictCpp s = UB BadShift.
Proof. exact DecodeSz_strict. Qed.

Theorem C34_other_lengths : forall rule s, length s <> 16 -> DecodeSz rule s = Throw InvalidArgument.
Proof. exact DecodeSz_length. Qed.

(** x86-64: exactly the surviving sizes decode; all others decode to a wrong size. *)
Theorem C34_decode_x86 : forall r c, (0 <= r < 2 ^ 32)%Z -> (0 <= c < 2 ^ 32)%Z ->
  exists c' r', DecodeSz X86 (repeat x00 8 ++ le_bytes 8 (size_number r c)) = Ok (c', r') /\
    ((c' = c /\ r' = r) <-> size_survives r c).
Proof.
  intros r c Hr Hc. destruct (DecodeSz_field_total r c) as (c' & r' & E & _).
  exists c', r'. split; [exact E|]. rewrite <- (DecodeSz_field r c Hr Hc), E.
  split; [intros (-> & ->); reflexivity|]. intros Q. split; congruence.
Qed.

(** For fewer than 2^31 rows: the size survives iff all its bytes are below 128. *)
Theorem C34_survival_of_usual_sizes : forall r c, (0 <= r < 2 ^ 31)%Z -> (0 <= c < 2 ^ 32)%Z ->
  size_survives r c <->
  (forall k, (0 <= k < 4)%Z -> (byte_of r k < 128 /\ byte_of c k < 128)%Z).
Proof.
  intros r c Hr Hc.
  assert (Lo : forall k, (0 <= k < 4)%Z -> byte_of (size_number r c) k = byte_of c k).
  { intros k Hk. unfold byte_of, size_number.
    assert (k = 0 \/ k = 1 \/ k = 2 \/ k = 3)%Z as [-> | [-> | [-> | ->]]] by lia; cbn [Z.pow Z.pow_pos Pos.iter Z.mul Pos.mul Pos.add]; lia. }
  assert (Hi : forall k, (0 <= k < 4)%Z -> byte_of (size_number r c) (4 + k) = byte_of r k).
  { intros k Hk. unfold byte_of, size_number.
    assert (k = 0 \/ k = 1 \/ k = 2 \/ k = 3)%Z as [-> | [-> | [-> | ->]]] by lia; cbn [Z.pow Z.pow_pos Pos.iter Z.mul Pos.mul Pos.add Z.add Pos.succ Pos.add_carry]; lia. }
  assert (Top : (byte_of r 3 < 128)%Z).
  { unfold byte_of. change (256 ^ 3)%Z with 16777216%Z. change (2 ^ 31)%Z with 2147483648%Z in Hr. lia. }
  split.
  - intros S k Hk. split.
    + destruct (Z.eq_dec k 3) as [->|]; [exact Top|].
      apply Z.lt_nge. intros Q. specialize (S (4 + k)%Z 7%Z ltac:(lia) ltac:(lia)).
      rewrite (Hi k Hk) in S. change 7%Z with (4 + 3)%Z in S. rewrite (Hi 3%Z ltac:(lia)) in S. lia.
    + apply Z.lt_nge. intros Q. specialize (S k 7%Z ltac:(lia) ltac:(lia)).
      rewrite (Lo k Hk) in S. change 7%Z with (4 + 3)%Z in S. rewrite (Hi 3%Z ltac:(lia)) in S. lia.
  - intros B i j Hij Hj V. exfalso.
    destruct (Z_lt_dec i 4).
    + rewrite Lo in V by lia. specialize (B i ltac:(lia)). lia.
    + replace i with (4 + (i - 4))%Z in V by lia. rewrite Hi in V by lia. specialize (B (i - 4)%Z ltac:(lia)). lia.
Qed.

(** So the natural expectation - every size comes back - fails, e.g. for 1 row, 200 columns. *)
Theorem C34_every_size_decodes_refuted :
  ~ (forall r c, (0 <= r < 2 ^ 32)%Z -> (0 <= c < 2 ^ 32)%Z ->
       DecodeSz X86 (repeat x00 8 ++ le_bytes 8 (size_number r c)) = Ok (c, r)).
Proof. intros H. specialize (H 1%Z 200%Z ltac:(lia) ltac:(lia)). vm_compute in H. discriminate. Qed.

Example C34_example : size_survives 100 100 /\
  EncodeSz 100 127 = Ok (lit "AAAAAAAAAAB/AAAAZAAAAA==") /\
  DecodeSz X86 (repeat x00 8 ++ le_bytes 8 (size_number 100 127)) = Ok (127, 100)%Z /\
  DecodeSz X86 (repeat x00 8 ++ le_bytes 8 (size_number 100 128)) = Ok (4294967168, 4294967295)%Z.
Proof.
  split; [|run_example].
  apply C34_survival_of_usual_sizes; [lia|lia|].
  intros k Hk. assert (k = 0 \/ k = 1 \/ k = 2 \/ k = 3)%Z as [-> | [-> | [-> | ->]]] by lia; vm_compute; split; reflexivity.
Qed.

(** ** C35 *)
Theorem C35_encode : forall rle b64, exists b, EncodeEncodings rle b64 = Ok b /\
  b2z b = ((if rle then 2 else 0) + (if b64 then 1 else 0))%Z.
Proof. intros [|] [|]; eexists; split; try reflexivity; vm_compute; reflexivity. Qed.

Theorem C35_decode : forall b, DecodeEncodings b = Ok (Z.testbit (b2z b) 1, Z.testbit (b2z b) 1).
Proof.
  intros b. unfold DecodeEncodings. change rleBitPos with 1. rewrite (GetBit_value b 1) by lia. reflexivity.
Qed.

Theorem C35_round_trip : forall rle b64 b, EncodeEncodings rle b64 = Ok b ->
  exists f1 f2, DecodeEncodings b = Ok (f1, f2) /\ f1 = rle /\ (f2 = b64 <-> b64 = rle).
Proof.
  intros rle b64 b E. exists rle, rle. repeat split; try easy.
  destruct rle, b64; vm_compute in E; inversion E; vm_compute; reflexivity.
Qed.

Theorem C35_base64_flag_round_trip_refuted :
  ~ (forall rle b64 b, EncodeEncodings rle b64 = Ok b -> DecodeEncodings b = Ok (rle, b64)).
Proof.
  intros H. specialize (H true false x02 ltac:(vm_compute; reflexivity)). vm_compute in H. discriminate.
Qed.

(** ** C36 *)
(** The text a hash has. *)
Theorem C36_format : forall al m A h, shows m A -> nonempty A -> memory_ok al (arows A) (acols A) ->
  EncodeHash al m = Ok h -> (Z.of_nat (length h) < 2 ^ 32)%Z ->
  exists runs, expand runs = abits A /\
    hash_text runs (Z.of_nat (arows A) mod 2 ^ 32) (Z.of_nat (acols A) mod 2 ^ 32) h.
Proof.
  intros al m A h S N M E L.
  destruct (EncodeHash_ok al m A S N M) as (runs & Nr & R & X & Q). exists runs. split; [exact X|].
  rewrite Q in E. destruct (Base64Encode _ radix64) as [b| |] eqn:B; try discriminate.
  cbn [bind] in E. assert (Eh : h = strBegin ++ b ++ strEnd) by congruence.
  destruct (encode_lines 76 _ (hash_payload_ne runs (u32 (arows A)) (u32 (acols A))) ltac:(lia)) as (t & Mm & Ln).
  change (Base64Encode (hash_payload runs (u32 (arows A)) (u32 (acols A))) mime = Ok t) in Mm.
  rewrite (radix_encode _ t (hash_payload_ne _ _ _) Mm) in B.
  destruct (_ =? 0)%Z; [discriminate|]. destruct (_ =? 0)%Z in B; [discriminate|].
  assert (Eb : b = t ++ crc_text (hashed_part t)) by congruence.
  assert (Lt : (Z.of_nat (length t) < 2 ^ 32)%Z).
  { rewrite Eh, Eb, !app_length in L. lia. }
  rewrite hashed_small in Eb by exact Lt.
  exists t. split; [exact Ln|]. rewrite Eh, Eb, <- app_assoc. reflexivity.
Qed.

(** An encoder failure is an exception of the Radix-64 encoder, never anything else. *)
Theorem C36_encode_outcomes : forall al m A, shows m A -> nonempty A -> memory_ok al (arows A) (acols A) ->
  (exists h, EncodeHash al m = Ok h) \/
  (exists runs e, Rle_Encode al m = Ok runs /\ EncodeHash al m = Throw e /\
     Base64Encode (hash_payload runs (Z.of_nat (arows A) mod 2 ^ 32) (Z.of_nat (acols A) mod 2 ^ 32)) radix64 = Throw e).
Proof.
  intros al m A S N M. destruct (EncodeHash_ok al m A S N M) as (runs & Nr & R & X & Q). rewrite Q.
  fold (u32 (arows A)) (u32 (acols A)).
  destruct (encode_lines 76 _ (hash_payload_ne runs (u32 (arows A)) (u32 (acols A))) ltac:(lia)) as (t & Mm & Ln).
  change (Base64Encode (hash_payload runs (u32 (arows A)) (u32 (acols A))) mime = Ok t) in Mm.
  pose proof (radix_encode _ t (hash_payload_ne _ _ _) Mm) as B.
  destruct (Base64Encode (hash_payload runs (u32 (arows A)) (u32 (acols A))) radix64) as [b|e|u] eqn:Bq.
  - left. eexists. reflexivity.
  - right. exists runs, e. auto.
  - destruct (_ =? 0)%Z in B; [discriminate|]. destruct (_ =? 0)%Z in B; discriminate.
Qed.

Theorem C36_round_trip : forall al m A h self,
  shows m A -> nonempty A -> memory_ok al (arows A) (acols A) ->
  (Z.of_nat (arows A) < 2 ^ 32)%Z -> (Z.of_nat (acols A) < 2 ^ 32)%Z ->
  size_survives (Z.of_nat (arows A)) (Z.of_nat (acols A)) ->
  GetHash al m = Ok h ->
  (exists m', DecodeHash X86 al h = Ok m' /\ shows m' A) /\
  (exists m', InitMatrFromHash X86 al self h = (m', Ok tt) /\ shows m' A).
Proof.
  intros al m A h self S N M Hr Hc Sv E. unfold GetHash in E.
  destruct (DecodeHash_encoded X86 al al m A h S N M E) as (runs & Nr & R & X & D).
  assert (U1 : u32 (arows A) = Z.of_nat (arows A)) by (apply Z.mod_small; lia).
  assert (U2 : u32 (acols A) = Z.of_nat (acols A)) by (apply Z.mod_small; lia).
  rewrite U1, U2 in D. rewrite (proj2 (DecodeSz_field (Z.of_nat (arows A)) (Z.of_nat (acols A)) ltac:(lia) ltac:(lia)) Sv) in D.
  cbn [bind fst snd] in D. rewrite !Nat2Z.id in D.
  destruct (DecodeMatrix_ok al runs (arows A) (acols A) Nr M) as (m' & D' & S').
  rewrite X in S'. rewrite D' in D.
  assert (S2 : shows m' A) by (eapply shows_asame; [exact S'|apply filled_abits]).
  split.
  - exists m'. auto.
  - unfold InitMatrFromHash. rewrite D. unfold LM_move_assign, V_move. cbn [fst].
    exists m'. split; [|exact S2]. destruct m'; reflexivity.
Qed.

(** With a size that does not survive, the decoded matrix has other sizes than m
    (or is empty, when it does not fit into memory). *)
Theorem C36_spoiled_sizes : forall al al' m A h,
  shows m A -> nonempty A -> memory_ok al (arows A) (acols A) ->
  (Z.of_nat (arows A) < 2 ^ 32)%Z -> (Z.of_nat (acols A) < 2 ^ 32)%Z ->
  ~ size_survives (Z.of_nat (arows A)) (Z.of_nat (acols A)) ->
  EncodeHash al m = Ok h ->
  exists m', DecodeHash X86 al' h = Ok m' /\
    ~ (GetRowCount m' = arows A /\ GetColumnCount m' = acols A).
Proof.
  intros al al' m A h S N M Hr Hc Sv E.
  destruct (DecodeHash_encoded X86 al al' m A h S N M E) as (runs & Nr & R & X & D).
  assert (U1 : u32 (arows A) = Z.of_nat (arows A)) by (apply Z.mod_small; lia).
  assert (U2 : u32 (acols A) = Z.of_nat (acols A)) by (apply Z.mod_small; lia).
  rewrite U1, U2 in D.
  destruct (C34_decode_x86 (Z.of_nat (arows A)) (Z.of_nat (acols A)) ltac:(lia) ltac:(lia)) as (c' & r' & Ez & I).
  destruct (DecodeSz_field_total (Z.of_nat (arows A)) (Z.of_nat (acols A))) as (c2 & r2 & Ez2 & Rc & Rr).
  assert (c2 = c') by congruence. assert (r2 = r') by congruence. subst c2 r2.
  rewrite Ez in D. cbn [bind fst snd] in D.
  destruct (DecodeMatrix_sizes al' runs (Z.to_nat r') (Z.to_nat c')) as (m' & D' & _ & Q).
  exists m'. split; [congruence|]. intros (Q1 & Q2).
  destruct Q as [(Q3 & Q4)| ->].
  - apply Sv, I. lia.
  - destruct N as (N & _). cbn in Q1. lia.
Qed.

Example C36_example : exists m h m', Set_ (BM_ctor infinite_memory 3 11) 1 9 true = Ok m /\
  GetHash infinite_memory m = Ok h /\ length h = 160 /\
  DecodeHash X86 infinite_memory h = Ok m' /\ m' = m.
Proof. run_example. Qed.

(** 1 row, 200 columns: hashing works, the size is spoiled (the decoded number of rows is
    4294967295), and strictly read the decoder has undefined behaviour. *)
Example C36_spoiled_example : ~ size_survives 1 200 /\
  (exists h, GetHash infinite_memory (BM_ctor infinite_memory 1 200) = Ok h /\ length h = 160 /\
    DecodeHash StrictCpp infinite_memory h = UB BadShift) /\
  DecodeSz X86 (repeat x00 8 ++ le_bytes 8 (size_number 1 200)) = Ok (4294967240, 4294967295)%Z.
Proof.
  split; [|run_example]. intros S. specialize (S 0%Z 1%Z ltac:(lia) ltac:(lia)).
  vm_compute in S. specialize (S ltac:(discriminate)). discriminate.
Qed.

(** ** C37 *)
Theorem C37_equal_hashes : forall al a b A B h,
  shows a A -> shows b B -> nonempty A -> nonempty B ->
  memory_ok al (arows A) (acols A) -> memory_ok al (arows B) (acols B) ->
  EncodeHash al a = Ok h -> EncodeHash al b = Ok h ->
  (Z.of_nat (arows A) mod 2 ^ 32 = Z.of_nat (arows B) mod 2 ^ 32)%Z /\
  (Z.of_nat (acols A) mod 2 ^ 32 = Z.of_nat (acols B) mod 2 ^ 32)%Z /\ abits A = abits B.
Proof.
  intros al a b A B h Sa Sb Na Nb Ma Mb Ea Eb.
  destruct (EncodeHash_ok al a A Sa Na Ma) as (ra & Nra & _ & Xa & Qa).
  destruct (EncodeHash_ok al b B Sb Nb Mb) as (rb & Nrb & _ & Xb & Qb).
  rewrite Qa in Ea. rewrite Qb in Eb.
  destruct (Base64Encode (hash_payload ra _ _) radix64) as [ta| |] eqn:Ta; try discriminate.
  destruct (Base64Encode (hash_payload rb _ _) radix64) as [tb| |] eqn:Tb; try discriminate.
  cbn [bind] in Ea, Eb.
  assert (Q : strBegin ++ ta ++ strEnd = strBegin ++ tb ++ strEnd) by congruence.
  apply app_inv_head, app_inv_tail in Q. subst tb.
  apply radix_round in Ta; [|apply hash_payload_ne]. apply radix_round in Tb; [|apply hash_payload_ne].
  assert (P : hash_payload ra (u32 (arows A)) (u32 (acols A)) = hash_payload rb (u32 (arows B)) (u32 (acols B))) by congruence.
  apply hash_payload_inj in P; try assumption; try apply u32_range.
  destruct P as (-> & P1 & P2). split; [exact P1|]. split; [exact P2|]. congruence.
Qed.

Corollary C37_equal_hashes_equal_matrices : forall al a b A B h,
  shows a A -> shows b B -> nonempty A -> nonempty B ->
  memory_ok al (arows A) (acols A) -> memory_ok al (arows B) (acols B) ->
  (Z.of_nat (arows A) < 2 ^ 32)%Z -> (Z.of_nat (acols A) < 2 ^ 32)%Z ->
  (Z.of_nat (arows B) < 2 ^ 32)%Z -> (Z.of_nat (acols B) < 2 ^ 32)%Z ->
  EncodeHash al a = Ok h -> EncodeHash al b = Ok h -> asame A B.
Proof.
  intros al a b A B h Sa Sb Na Nb Ma Mb L1 L2 L3 L4 Ea Eb.
  destruct (C37_equal_hashes al a b A B h Sa Sb Na Nb Ma Mb Ea Eb) as (P1 & P2 & P3).
  rewrite !Z.mod_small in P1 by lia. rewrite !Z.mod_small in P2 by lia.
  assert (R : arows A = arows B) by lia. assert (C : acols A = acols B) by lia.
  split; [exact R|]. split; [exact C|]. intros i j Hi Hj.
  pose proof (abits_nth A i j Hi Hj) as E1. pose proof (abits_nth B i j ltac:(lia) ltac:(lia)) as E2.
  rewrite P3, C in E1. congruence.
Qed.

Theorem C37_hash_depends_on_visible_bits_only : forall al a b A, shows a A -> shows b A -> nonempty A ->
  memory_ok al (arows A) (acols A) -> EncodeHash al a = EncodeHash al b.
Proof. exact EncodeHash_shown. Qed.

(** Two objects with the same visible bits and different hidden bits have the same hash. *)
Example C37_example : exists m h, SetByte (BM_ctor infinite_memory 1 3) 0 0 xff = Ok m /\
  m = mkbm [[xff]] 1 3 /\
  EncodeHash infinite_memory m = Ok h /\ EncodeHash infinite_memory (mkbm [[xe0]] 1 3) = Ok h.
Proof. run_example. Qed.

(** ** C38 *)
Theorem C38_no_begin : forall rule al h, (forall t, h <> hash_begin ++ t) ->
  DecodeHash rule al h = Throw InvalidArgument.
Proof. exact DecodeHash_no_begin. Qed.

Theorem C38_no_end : forall rule al h, (forall t, h <> t ++ hash_end) ->
  DecodeHash rule al h = Throw InvalidArgument.
Proof. exact DecodeHash_no_end. Qed.

Theorem C38_empty : forall rule al, DecodeHash rule al [] = Throw InvalidArgument.
Proof. reflexivity. Qed.

(** Any burst of at most four characters in a hash, wherever it is, is rejected. *)
Theorem C38_burst_rejected : forall rule al al' m A h h',
  shows m A -> nonempty A -> memory_ok al (arows A) (acols A) ->
  EncodeHash al m = Ok h -> (Z.of_nat (length h) < 2 ^ 32)%Z -> burst 4 h h' ->
  exists e, DecodeHash rule al' h' = Throw e.
Proof.
  intros rule al al' m A h h' S N M E L B.
  destruct (EncodeHash_ok al m A S N M) as (runs & Nr & R & X & Q). rewrite Q in E.
  destruct (Base64Encode _ radix64) as [b| |] eqn:Eb; try discriminate.
  cbn [bind] in E. assert (Eh : h = strBegin ++ b ++ strEnd) by congruence. subst h.
  apply radix_round in Eb; [|apply hash_payload_ne].
  apply burst_prefix in B as (x & y & -> & Lx & Ly & [Nx|(-> & B)]).
  - exists InvalidArgument. apply C38_no_begin. intros t T. apply Nx.
    assert (F : firstn (length x) (x ++ y) = firstn (length x) (hash_begin ++ t)) by now rewrite T.
    rewrite firstn_app, Nat.sub_diag, firstn_O, app_nil_r, firstn_all in F.
    rewrite Lx, firstn_app in F. change (length hash_begin) with 32 in F. rewrite strBegin_length, Nat.sub_diag, firstn_O, app_nil_r in F.
    rewrite F. reflexivity.
  - apply burst_suffix in B as (b' & e' & -> & Lb & Le & [Ne|(-> & B)]).
    + exists InvalidArgument. apply C38_no_end. intros t T. apply Ne.
      rewrite app_assoc in T.
      assert (F : skipn (length (strBegin ++ b')) ((strBegin ++ b') ++ e') = skipn (length (strBegin ++ b')) (t ++ hash_end)) by now rewrite T.
      rewrite skipn_app, skipn_all, Nat.sub_diag in F. cbn [app skipn] in F.
      assert (Lt : length t = length (strBegin ++ b')).
      { apply (f_equal (@length byte)) in T. rewrite (app_length _ e'), (app_length t) in T.
        change (length hash_end) with 30 in T. rewrite Le, strEnd_length in T. lia. }
      rewrite <- Lt, skipn_app, skipn_all, Nat.sub_diag in F. cbn [app skipn] in F. exact F.
    + rewrite DecodeHash_framed.
      rewrite (C29_any_burst_rejected b b' (hash_payload runs (u32 (arows A)) (u32 (acols A)))).
      * eexists; reflexivity.
      * intros ->. destruct B as (p & w1 & w2 & q & Ep & _ & Lw & _ & Nw).
        symmetry in Ep. apply app_eq_nil in Ep as (_ & Ep). apply app_eq_nil in Ep as (-> & _).
        destruct w2; [congruence|discriminate].
      * rewrite !app_length in L. lia.
      * exact Eb.
      * exact B.
Qed.

(** A truncated hash is rejected, wherever it was cut. *)
Theorem C38_truncation_rejected : forall rule al al' m A h k,
  shows m A -> nonempty A -> memory_ok al (arows A) (acols A) ->
  EncodeHash al m = Ok h -> k < length h -> DecodeHash rule al' (firstn k h) = Throw InvalidArgument.
Proof.
  intros rule al al' m A h k S N M E K.
  destruct (EncodeHash_ok al m A S N M) as (runs & Nr & R & X & Q). rewrite Q in E.
  destruct (Base64Encode _ radix64) as [b| |] eqn:Eb; try discriminate.
  cbn [bind] in E. assert (Eh : h = strBegin ++ b ++ strEnd) by congruence. subst h.
  apply DecodeHash_no_end. apply truncated_no_end.
  - apply (radix_no_underscore _ _ (hash_payload_ne _ _ _) Eb).
  - rewrite !app_length, strBegin_length, strEnd_length in K. lia.
Qed.

(** Texts whose checksum is right but whose payload is not a hash payload. *)
Theorem C38_short_payload : forall rule al body P,
  Base64Decode body radix64 = Ok P -> length P < 62 ->
  DecodeHash rule al (hash_begin ++ body ++ hash_end) = Throw OutOfRange.
Proof.
  intros rule al body P D L. change hash_begin with strBegin. change hash_end with strEnd.
  rewrite DecodeHash_framed, D. cbn [bind]. now apply payload_short.
Qed.

Theorem C38_missing_sections : forall al body data marker size_mark size enc_mark flags,
  length marker = 14 -> length size_mark = 8 -> length size = 24 -> length enc_mark = 15 ->
  Base64Decode body radix64 = Ok (data ++ marker ++ size_mark ++ size ++ enc_mark ++ [flags]) ->
  size_mark <> lit "__SIZE__" \/ enc_mark <> lit "__ENCODE_TYPE__" \/
  (forall a b, marker ++ size_mark ++ size ++ enc_mark ++ [flags] <> a ++ lit "__PARAMETERS__" ++ b) ->
  exists e, DecodeHash X86 al (hash_begin ++ body ++ hash_end) = Throw e.
Proof.
  intros al body data f1 f2 f3 f4 f5 L1 L2 L3 L4 D B.
  change hash_begin with strBegin. change hash_end with strEnd. rewrite DecodeHash_framed, D. cbn [bind].
  apply (payload_bad_sections al data _ f1 f2 f3 f4 f5 eq_refl L1 L2 L3 L4).
  destruct B as [B|[B|B]]; [right; left; exact B|right; right; exact B|left].
  revert B. generalize (f1 ++ f2 ++ f3 ++ f4 ++ [f5]). change (lit "__PARAMETERS__") with sectionParameters.
  intros l B. induction l as [|x l IH].
  - reflexivity.
  - cbn [contains]. apply orb_false_iff. split.
    + apply not_true_iff_false. intros T. apply streqb_eq in T.
      apply (B [] (skipn (length sectionParameters) (x :: l))). cbn [app]. rewrite <- T at 1.
      symmetry. apply firstn_skipn.
    + apply IH. intros a b Q. apply (B (x :: a) b). cbn [app]. now rewrite Q.
Qed.

(** Under the C++ rules no call of DecodeHash ever returns a matrix. *)
Theorem C38_strict_never_returns : forall al h m, DecodeHash StrictCpp al h <> Ok m.
Proof. exact DecodeHash_strict. Qed.

(** A text with a correct checksum can still make the decoder read out of bounds. *)
Theorem C38_crafted_text_is_safe_refuted :
  ~ (forall al h u, DecodeHash X86 al h <> UB u).
Proof.
  intros H.
  apply (H infinite_memory (hash_begin ++ lit "A" ++ rfc_encode false "="%byte (le_bytes 4 (crc32 (lit "A"))) ++ hash_end) OobIndex).
  vm_compute. reflexivity.
Qed.

Example C38_example : exists h, EncodeHash infinite_memory (mkbm [[x07]] 1 3) = Ok h /\
  DecodeHash X86 infinite_memory (upd h 40 "!"%byte) = Throw RuntimeError /\
  DecodeHash X86 infinite_memory (upd h 5 "!"%byte) = Throw InvalidArgument.
Proof. run_example. Qed.

(** ** C39 *)
Theorem C39_file_round_trip : forall al can_write accepted d m A self f h,
  shows m A -> nonempty A -> memory_ok al (arows A) (acols A) ->
  (Z.of_nat (arows A) < 2 ^ 32)%Z -> (Z.of_nat (acols A) < 2 ^ 32)%Z ->
  size_survives (Z.of_nat (arows A)) (Z.of_nat (acols A)) ->
  EncodeHash al m = Ok h -> f <> [] -> can_write f = true -> length h <= accepted ->
  exists states n, FlushFile al can_write accepted d m f = (states, Ok true) /\
    ReadFile X86 al (last states d) self f = (n, Ok true) /\ shows n A /\
    (forall g, g <> f -> last states d g = d g).
Proof.
  intros al cw acc d m A self f h S N M Hr Hc Sv E Nf Cw La.
  destruct (C36_round_trip al m A h self S N M Hr Hc Sv E) as ((m' & D & S') & _).
  unfold FlushFile. rewrite (proj2 (Nat.eqb_neq _ _)) by (destruct f; [congruence|cbn [length]; lia]).
  rewrite Cw, E. cbn [negb]. rewrite Nat.min_r by lia.
  assert (Hl : 0 < length h).
  { destruct h; [discriminate D|cbn [length]; lia]. }
  eexists _, m'. split; [reflexivity|].
  assert (La' : forall (a b : disk) n, 0 < n -> last (a :: map (fun k => disk_put d f (firstn k h)) (seq 1 n)) b
    = disk_put d f (firstn n h)).
  { intros a b n Hn. destruct n as [|n]; [lia|]. rewrite seq_S, map_app. cbn [map].
    rewrite app_comm_cons, last_last.
    replace (1 + n) with (Datatypes.S n) by lia. reflexivity. }
  cbn [app]. rewrite La' by exact Hl. rewrite firstn_all.
  split; [|split; [exact S'|]].
  - unfold ReadFile. rewrite (proj2 (Nat.eqb_neq _ _)) by (destruct f; [congruence|cbn [length]; lia]).
    unfold disk_put. rewrite streqb_refl, D.
    rewrite (LM_not_ok al m' A S' M). destruct N as (N1 & N2).
    rewrite (proj2 (Nat.eqb_neq _ _)), (proj2 (Nat.eqb_neq _ _)) by lia. cbn [orb].
    unfold LM_move_assign, V_move. cbn [fst]. destruct m'; reflexivity.
  - intros g Ng. unfold disk_put. destruct (streqb g f) eqn:Q; [|reflexivity].
    apply streqb_eq in Q. congruence.
Qed.

Theorem C39_cannot_open : forall rule al can_write accepted d self f,
  (f = [] \/ can_write f = false -> FlushFile al can_write accepted d self f = ([], Ok false)) /\
  (f = [] \/ d f = None -> ReadFile rule al d self f = (self, Ok false)).
Proof.
  intros rule al cw acc d self f. split; intros [-> | H]; try reflexivity.
  - unfold FlushFile. destruct (length f =? 0); [reflexivity|]. now rewrite H.
  - unfold ReadFile. destruct (length f =? 0); [reflexivity|]. now rewrite H.
Qed.

Example C39_example : exists m n states, Set_ (BM_ctor infinite_memory 2 5) 1 4 true = Ok m /\
  FlushFile infinite_memory (fun _ => true) 1000 (fun _ => None) m (lit "a.mx") = (states, Ok true) /\
  ReadFile X86 infinite_memory (last states (fun _ => None)) bm_empty (lit "a.mx") = (n, Ok true) /\ n = m.
Proof.
  do 2 eexists.
  exists (fst (FlushFile infinite_memory (fun _ => true) 1000 (fun _ => None) (mkbm [[x00]; [x08]] 2 5) (lit "a.mx"))).
  split; [vm_compute; reflexivity|]. split; [vm_compute; reflexivity|]. split; [vm_compute; reflexivity|vm_compute; reflexivity].
Qed.

(** ** C40 *)
Theorem C40_read_is_atomic : forall rule al d self f n r,
  ReadFile rule al d self f = (n, r) -> r <> Ok true -> n = self.
Proof.
  intros rule al d self f n r E N. unfold ReadFile in E.
  destruct (length f =? 0); [congruence|]. destruct (d f) as [t|]; [|congruence].
  destruct (DecodeHash rule al t) as [m| |]; try congruence.
  destruct (LM_not al m); congruence.
Qed.

(** InitMatrFromHash that fails in any way leaves the object as it was. *)
Theorem C40_init_is_atomic : forall rule al self h n r,
  InitMatrFromHash rule al self h = (n, r) -> r <> Ok tt -> n = self.
Proof.
  intros rule al self h n r E N. unfold InitMatrFromHash in E.
  destruct (DecodeHash rule al h); congruence.
Qed.

(** Flushing a matrix that cannot be encoded destroys the previous file and throws. *)
Theorem C40_flush_of_empty_destroys : forall al can_write accepted d m A f,
  shows m A -> ~ nonempty A -> memory_ok al (arows A) (acols A) -> f <> [] -> can_write f = true ->
  FlushFile al can_write accepted d m f = ([disk_put d f []], Throw InvalidArgument) /\
  disk_put d f [] f = Some [].
Proof.
  intros al cw acc d m A f S N M Nf Cw. split.
  - unfold FlushFile. rewrite (proj2 (Nat.eqb_neq _ _)) by (destruct f; [congruence|cbn [length]; lia]).
    rewrite Cw. cbn [negb]. unfold EncodeHash. rewrite (LM_not_ok al m A S M).
    assert ((arows A =? 0) || (acols A =? 0) = true) as ->; [|reflexivity].
    unfold nonempty in N. destruct (Nat.eqb_spec (arows A) 0); [reflexivity|].
    destruct (Nat.eqb_spec (acols A) 0); [reflexivity|]. exfalso. lia.
  - unfold disk_put. now rewrite streqb_refl.
Qed.

(** Whatever FlushFile does once it opened the file, the old contents are gone at once: the
    first state the disk goes through has an empty file. *)
Theorem C40_flush_truncates_first : forall al can_write accepted d m f,
  f <> [] -> can_write f = true ->
  exists rest r, FlushFile al can_write accepted d m f = (disk_put d f [] :: rest, r).
Proof.
  intros al cw acc d m f Nf Cw. unfold FlushFile.
  rewrite (proj2 (Nat.eqb_neq _ _)) by (destruct f; [congruence|cbn [length]; lia]). rewrite Cw. cbn [negb].
  destruct (EncodeHash al m); do 2 eexists; reflexivity.
Qed.

(** At every crash point the file is either the complete hash, or ReadFile rejects it with an
    exception and keeps its object: a torn file is never read as another matrix. *)
Theorem C40_torn_files_are_rejected : forall rule al al' can_write accepted d m A f h states r s self,
  shows m A -> nonempty A -> memory_ok al (arows A) (acols A) -> EncodeHash al m = Ok h -> f <> [] ->
  FlushFile al can_write accepted d m f = (states, r) -> In s states ->
  s f = Some h \/ ReadFile rule al' s self f = (self, Throw InvalidArgument).
Proof.
  intros rule al al' cw acc d m A f h states r s self S N M E Nf F I.
  unfold FlushFile in F. rewrite (proj2 (Nat.eqb_neq _ _)) in F by (destruct f; [congruence|cbn [length]; lia]).
  destruct (cw f); cbn [negb] in F; [|inversion F; subst; destruct I].
  rewrite E in F. inversion F; subst states r. clear F.
  assert (T : exists k, k <= length h /\ s = disk_put d f (firstn k h)).
  { cbn [app In] in I. destruct I as [<-|I]; [exists 0; split; [lia|reflexivity]|].
    apply in_map_iff in I as (k & <- & Hk). apply in_seq in Hk. exists k. split; [lia|reflexivity]. }
  destruct T as (k & Lk & ->). unfold disk_put at 1. rewrite streqb_refl.
  destruct (Nat.eq_dec k (length h)) as [->|Nk]; [left; now rewrite firstn_all|right].
  unfold ReadFile. rewrite (proj2 (Nat.eqb_neq _ _)) by (destruct f; [congruence|cbn [length]; lia]).
  unfold disk_put. rewrite streqb_refl.
  rewrite (C38_truncation_rejected rule al al' m A h k S N M E) by lia. reflexivity.
Qed.

(** A short write is reported as success. *)
Theorem C40_flush_true_means_written_refuted :
  ~ (forall al can_write accepted d m f states h, EncodeHash al m = Ok h ->
       FlushFile al can_write accepted d m f = (states, Ok true) -> last states d f = Some h).
Proof.
  intros H.
  pose (m := mkbm [[x07]] 1 3).
  destruct (EncodeHash infinite_memory m) as [h| |] eqn:E; try (vm_compute in E; discriminate).
  specialize (H infinite_memory (fun _ => true) 0 (fun _ => None) m (lit "f") [disk_put (fun _ => None) (lit "f") []] h E).
  unfold FlushFile in H. rewrite E in H. specialize (H eq_refl). cbn in H.
  assert (Q : h = []) by (unfold disk_put in H; vm_compute in H; congruence). subst h. vm_compute in E. discriminate.
Qed.

Print Assumptions C34_encode.
Print Assumptions C34_decode_strict.
Print Assumptions C34_other_lengths.
Print Assumptions C34_decode_x86.
Print Assumptions C34_survival_of_usual_sizes.
Print Assumptions C34_every_size_decodes_refuted.
Print Assumptions C35_encode.
Print Assumptions C35_decode.
Print Assumptions C35_round_trip.
Print Assumptions C35_base64_flag_round_trip_refuted.
Print Assumptions C36_format.
Print Assumptions C36_encode_outcomes.
Print Assumptions C36_round_trip.
Print Assumptions C36_spoiled_sizes.
Print Assumptions C37_equal_hashes.
Print Assumptions C37_equal_hashes_equal_matrices.
Print Assumptions C37_hash_depends_on_visible_bits_only.
Print Assumptions C38_no_begin.
Print Assumptions C38_no_end.
Print Assumptions C38_empty.
Print Assumptions C38_burst_rejected.
Print Assumptions C38_truncation_rejected.
Print Assumptions C38_short_payload.
Print Assumptions C38_missing_sections.
Print Assumptions C38_strict_never_returns.
Print Assumptions C38_crafted_text_is_safe_refuted.
Print Assumptions C39_file_round_trip.
Print Assumptions C39_cannot_open.
Print Assumptions C40_init_is_atomic.
Print Assumptions C40_read_is_atomic.
Print Assumptions C40_flush_of_empty_destroys.
Print Assumptions C40_flush_truncates_first.
Print Assumptions C40_torn_files_are_rejected.
Print Assumptions C40_flush_true_means_written_refuted.
