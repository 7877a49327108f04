(** C99-C100: errors that flip single bits.
    Specifications: S_Flips (counting flipped bits), S_Crc32, S_Hash. *)
From Verif Require Import Prelude P_Prelude M_ByteHandler P_ByteHandler M_Vector2D M_BitMatrix S_Matrix
  P_BitMatrix P_Cells P_Serial M_LayoutCore M_Rle S_Rle P_Rle M_Crc32 S_Crc32 P_Crc32 M_Base64 S_Base64 P_Base64
  M_Hash S_Hash P_Hash Props_Base64 Props_Hash S_Flips P_Flips P_FlipsText.

(** ** C99 *)
Theorem C99_flips_detected : forall k s t hs ht, flips k s t ->
  (k = 1 \/ k = 2) /\ (Z.of_nat (length s) < 2 ^ 29)%Z \/
  k = 3 /\ (Z.of_nat (length s) <= 11454)%Z \/
  k = 4 /\ length s <= 375 \/
  k = 5 /\ length s <= 37 ->
  CalcHash (Some s) (Z.of_nat (length s)) = Ok hs ->
  CalcHash (Some t) (Z.of_nat (length t)) = Ok ht -> hs <> ht.
Proof.
  intros k s t hs ht F C Hs Ht. pose proof (proj1 F) as L.
  assert (N : s <> [] /\ t <> []) by (split; intros ->; discriminate).
  rewrite CalcHash_ok in Hs by (try tauto; lia). rewrite CalcHash_ok in Ht by (try tauto; lia).
  inversion Hs. inversion Ht. apply (flips_detected k _ _ F).
  destruct C as [([-> | ->] & C)|[(-> & C)|[(-> & C)|(-> & C)]]]; cbn [within_reach]; lia.
Qed.

Example C99_example :
  flips 2 (lit "abcdefgh") (lit "`bcdefgi") /\
  CalcHash (Some (lit "abcdefgh")) 8 <> CalcHash (Some (lit "`bcdefgi")) 8.
Proof. split; [split; reflexivity|vm_compute; discriminate]. Qed.

Lemma flips_app i j a a' b b' : flips i a a' -> flips j b b' -> flips (i + j) (a ++ b) (a' ++ b').
Proof.
  intros (L & N) (L' & N'). split; [rewrite !app_length; lia|]. rewrite flipped_app by assumption. lia.
Qed.

Definition zeros (n : Z) : list byte := repeat x00 (Z.to_nat n).

(** The three lengths are exact: one byte more and some errors are missed. *)
Theorem C99_three_flips_in_11455_bytes_detected_refuted :
  ~ (forall s t, Z.of_nat (length s) = 11455%Z -> flips 3 s t -> crc32 s <> crc32 t).
Proof.
  intros H. apply (H ([x00] ++ zeros 6244 ++ [x00] ++ zeros 5208 ++ [x00])
                     ([x01] ++ zeros 6244 ++ [x02] ++ zeros 5208 ++ [x80])).
  - vm_compute. reflexivity.
  - apply (flips_app 1 2); [split; reflexivity|]. apply (flips_app 0 2); [now apply flips_0|].
    apply (flips_app 1 1); [split; reflexivity|]. apply (flips_app 0 1); [now apply flips_0|]. split; reflexivity.
  - apply Z.eqb_eq. vm_compute. reflexivity.
Qed.

Theorem C99_four_flips_in_376_bytes_detected_refuted :
  ~ (forall s t, length s = 376 -> flips 4 s t -> crc32 s <> crc32 t).
Proof.
  intros H. apply (H ([x00] ++ zeros 16 ++ [x00] ++ zeros 80 ++ [x00] ++ zeros 276 ++ [x00])
                     ([x01] ++ zeros 16 ++ [x10] ++ zeros 80 ++ [x80] ++ zeros 276 ++ [x40])).
  - vm_compute. reflexivity.
  - split; vm_compute; reflexivity.
  - apply Z.eqb_eq. vm_compute. reflexivity.
Qed.

Theorem C99_five_flips_in_38_bytes_detected_refuted :
  ~ (forall s t, length s = 38 -> flips 5 s t -> crc32 s <> crc32 t).
Proof.
  intros H. apply (H (zeros 38) ([x01] ++ zeros 17 ++ [x02] ++ zeros 3 ++ [x80] ++ zeros 3 ++ [x08] ++ zeros 10 ++ [x10])).
  - vm_compute. reflexivity.
  - split; vm_compute; reflexivity.
  - apply Z.eqb_eq. vm_compute. reflexivity.
Qed.

(** ** C100 *)
Theorem C100_payload_flips_rejected : forall k body body' h s,
  length h = 8 -> body <> [] -> flips k body body' ->
  (k = 1 \/ k = 2) /\ (Z.of_nat (length body) < 2 ^ 29)%Z \/
  k = 3 /\ (Z.of_nat (length body) <= 11454)%Z \/ k = 4 /\ length body <= 375 ->
  Base64Decode (body ++ h) radix64 = Ok s ->
  Base64Decode (body' ++ h) radix64 = Throw RuntimeError.
Proof.
  intros k body body' h s Lh N F C D. pose proof (proj1 F) as Lb.
  assert (0 < length body) by (destruct body; [congruence|cbn [length]; lia]).
  assert (N' : body' <> []) by (intros ->; cbn [length] in Lb; lia).
  assert (L : (Z.of_nat (length body) < 2 ^ 29)%Z) by lia.
  rewrite radix_decode in D by assumption. rewrite radix_decode by assumption.
  rewrite Z.mod_small, (proj2 (Z.eqb_neq _ _)) in D by lia. rewrite Z.mod_small, (proj2 (Z.eqb_neq _ _)) by lia.
  rewrite hashed_small in * by lia.
  destruct (streqb (crc_text body) h) eqn:S; [|discriminate D]. apply streqb_eq in S.
  destruct (streqb (crc_text body') h) eqn:S'; [|reflexivity]. apply streqb_eq in S'. exfalso.
  apply (flips_detected k _ _ F); [|apply crc_text_inj; congruence].
  destruct C as [([-> | ->] & C)|[(-> & C)|(-> & C)]]; cbn [within_reach]; lia.
Qed.

(** One or two flipped bits anywhere: in the payload, in the checksum, or one in each. *)
Theorem C100_any_two_flips_rejected : forall k text text' s, 1 <= k <= 2 ->
  (Z.of_nat (length text) <= 131072)%Z -> text <> [] ->
  Base64Decode text radix64 = Ok s -> flips k text text' ->
  Base64Decode text' radix64 = Throw RuntimeError.
Proof.
  intros k text text' s K L N D F.
  destruct (C29_accepted_means_checksum text s N ltac:(lia) D) as (body & E & Db).
  assert (Nb : body <> []) by (intros ->; discriminate Db).
  rewrite E, app_length in L.
  destruct (flips_rejected k body text') as (b' & h' & -> & Lb & Lh & Ne);
    [exact K|lia|rewrite E in F; exact F|].
  assert (0 < length body) by (destruct body; [congruence|cbn [length]; lia]).
  rewrite radix_decode; [|destruct b'; [cbn [length] in Lb; lia|discriminate]|exact Lh].
  rewrite Z.mod_small, (proj2 (Z.eqb_neq _ _)) by lia. rewrite hashed_small by lia.
  destruct (streqb (crc_text b') h') eqn:S; [|reflexivity]. apply streqb_eq in S. congruence.
Qed.

(** One or two flipped bits anywhere in a matrix hash. *)
Theorem C100_hash_flips_rejected : forall k rule al al' m A h h', 1 <= k <= 2 ->
  shows m A -> nonempty A -> memory_ok al (arows A) (acols A) ->
  EncodeHash al m = Ok h -> (Z.of_nat (length h) <= 131072)%Z -> flips k h h' ->
  exists e, DecodeHash rule al' h' = Throw e.
Proof.
  intros k rule al al' m A h h' K S N M E L F.
  destruct (EncodeHash_ok al m A S N M) as (runs & Nr & R & X & Q). rewrite Q in E.
  destruct (Base64Encode _ radix64) as [b| |] eqn:Eb; try discriminate E.
  cbn [bind] in E. assert (Eh : h = strBegin ++ b ++ strEnd) by congruence. subst h.
  apply radix_round in Eb; [|apply hash_payload_ne].
  destruct (flips_cut _ _ _ _ F) as (x & y & i & j & -> & Fx & Fy & Sij).
  destruct i as [|i].
  - apply flips_0 in Fx as <-.
    destruct (flips_cut _ _ _ _ Fy) as (b' & e' & u & v & -> & Fb & Fe & Suv).
    destruct v as [|v].
    + apply flips_0 in Fe as <-. rewrite DecodeHash_framed.
      rewrite (C100_any_two_flips_rejected u b b' (hash_payload runs (u32 (arows A)) (u32 (acols A)))).
      * eexists; reflexivity.
      * lia.
      * rewrite !app_length in L. lia.
      * intros ->. destruct Fb as (Lb & Nb). destruct b'; [|discriminate Lb]. cbn in Nb. lia.
      * exact Eb.
      * exact Fb.
    + exists InvalidArgument. apply C38_no_end. intros t T. apply flips_differ in Fe as D. apply D.
      pose proof (proj1 Fe) as Le.
      rewrite app_assoc in T.
      assert (Z : skipn (length (strBegin ++ b')) ((strBegin ++ b') ++ e') = skipn (length (strBegin ++ b')) (t ++ hash_end)) by now rewrite T.
      rewrite skipn_app, skipn_all, Nat.sub_diag in Z. cbn [app skipn] in Z.
      assert (Lt : length t = length (strBegin ++ b')).
      { apply (f_equal (@length byte)) in T. rewrite (app_length _ e'), (app_length t) in T.
        change (length hash_end) with 30 in T. rewrite <- Le, strEnd_length in T. lia. }
      rewrite <- Lt, skipn_app, skipn_all, Nat.sub_diag in Z. cbn [app skipn] in Z. symmetry. exact Z.
  - exists InvalidArgument. apply C38_no_begin. intros t T. apply flips_differ in Fx as D. apply D.
    pose proof (proj1 Fx) as Lx.
    assert (Z : firstn (length x) (x ++ y) = firstn (length x) (hash_begin ++ t)) by now rewrite T.
    rewrite firstn_app, Nat.sub_diag, firstn_O, app_nil_r, firstn_all in Z.
    rewrite <- Lx, firstn_app in Z. change (length hash_begin) with 32 in Z.
    rewrite strBegin_length, Nat.sub_diag, firstn_O, app_nil_r in Z. symmetry. exact Z.
Qed.

Example C100_example : exists h, EncodeHash infinite_memory (mkbm [[x07]] 1 3) = Ok h /\
  exists h', flips 2 h h' /\ DecodeHash X86 infinite_memory h' = Throw RuntimeError.
Proof.
  eexists. split; [vm_compute; reflexivity|].
  match goal with |- exists h', flips 2 ?h h' /\ _ =>
    exists (firstn 40 h ++ [z2b (Z.lxor 3 (b2z (nth 40 h x00)))] ++ skipn 41 h) end.
  split; [split; vm_compute; reflexivity|vm_compute; reflexivity].
Qed.

Print Assumptions C99_flips_detected.
Print Assumptions C99_three_flips_in_11455_bytes_detected_refuted.
Print Assumptions C99_four_flips_in_376_bytes_detected_refuted.
Print Assumptions C99_five_flips_in_38_bytes_detected_refuted.
Print Assumptions C100_payload_flips_rejected.
Print Assumptions C100_any_two_flips_rejected.
Print Assumptions C100_hash_flips_rejected.
