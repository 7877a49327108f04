(** C20-C29: CRC-32, Base64 variants, Radix-64.
    Specifications: S_Crc32 (bit-at-a-time CRC), S_Base64 (RFC 4648 by bits). *)
From Verif Require Import Prelude P_Prelude M_Crc32 S_Crc32 P_Crc32 M_Base64 S_Base64 P_Base64.

(** ** C20 *)
Theorem C20_is_crc32 : forall s, s <> [] -> (Z.of_nat (length s) < 2 ^ 32)%Z ->
  CalcHash (Some s) (Z.of_nat (length s)) = Ok (crc32 s).
Proof. exact CalcHash_ok. Qed.

(** Only the first DataSz bytes matter, whatever follows them in memory. *)
Theorem C20_reads_only_the_given_length : forall s rest, s <> [] -> (Z.of_nat (length s) < 2 ^ 32)%Z ->
  CalcHash (Some (s ++ rest)) (Z.of_nat (length s)) = Ok (crc32 s).
Proof.
  intros s rest N L. rewrite CalcHash_app.
  - now rewrite Nat2Z.id, firstn_all.
  - destruct s; [congruence|cbn [length]; lia].
  - lia.
Qed.

Theorem C20_rejected : forall s n,
  CalcHash None n = Throw InvalidArgument /\ CalcHash (Some s) 0 = Throw InvalidArgument.
Proof. intros. split; reflexivity. Qed.

Theorem C20_value_is_32_bit : forall s n h, CalcHash (Some s) n = Ok h -> (0 <= n <= Z.of_nat (length s))%Z ->
  (0 <= h < 2 ^ 32)%Z.
Proof.
  intros s n h H L. destruct (Z.eq_dec n 0) as [->|N]; [discriminate|].
  pose proof (CalcHash_app s [] n ltac:(lia) ltac:(lia)) as E. rewrite app_nil_r, H in E.
  inversion E. apply crc32_range.
Qed.

(** The catalogued check value of CRC-32 ("123456789"). *)
Example C20_check_value : CalcHash (Some (lit "123456789")) 9 = Ok 0xCBF43926%Z /\
  crc32 (lit "123456789") = 0xCBF43926%Z.
Proof. run_example. Qed.

(** ** C21 *)
Theorem C21_bursts_detected : forall s t hs ht,
  (Z.of_nat (length s) < 2 ^ 32)%Z -> burst 4 s t ->
  CalcHash (Some s) (Z.of_nat (length s)) = Ok hs ->
  CalcHash (Some t) (Z.of_nat (length t)) = Ok ht -> hs <> ht.
Proof.
  intros s t hs ht L B Hs Ht.
  assert (Lst : length s = length t).
  { destruct B as (p & w1 & w2 & q & -> & -> & Lw & _). rewrite !app_length. lia. }
  assert (N : s <> [] /\ t <> []).
  { split; intros ->; discriminate. }
  rewrite CalcHash_ok in Hs by tauto. rewrite CalcHash_ok in Ht by (try tauto; lia).
  inversion Hs. inversion Ht. now apply burst_detected.
Qed.

Example C21_example : burst 4 (lit "abcdefgh") (lit "abXYZWgh") /\
  CalcHash (Some (lit "abcdefgh")) 8 <> CalcHash (Some (lit "abXYZWgh")) 8.
Proof.
  split.
  - exists (lit "ab"), (lit "cdef"), (lit "XYZW"), (lit "gh").
    repeat split; cbn; try lia. discriminate.
  - vm_compute. discriminate.
Qed.

(** The bound is tight in the sense that longer bursts are not always detected. *)
Theorem C21_five_byte_bursts_detected_refuted :
  ~ (forall s t, burst 5 s t -> crc32 s <> crc32 t).
Proof.
  intros H. apply (H [x00; x00; x00; x00; x00] [x01; x96; x30; x07; x77]).
  - exists [], [x00; x00; x00; x00; x00], [x01; x96; x30; x07; x77], [].
    repeat split; cbn; try lia. discriminate.
  - vm_compute. reflexivity.
Qed.

(** ** C22 *)
Theorem C22_standard : forall s, s <> [] ->
  Base64Encode s standard = Ok (rfc_encode false "="%byte s).
Proof. exact encode_std. Qed.

Theorem C22_url : forall s, s <> [] ->
  Base64Encode s url = Ok (rfc_encode true "."%byte s).
Proof. exact encode_url. Qed.

(** A value that is none of the five encodings gives the empty string, for every input, in both directions. *)
Theorem C22_unknown_encoding : forall s, Base64Encode s other_type = Ok [] /\ Base64Decode s other_type = Ok [].
Proof. intro s. split; reflexivity. Qed.

Theorem C22_empty : Base64Encode [] standard = Throw InvalidArgument /\
  Base64Encode [] url = Throw InvalidArgument /\ Base64Encode [] mime = Throw InvalidArgument /\
  Base64Encode [] pem = Throw InvalidArgument /\ Base64Encode [] radix64 = Ok [].
Proof. repeat split. Qed.

(** RFC 4648 section 10 test vectors, on the specification and on the model. *)
Example C22_vectors :
  rfc_encode false "="%byte (lit "foobar") = lit "Zm9vYmFy" /\
  rfc_encode false "="%byte (lit "fooba") = lit "Zm9vYmE=" /\
  rfc_encode false "="%byte (lit "foob") = lit "Zm9vYg==" /\
  Base64Encode (lit "f") standard = Ok (lit "Zg==") /\
  Base64Encode [xfb; xff; xbf] url = Ok (lit "-_-_") /\
  Base64Encode [xfb; xff] url = Ok (lit "-_8.").
Proof. run_example. Qed.

(** ** C23 *)
Theorem C23_round_trip : forall s t t', s <> [] ->
  (t = standard \/ t = url) -> (t' = standard \/ t' = url) ->
  exists e, Base64Encode s t = Ok e /\ Base64Decode e t' = Ok s.
Proof.
  intros s t t' N T T'.
  assert (D : forall e, Base64Decode e t' = InBase64StandardDecode e)
    by (intros; destruct T' as [-> | ->]; reflexivity).
  destruct T as [-> | ->]; cbn [Base64Encode]; rewrite InBase64Encode_ok by assumption;
    eexists; (split; [reflexivity|]); rewrite D; apply decode_enc; auto using pad_padding.
Qed.

Theorem C23_injective : forall s s' t e, (t = standard \/ t = url) ->
  Base64Encode s t = Ok e -> Base64Encode s' t = Ok e -> s = s'.
Proof.
  intros s s' t e T E E'.
  assert (N : s <> []) by (intros ->; destruct T as [-> | ->]; discriminate).
  assert (N' : s' <> []) by (intros ->; destruct T as [-> | ->]; discriminate).
  destruct (C23_round_trip s t standard N T (or_introl eq_refl)) as (x & X & D).
  destruct (C23_round_trip s' t standard N' T (or_introl eq_refl)) as (y & Y & D').
  congruence.
Qed.

Example C23_example : exists e, Base64Encode [xff; x00; x80; x7f] url = Ok e /\
  Base64Decode e standard = Ok [xff; x00; x80; x7f].
Proof. run_example. Qed.

(** ** C24: [reads t r] says how a text is read; it covers every text, and is the only
    behaviour. *)
Theorem C24_exact : forall t r ty, t <> [] -> ty = standard \/ ty = url -> reads t r ->
  Base64Decode t ty = match r with
                      | Ok vs => Ok (sextets_text vs)
                      | Throw e => Throw e
                      | UB u => UB u
                      end.
Proof.
  intros t r ty N T R. destruct T as [-> | ->]; cbn [Base64Decode];
    rewrite (decode_reads t r N R); destruct r; reflexivity.
Qed.

Theorem C24_covers_every_text : forall t, exists r, reads t r.
Proof. exact reads_total. Qed.

Theorem C24_only_one_reading : forall t r, reads t r -> forall r', reads t r' ->
  match r, r' with
  | Ok vs, Ok vs' => sextets_text vs = sextets_text vs'
  | Throw e, Throw e' => e = e'
  | UB u, UB u' => u = u'
  | _, _ => False
  end.
Proof.
  intros t r R r' R'. destruct t as [|c t].
  - inversion R; inversion R'; reflexivity.
  - pose proof (decode_reads (c :: t) r ltac:(discriminate) R) as E.
    pose proof (decode_reads (c :: t) r' ltac:(discriminate) R') as E'.
    rewrite E in E'. destruct r, r'; cbn in E'; try discriminate; inversion E'; auto.
Qed.

Theorem C24_empty : forall ty, ty = standard \/ ty = url ->
  Base64Decode [] ty = Throw InvalidArgument.
Proof. intros ty [-> | ->]; reflexivity. Qed.

Example C24_example :
  reads (lit "TWFuTWE=garbage!") (Ok [19; 22; 5; 46; 19; 22; 4]%Z) /\
  Base64Decode (lit "TWFuTWE=garbage!") standard = Ok (lit "ManMa") /\
  Base64Decode (lit "TWF") standard = UB OobIndex /\
  Base64Decode (lit "TW!u") standard = Throw RuntimeError /\
  Base64Decode (lit "=WFu") standard = Throw RuntimeError.
Proof.
  split; [|run_example].
  eapply r_full; try (vm_compute; reflexivity).
  eapply r_pad1; try (vm_compute; reflexivity). now left.
Qed.

(** Not every accepted text is an encoder output: the unused bits of the last sextet are
    ignored. *)
Theorem C24_accepts_only_canonical_texts_refuted :
  ~ (forall e s, Base64Decode e standard = Ok s -> Base64Encode s standard = Ok e).
Proof.
  intros H. specialize (H (lit "TR==") (lit "M") ltac:(vm_compute; reflexivity)).
  vm_compute in H. discriminate.
Qed.

(** ** C25 *)
Theorem C25_length : forall s t e, t = standard \/ t = url -> Base64Encode s t = Ok e ->
  length e = 4 * ((length s + 2) / 3).
Proof.
  intros s t e T E.
  assert (N : s <> []) by (intros ->; destruct T as [-> | ->]; discriminate).
  destruct T as [-> | ->]; cbn [Base64Encode] in E; rewrite InBase64Encode_ok in E by assumption;
    inversion E; apply enc_length.
Qed.

Theorem C25_alphabet : forall s (is_url : bool) e,
  Base64Encode s (if is_url then url else standard) = Ok e ->
  exists body, e = body ++ repeat (if is_url then "."%byte else "="%byte) ((3 - length s mod 3) mod 3) /\
    Forall (fun c => In c (alphabet is_url)) body.
Proof.
  intros s u e E.
  assert (N : s <> []) by (intros ->; destruct u; discriminate).
  assert (E' : InBase64Encode s u = Ok e) by (destruct u; exact E).
  rewrite InBase64Encode_ok in E' by assumption. inversion E'. apply enc_chars.
Qed.

Example C25_example : exists e, Base64Encode (lit "hello") standard = Ok e /\ length e = 8 /\
  length (alphabet true) = 64 /\ NoDup (alphabet false).
Proof.
  eexists. split; [vm_compute; reflexivity|]. split; [reflexivity|]. split; [reflexivity|].
  assert (H : (fix nd l := match l with [] => true | x :: t => negb (existsb (beqb x) t) && nd t end)
              (alphabet false) = true) by (vm_compute; reflexivity).
  revert H. generalize (alphabet false). induction l as [|x l IH]; intros H; constructor.
  - apply andb_true_iff in H as [H _]. apply negb_true_iff in H. intros I.
    assert (existsb (beqb x) l = true) by (apply existsb_exists; exists x; auto using beqb_refl).
    congruence.
  - apply andb_true_iff in H as [_ H]. auto.
Qed.

(** ** C26: [in_lines n body text] *)
Theorem C26_mime : forall s, s <> [] ->
  exists t, Base64Encode s mime = Ok t /\ in_lines 76 (std_text s) t /\ no_breaks t = std_text s.
Proof.
  intros s N. destruct (encode_lines 76 s N ltac:(lia)) as (t & E & L). exists t.
  split; [exact E|]. split; [exact L|]. rewrite (in_lines_breaks _ _ _ L). apply std_no_breaks.
Qed.

Theorem C26_pem : forall s, s <> [] ->
  exists t, Base64Encode s pem = Ok t /\ in_lines 64 (std_text s) t /\ no_breaks t = std_text s.
Proof.
  intros s N. destruct (encode_lines 64 s N ltac:(lia)) as (t & E & L). exists t.
  split; [exact E|]. split; [exact L|]. rewrite (in_lines_breaks _ _ _ L). apply std_no_breaks.
Qed.

(** The line structure leaves no freedom. *)
Theorem C26_lines_unique : forall n body t1 t2, 0 < n ->
  in_lines n body t1 -> in_lines n body t2 -> t1 = t2.
Proof. exact in_lines_det. Qed.

(** 57 bytes fill one MIME line exactly: no separator follows; one byte more starts a second
    line. *)
Example C26_example :
  Base64Encode (repeat x61 57) mime = Ok (std_text (repeat x61 57)) /\
  length (std_text (repeat x61 57)) = 76 /\
  Base64Encode (repeat x61 58) mime
  = Ok (firstn 76 (std_text (repeat x61 58)) ++ [x0d; x0a] ++ lit "YQ==") /\
  Base64Encode (repeat x61 49) pem
  = Ok (firstn 64 (std_text (repeat x61 49)) ++ [x0d; x0a] ++ lit "YQ==").
Proof. run_example. Qed.

(** ** C27 *)
Theorem C27_round_trip : forall s t, s <> [] -> t = mime \/ t = pem ->
  exists e, Base64Encode s t = Ok e /\ Base64Decode e t = Ok s.
Proof.
  intros s t N [-> | ->].
  - destruct (C26_mime s N) as (e & E & _ & B). exists e. split; [exact E|]. now apply decode_sep_std.
  - destruct (C26_pem s N) as (e & E & _ & B). exists e. split; [exact E|]. now apply decode_sep_std.
Qed.

(** Any text that differs from the encoding only in CR and LF characters decodes to the
    same string. *)
Theorem C27_line_breaks_irrelevant : forall s e text t t', s <> [] ->
  t = mime \/ t = pem \/ t = standard -> t' = mime \/ t' = pem ->
  Base64Encode s t = Ok e -> no_breaks text = no_breaks e -> Base64Decode text t' = Ok s.
Proof.
  intros s e text t t' N T T' E B.
  assert (no_breaks e = std_text s).
  { destruct T as [-> | [-> | ->]].
    - destruct (C26_mime s N) as (x & X & _ & Y). congruence.
    - destruct (C26_pem s N) as (x & X & _ & Y). congruence.
    - rewrite encode_std in E by assumption. inversion E. apply std_no_breaks. }
  destruct T' as [-> | ->]; apply decode_sep_std; congruence.
Qed.

Example C27_example : Base64Decode ([x0a] ++ lit "TW" ++ [x0d; x0a; x0d] ++ lit "Fu") mime = Ok (lit "Man").
Proof. vm_compute. reflexivity. Qed.

(** ** C28 *)
Theorem C28_round_trip : forall s e, Base64Encode s radix64 = Ok e -> Base64Decode e radix64 = Ok s.
Proof.
  intros s e E. destruct s as [|x s].
  - inversion E. reflexivity.
  - assert (N : x :: s <> []) by discriminate. revert N E. generalize (x :: s). clear x s.
    intros s N E. destruct (C26_mime s N) as (t & M & L & B).
    rewrite (radix_encode s t N M) in E.
    destruct (_ =? 0)%Z eqn:Z0; [discriminate|].
    destruct (crc32 (hashed_part t) =? 0)%Z; [discriminate|].
    assert (Ee : e = t ++ crc_text (hashed_part t)) by congruence. rewrite Ee. clear E Ee.
    assert (t <> []).
    { intros ->. apply (enc_nonempty false "="%byte s N). rewrite enc_rfc. symmetry. exact B. }
    rewrite radix_decode by (auto using crc_text_length).
    rewrite Z0, streqb_refl. now apply decode_sep_std.
Qed.

(** When the encoder succeeds, fails: exactly. *)
Theorem C28_encoder : forall s t, s <> [] -> Base64Encode s mime = Ok t -> (Z.of_nat (length t) < 2 ^ 32)%Z ->
  (crc32 t <> 0%Z -> Base64Encode s radix64 = Ok (t ++ rfc_encode false "="%byte (le_bytes 4 (crc32 t)))) /\
  (crc32 t = 0%Z -> Base64Encode s radix64 = Throw RuntimeError).
Proof.
  intros s t N M L. pose proof (radix_encode s t N M) as R. rewrite hashed_small in R by assumption.
  assert (t <> []).
  { intros ->. destruct (C26_mime s N) as (x & X & _ & B). rewrite M in X.
    assert (x = []) as -> by congruence.
    apply (enc_nonempty false "="%byte s N). rewrite enc_rfc. symmetry. exact B. }
  rewrite Z.mod_small in R by lia. rewrite (proj2 (Z.eqb_neq (Z.of_nat (length t)) 0)) in R.
  2:{ destruct t; [congruence|cbn [length]; lia]. }
  rewrite R. split; intros C.
  - rewrite (proj2 (Z.eqb_neq _ _) C). reflexivity.
  - rewrite C. reflexivity.
Qed.

(** Longer texts: only their first (length mod 2^32) characters are hashed, and a length
    that is a multiple of 2^32 makes the encoder throw. *)
Theorem C28_encoder_long : forall s t, s <> [] -> Base64Encode s mime = Ok t ->
  let n := (Z.of_nat (length t) mod 2 ^ 32)%Z in let h := crc32 (firstn (Z.to_nat n) t) in
  (n = 0%Z -> Base64Encode s radix64 = Throw InvalidArgument) /\
  (n <> 0%Z -> h = 0%Z -> Base64Encode s radix64 = Throw RuntimeError) /\
  (n <> 0%Z -> h <> 0%Z ->
     Base64Encode s radix64 = Ok (t ++ rfc_encode false "="%byte (le_bytes 4 h))).
Proof.
  intros s t N M n h. pose proof (radix_encode s t N M) as R.
  change (crc32 (hashed_part t)) with h in R. fold n in R.
  change (crc_text (hashed_part t)) with (rfc_encode false "="%byte (le_bytes 4 h)) in R.
  rewrite R. split; [|split].
  - intros ->. reflexivity.
  - intros H1 ->. rewrite (proj2 (Z.eqb_neq _ _) H1). reflexivity.
  - intros H1 H2. rewrite (proj2 (Z.eqb_neq _ _) H1), (proj2 (Z.eqb_neq _ _) H2). reflexivity.
Qed.

(** There are inputs that cannot be encoded: this one's MIME text AAEW9rlf has checksum 0. *)
Theorem C28_always_encodes_refuted :
  ~ (forall s, exists e, Base64Encode s radix64 = Ok e).
Proof.
  intros H. destruct (H [x00; x01; x16; xf6; xb9; x5f]) as (e & E). vm_compute in E. discriminate.
Qed.

Example C28_example : exists e, Base64Encode (lit "Hello, World!") radix64 = Ok e /\
  Base64Decode e radix64 = Ok (lit "Hello, World!") /\ length e = 28 /\
  Base64Encode [x00; x01; x16; xf6; xb9; x5f] mime = Ok (lit "AAEW9rlf") /\
  crc32 (lit "AAEW9rlf") = 0%Z.
Proof. run_example. Qed.

(** ** C29 *)
Theorem C29_accepted_means_checksum : forall text s, text <> [] -> (Z.of_nat (length text) < 2 ^ 32)%Z ->
  Base64Decode text radix64 = Ok s ->
  exists body, text = body ++ rfc_encode false "="%byte (le_bytes 4 (crc32 body)) /\
    Base64Decode body mime = Ok s.
Proof.
  intros text s N L D.
  assert (L8 : 8 < length text).
  { destruct (Nat.leb_spec (length text) 8); [|assumption]. exfalso.
    cbn [Base64Decode] in D. unfold InRadix64Decode in D.
    rewrite (proj2 (Nat.eqb_neq _ _)) in D by (destruct text; [congruence|cbn [length]; lia]).
    rewrite (proj2 (Nat.leb_le _ _)) in D by (unfold radixHashLen; lia). discriminate. }
  assert (X : exists body h, text = body ++ h /\ length body = length text - 8 /\ length h = 8).
  { exists (firstn (length text - 8) text), (skipn (length text - 8) text).
    split; [symmetry; apply firstn_skipn|]. rewrite firstn_length, skipn_length. lia. }
  destruct X as (body & h & T & Lb & Lh). rewrite T in D.
  rewrite radix_decode in D; [|intros ->; cbn [length] in Lb; lia|assumption].
  rewrite Z.mod_small, (proj2 (Z.eqb_neq _ _)) in D by lia.
  destruct (streqb _ h) eqn:S; [|discriminate]. apply streqb_eq in S.
  rewrite hashed_small in S by lia.
  exists body. split; [|exact D]. rewrite T, <- S. reflexivity.
Qed.

Theorem C29_payload_burst_rejected : forall body body' h s,
  length h = 8 -> body <> [] -> (Z.of_nat (length body) < 2 ^ 32)%Z ->
  Base64Decode (body ++ h) radix64 = Ok s -> burst 4 body body' ->
  Base64Decode (body' ++ h) radix64 = Throw RuntimeError.
Proof.
  intros body body' h s Lh N L D B.
  assert (Lb : length body = length body').
  { destruct B as (p & w1 & w2 & q & -> & -> & Lw & _). rewrite !app_length. lia. }
  assert (N' : body' <> []) by (intros ->; destruct body; cbn in Lb; [congruence|lia]).
  rewrite radix_decode in D by assumption. rewrite radix_decode by assumption.
  assert (0 < length body) by (destruct body; [congruence|cbn; lia]).
  rewrite Z.mod_small, (proj2 (Z.eqb_neq _ _)) in D by lia.
  rewrite Z.mod_small, (proj2 (Z.eqb_neq _ _)) by lia.
  rewrite hashed_small in * by lia.
  destruct (streqb (crc_text body) h) eqn:S; [|discriminate]. apply streqb_eq in S.
  destruct (streqb (crc_text body') h) eqn:S'; [|reflexivity]. apply streqb_eq in S'.
  exfalso. apply (burst_detected _ _ B). rewrite <- S' in S. unfold crc_text, std_text in S.
  assert (I : forall a b, a <> [] -> b <> [] -> rfc_encode false "="%byte a = rfc_encode false "="%byte b -> a = b).
  { intros a b Na Nb E. apply (C23_injective a b standard (rfc_encode false "="%byte b)).
    - now left.
    - rewrite <- E. now apply C22_standard.
    - now apply C22_standard. }
  apply I in S; try apply le4_ne.
  pose proof (crc32_range body). pose proof (crc32_range body').
  rewrite <- (le_value_bytes 4 (crc32 body)) by (change (256 ^ Z.of_nat 4)%Z with (2 ^ 32)%Z; lia).
  rewrite S. apply le_value_bytes. change (256 ^ Z.of_nat 4)%Z with (2 ^ 32)%Z. lia.
Qed.

Theorem C29_checksum_change_rejected : forall body h h' s,
  length h = 8 -> length h' = 8 -> h' <> h -> body <> [] ->
  Base64Decode (body ++ h) radix64 = Ok s ->
  Base64Decode (body ++ h') radix64 = Throw RuntimeError.
Proof.
  intros body h h' s Lh Lh' Ne N D. rewrite radix_decode in * by assumption.
  destruct (_ =? 0)%Z; [discriminate|].
  destruct (streqb _ h) eqn:S; [|discriminate]. apply streqb_eq in S.
  destruct (streqb _ h') eqn:S'; [|reflexivity]. apply streqb_eq in S'. congruence.
Qed.

(** A burst of at most four characters anywhere in an accepted text: in the payload, in the
    checksum, or across the boundary of the two. *)
Theorem C29_any_burst_rejected : forall text text' s,
  text <> [] -> (Z.of_nat (length text) < 2 ^ 32)%Z ->
  Base64Decode text radix64 = Ok s -> burst 4 text text' ->
  Base64Decode text' radix64 = Throw RuntimeError.
Proof.
  intros text text' s N L D B.
  destruct (C29_accepted_means_checksum text s N L D) as (body & E & Db). 
  assert (Nb : body <> []) by (intros ->; discriminate Db).
  rewrite E, app_length in L.
  destruct (burst_rejected body (crc_text body) text') as (b' & h' & -> & Lb & Lh & Ne);
    [lia|reflexivity|rewrite E in B; exact B|].
  assert (0 < length body) by (destruct body; [congruence|cbn [length]; lia]).
  rewrite radix_decode; [|destruct b'; [cbn [length] in Lb; lia|discriminate]|exact Lh].
  rewrite Z.mod_small, (proj2 (Z.eqb_neq _ _)) by lia. rewrite hashed_small by lia.
  destruct (streqb (crc_text b') h') eqn:S; [|reflexivity]. apply streqb_eq in S. congruence.
Qed.

Theorem C29_short_text_rejected : forall text, text <> [] -> length text <= 8 ->
  Base64Decode text radix64 = Throw InvalidArgument.
Proof.
  intros text N L. cbn [Base64Decode]. unfold InRadix64Decode.
  rewrite (proj2 (Nat.eqb_neq _ _)) by (destruct text; [congruence|cbn [length]; lia]).
  rewrite (proj2 (Nat.leb_le _ _)) by (unfold radixHashLen; lia). reflexivity.
Qed.

Example C29_example : exists e s, Base64Encode (lit "layout") radix64 = Ok e /\
  e = lit "bGF5b3V0" ++ s /\ length s = 8 /\ Base64Decode e radix64 = Ok (lit "layout") /\
  Base64Decode (lit "bGF5b3V1" ++ s) radix64 = Throw RuntimeError.
Proof.
  eexists. exists (skipn 8 (match Base64Encode (lit "layout") radix64 with Ok e => e | _ => [] end)).
  run_example.
Qed.

Print Assumptions C20_is_crc32.
Print Assumptions C20_reads_only_the_given_length.
Print Assumptions C20_rejected.
Print Assumptions C20_value_is_32_bit.
Print Assumptions C21_bursts_detected.
Print Assumptions C21_five_byte_bursts_detected_refuted.
Print Assumptions C22_standard.
Print Assumptions C22_url.
Print Assumptions C22_unknown_encoding.
Print Assumptions C22_empty.
Print Assumptions C23_round_trip.
Print Assumptions C23_injective.
Print Assumptions C24_exact.
Print Assumptions C24_covers_every_text.
Print Assumptions C24_only_one_reading.
Print Assumptions C24_empty.
Print Assumptions C24_accepts_only_canonical_texts_refuted.
Print Assumptions C25_length.
Print Assumptions C25_alphabet.
Print Assumptions C26_mime.
Print Assumptions C26_pem.
Print Assumptions C26_lines_unique.
Print Assumptions C27_round_trip.
Print Assumptions C27_line_breaks_irrelevant.
Print Assumptions C28_round_trip.
Print Assumptions C28_encoder.
Print Assumptions C28_encoder_long.
Print Assumptions C28_always_encodes_refuted.
Print Assumptions C29_accepted_means_checksum.
Print Assumptions C29_payload_burst_rejected.
Print Assumptions C29_checksum_change_rejected.
Print Assumptions C29_any_burst_rejected.
Print Assumptions C29_short_text_rejected.
