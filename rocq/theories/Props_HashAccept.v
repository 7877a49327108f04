(** C119: exactly which texts DecodeHash accepts, and what it makes of them.
    Specifications: S_HashAccept ([sealed], [occurs], [stored_sizes]), S_Hash, S_Rle ([filled], [expand]). *)
From Verif Require Import Prelude P_Prelude M_ByteHandler M_Vector2D M_BitMatrix S_Matrix P_BitMatrix P_Cells P_Serial P_Vector2D
  M_LayoutCore M_Rle S_Rle P_Rle M_Crc32 S_Crc32 P_Crc32 M_Base64 S_Base64 P_Base64 M_Hash S_Hash P_Hash S_HashAccept P_HashAccept
  Props_BitMatrix Props_Base64 Props_Rle Props_Hash.
Local Open Scope nat_scope.

(** ** C119 *)
Lemma sealed_decode rule al text h : sealed text h -> text <> [] -> (Z.of_nat (length h) < 2 ^ 32)%Z ->
  DecodeHash rule al h = (let* P := Base64Decode text mime in decode_payload rule al P).
Proof.
  intros E N L. unfold sealed in E.
  change (rfc_encode false "="%byte (le_bytes 4 (crc32 text))) with (crc_text text) in E.
  assert (L8 : length (crc_text text) = 8) by apply crc_text_length.
  subst h. rewrite !app_length in L.
  assert (1 <= length text) by (destruct text; [congruence|cbn [length]; lia]).
  change hash_begin with strBegin. change hash_end with strEnd. rewrite (app_assoc text), DecodeHash_framed.
  rewrite radix_decode by assumption. rewrite Z.mod_small, (proj2 (Z.eqb_neq _ _)) by lia.
  rewrite hashed_small by lia. rewrite streqb_refl. reflexivity.
Qed.

(** The two marker lines may share their line break: "BEGIN" CR LF "END". *)
Lemma overlapping rule al n : n < 30 -> skipn (2 + n) strBegin ++ skipn (30 - n) strEnd = strEnd ->
  DecodeHash rule al (strBegin ++ skipn (30 - n) strEnd) = Throw RuntimeError.
Proof.
  intros H. do 30 (destruct n as [|n]; [intros E; first [discriminate E | vm_compute; reflexivity]|]). lia.
Qed.

Lemma framed_cases h : (forall t, h <> strBegin ++ t) \/ (forall t, h <> t ++ strEnd) \/
  (exists n, n < 30 /\ skipn (2 + n) strBegin ++ skipn (30 - n) strEnd = strEnd /\ h = strBegin ++ skipn (30 - n) strEnd) \/
  exists body, h = strBegin ++ body ++ strEnd.
Proof.
  destruct (list_eq_dec Byte.byte_eq_dec (firstn 32 h) strBegin) as [E|E].
  2:{ left. intros t ->. apply E. rewrite firstn_app, strBegin_length, firstn_O, app_nil_r. reflexivity. }
  right. assert (Eh : h = strBegin ++ skipn 32 h) by (rewrite <- E; symmetry; apply firstn_skipn).
  clear E. revert Eh. generalize (skipn 32 h). intros t ->.
  destruct (list_eq_dec Byte.byte_eq_dec (skipn (2 + length t) (strBegin ++ t)) strEnd) as [E|E].
  2:{ left. intros u F. apply E. rewrite F. apply skipn_exact.
      apply (f_equal (@length byte)) in F. rewrite !app_length, strBegin_length, strEnd_length in F. lia. }
  right. destruct (Nat.ltb_spec (length t) 30) as [H|H].
  - left. exists (length t). split; [exact H|].
    rewrite skipn_app, strBegin_length in E. replace (2 + length t - 32) with 0 in E by lia. rewrite skipn_O in E.
    assert (T : t = skipn (30 - length t) strEnd).
    { rewrite <- E at 1. rewrite skipn_exact; [reflexivity|]. rewrite skipn_length, strBegin_length. lia. }
    split; [|rewrite <- T; reflexivity]. rewrite <- T. exact E.
  - right. rewrite skipn_app, strBegin_length, skipn_all2 in E by (rewrite strBegin_length; lia). cbn [app] in E.
    exists (firstn (2 + length t - 32) t). rewrite <- E. rewrite firstn_skipn. reflexivity.
Qed.

(** A text that is not sealed by its own checksum is refused with an exception: never undefined behaviour,
    never a matrix. *)
Theorem C119_unsealed_is_refused : forall rule al h, (Z.of_nat (length h) < 2 ^ 32)%Z ->
  (forall text, text <> [] -> ~ sealed text h) -> exists e, DecodeHash rule al h = Throw e.
Proof.
  intros rule al h L H.
  destruct (framed_cases h) as [F|[F|[(n & Hn & F & ->)|(body & ->)]]].
  - eexists. apply DecodeHash_no_begin, F.
  - eexists. apply DecodeHash_no_end, F.
  - eexists. apply overlapping; assumption.
  - rewrite DecodeHash_framed. rewrite !app_length in L.
    destruct (Nat.leb_spec (length body) 8) as [S|S].
    + destruct body as [|x body]; [eexists; apply payload_short; cbn [length]; lia|].
      assert (D : Base64Decode (x :: body) radix64 = Throw InvalidArgument) by (apply C29_short_text_rejected; [discriminate|exact S]).
      rewrite D. eexists. reflexivity.
    + destruct (split_at body (length body - 8) ltac:(lia)) as (b & hh & -> & Lb). rewrite app_length in Lb, S, L.
      assert (Lh : length hh = 8) by lia.
      assert (N : b <> []) by (intros ->; cbn [length] in *; lia).
      rewrite radix_decode by assumption. rewrite Z.mod_small, (proj2 (Z.eqb_neq _ _)) by lia.
      rewrite hashed_small by lia.
      destruct (streqb (crc_text b) hh) eqn:E; [|eexists; reflexivity].
      exfalso. apply streqb_eq in E. apply (H b N). unfold sealed. rewrite <- app_assoc. rewrite <- E. reflexivity.
Qed.

Lemma mime_empty : Base64Decode [] mime = Throw InvalidArgument.
Proof. reflexivity. Qed.

Lemma encodings f : DecodeEncodings f = Ok (Z.testbit (b2z f) 1, Z.testbit (b2z f) 1).
Proof. apply C35_decode. Qed.

Lemma after_ok al data size f m : after_sections al data size f = Ok m <->
  exists field r c, Base64Decode size standard = Ok field /\ stored_sizes field r c /\
    if Z.testbit (b2z f) 1
    then exists runs, Base64Decode data standard = Ok runs /\ Rle_DecodeMatrix al runs (Z.to_nat r) (Z.to_nat c) = Ok m
    else exists m0, FromString al data (Z.to_nat r) (Z.to_nat c) = Ok m0 /\ m = fst (LM_of_BM_move m0).
Proof.
  unfold after_sections. rewrite encodings. split.
  - intros X. destruct (Base64Decode size standard) as [field| |] eqn:D; cbn [bind] in X; try discriminate X.
    destruct (DecodeSz X86 field) as [[c r]| |] eqn:Z0; cbn [bind fst snd] in X; try discriminate X.
    exists field, r, c. split; [reflexivity|]. split; [apply DecodeSz_exact, Z0|].
    destruct (Z.testbit (b2z f) 1).
    + destruct (Base64Decode data standard) as [runs| |]; cbn [bind] in X; try discriminate X. eauto.
    + destruct (FromString al data _ _) as [m0| |]; cbn [bind] in X; try discriminate X.
      exists m0. split; [reflexivity|]. congruence.
  - intros (field & r & c & -> & S & X). cbn [bind]. apply DecodeSz_exact in S. rewrite S. cbn [bind fst snd].
    destruct (Z.testbit (b2z f) 1).
    + destruct X as (runs & -> & X). exact X.
    + destruct X as (m0 & -> & ->). reflexivity.
Qed.

(** The texts that are accepted, and the matrix made of each.  The section name __PARAMETERS__ is only looked
    for somewhere in the last 62 bytes. *)
Theorem C119_accepts_exactly : forall al h m, (Z.of_nat (length h) < 2 ^ 32)%Z ->
  (DecodeHash X86 al h = Ok m <->
   exists text data marker size flags field r c,
     sealed text h /\
     Base64Decode text mime = Ok (data ++ marker ++ lit "__SIZE__" ++ size ++ lit "__ENCODE_TYPE__" ++ [flags]) /\
     length marker = 14 /\ length size = 24 /\
     occurs (lit "__PARAMETERS__") (marker ++ lit "__SIZE__" ++ size ++ lit "__ENCODE_TYPE__" ++ [flags]) /\
     Base64Decode size standard = Ok field /\ stored_sizes field r c /\
     if Z.testbit (b2z flags) 1
     then exists runs, Base64Decode data standard = Ok runs /\ Rle_DecodeMatrix al runs (Z.to_nat r) (Z.to_nat c) = Ok m
     else exists m0, FromString al data (Z.to_nat r) (Z.to_nat c) = Ok m0 /\ m = fst (LM_of_BM_move m0)).
Proof.
  intros al h m L. split.
  - intros D.
    destruct (framed_cases h) as [F|[F|[(n & Hn & F & ->)|(body & ->)]]].
    { rewrite DecodeHash_no_begin in D by exact F. discriminate D. }
    { rewrite DecodeHash_no_end in D by exact F. discriminate D. }
    { rewrite overlapping in D by assumption. discriminate D. }
    rewrite DecodeHash_framed in D. rewrite !app_length in L.
    destruct body as [|x body].
    { change (Base64Decode [] radix64) with (Ok (@nil byte)) in D. cbn [bind] in D. rewrite payload_short in D by (cbn [length]; lia). discriminate D. }
    destruct (Base64Decode (x :: body) radix64) as [P| |] eqn:EP; cbn [bind] in D; try discriminate D.
    destruct (C29_accepted_means_checksum (x :: body) P ltac:(discriminate) ltac:(lia) EP) as (text & Et & Dt).
    destruct (payload_split al P) as [(e & F)|(data & f1 & sz & f & -> & L1 & L2 & O)]; [rewrite F in D; discriminate D|].
    rewrite (payload_good al data f1 sz f L1 L2 O) in D. apply after_ok in D as (field & r & c & D1 & D2 & D3).
    exists text, data, f1, sz, f, field, r, c. split; [unfold sealed; rewrite Et, <- app_assoc; reflexivity|].
    split; [exact Dt|]. repeat (split; [assumption|]). exact D3.
  - intros (text & data & f1 & sz & f & field & r & c & S & Dt & L1 & L2 & O & D1 & D2 & D3).
    rewrite (sealed_decode X86 al text h S) by (assumption || (intros ->; rewrite mime_empty in Dt; discriminate Dt)).
    rewrite Dt. cbn [bind].
    etransitivity; [exact (payload_good al data f1 sz f L1 L2 O)|]. apply after_ok. exists field, r, c. auto.
Qed.

Lemma decoded_not_empty t s : Base64Decode t standard = Ok s -> s <> [].
Proof.
  intros D. destruct t as [|x t]; [discriminate D|].
  destruct (reads_total (x :: t)) as (r & R). pose proof (C24_exact (x :: t) r standard ltac:(discriminate) (or_introl eq_refl) R) as E.
  rewrite D in E. destruct r as [vs| |]; try discriminate E. injection E as ->.
  assert (V : exists a b vs', vs = a :: b :: vs') by (inversion R; subst; eauto). destruct V as (a & b & vs' & ->).
  unfold sextets_text, bytes_of_bits. cbn [flat_map]. rewrite !app_length.
  change (length (bits_of 6 a)) with 6. change (length (bits_of 6 b)) with 6. cbn [Nat.add whole_bytes].
  rewrite (proj2 (Nat.leb_le 8 _)); [discriminate|]. rewrite !app_length.
  change (length (bits_of 6 a)) with 6. change (length (bits_of 6 b)) with 6. lia.
Qed.

(** So with enough memory an accepted run-length text gives the matrix of the stored sizes filled with the
    stored runs; an accepted plain text always gives a matrix without columns. *)
Corollary C119_result : forall al h m, (Z.of_nat (length h) < 2 ^ 32)%Z -> (forall r c, memory_ok al r c) ->
  DecodeHash X86 al h = Ok m ->
  (exists runs r c, runs <> [] /\ (0 <= r < 2 ^ 32)%Z /\ (0 <= c < 2 ^ 32)%Z /\
     shows m (filled (Z.to_nat r) (Z.to_nat c) (expand runs))) \/
  (GetColumnCount m = 0 /\ LM_not al m = true).
Proof.
  intros al h m L M D. apply (C119_accepts_exactly al h m L) in D
    as (text & data & f1 & sz & f & field & r & c & _ & _ & _ & _ & _ & _ & (_ & Hr & Hc & _) & X).
  destruct (Z.testbit (b2z f) 1).
  - destruct X as (runs & B & X). destruct runs as [|x runs].
    + exfalso. exact (decoded_not_empty data [] B eq_refl).
    + left. exists (x :: runs), r, c. split; [discriminate|]. split; [exact Hr|]. split; [exact Hc|].
      destruct (C31_total al (x :: runs) (Z.to_nat r) (Z.to_nat c) ltac:(discriminate) (M _ _)) as (m' & E & S).
      rewrite E in X. congruence.
  - right. destruct X as (m0 & _ & ->). split; [reflexivity|].
    unfold LM_not, BM_copy, LM_of_BM_move. cbn [fst Bitmap Isize Jsize]. change (colBytes 0) with (cdiv8 0).
    rewrite (M (length (V_copy (Bitmap m0))) 0).
    unfold BM_not. cbn [Bitmap Isize Jsize]. rewrite Nat.eqb_refl, orb_true_r. destruct (V_not _); reflexivity.
Qed.

Lemma after_ub al data size f u : length size = 24 -> (after_sections al data size f = UB u <->
  exists field r c, Base64Decode size standard = Ok field /\ stored_sizes field r c /\
    if Z.testbit (b2z f) 1 then Base64Decode data standard = UB u
    else FromString al data (Z.to_nat r) (Z.to_nat c) = UB u).
Proof.
  intros L. unfold after_sections. rewrite encodings. split.
  - intros X. pose proof (decode24 size L) as NU. destruct (Base64Decode size standard) as [field| |u'] eqn:D; cbn [bind] in X; try discriminate X.
    2:{ exfalso. exact (NU u' eq_refl). }
    assert (T : exists e, DecodeSz X86 field = Throw e \/ exists c r, DecodeSz X86 field = Ok (c, r)).
    { destruct (Nat.eq_dec (length field) 16) as [L16|L16].
      - exists InvalidArgument. right.
        destruct (sz_loop field (upto 0 16) L16 ltac:(intros i Hi; apply upto_in in Hi; lia) 0%Z ltac:(lia)) as (sz & E & _).
        unfold DecodeSz. rewrite L16. change (negb (16 =? 16)) with false. cbv iota. unfold sz_body in E. rewrite E. cbn [bind]. eauto.
      - eexists. left. apply DecodeSz_length, L16. }
    destruct T as (e & [T|(c & r & T)]); rewrite T in X; cbn [bind fst snd] in X; [discriminate X|].
    exists field, r, c. split; [reflexivity|]. split; [apply DecodeSz_exact, T|].
    destruct (Z.testbit (b2z f) 1).
    + destruct (Base64Decode data standard) as [runs| |] eqn:B; cbn [bind] in X; try discriminate X; [|congruence].
      exfalso. destruct (DecodeMatrix_sizes al runs (Z.to_nat r) (Z.to_nat c)) as (m & E & _). rewrite E in X. discriminate X.
    + destruct (FromString al data _ _) as [m0| |]; cbn [bind] in X; try discriminate X. congruence.
  - intros (field & r & c & -> & S & X). cbn [bind]. apply DecodeSz_exact in S. rewrite S. cbn [bind fst snd].
    destruct (Z.testbit (b2z f) 1); rewrite X; reflexivity.
Qed.

(** And the texts on which the call is undefined: sealed ones whose Base64 text ends inside a group of four
    characters, or whose data section does, or plain ones that FromString cannot read. *)
Theorem C119_undefined_exactly : forall al h u, (Z.of_nat (length h) < 2 ^ 32)%Z ->
  (DecodeHash X86 al h = UB u <->
   exists text, sealed text h /\
     (Base64Decode text mime = UB u \/
      exists data marker size flags field r c,
        Base64Decode text mime = Ok (data ++ marker ++ lit "__SIZE__" ++ size ++ lit "__ENCODE_TYPE__" ++ [flags]) /\
        length marker = 14 /\ length size = 24 /\
        occurs (lit "__PARAMETERS__") (marker ++ lit "__SIZE__" ++ size ++ lit "__ENCODE_TYPE__" ++ [flags]) /\
        Base64Decode size standard = Ok field /\ stored_sizes field r c /\
        if Z.testbit (b2z flags) 1 then Base64Decode data standard = UB u
        else FromString al data (Z.to_nat r) (Z.to_nat c) = UB u)).
Proof.
  intros al h u L. split.
  - intros D.
    assert (S : exists text, text <> [] /\ sealed text h).
    { destruct (framed_cases h) as [F|[F|[(n & Hn & F & ->)|(body & ->)]]].
      { rewrite DecodeHash_no_begin in D by exact F. discriminate D. }
      { rewrite DecodeHash_no_end in D by exact F. discriminate D. }
      { rewrite overlapping in D by assumption. discriminate D. }
      rewrite DecodeHash_framed in D. rewrite !app_length in L.
      destruct (Nat.leb_spec (length body) 8) as [S|S].
      + destruct body as [|x body].
        { change (Base64Decode [] radix64) with (Ok (@nil byte)) in D. cbn [bind] in D. rewrite payload_short in D by (cbn [length]; lia). discriminate D. }
        assert (D' : Base64Decode (x :: body) radix64 = Throw InvalidArgument) by (apply C29_short_text_rejected; [discriminate|exact S]).
        rewrite D' in D. discriminate D.
      + destruct (split_at body (length body - 8) ltac:(lia)) as (b & hh & -> & Lb). rewrite app_length in Lb, S, L.
        assert (Lh : length hh = 8) by lia.
        assert (N : b <> []) by (intros ->; cbn [length] in *; lia).
        rewrite radix_decode in D by assumption. rewrite Z.mod_small, (proj2 (Z.eqb_neq _ _)) in D by lia.
        rewrite hashed_small in D by lia.
        destruct (streqb (crc_text b) hh) eqn:E; [|discriminate D].
        apply streqb_eq in E. exists b. split; [exact N|]. unfold sealed. rewrite <- app_assoc. rewrite <- E. reflexivity. }
    destruct S as (text & N & S). exists text. split; [exact S|].
    rewrite (sealed_decode X86 al text h S N L) in D.
    destruct (Base64Decode text mime) as [P| |u'] eqn:EP; cbn [bind] in D; try discriminate D; [right|left; congruence].
    destruct (payload_split al P) as [(e & F)|(data & f1 & sz & f & -> & L1 & L2 & O)]; [rewrite F in D; discriminate D|].
    rewrite (payload_good al data f1 sz f L1 L2 O) in D. apply (after_ub al data sz f u L2) in D as (field & r & c & D1 & D2 & D3).
    exists data, f1, sz, f, field, r, c. split; [reflexivity|]. repeat (split; [assumption|]). exact D3.
  - intros (text & S & X).
    assert (N : text <> []).
    { intros ->. rewrite mime_empty in X. destruct X as [X|(? & ? & ? & ? & ? & ? & ? & X & _)]; discriminate X. }
    rewrite (sealed_decode X86 al text h S N L).
    destruct X as [->|(data & f1 & sz & f & field & r & c & Dt & L1 & L2 & O & D1 & D2 & D3)]; [reflexivity|].
    rewrite Dt. cbn [bind].
    etransitivity; [exact (payload_good al data f1 sz f L1 L2 O)|]. apply (after_ub al data sz f u L2). exists field, r, c. auto.
Qed.

(** The section name is not checked in its place: it may be part of the size field.  The sizes are then
    4294967295 x 4294967295. *)
Definition ex_marked : list byte :=
  lit "AQ==" ++ repeat x61 14 ++ lit "__SIZE__" ++ lit "__PARAMETERS__AAAAAAAA==" ++ lit "__ENCODE_TYPE__" ++ [x03].
Definition ex_marked_text : list byte := Eval vm_compute in match Base64Encode ex_marked mime with Ok t => t | _ => [] end.
Definition ex_marked_hash : list byte := Eval vm_compute in
  hash_begin ++ ex_marked_text ++ rfc_encode false "="%byte (le_bytes 4 (crc32 ex_marked_text)) ++ hash_end.
Definition ex_marked_field : list byte := Eval vm_compute in
  match Base64Decode (lit "__PARAMETERS__AAAAAAAA==") standard with Ok t => t | _ => [] end.

Lemma ex_marked_sealed : sealed ex_marked_text ex_marked_hash.
Proof. vm_compute. reflexivity. Qed.
Lemma ex_marked_decodes : Base64Decode ex_marked_text mime = Ok ex_marked.
Proof. vm_compute. reflexivity. Qed.
Lemma ex_marked_sizes : stored_sizes ex_marked_field 4294967295 4294967295.
Proof. apply DecodeSz_exact. vm_compute. reflexivity. Qed.

Lemma ex_marked_accepted al : exists m, DecodeHash X86 al ex_marked_hash = Ok m.
Proof.
  destruct (DecodeMatrix_sizes al [x01] (Z.to_nat 4294967295) (Z.to_nat 4294967295)) as (m & E & _). exists m.
  apply C119_accepts_exactly; [vm_compute; reflexivity|].
  exists ex_marked_text, (lit "AQ=="), (repeat x61 14), (lit "__PARAMETERS__AAAAAAAA=="), x03, ex_marked_field, 4294967295%Z, 4294967295%Z.
  split; [exact ex_marked_sealed|]. split; [exact ex_marked_decodes|]. split; [reflexivity|]. split; [reflexivity|]. split.
  { exists (repeat x61 14 ++ lit "__SIZE__"), (lit "AAAAAAAA==" ++ lit "__ENCODE_TYPE__" ++ [x03]). reflexivity. }
  split; [vm_compute; reflexivity|]. split; [exact ex_marked_sizes|].
  change (Z.testbit (b2z x03) 1) with true. cbv iota. exists [x01]. split; [vm_compute; reflexivity|exact E].
Qed.

Theorem C119_marker_in_place_refuted :
  ~ (forall al h m text data marker size flags, DecodeHash X86 al h = Ok m -> sealed text h ->
       Base64Decode text mime = Ok (data ++ marker ++ lit "__SIZE__" ++ size ++ lit "__ENCODE_TYPE__" ++ [flags]) ->
       length marker = 14 -> length size = 24 -> marker = lit "__PARAMETERS__").
Proof.
  intros H. destruct (ex_marked_accepted infinite_memory) as (m & E).
  specialize (H infinite_memory ex_marked_hash m ex_marked_text (lit "AQ==") (repeat x61 14) (lit "__PARAMETERS__AAAAAAAA==") x03
    E ex_marked_sealed ex_marked_decodes eq_refl eq_refl). discriminate H.
Qed.

(** A hash made by hand: a 2 x 3 matrix, plain flag off, with an ordinary size field. *)
Definition ex_hand : list byte := Eval vm_compute in
  let P := match Base64Encode [x82; x04] standard with Ok t => t | _ => [] end
    ++ lit "__PARAMETERS__" ++ lit "__SIZE__" ++ size_field 2 3 ++ lit "__ENCODE_TYPE__" ++ [x02] in
  let t := match Base64Encode P mime with Ok t => t | _ => [] end in
  hash_begin ++ t ++ rfc_encode false "="%byte (le_bytes 4 (crc32 t)) ++ hash_end.
Example C119_example : exists m, DecodeHash X86 infinite_memory ex_hand = Ok m /\
  GetRowCount m = 2 /\ GetColumnCount m = 3 /\ Get m 0 0 = Ok true /\ Get m 0 1 = Ok true /\ Get m 0 2 = Ok false /\
  Get m 1 2 = Ok false /\ DecodeHash X86 infinite_memory (ex_hand ++ [x00]) = Throw InvalidArgument.
Proof. run_example. Qed.

Print Assumptions C119_unsealed_is_refused.
Print Assumptions C119_accepts_exactly.
Print Assumptions C119_result.
Print Assumptions C119_undefined_exactly.
Print Assumptions C119_marker_in_place_refuted.
