(** C124: Base64 texts put together and cut.
    Specifications: S_Base64 ([rfc_encode], [padding]). *)
From Verif Require Import Prelude P_Prelude M_Base64 S_Base64 P_Base64 Props_Base64.
Local Open Scope nat_scope.

Lemma enc_app u pad a b : length a mod 3 = 0 -> enc u pad (a ++ b) = enc u pad a ++ enc u pad b.
Proof.
  induction a as [|x|x y|x y z t IH] using ind3; intros H; try discriminate; [reflexivity|].
  cbn [app enc]. rewrite IH; [reflexivity|].
  cbn [length] in H. replace (S (S (S (length t)))) with (length t + 1 * 3) in H by lia. rewrite Nat.mod_add in H by lia. exact H.
Qed.

(** ** C124 *)
(** A text can be encoded in pieces whose lengths are multiples of three. *)
Theorem C124_encoding_in_pieces : forall a b t, t = standard \/ t = url -> a <> [] -> b <> [] -> length a mod 3 = 0 ->
  exists ea eb, Base64Encode a t = Ok ea /\ Base64Encode b t = Ok eb /\ Base64Encode (a ++ b) t = Ok (ea ++ eb).
Proof.
  intros a b t T Na Nb M.
  assert (Nab : a ++ b <> []) by (destruct a; [congruence|discriminate]).
  destruct T as [-> | ->]; cbn [Base64Encode]; rewrite !InBase64Encode_ok by assumption; rewrite (enc_app _ _ a b M); eauto.
Qed.

Lemma symbol_range c v : symbol c = Some v -> (0 <= v < 64)%Z.
Proof.
  intros H.
  assert (A : forall c, match symbol c with Some v => ((0 <=? v) && (v <? 64))%Z | None => true end = true).
  { refine (sweep (fun c => _) _). vm_compute. reflexivity. }
  specialize (A c). rewrite H in A. lia.
Qed.

Lemma symbol_not_padding c v : symbol c = Some v -> ~ padding c.
Proof. intros H [-> | ->]; vm_compute in H; discriminate. Qed.

Lemma reads_app x vs : reads x (Ok vs) -> Forall (fun c => ~ padding c) x -> forall y r, reads y r ->
  reads (x ++ y) (match r with Ok ws => Ok (vs ++ ws) | Throw e => Throw e | UB u => UB u end) /\
  forall ws, sextets_text (vs ++ ws) = sextets_text vs ++ sextets_text ws.
Proof.
  intros R. remember (Ok vs) as q eqn:Q. revert vs Q.
  induction R; intros vs Q F y q Ry; try discriminate Q; injection Q as <-.
  - split; [destruct q; exact Ry|reflexivity].
  - do 4 (apply Forall_cons_iff in F as (_ & F)). destruct (IHR r eq_refl F y q Ry) as (R' & X). split.
    + destruct q; [eapply r_full|eapply r_full_throw|eapply r_full_ub]; eauto.
    + intros ws. cbn [app]. rewrite !text_full by (eapply symbol_range; eassumption). rewrite X. reflexivity.
  - do 2 (apply Forall_cons_iff in F as (_ & F)). apply Forall_cons_iff in F as (F & _). tauto.
  - do 3 (apply Forall_cons_iff in F as (_ & F)). apply Forall_cons_iff in F as (F & _). tauto.
Qed.

(** A text without padding characters that can be decoded can be decoded by itself: what follows it is decoded as if
    it stood alone, successfully or not. *)
Theorem C124_decoding_in_pieces : forall x y a t, t = standard \/ t = url -> y <> [] ->
  Base64Decode x t = Ok a -> Forall (fun c => ~ padding c) x ->
  Base64Decode (x ++ y) t = match Base64Decode y t with Ok b => Ok (a ++ b) | Throw e => Throw e | UB u => UB u end.
Proof.
  intros x y a t T Ny E F.
  assert (Nx : x <> []) by (intros ->; rewrite (C24_empty t T) in E; discriminate).
  assert (Nxy : x ++ y <> []) by (destruct x; [congruence|discriminate]).
  destruct (C24_covers_every_text x) as (r & R). rewrite (C24_exact x r t Nx T R) in E.
  destruct r as [vs|e|u]; try discriminate. injection E as <-.
  destruct (C24_covers_every_text y) as (q & Ry). rewrite (C24_exact y q t Ny T Ry).
  destruct (reads_app x vs R F y q Ry) as (Rxy & X). rewrite (C24_exact _ _ t Nxy T Rxy).
  destruct q as [ws|e|u]; [now rewrite X|reflexivity|reflexivity].
Qed.

(** After padding everything is ignored: texts whose length is not a multiple of three cannot be put together. *)
Theorem C124_after_padding_ignored : forall s e t t' junk, t = standard \/ t = url -> t' = standard \/ t' = url ->
  length s mod 3 <> 0 -> Base64Encode s t = Ok e -> Base64Decode (e ++ junk) t' = Ok s.
Proof.
  intros s e t t' junk T T' M E.
  assert (N : s <> []) by (intros ->; apply M; reflexivity).
  assert (H : exists u, e = enc u (pad_of u) s).
  { destruct T as [-> | ->]; cbn [Base64Encode] in E; rewrite InBase64Encode_ok in E by exact N; injection E as <-; [exists false|exists true]; reflexivity. }
  destruct H as (u & ->).
  assert (H : exists vs, reads (enc u (pad_of u) s ++ junk) (Ok vs) /\ sextets_text vs = s).
  { clear E N T T'. pose proof (pad_padding u) as P.
    assert (W : forall vs x, reads x (Ok vs) -> (exists c0 c1 c2 t, x = c0 :: c1 :: c2 :: t /\ padding c2) \/
                                          (exists c0 c1 c2 c3 t, x = c0 :: c1 :: c2 :: c3 :: t /\ padding c3) -> reads (x ++ junk) (Ok vs)).
    { intros vs x R [(c0 & c1 & c2 & tl & -> & Pc)|(c0 & c1 & c2 & c3 & tl & -> & Pc)]; inversion R; subst.
      - exfalso. eapply symbol_not_padding; [|exact Pc]. eassumption.
      - eapply r_pad2; eassumption.
      - exfalso. eapply symbol_not_padding; [|exact Pc]. eassumption.
      - exfalso. eapply symbol_not_padding; [|exact Pc]. eassumption.
      - cbn [app]. eapply r_pad2; eassumption.
      - cbn [app]. eapply r_pad1; eassumption. }
    induction s as [|x|x y|x y z s' IH] using ind3.
    - exfalso. apply M. reflexivity.
    - destruct (enc_reads u (pad_of u) [x] P) as (vs & R & X). exists vs. split; [|exact X]. apply W; [exact R|].
      left. cbn [enc]. do 4 eexists. split; [reflexivity|exact P].
    - destruct (enc_reads u (pad_of u) [x; y] P) as (vs & R & X). exists vs. split; [|exact X]. apply W; [exact R|].
      right. cbn [enc]. do 5 eexists. split; [reflexivity|exact P].
    - destruct IH as (ws & Rw & Xw).
      { cbn [length] in M. replace (S (S (S (length s')))) with (length s' + 1 * 3) in M by lia. rewrite Nat.mod_add in M by lia. exact M. }
      destruct (enc_reads u (pad_of u) [x; y; z] P) as (vs & R & X).
      assert (Fx : Forall (fun c => ~ padding c) (enc u (pad_of u) [x; y; z])).
      { destruct (enc_chars u (pad_of u) [x; y; z]) as (body & Eb & Fb). cbn [length] in Eb. change (repeat (pad_of u) ((3 - 3 mod 3) mod 3)) with (@nil byte) in Eb.
        rewrite app_nil_r in Eb. rewrite Eb. eapply Forall_impl; [|exact Fb]. intros c I [-> | ->]; destruct u; vm_compute in I;
        repeat (destruct I as [I|I]; [discriminate I|]); exact I. }
      destruct (reads_app _ vs R Fx _ _ Rw) as (Rr & Xr).
      exists (vs ++ ws). split.
      + change (enc u (pad_of u) (x :: y :: z :: s')) with (enc u (pad_of u) [x; y; z] ++ enc u (pad_of u) s').
        rewrite <- app_assoc. exact Rr.
      + rewrite Xr, X, Xw. reflexivity. }
  destruct H as (vs & R & X).
  rewrite (C24_exact _ (Ok vs) t' ltac:(intros F; apply app_eq_nil in F as (F & _); exact (enc_nonempty u (pad_of u) s N F)) T' R).
  now rewrite X.
Qed.

(** The first 4k characters of an encoding decode to the first 3k bytes. *)
Theorem C124_cut_encodings : forall s e t t' k, t = standard \/ t = url -> t' = standard \/ t' = url ->
  0 < k -> 3 * k <= length s -> Base64Encode s t = Ok e -> Base64Decode (firstn (4 * k) e) t' = Ok (firstn (3 * k) s).
Proof.
  intros s e t t' k T T' K L E.
  assert (N : s <> []) by (intros ->; cbn in L; lia).
  assert (H : exists u, e = enc u (pad_of u) s).
  { destruct T as [-> | ->]; cbn [Base64Encode] in E; rewrite InBase64Encode_ok in E by exact N; injection E as <-; [exists false|exists true]; reflexivity. }
  destruct H as (u & ->).
  set (p := firstn (3 * k) s).
  assert (Lp : length p = k * 3) by (unfold p; rewrite firstn_length; lia).
  assert (Mp : length p mod 3 = 0) by (rewrite Lp; apply Nat.mod_mul; lia).
  assert (D : firstn (4 * k) (enc u (pad_of u) s) = enc u (pad_of u) p).
  { rewrite <- (firstn_skipn (3 * k) s) at 1. fold p. rewrite enc_app by exact Mp.
    assert (Le : length (enc u (pad_of u) p) = 4 * k).
    { rewrite enc_length, Lp. rewrite Nat.div_add_l by lia. change (2 / 3) with 0. lia. }
    rewrite firstn_app, Le, Nat.sub_diag. cbn [firstn]. rewrite app_nil_r, <- Le. apply firstn_all. }
  rewrite D. assert (Np : p <> []) by (intros F; rewrite F in Lp; cbn in Lp; lia).
  destruct T' as [-> | ->]; cbn [Base64Decode]; apply decode_enc; try exact Np; apply pad_padding.
Qed.

(** Encodings cannot be put together in general. *)
Theorem C124_any_pieces_refuted :
  ~ (forall a b ea eb, Base64Encode a standard = Ok ea -> Base64Encode b standard = Ok eb ->
       Base64Decode (ea ++ eb) standard = Ok (a ++ b)).
Proof.
  intros H. specialize (H (lit "M") (lit "an") (lit "TQ==") (lit "YW4=") ltac:(vm_compute; reflexivity) ltac:(vm_compute; reflexivity)).
  vm_compute in H. discriminate.
Qed.

Example C124_example :
  Base64Encode (lit "abcdef") standard = Ok (lit "YWJjZGVm") /\ Base64Encode (lit "g") standard = Ok (lit "Zw==") /\
  Base64Encode (lit "abcdefg") standard = Ok (lit "YWJjZGVmZw==") /\
  Base64Decode (lit "YWJjZGVmZw==YWJj") standard = Ok (lit "abcdefg") /\
  Base64Decode (lit "YWJjZGVm!") standard = Throw RuntimeError /\
  Base64Decode (lit "YWJj") standard = Ok (lit "abc").
Proof. run_example. Qed.

Print Assumptions C124_encoding_in_pieces.
Print Assumptions C124_decoding_in_pieces.
Print Assumptions C124_after_padding_ignored.
Print Assumptions C124_cut_encodings.
Print Assumptions C124_any_pieces_refuted.
