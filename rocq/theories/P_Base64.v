(** Lemmas about the Base64 model. *)
From Verif Require Import Prelude P_Prelude M_Crc32 S_Crc32 P_Crc32 M_Base64 S_Base64.
Local Open Scope nat_scope.
Local Ltac Zify.zify_post_hook ::= Z.to_euclidean_division_equations.

(** ** The encoder, block by block *)
Definition e0 (u : bool) (a : byte) := letter u (b2z a / 4).
Definition e1 (u : bool) (a b : byte) := letter u ((b2z a mod 4) * 16 + b2z b / 16).
Definition e1' (u : bool) (a : byte) := letter u ((b2z a mod 4) * 16).
Definition e2 (u : bool) (b c : byte) := letter u ((b2z b mod 16) * 4 + b2z c / 64).
Definition e2' (u : bool) (b : byte) := letter u ((b2z b mod 16) * 4).
Definition e3 (u : bool) (c : byte) := letter u (b2z c mod 64).

Fixpoint enc (u : bool) (pad : byte) (s : list byte) : list byte :=
  match s with
  | a :: b :: c :: t => e0 u a :: e1 u a b :: e2 u b c :: e3 u c :: enc u pad t
  | [a; b] => [e0 u a; e1 u a b; e2' u b; pad]
  | [a] => [e0 u a; e1' u a; pad; pad]
  | [] => []
  end.

Lemma ind3 (P : list byte -> Prop) :
  P [] -> (forall a, P [a]) -> (forall a b, P [a; b]) ->
  (forall a b c t, P t -> P (a :: b :: c :: t)) -> forall s, P s.
Proof.
  intros H0 H1 H2 H3.
  assert (forall n s, length s <= n -> P s) as H.
  { induction n; intros s L.
    - destruct s; [assumption|cbn in L; lia].
    - destruct s as [|a [|b [|c t]]]; auto.
      apply H3, IHn. cbn [length] in L. lia. }
  intros s. apply (H (length s)). lia.
Qed.

Definition dict_of (u : bool) := if u then base64UrlDictionary else base64ClassicDictionary.

Definition res_is (r : res byte) (b : byte) : bool :=
  match r with Ok x => beqb x b | _ => false end.

Lemma res_is_eq r b : res_is r b = true -> r = Ok b.
Proof. destruct r; try discriminate. cbn. intros H. apply beqb_eq in H. now subst. Qed.

Lemma dict0 u a : dict_ (dict_of u) (Z.shiftr (Z.land (schar a) 0xFC) 2) = Ok (e0 u a).
Proof.
  apply res_is_eq.
  destruct u; revert a; refine (sweep (fun a => _) _); vm_compute; reflexivity.
Qed.

Lemma dict1 u a b : dict_ (dict_of u)
  (Z.lor (Z.shiftl (Z.land (schar a) 0x03) 4) (Z.shiftr (Z.land (schar b) 0xF0) 4)) = Ok (e1 u a b).
Proof.
  apply res_is_eq.
  destruct u; revert a b; refine (sweep2 (fun a b => _) _); vm_compute; reflexivity.
Qed.

Lemma dict1' u a : dict_ (dict_of u) (Z.shiftl (Z.land (schar a) 0x03) 4) = Ok (e1' u a).
Proof.
  apply res_is_eq.
  destruct u; revert a; refine (sweep (fun a => _) _); vm_compute; reflexivity.
Qed.

Lemma dict2 u a b : dict_ (dict_of u)
  (Z.lor (Z.shiftl (Z.land (schar a) 0x0F) 2) (Z.shiftr (Z.land (schar b) 0xC0) 6)) = Ok (e2 u a b).
Proof.
  apply res_is_eq.
  destruct u; revert a b; refine (sweep2 (fun a b => _) _); vm_compute; reflexivity.
Qed.

Lemma dict2' u a : dict_ (dict_of u) (Z.shiftl (Z.land (schar a) 0x0F) 2) = Ok (e2' u a).
Proof.
  apply res_is_eq.
  destruct u; revert a; refine (sweep (fun a => _) _); vm_compute; reflexivity.
Qed.

Lemma dict3 u a : dict_ (dict_of u) (Z.land (schar a) 0x3F) = Ok (e3 u a).
Proof.
  apply res_is_eq.
  destruct u; revert a; refine (sweep (fun a => _) _); vm_compute; reflexivity.
Qed.

Lemma at_app_here {A} (pre : list A) x t n : n = length pre -> at_ (pre ++ x :: t) n = Ok x.
Proof. intros ->. unfold at_. rewrite nth_error_app2, Nat.sub_diag by lia. reflexivity. Qed.

Lemma at_app_1 {A} (pre : list A) x y t n : n = length pre -> at_ (pre ++ x :: y :: t) (n + 1) = Ok y.
Proof.
  intros ->. unfold at_. rewrite nth_error_app2 by lia.
  replace (length pre + 1 - length pre) with 1 by lia. reflexivity.
Qed.

Lemma at_app_2 {A} (pre : list A) x y z t n : n = length pre ->
  at_ (pre ++ x :: y :: z :: t) (n + 2) = Ok z.
Proof.
  intros ->. unfold at_. rewrite nth_error_app2 by lia.
  replace (length pre + 2 - length pre) with 2 by lia. reflexivity.
Qed.

Lemma at_app_3 {A} (pre : list A) x y z w t n : n = length pre ->
  at_ (pre ++ x :: y :: z :: w :: t) (n + 3) = Ok w.
Proof.
  intros ->. unfold at_. rewrite nth_error_app2 by lia.
  replace (length pre + 3 - length pre) with 3 by lia. reflexivity.
Qed.

Lemma encode_step_3 u pad pre a b c t acc :
  encode_step (pre ++ a :: b :: c :: t) (dict_of u) pad acc (length pre)
  = Ok (acc ++ [e0 u a; e1 u a b; e2 u b c; e3 u c]).
Proof.
  unfold encode_step. rewrite at_app_here by reflexivity. cbn [bind].
  rewrite dict0. cbn [bind].
  rewrite (proj2 (Nat.ltb_lt _ _)) by (rewrite app_length; cbn [length]; lia).
  rewrite at_app_1 by reflexivity. cbn [bind]. rewrite dict1. cbn [bind].
  rewrite (proj2 (Nat.ltb_lt _ _)) by (rewrite app_length; cbn [length]; lia).
  rewrite at_app_2 by reflexivity. cbn [bind]. rewrite dict2. cbn [bind].
  rewrite dict3. reflexivity.
Qed.

Lemma encode_step_2 u pad pre a b acc :
  encode_step (pre ++ [a; b]) (dict_of u) pad acc (length pre)
  = Ok (acc ++ [e0 u a; e1 u a b; e2' u b; pad]).
Proof.
  unfold encode_step. rewrite at_app_here by reflexivity. cbn [bind].
  rewrite dict0. cbn [bind].
  rewrite (proj2 (Nat.ltb_lt _ _)) by (rewrite app_length; cbn [length]; lia).
  rewrite at_app_1 by reflexivity. cbn [bind]. rewrite dict1. cbn [bind].
  rewrite (proj2 (Nat.ltb_ge _ _)) by (rewrite app_length; cbn [length]; lia).
  rewrite dict2'. reflexivity.
Qed.

Lemma encode_step_1 u pad pre a acc :
  encode_step (pre ++ [a]) (dict_of u) pad acc (length pre)
  = Ok (acc ++ [e0 u a; e1' u a; pad; pad]).
Proof.
  unfold encode_step. rewrite at_app_here by reflexivity. cbn [bind].
  rewrite dict0. cbn [bind].
  rewrite (proj2 (Nat.ltb_ge _ _)) by (rewrite app_length; cbn [length]; lia).
  rewrite dict1'. reflexivity.
Qed.

Lemma encode_loop u pad s : forall pre k acc, length pre = 3 * k ->
  for_each (map (fun k => 3 * k) (seq k ((length s + 2) / 3))) acc
    (encode_step (pre ++ s) (dict_of u) pad) = Ok (acc ++ enc u pad s).
Proof.
  induction s as [|a|a b|a b c t IH] using ind3; intros pre k acc Hp.
  - cbn. now rewrite app_nil_r.
  - change ((length [a] + 2) / 3) with 1. cbn [seq map for_each].
    rewrite <- Hp, encode_step_1. reflexivity.
  - change ((length [a; b] + 2) / 3) with 1. cbn [seq map for_each].
    rewrite <- Hp, encode_step_2. reflexivity.
  - replace ((length (a :: b :: c :: t) + 2) / 3) with (S ((length t + 2) / 3))
      by (cbn [length]; lia).
    cbn [seq map for_each enc].
    rewrite <- Hp, encode_step_3.
    replace (pre ++ a :: b :: c :: t) with ((pre ++ [a; b; c]) ++ t)
      by (rewrite <- app_assoc; reflexivity).
    rewrite IH by (rewrite app_length; cbn [length]; lia).
    rewrite <- app_assoc. reflexivity.
Qed.

Definition pad_of (u : bool) : byte := if u then "."%byte else "="%byte.

Lemma InBase64Encode_ok u s : s <> [] -> InBase64Encode s u = Ok (enc u (pad_of u) s).
Proof.
  intros H. unfold InBase64Encode. rewrite (proj2 (Nat.eqb_neq _ _)).
  2:{ destruct s; [congruence|cbn [length]; lia]. }
  unfold every. change (3 - 1) with 2.
  pose proof (encode_loop u (pad_of u) s [] 0 [] eq_refl) as E. cbn [app] in E.
  unfold dict_of, pad_of in *. destruct u; exact E.
Qed.

(** ** The block encoder is the RFC encoder *)
Lemma sbit_shift a b c t p : sbit (a :: b :: c :: t) (24 + p) = sbit t p.
Proof.
  unfold sbit. replace ((24 + p) / 8) with (S (S (S (p / 8)))) by lia.
  replace ((24 + p) mod 8) with (p mod 8) by lia. reflexivity.
Qed.

Lemma sextet_shift a b c t q : sextet (a :: b :: c :: t) (4 + q) = sextet t q.
Proof.
  unfold sextet. f_equal. apply map_ext_in. intros x Hx.
  replace (6 * (4 + q) + x) with (24 + (6 * q + x)) by lia. apply sbit_shift.
Qed.

Definition tb (a : byte) (k : Z) := Z.testbit (b2z a) k.

Lemma sx0 a t : sextet (a :: t) 0 = (b2z a / 4)%Z.
Proof.
  change (sextet (a :: t) 0) with (bits_value 0 [tb a 7; tb a 6; tb a 5; tb a 4; tb a 3; tb a 2]).
  apply Z.eqb_eq. revert a. refine (sweep (fun a => _) _). vm_compute. reflexivity.
Qed.

Lemma sx1 a b t : sextet (a :: b :: t) 1 = ((b2z a mod 4) * 16 + b2z b / 16)%Z.
Proof.
  change (sextet (a :: b :: t) 1)
    with (bits_value 0 [tb a 1; tb a 0; tb b 7; tb b 6; tb b 5; tb b 4]).
  apply Z.eqb_eq. revert a b. refine (sweep2 (fun a b => _) _). vm_compute. reflexivity.
Qed.

Lemma sx1' a : sextet [a] 1 = ((b2z a mod 4) * 16)%Z.
Proof.
  change (sextet [a] 1)
    with (bits_value 0 [tb a 1; tb a 0; false; false; false; false]).
  apply Z.eqb_eq. revert a. refine (sweep (fun a => _) _). vm_compute. reflexivity.
Qed.

Lemma sx2 a b c t : sextet (a :: b :: c :: t) 2 = ((b2z b mod 16) * 4 + b2z c / 64)%Z.
Proof.
  change (sextet (a :: b :: c :: t) 2)
    with (bits_value 0 [tb b 3; tb b 2; tb b 1; tb b 0; tb c 7; tb c 6]).
  apply Z.eqb_eq. revert b c. refine (sweep2 (fun b c => _) _). vm_compute. reflexivity.
Qed.

Lemma sx2' a b : sextet [a; b] 2 = ((b2z b mod 16) * 4)%Z.
Proof.
  change (sextet [a; b] 2)
    with (bits_value 0 [tb b 3; tb b 2; tb b 1; tb b 0; false; false]).
  apply Z.eqb_eq. revert b. refine (sweep (fun b => _) _). vm_compute. reflexivity.
Qed.

Lemma sx3 a b c t : sextet (a :: b :: c :: t) 3 = (b2z c mod 64)%Z.
Proof.
  change (sextet (a :: b :: c :: t) 3)
    with (bits_value 0 [tb c 5; tb c 4; tb c 3; tb c 2; tb c 1; tb c 0]).
  apply Z.eqb_eq. revert c. refine (sweep (fun c => _) _). vm_compute. reflexivity.
Qed.

Lemma enc_rfc u pad s : enc u pad s = rfc_encode u pad s.
Proof.
  induction s as [|a|a b|a b c t IH] using ind3.
  - reflexivity.
  - unfold rfc_encode. change ((8 * length [a] + 5) / 6) with 2.
    cbn [seq map]. rewrite sx0, sx1'. reflexivity.
  - unfold rfc_encode. change ((8 * length [a; b] + 5) / 6) with 3.
    cbn [seq map]. rewrite sx0, sx1, sx2'. reflexivity.
  - cbn [enc]. rewrite IH. unfold rfc_encode.
    replace ((8 * length (a :: b :: c :: t) + 5) / 6) with (4 + (8 * length t + 5) / 6)
      by (cbn [length]; lia).
    set (k := (8 * length t + 5) / 6).
    replace ((4 - (4 + k) mod 4) mod 4) with ((4 - k mod 4) mod 4) by lia.
    rewrite seq_app, map_app, <- app_assoc. cbn [seq map].
    rewrite sx0, sx1, sx2, sx3. cbn [app].
    change (letter u (b2z a / 4)) with (e0 u a).
    do 4 f_equal. f_equal.
    change (0 + 4) with 4.
    rewrite <- (seq_shift k 3), <- (seq_shift k 2), <- (seq_shift k 1), <- (seq_shift k 0).
    rewrite !map_map. apply map_ext. intros q.
    change (S (S (S (S q)))) with (4 + q). now rewrite sextet_shift.
Qed.

Lemma encode_std s : s <> [] -> Base64Encode s standard = Ok (std_text s).
Proof. intros H. cbn [Base64Encode]. rewrite InBase64Encode_ok, enc_rfc by assumption. reflexivity. Qed.

Lemma encode_url s : s <> [] -> Base64Encode s url = Ok (rfc_encode true "."%byte s).
Proof. intros H. cbn [Base64Encode]. rewrite InBase64Encode_ok, enc_rfc by assumption. reflexivity. Qed.

(** ** The decoder *)
Definition opt_res (o : option Z) : res Z :=
  match o with Some v => Ok v | None => Throw RuntimeError end.

Lemma symb_ok c : InGetSymbPosition c = opt_res (symbol c).
Proof.
  assert (H : forall c, (match InGetSymbPosition c, symbol c with
    | Ok v, Some w => Z.eqb v w | Throw RuntimeError, None => true | _, _ => false end) = true)
    by (refine (sweep (fun c => _) _); vm_compute; reflexivity).
  specialize (H c). destruct (InGetSymbPosition c) as [v|[]|], (symbol c); try discriminate; cbn.
  - apply Z.eqb_eq in H. now subst.
  - reflexivity.
Qed.

Lemma symbol_range c v : symbol c = Some v -> (0 <= v < 64)%Z.
Proof.
  assert (H : forall c, (match symbol c with Some v => (0 <=? v)%Z && (v <? 64)%Z | None => true end) = true)
    by (refine (sweep (fun c => _) _); vm_compute; reflexivity).
  specialize (H c). intros E. rewrite E in H. lia.
Qed.

Lemma symbol_pad c v : symbol c = Some v -> is_pad c = false.
Proof.
  assert (H : forall c, (match symbol c with Some v => negb (is_pad c) | None => true end) = true)
    by (refine (sweep (fun c => _) _); vm_compute; reflexivity).
  specialize (H c). intros E. rewrite E in H. now apply negb_true_iff in H.
Qed.

Lemma is_pad_iff c : is_pad c = true <-> padding c.
Proof.
  unfold is_pad, padding. rewrite orb_true_iff, !beqb_eq. intuition.
Qed.

Lemma not_pad c : ~ padding c -> is_pad c = false.
Proof. intros H. apply not_true_iff_false. now rewrite is_pad_iff. Qed.

Lemma reads_total t : exists r, reads t r.
Proof.
  assert (forall n t, length t <= n -> exists r, reads t r) as H.
  { induction n as [|n IH]; intros t0 L.
    - destruct t0; [exists (Ok []); constructor | cbn in L; lia].
    - destruct t0 as [|c0 t0]; [exists (Ok []); constructor|].
      destruct (symbol c0) as [v0|] eqn:S0; [|eexists; eapply r_bad0; eassumption].
      destruct t0 as [|c1 t0]; [eexists; eapply r_cut1; eassumption|].
      destruct (symbol c1) as [v1|] eqn:S1; [|eexists; eapply r_bad1; eassumption].
      destruct t0 as [|c2 t0]; [eexists; eapply r_cut2; eassumption|].
      destruct (is_pad c2) eqn:P2;
        [apply is_pad_iff in P2; eexists; eapply r_pad2; eassumption|].
      destruct (symbol c2) as [v2|] eqn:S2.
      2:{ eexists; eapply r_bad2; try eassumption. rewrite <- is_pad_iff. congruence. }
      destruct t0 as [|c3 t0]; [eexists; eapply r_cut3; eassumption|].
      destruct (is_pad c3) eqn:P3;
        [apply is_pad_iff in P3; eexists; eapply r_pad1; eassumption|].
      destruct (symbol c3) as [v3|] eqn:S3.
      2:{ eexists; eapply r_bad3; try eassumption. rewrite <- is_pad_iff. congruence. }
      destruct (IH t0) as [r R]; [cbn [length] in L; lia|].
      destruct r; eexists; [eapply r_full | eapply r_full_throw | eapply r_full_ub]; eassumption. }
  exact (H (length t) t (le_n _)).
Qed.

Definition b0 (v0 v1 : Z) : byte := z2b (4 * v0 + v1 / 16).
Definition b1 (v1 v2 : Z) : byte := z2b ((v1 mod 16) * 16 + v2 / 4).
Definition b2 (v2 v3 : Z) : byte := z2b ((v2 mod 4) * 64 + v3).

Definition sextets : list Z := map Z.of_nat (seq 0 64).
Lemma sextets_in v : (0 <= v < 64)%Z -> In v sextets.
Proof.
  intros H. unfold sextets. apply in_map_iff. exists (Z.to_nat v). split; [lia|].
  apply in_seq. lia.
Qed.

Lemma sweep6 (P : Z -> Z -> bool) : forallb (fun v => forallb (P v) sextets) sextets = true ->
  forall v w, (0 <= v < 64)%Z -> (0 <= w < 64)%Z -> P v w = true.
Proof.
  intros H v w Hv Hw. rewrite forallb_forall in H. specialize (H v (sextets_in v Hv)).
  rewrite forallb_forall in H. exact (H w (sextets_in w Hw)).
Qed.

Lemma or0 v0 v1 : (0 <= v0 < 64)%Z -> (0 <= v1 < 64)%Z ->
  z2b (Z.lor (schar (z2b (Z.shiftl v0 2))) (Z.shiftr v1 4)) = b0 v0 v1.
Proof.
  intros H0 H1. apply beqb_eq. revert v0 v1 H0 H1.
  refine (sweep6 (fun v0 v1 => _) _). vm_compute. reflexivity.
Qed.

Lemma or1 v0 v1 : (0 <= v0 < 64)%Z -> (0 <= v1 < 64)%Z ->
  z2b (Z.lor (schar (z2b (Z.shiftl (Z.land v0 0x0F) 4))) (Z.shiftr (Z.land v1 0x3C) 2)) = b1 v0 v1.
Proof.
  intros H0 H1. apply beqb_eq. revert v0 v1 H0 H1.
  refine (sweep6 (fun v0 v1 => _) _). vm_compute. reflexivity.
Qed.

Lemma or2 v0 v1 : (0 <= v0 < 64)%Z -> (0 <= v1 < 64)%Z ->
  z2b (Z.lor (schar (z2b (Z.shiftl (Z.land v0 0x03) 6))) (Z.land v1 0x3F)) = b2 v0 v1.
Proof.
  intros H0 H1. apply beqb_eq. revert v0 v1 H0 H1.
  refine (sweep6 (fun v0 v1 => _) _). vm_compute. reflexivity.
Qed.

Lemma put_app {A} (d : list A) x r y j : j = length d ->
  put_ (d ++ x :: r) j y = Ok (d ++ y :: r).
Proof.
  intros ->. rewrite put_lt by (rewrite app_length; cbn [length]; lia). f_equal.
  induction d; cbn [app length upd]; [reflexivity | now f_equal].
Qed.

Lemma write2 d x r j v w : j = length d ->
  (let* e := set_char (d ++ x :: r) j v in or_char e j w)
  = Ok (d ++ z2b (Z.lor (schar (z2b v)) w) :: r).
Proof.
  intros H. unfold set_char, or_char. rewrite put_app by assumption. cbn [bind].
  rewrite at_app_here by assumption. cbn [bind]. now rewrite put_app.
Qed.

(** whole_bytes *)
Lemma whole_fuel f : forall l, length l <= f -> whole_bytes f l = bytes_of_bits l.
Proof.
  unfold bytes_of_bits.
  assert (G : forall n l f, length l <= n -> length l <= f -> whole_bytes f l = whole_bytes n l).
  { induction n as [|n IH]; intros l f' Ln Lf.
    - destruct l; [|cbn in Ln; lia]. destruct f'; reflexivity.
    - destruct f' as [|f'].
      + destruct l; [reflexivity|cbn in Lf; lia].
      + cbn [whole_bytes]. destruct (8 <=? length l) eqn:E; [|reflexivity].
        apply Nat.leb_le in E. f_equal.
        apply IH; rewrite skipn_length; lia. }
  intros l L. apply G; lia.
Qed.

Lemma bytes_of_bits_cons b l : length b = 8 ->
  bytes_of_bits (b ++ l) = z2b (bits_value 0 b) :: bytes_of_bits l.
Proof.
  intros Hb. rewrite <- (whole_fuel (S (7 + length l))) by (rewrite app_length; lia).
  remember (7 + length l) as f eqn:Hf. cbn [whole_bytes].
  rewrite (proj2 (Nat.leb_le _ _)) by (rewrite app_length; lia).
  rewrite firstn_app, Hb, Nat.sub_diag, firstn_O, app_nil_r, firstn_all2 by lia.
  f_equal. rewrite skipn_app, Hb, Nat.sub_diag, skipn_all2 by lia. cbn [app skipn].
  apply whole_fuel. lia.
Qed.

Lemma bits6 v : bits_of 6 v =
  [Z.testbit v 5; Z.testbit v 4; Z.testbit v 3; Z.testbit v 2; Z.testbit v 1; Z.testbit v 0].
Proof. reflexivity. Qed.

Lemma bv0 v0 v1 : (0 <= v0 < 64)%Z -> (0 <= v1 < 64)%Z ->
  z2b (bits_value 0 (bits_of 6 v0 ++ firstn 2 (bits_of 6 v1))) = b0 v0 v1.
Proof.
  intros H0 H1. apply beqb_eq. revert v0 v1 H0 H1.
  refine (sweep6 (fun v0 v1 => _) _). vm_compute. reflexivity.
Qed.
Lemma bv1 v0 v1 : (0 <= v0 < 64)%Z -> (0 <= v1 < 64)%Z ->
  z2b (bits_value 0 (skipn 2 (bits_of 6 v0) ++ firstn 4 (bits_of 6 v1))) = b1 v0 v1.
Proof.
  intros H0 H1. apply beqb_eq. revert v0 v1 H0 H1.
  refine (sweep6 (fun v0 v1 => _) _). vm_compute. reflexivity.
Qed.
Lemma bv2 v0 v1 : (0 <= v0 < 64)%Z -> (0 <= v1 < 64)%Z ->
  z2b (bits_value 0 (skipn 4 (bits_of 6 v0) ++ bits_of 6 v1)) = b2 v0 v1.
Proof.
  intros H0 H1. apply beqb_eq. revert v0 v1 H0 H1.
  refine (sweep6 (fun v0 v1 => _) _). vm_compute. reflexivity.
Qed.

Lemma short_bits l : length l < 8 -> bytes_of_bits l = [].
Proof.
  intros H. unfold bytes_of_bits. destruct (length l) eqn:E; [reflexivity|].
  cbn [whole_bytes]. rewrite E. replace (8 <=? S n) with false; [reflexivity|].
  symmetry. apply Nat.leb_gt. lia.
Qed.

Lemma text_full v0 v1 v2 v3 vs :
  (0 <= v0 < 64)%Z -> (0 <= v1 < 64)%Z -> (0 <= v2 < 64)%Z -> (0 <= v3 < 64)%Z ->
  sextets_text (v0 :: v1 :: v2 :: v3 :: vs) = b0 v0 v1 :: b1 v1 v2 :: b2 v2 v3 :: sextets_text vs.
Proof.
  intros. unfold sextets_text. cbn [flat_map].
  rewrite <- (firstn_skipn 2 (bits_of 6 v1)), <- (firstn_skipn 4 (bits_of 6 v2)).
  rewrite <- !app_assoc.
  rewrite (app_assoc (bits_of 6 v0)), bytes_of_bits_cons, bv0 by auto. f_equal.
  rewrite (app_assoc (skipn 2 _)), bytes_of_bits_cons, bv1 by auto. f_equal.
  rewrite (app_assoc (skipn 4 _)), bytes_of_bits_cons, bv2 by auto. reflexivity.
Qed.

Lemma text_2 v0 v1 : (0 <= v0 < 64)%Z -> (0 <= v1 < 64)%Z -> sextets_text [v0; v1] = [b0 v0 v1].
Proof.
  intros. unfold sextets_text. cbn [flat_map]. rewrite app_nil_r.
  rewrite <- (firstn_skipn 2 (bits_of 6 v1)).
  rewrite (app_assoc (bits_of 6 v0)), bytes_of_bits_cons, bv0 by auto.
  rewrite short_bits; [reflexivity|]. rewrite bits6. cbn. lia.
Qed.

Lemma text_3 v0 v1 v2 : (0 <= v0 < 64)%Z -> (0 <= v1 < 64)%Z -> (0 <= v2 < 64)%Z ->
  sextets_text [v0; v1; v2] = [b0 v0 v1; b1 v1 v2].
Proof.
  intros. unfold sextets_text. cbn [flat_map]. rewrite app_nil_r.
  rewrite <- (firstn_skipn 2 (bits_of 6 v1)), <- (firstn_skipn 4 (bits_of 6 v2)).
  rewrite <- !app_assoc.
  rewrite (app_assoc (bits_of 6 v0)), bytes_of_bits_cons, bv0 by auto. f_equal.
  rewrite (app_assoc (skipn 2 _)), bytes_of_bits_cons, bv1 by auto.
  rewrite short_bits; [reflexivity|]. rewrite bits6. cbn. lia.
Qed.

(** One iteration in terms of the four characters still to be read. *)
Lemma skip_broken E l d j : for_each l (mkD d j true) (decode_step E) = Ok (mkD d j true).
Proof. induction l; cbn [for_each decode_step brk]; auto. Qed.

Definition outcome (o : res dstate) : res (list byte) :=
  let* st := o in Ok (firstn (pos st) (dec st)).

Lemma outcome_end d r j b : j = length d -> outcome (Ok (mkD (d ++ r) j b)) = Ok d.
Proof.
  intros ->. unfold outcome. cbn [bind pos dec].
  now rewrite firstn_app, Nat.sub_diag, firstn_O, app_nil_r, firstn_all2 by lia.
Qed.

Definition text_res (r : res (list Z)) : res (list byte) :=
  let* vs := r in Ok (sextets_text vs).

Lemma at_end1 {A} (pre : list A) x : at_ (pre ++ [x]) (length pre + 1) = UB OobIndex.
Proof. apply at_ge. rewrite app_length. cbn [length]. lia. Qed.
Lemma at_end2 {A} (pre : list A) x y : at_ (pre ++ [x; y]) (length pre + 2) = UB OobIndex.
Proof. apply at_ge. rewrite app_length. cbn [length]. lia. Qed.
Lemma at_end3 {A} (pre : list A) x y z : at_ (pre ++ [x; y; z]) (length pre + 3) = UB OobIndex.
Proof. apply at_ge. rewrite app_length. cbn [length]. lia. Qed.

Lemma first2 d x r j v w (K : list byte -> res dstate) : j = length d ->
    (let* e := set_char (d ++ x :: r) j v in
     let* e := or_char e j w in K e) = K (d ++ z2b (Z.lor (schar (z2b v)) w) :: r).
Proof.
  intros Hj. pose proof (write2 d x r j v w Hj) as W.
  destruct (set_char (d ++ x :: r) j v); cbn [bind] in *; try discriminate.
  rewrite W. reflexivity.
Qed.

(** The characters from the current index on decide one iteration. *)
Definition step_result (d : list byte) (x0 : byte) (rest : list byte) (t : list byte)
  : res dstate :=
  match t with
  | [] => UB OobIndex
  | c0 :: t => let* v0 := opt_res (symbol c0) in
    match t with
    | [] => UB OobIndex
    | c1 :: t => let* v1 := opt_res (symbol c1) in
      match t with
      | [] => UB OobIndex
      | c2 :: t =>
        if is_pad c2 then Ok (mkD (d ++ b0 v0 v1 :: rest) (length d + 1) true)
        else let* v2 := opt_res (symbol c2) in
        match t with
        | [] => UB OobIndex
        | c3 :: t =>
          if is_pad c3
          then Ok (mkD (d ++ b0 v0 v1 :: b1 v1 v2 :: skipn 1 rest) (length d + 2) true)
          else let* v3 := opt_res (symbol c3) in
          Ok (mkD (d ++ b0 v0 v1 :: b1 v1 v2 :: b2 v2 v3 :: skipn 2 rest) (length d + 3) false)
        end
      end
    end
  end.

Lemma decode_step_result pre t d x0 rest : length t <= S (length rest) ->
  decode_step (pre ++ t) (mkD (d ++ x0 :: rest) (length d) false) (length pre)
  = step_result d x0 rest t.
Proof.
  intros L. unfold decode_step, step_result. cbn [brk pos dec].
  destruct t as [|c0 t].
  { rewrite app_nil_r, at_ge by lia. reflexivity. }
  rewrite at_app_here by reflexivity. cbn [bind]. rewrite symb_ok.
  destruct (symbol c0) as [v0|] eqn:S0; cbn [opt_res bind]; [|reflexivity].
  destruct t as [|c1 t].
  { unfold set_char at 1. rewrite put_app by reflexivity. cbn [bind].
    rewrite at_end1. reflexivity. }
  rewrite at_app_1 by reflexivity. cbn [bind]. rewrite symb_ok.
  destruct (symbol c1) as [v1|] eqn:S1; cbn [opt_res bind].
  2:{ unfold set_char. rewrite put_app by reflexivity. reflexivity. }
  rewrite first2 by reflexivity. rewrite or0 by eauto using symbol_range.
  destruct t as [|c2 t].
  { rewrite at_end2. reflexivity. }
  rewrite at_app_2 by reflexivity. cbn [bind].
  destruct (is_pad c2) eqn:P2; [reflexivity|].
  rewrite symb_ok.
  destruct rest as [|x1 rest]; [cbn [length] in L; lia|].
  replace (d ++ b0 v0 v1 :: x1 :: rest) with ((d ++ [b0 v0 v1]) ++ x1 :: rest)
    by (rewrite <- app_assoc; reflexivity).
  destruct (symbol c2) as [v2|] eqn:S2; cbn [opt_res bind].
  2:{ unfold set_char. rewrite put_app by (rewrite app_length; reflexivity). reflexivity. }
  rewrite first2 by (rewrite app_length; reflexivity). rewrite or1 by eauto using symbol_range.
  destruct t as [|c3 t].
  { rewrite at_end3. reflexivity. }
  rewrite at_app_3 by reflexivity. cbn [bind].
  destruct (is_pad c3) eqn:P3.
  { cbn [skipn]. rewrite <- app_assoc. f_equal. f_equal. lia. }
  rewrite symb_ok.
  destruct rest as [|x2 rest]; [cbn [length] in L; lia|].
  replace ((d ++ [b0 v0 v1]) ++ b1 v1 v2 :: x2 :: rest)
    with ((d ++ [b0 v0 v1; b1 v1 v2]) ++ x2 :: rest) by (rewrite <- !app_assoc; reflexivity).
  destruct (symbol c3) as [v3|] eqn:S3; cbn [opt_res bind].
  2:{ unfold set_char. rewrite put_app by (rewrite app_length; cbn [length]; lia). reflexivity. }
  rewrite first2 by (rewrite app_length; cbn [length]; lia).
  rewrite or2 by eauto using symbol_range.
  cbn [skipn]. rewrite <- app_assoc. f_equal. f_equal. lia.
Qed.

Lemma decode_loop t r : reads t r -> forall pre k d rest,
  length pre = 4 * k -> length t <= length rest ->
  outcome (for_each (map (fun k => 4 * k) (seq k ((length t + 3) / 4)))
             (mkD (d ++ rest) (length d) false) (decode_step (pre ++ t)))
  = (let* s := text_res r in Ok (d ++ s)).
Proof.
  assert (Go : forall t r, t <> [] ->
    (forall pre k d x0 rest, length pre = 4 * k -> length t <= S (length rest) ->
       outcome (let* st := step_result d x0 rest t in
          for_each (map (fun k => 4 * k) (seq (S k) (((length t + 3) / 4) - 1))) st
            (decode_step (pre ++ t)))
       = (let* s := text_res r in Ok (d ++ s))) ->
    forall pre k d rest, length pre = 4 * k -> length t <= length rest ->
    outcome (for_each (map (fun k => 4 * k) (seq k ((length t + 3) / 4)))
             (mkD (d ++ rest) (length d) false) (decode_step (pre ++ t)))
    = (let* s := text_res r in Ok (d ++ s))).
  { intros t0 r0 N H pre k d rest Hp Hr.
    destruct t0 as [|c0 t0]; [congruence|].
    destruct rest as [|x0 rest]; [cbn [length] in Hr; lia|].
    replace ((length (c0 :: t0) + 3) / 4) with (S (((length (c0 :: t0) + 3) / 4) - 1))
      by (cbn [length]; lia).
    cbn [seq map for_each]. rewrite <- Hp, decode_step_result by (cbn [length] in *; lia).
    rewrite <- (H pre k d x0 rest) by (cbn [length] in *; lia).
    destruct (step_result d x0 rest (c0 :: t0)); reflexivity. }
  assert (Three : forall c0 c1 c2 c3 v0 v1 v2 v3 t r,
    symbol c0 = Some v0 -> symbol c1 = Some v1 -> symbol c2 = Some v2 -> symbol c3 = Some v3 ->
    (forall pre k d rest,
        length pre = 4 * k -> length t <= length rest ->
        outcome (for_each (map (fun k => 4 * k) (seq k ((length t + 3) / 4)))
             (mkD (d ++ rest) (length d) false) (decode_step (pre ++ t)))
        = (let* s := text_res r in Ok (d ++ s))) ->
    forall pre k d x0 rest, length pre = 4 * k ->
      length (c0 :: c1 :: c2 :: c3 :: t) <= S (length rest) ->
      outcome (let* st := step_result d x0 rest (c0 :: c1 :: c2 :: c3 :: t) in
          for_each (map (fun k => 4 * k) (seq (S k) (((length (c0 :: c1 :: c2 :: c3 :: t) + 3) / 4) - 1))) st
            (decode_step (pre ++ c0 :: c1 :: c2 :: c3 :: t)))
      = (let* s := text_res r in Ok ((d ++ [b0 v0 v1; b1 v1 v2; b2 v2 v3]) ++ s))).
  { intros c0 c1 c2 c3 v0 v1 v2 v3 t0 r0 S0 S1 S2 S3 IH pre k d x0 rest Hp Hr.
    cbn [step_result]. rewrite S0, S1, S2, S3, (symbol_pad _ _ S2), (symbol_pad _ _ S3).
    cbn [opt_res bind].
    replace ((length (c0 :: c1 :: c2 :: c3 :: t0) + 3) / 4 - 1) with ((length t0 + 3) / 4)
        by (cbn [length]; lia).
    replace (pre ++ c0 :: c1 :: c2 :: c3 :: t0) with ((pre ++ [c0; c1; c2; c3]) ++ t0)
        by (rewrite <- app_assoc; reflexivity).
    specialize (IH (pre ++ [c0; c1; c2; c3]) (S k) (d ++ [b0 v0 v1; b1 v1 v2; b2 v2 v3]) (skipn 2 rest)).
    rewrite <- IH by (rewrite ?app_length, ?skipn_length; cbn [length] in *; lia).
    rewrite <- (app_assoc d), (app_length d). cbn [app length]. reflexivity. }
  induction 1 as
    [| c0 c1 c2 c3 v0 v1 v2 v3 t r S0 S1 S2 S3 R IH
     | c0 c1 c2 c3 v0 v1 v2 v3 t e S0 S1 S2 S3 R IH
     | c0 c1 c2 c3 v0 v1 v2 v3 t u S0 S1 S2 S3 R IH
     | c0 c1 c2 v0 v1 t S0 S1 P2
     | c0 c1 c2 c3 v0 v1 v2 t S0 S1 S2 P3
     | c0 t S0 | c0 c1 v0 t S0 S1 | c0 c1 c2 v0 v1 t S0 S1 S2 P2
     | c0 c1 c2 c3 v0 v1 v2 t S0 S1 S2 S3 P3
     | c0 v0 S0 | c0 c1 v0 v1 S0 S1 | c0 c1 c2 v0 v1 v2 S0 S1 S2 ].
  - intros pre k d rest _ _. cbn [length Nat.add Nat.div Nat.divmod fst seq map for_each].
    change (3 / 4) with 0. cbn [seq map for_each].
    rewrite outcome_end by reflexivity. cbn. now rewrite app_nil_r.
  - apply Go; [discriminate|]. intros pre k d x0 rest Hp Hr.
    rewrite (Three _ _ _ _ v0 v1 v2 v3 t (Ok r)) by assumption.
    unfold text_res. cbn [bind].
    rewrite text_full, <- app_assoc by eauto using symbol_range. reflexivity.
  - apply Go; [discriminate|]. intros pre k d x0 rest Hp Hr.
    rewrite (Three _ _ _ _ v0 v1 v2 v3 t (Throw e)) by assumption. reflexivity.
  - apply Go; [discriminate|]. intros pre k d x0 rest Hp Hr.
    rewrite (Three _ _ _ _ v0 v1 v2 v3 t (UB u)) by assumption. reflexivity.
  - apply Go; [discriminate|]. intros pre k d x0 rest Hp Hr.
    cbn [step_result]. rewrite S0, S1, (proj2 (is_pad_iff c2) P2). cbn [opt_res bind].
    rewrite skip_broken. unfold text_res. cbn [bind]. rewrite text_2 by eauto using symbol_range.
    replace (d ++ b0 v0 v1 :: rest) with ((d ++ [b0 v0 v1]) ++ rest)
      by (rewrite <- app_assoc; reflexivity).
    apply outcome_end. rewrite app_length. reflexivity.
  - apply Go; [discriminate|]. intros pre k d x0 rest Hp Hr.
    cbn [step_result]. rewrite S0, S1, S2, (symbol_pad _ _ S2), (proj2 (is_pad_iff c3) P3). cbn [opt_res bind].
    rewrite skip_broken. unfold text_res. cbn [bind]. rewrite text_3 by eauto using symbol_range.
    replace (d ++ b0 v0 v1 :: b1 v1 v2 :: skipn 1 rest) with ((d ++ [b0 v0 v1; b1 v1 v2]) ++ skipn 1 rest)
      by (rewrite <- app_assoc; reflexivity).
    apply outcome_end. rewrite app_length. reflexivity.
  - apply Go; [discriminate|]. intros. cbn [step_result]. rewrite S0. reflexivity.
  - apply Go; [discriminate|]. intros. cbn [step_result]. rewrite S0, S1. reflexivity.
  - apply Go; [discriminate|]. intros. cbn [step_result].
    rewrite S0, S1, S2, (not_pad c2 P2). reflexivity.
  - apply Go; [discriminate|]. intros. cbn [step_result].
    rewrite S0, S1, S2, S3, (symbol_pad _ _ S2), (not_pad c3 P3). reflexivity.
  - apply Go; [discriminate|]. intros. cbn [step_result]. rewrite S0. reflexivity.
  - apply Go; [discriminate|]. intros. cbn [step_result]. rewrite S0, S1. reflexivity.
  - apply Go; [discriminate|]. intros. cbn [step_result].
    rewrite S0, S1, S2, (symbol_pad _ _ S2). reflexivity.
Qed.

Lemma decode_reads t r : t <> [] -> reads t r -> InBase64StandardDecode t = text_res r.
Proof.
  intros N R. unfold InBase64StandardDecode. rewrite (proj2 (Nat.eqb_neq _ _)).
  2:{ destruct t; [congruence|cbn [length]; lia]. }
  unfold every. change (4 - 1) with 3.
  pose proof (decode_loop t r R [] 0 [] (repeat x00 (length t)) eq_refl) as D.
  cbn [app length] in D. rewrite repeat_length in D. specialize (D (le_n _)).
  unfold outcome in D. rewrite D. unfold text_res. destruct r; reflexivity.
Qed.

(** ** Round trip *)
Lemma symbol_letter u v : (0 <= v < 64)%Z -> symbol (letter u v) = Some v.
Proof.
  intros H.
  assert (A : forallb (fun v => match symbol (letter u v) with Some w => Z.eqb v w | None => false end)
              sextets = true) by (destruct u; vm_compute; reflexivity).
  rewrite forallb_forall in A. specialize (A v (sextets_in v H)).
  destruct (symbol (letter u v)); [|discriminate]. apply Z.eqb_eq in A. now subst.
Qed.

Lemma pad_padding u : padding (pad_of u).
Proof. destruct u; [right|left]; reflexivity. Qed.

Lemma enc_reads u pad s : padding pad ->
  exists vs, reads (enc u pad s) (Ok vs) /\ sextets_text vs = s.
Proof.
  intros P.
  assert (W : forall a, (0 <= b2z a < 256)%Z) by exact b2z_range.
  assert (X0 : forall a b, b0 (b2z a / 4) ((b2z a mod 4) * 16 + b2z b / 16) = a).
  { intros a b. apply beqb_eq. revert a b. refine (sweep2 (fun a b => _) _). vm_compute. reflexivity. }
  assert (X0' : forall a, b0 (b2z a / 4) ((b2z a mod 4) * 16) = a).
  { intros a. apply beqb_eq. revert a. refine (sweep (fun a => _) _). vm_compute. reflexivity. }
  assert (X1 : forall a b c, b1 ((b2z a mod 4) * 16 + b2z b / 16) ((b2z b mod 16) * 4 + b2z c / 64) = b).
  { intros a b c. unfold b1. pose proof (W a). pose proof (W b). pose proof (W c).
    rewrite <- (z2b_b2z b) at 3. f_equal. lia. }
  assert (X1' : forall a b, b1 ((b2z a mod 4) * 16 + b2z b / 16) ((b2z b mod 16) * 4) = b).
  { intros a b. unfold b1. pose proof (W a). pose proof (W b).
    rewrite <- (z2b_b2z b) at 3. f_equal. lia. }
  assert (X2 : forall b c, b2 ((b2z b mod 16) * 4 + b2z c / 64) (b2z c mod 64) = c).
  { intros b c. unfold b2. pose proof (W b). pose proof (W c).
    rewrite <- (z2b_b2z c) at 3. f_equal. lia. }
  induction s as [|a|a b|a b c t IH] using ind3.
  - exists []. split; [constructor|reflexivity].
  - exists [(b2z a / 4)%Z; ((b2z a mod 4) * 16)%Z]. pose proof (W a). split.
    + cbn [enc]. unfold e0, e1'. eapply r_pad2; try assumption; apply symbol_letter; lia.
    + rewrite text_2 by lia. now rewrite X0'.
  - exists [(b2z a / 4)%Z; ((b2z a mod 4) * 16 + b2z b / 16)%Z; ((b2z b mod 16) * 4)%Z].
    pose proof (W a). pose proof (W b). split.
    + cbn [enc]. unfold e0, e1, e2'. eapply r_pad1; try assumption; apply symbol_letter; lia.
    + rewrite text_3 by lia. now rewrite X0, X1'.
  - destruct IH as (vs & R & T). pose proof (W a). pose proof (W b). pose proof (W c).
    exists ((b2z a / 4)%Z :: ((b2z a mod 4) * 16 + b2z b / 16)%Z ::
            ((b2z b mod 16) * 4 + b2z c / 64)%Z :: (b2z c mod 64)%Z :: vs). split.
    + cbn [enc]. unfold e0, e1, e2, e3.
      eapply r_full; try assumption; apply symbol_letter; lia.
    + rewrite text_full by lia. now rewrite X0, X1, X2, T.
Qed.

Lemma enc_nonempty u pad s : s <> [] -> enc u pad s <> [].
Proof. destruct s as [|a [|b [|c t]]]; cbn [enc]; congruence. Qed.

Lemma decode_enc u pad s : s <> [] -> padding pad -> InBase64StandardDecode (enc u pad s) = Ok s.
Proof.
  intros N P. destruct (enc_reads u pad s P) as (vs & R & T).
  rewrite (decode_reads _ _ (enc_nonempty u pad s N) R). unfold text_res. cbn [bind]. now rewrite T.
Qed.

(** ** Length, alphabet *)
Lemma enc_length u pad s : length (enc u pad s) = 4 * ((length s + 2) / 3).
Proof.
  induction s as [|a|a b|a b c t IH] using ind3; try reflexivity.
  cbn [enc length]. rewrite IH. lia.
Qed.

Lemma letter_in u v : (0 <= v < 64)%Z -> In (letter u v) (alphabet u).
Proof.
  intros H. unfold letter. apply nth_In. destruct u; cbn; lia.
Qed.

Lemma enc_chars u pad s : exists body, enc u pad s = body ++ repeat pad ((3 - length s mod 3) mod 3) /\
  Forall (fun c => In c (alphabet u)) body.
Proof.
  assert (W : forall a, (0 <= b2z a < 256)%Z) by exact b2z_range.
  induction s as [|a|a b|a b c t IH] using ind3.
  - exists []. split; [reflexivity|constructor].
  - exists [e0 u a; e1' u a]. pose proof (W a). split; [reflexivity|].
    repeat (apply Forall_cons; [apply letter_in; lia|]); apply Forall_nil.
  - exists [e0 u a; e1 u a b; e2' u b]. pose proof (W a). pose proof (W b). split; [reflexivity|].
    repeat (apply Forall_cons; [apply letter_in; lia|]); apply Forall_nil.
  - destruct IH as (body & E & F). pose proof (W a). pose proof (W b). pose proof (W c).
    exists (e0 u a :: e1 u a b :: e2 u b c :: e3 u c :: body). split.
    + cbn [enc app]. rewrite E. do 5 f_equal. f_equal. cbn [length]. lia.
    + do 4 (apply Forall_cons; [apply letter_in; lia|]). assumption.
Qed.

Lemma alphabet_no_break u c : In c (alphabet u) -> (beqb c x0d || beqb c x0a) = false.
Proof.
  intros H. assert (A : forallb (fun c => negb (beqb c x0d || beqb c x0a)) (alphabet u) = true)
    by (destruct u; vm_compute; reflexivity).
  rewrite forallb_forall in A. specialize (A c H). now apply negb_true_iff in A.
Qed.

Lemma no_breaks_id l : Forall (fun c => (beqb c x0d || beqb c x0a) = false) l -> no_breaks l = l.
Proof.
  unfold no_breaks. induction 1 as [|c l E F IH]; cbn [filter]; [reflexivity|].
  rewrite E. cbn [negb]. now rewrite IH.
Qed.

Lemma enc_no_break s : Forall (fun c => (beqb c x0d || beqb c x0a) = false) (enc false "="%byte s).
Proof.
  destruct (enc_chars false "="%byte s) as (body & -> & F). apply Forall_app. split.
  - eapply Forall_impl; [|exact F]. cbv beta. intros c. apply alphabet_no_break.
  - apply Forall_forall. intros c H. apply repeat_spec in H. subst. reflexivity.
Qed.

(** ** Lines *)
Lemma no_breaks_app a b : no_breaks (a ++ b) = no_breaks a ++ no_breaks b.
Proof. apply filter_app. Qed.

Lemma sep_loop_ok n sep : forall f view acc, 0 < n -> view <> [] -> length view <= f ->
  exists ls last, sep_loop f view acc sep n = Ok (acc ++ flat_map (fun l => l ++ sep) ls ++ last) /\
    view = concat ls ++ last /\ Forall (fun l => length l = n) ls /\ 0 < length last <= n.
Proof.
  induction f as [|f IH]; intros view acc Hn Hv Hf.
  - destruct view; [congruence|cbn in Hf; lia].
  - cbn [sep_loop]. destruct (n <? length view) eqn:C.
    + apply Nat.ltb_lt in C.
      destruct (IH (skipn n view) (acc ++ firstn n view ++ sep)) as (ls & last & E & V & F & L).
      * assumption.
      * intros Z. apply (f_equal (@length byte)) in Z. rewrite skipn_length in Z. cbn in Z. lia.
      * rewrite skipn_length. lia.
      * exists (firstn n view :: ls), last. split; [|split; [|split]]; [| |constructor|]; try assumption.
        -- rewrite E. cbn [flat_map]. now rewrite <- !app_assoc.
        -- cbn [concat]. rewrite <- app_assoc, <- V. symmetry. apply firstn_skipn.
        -- rewrite firstn_length. lia.
    + apply Nat.ltb_ge in C. exists [], view. cbn [flat_map concat app].
      split; [reflexivity|]. split; [reflexivity|]. split; [constructor|].
      destruct view; [congruence|cbn [length] in *; lia].
Qed.

Lemma in_lines_breaks n body text : in_lines n body text -> no_breaks text = no_breaks body.
Proof.
  intros (ls & last & -> & -> & _ & _). rewrite !no_breaks_app. f_equal.
  induction ls as [|l ls IH]; cbn [flat_map concat]; [reflexivity|].
  rewrite !no_breaks_app, IH. f_equal. unfold no_breaks at 2. cbn. now rewrite app_nil_r.
Qed.

Lemma in_lines_det n body t1 t2 : 0 < n -> in_lines n body t1 -> in_lines n body t2 -> t1 = t2.
Proof.
  intros Hn (l1 & e1 & -> & -> & F1 & L1) (l2 & e2 & -> & B & F2 & L2).
  revert l2 F2 B. induction F1 as [|x l1 Hx F1 IH]; intros l2 F2 B.
  - destruct F2 as [|y l2 Hy F2].
    + cbn in *. now subst.
    + cbn [concat app] in B. apply (f_equal (@length byte)) in B.
      rewrite !app_length in B. lia.
  - destruct F2 as [|y l2 Hy F2].
    + cbn [concat app] in B. apply (f_equal (@length byte)) in B.
      rewrite !app_length in B. lia.
    + cbn [concat] in B. rewrite <- !app_assoc in B.
      assert (x = y).
      { apply (f_equal (firstn n)) in B. rewrite !firstn_app in B.
        replace (n - length x) with 0 in B by lia. replace (n - length y) with 0 in B by lia.
        rewrite !firstn_O, !app_nil_r, !firstn_all2 in B by lia. assumption. }
      subst y. apply app_inv_head in B. cbn [flat_map]. rewrite <- !app_assoc.
      do 2 f_equal. now apply IH.
Qed.

Lemma encode_lines n s : s <> [] -> 0 < n ->
  exists t, InBase64EncodeWithSeparator s endlineStr n = Ok t /\ in_lines n (std_text s) t.
Proof.
  intros N Hn. unfold InBase64EncodeWithSeparator. cbn [endlineStr length Nat.eqb orb].
  rewrite (proj2 (Nat.eqb_neq n 0)) by lia.
  rewrite InBase64Encode_ok by assumption. cbn [bind].
  destruct (sep_loop_ok n endlineStr (length (enc false (pad_of false) s)) (enc false (pad_of false) s) [] Hn
              (enc_nonempty _ _ s N) (le_n _)) as (ls & last & E & V & F & L).
  exists (flat_map (fun l => l ++ CRLF) ls ++ last). split; [exact E|].
  exists ls, last. unfold std_text. rewrite <- enc_rfc. auto.
Qed.

Lemma decode_sep E : InBase64DecodeWithSeparators E = InBase64StandardDecode (no_breaks E).
Proof.
  unfold InBase64DecodeWithSeparators. f_equal. unfold no_breaks.
  induction E as [|c E IH]; cbn [filter]; [reflexivity|].
  destruct (beqb c x0a) eqn:A, (beqb c x0d) eqn:D; cbn [negb orb filter]; rewrite ?D; cbn [negb];
    rewrite ?IH; reflexivity.
Qed.

Lemma std_no_breaks s : no_breaks (std_text s) = std_text s.
Proof. unfold std_text. rewrite <- enc_rfc. apply no_breaks_id, enc_no_break. Qed.

Lemma decode_sep_std E s : s <> [] -> no_breaks E = std_text s ->
  InBase64DecodeWithSeparators E = Ok s.
Proof.
  intros N H. rewrite decode_sep, H. unfold std_text. rewrite <- enc_rfc.
  apply decode_enc; [assumption|now left].
Qed.

(** ** Radix-64 *)
Lemma CalcHash_app s tl n : (0 < n)%Z -> (n <= Z.of_nat (length s))%Z ->
  CalcHash (Some (s ++ tl)) n = Ok (crc32 (firstn (Z.to_nat n) s)).
Proof.
  intros N L. unfold CalcHash. rewrite (proj2 (Z.eqb_neq _ 0)) by lia.
  assert (R : (0 <= not32 0 < 2 ^ 32)%Z) by (unfold not32; lia).
  set (w := firstn (Z.to_nat n) s).
  assert (Lw : length w = Z.to_nat n) by (unfold w; rewrite firstn_length; lia).
  pose proof (crc_loop w [] 0 (not32 0) R eq_refl) as C. cbn [app Nat.add] in C.
  rewrite Lw in C.
  rewrite (for_each_ext _ _ _ (fun h i => let* b := at_ w i in crc_step h b)).
  - rewrite C. cbn [bind]. f_equal. unfold crc32. change (not32 0) with 0xFFFFFFFF%Z.
    apply not32_lxor, fold_range; lia.
  - intros h i Hi. apply upto_in in Hi. f_equal. unfold at_.
    rewrite nth_error_app1 by lia. unfold w.
    rewrite <- (firstn_skipn (Z.to_nat n) s) at 1. rewrite nth_error_app1; [reflexivity|].
    rewrite firstn_length. lia.
Qed.

(** What CalcHash(s.c_str(), s.length()) really sees: the length modulo 2^32. *)
Definition hashed_part (s : list byte) : list byte :=
  firstn (Z.to_nat (Z.of_nat (length s) mod 2 ^ 32)) s.

Lemma hash_of_string_ok s : hash_of_string s =
  if (Z.of_nat (length s) mod 2 ^ 32 =? 0)%Z then Throw InvalidArgument else Ok (crc32 (hashed_part s)).
Proof.
  unfold hash_of_string. destruct (Z.eqb_spec (Z.of_nat (length s) mod 2 ^ 32) 0) as [E|E].
  - rewrite E. reflexivity.
  - apply CalcHash_app; lia.
Qed.

Lemma hashed_small s : (Z.of_nat (length s) < 2 ^ 32)%Z -> hashed_part s = s.
Proof.
  intros H. unfold hashed_part. rewrite Z.mod_small by lia. rewrite Nat2Z.id. apply firstn_all.
Qed.

Lemma le4_ne h : le_bytes 4 h <> [].
Proof. cbn [le_bytes]. discriminate. Qed.

Definition crc_text (s : list byte) : list byte := std_text (le_bytes 4 (crc32 s)).

Lemma crc_text_length s : length (crc_text s) = 8.
Proof.
  unfold crc_text, std_text. rewrite <- enc_rfc, enc_length, le_bytes_length. reflexivity.
Qed.

Lemma radix_encode s t : s <> [] -> Base64Encode s mime = Ok t ->
  Base64Encode s radix64 =
    if (Z.of_nat (length t) mod 2 ^ 32 =? 0)%Z then Throw InvalidArgument
    else if (crc32 (hashed_part t) =? 0)%Z then Throw RuntimeError
    else Ok (t ++ crc_text (hashed_part t)).
Proof.
  intros N M. cbn [Base64Encode] in *. unfold InRadix64Encode.
  rewrite (proj2 (Nat.eqb_neq _ _)). 2:{ destruct s; [congruence|cbn [length]; lia]. }
  rewrite M. cbn [bind]. rewrite hash_of_string_ok.
  destruct (_ =? 0)%Z eqn:E; [reflexivity|]. cbn [bind].
  destruct (crc32 (hashed_part t) =? 0)%Z; [reflexivity|].
  rewrite InBase64Encode_ok, enc_rfc by apply le4_ne. reflexivity.
Qed.

Lemma radix_decode body h : body <> [] -> length h = 8 ->
  Base64Decode (body ++ h) radix64 =
    if (Z.of_nat (length body) mod 2 ^ 32 =? 0)%Z then Throw InvalidArgument
    else if streqb (crc_text (hashed_part body)) h then Base64Decode body mime
    else Throw RuntimeError.
Proof.
  intros N H. cbn [Base64Decode]. unfold InRadix64Decode.
  assert (1 <= length body) by (destruct body; [congruence|cbn [length]; lia]).
  rewrite app_length, H, (proj2 (Nat.eqb_neq _ _)), (proj2 (Nat.leb_gt _ _))
    by (unfold radixHashLen; lia).
  replace (length body + 8 - radixHashLen) with (length body) by (unfold radixHashLen; lia).
  rewrite firstn_app, skipn_app, Nat.sub_diag, firstn_O, app_nil_r, firstn_all, skipn_all.
  cbn [app skipn]. rewrite hash_of_string_ok.
  destruct (_ =? 0)%Z; [reflexivity|]. cbn [bind].
  rewrite InBase64Encode_ok, enc_rfc by apply le4_ne. cbn [bind].
  change (rfc_encode false (pad_of false) (le_bytes 4 (crc32 (hashed_part body))))
    with (crc_text (hashed_part body)).
  destruct (streqb _ h); reflexivity.
Qed.

(** ** Bursts across the end of the payload *)
Lemma crc_bits_small n : forall x d, n <= 32 -> (0 <= x < 2 ^ 32)%Z -> crc_bits n x = d ->
  (d < 2 ^ (32 - Z.of_nat n))%Z -> x = (d * 2 ^ Z.of_nat n)%Z.
Proof.
  induction n as [|n IH]; intros x d Hn Hx E Hd.
  - cbn [crc_bits] in E. subst. change (2 ^ Z.of_nat 0)%Z with 1%Z. lia.
  - cbn [crc_bits] in E.
    pose proof (crc_bit_range x Hx) as R.
    assert (P1 : (2 ^ (32 - Z.of_nat n) = 2 * 2 ^ (32 - Z.of_nat (S n)))%Z).
    { rewrite <- Z.pow_succ_r by lia. f_equal. lia. }
    assert (P2 : (2 ^ Z.of_nat (S n) = 2 * 2 ^ Z.of_nat n)%Z) by (rewrite <- Z.pow_succ_r by lia; f_equal; lia).
    assert (P3 : (2 ^ Z.of_nat n * 2 ^ (32 - Z.of_nat (S n)) = 2 ^ 31)%Z)
      by (rewrite <- Z.pow_add_r by lia; f_equal; lia).
    assert (0 < 2 ^ Z.of_nat n)%Z by (apply Z.pow_pos_nonneg; lia).
    assert (0 < 2 ^ (32 - Z.of_nat (S n)))%Z by (apply Z.pow_pos_nonneg; lia).
    assert (D : crc_bit x = (d * 2 ^ Z.of_nat n)%Z) by (apply IH; [lia|exact R|exact E|lia]).
    assert (L : (crc_bit x < 2 ^ 31)%Z) by (rewrite D; nia).
    unfold crc_bit in *. destruct (Z.odd x) eqn:O.
    + exfalso.
      assert (T : Z.testbit (Z.lxor (Z.shiftr x 1) 0xEDB88320) 31 = true).
      { rewrite Z.lxor_spec. change (Z.testbit 0xEDB88320 31) with true.
        rewrite Z.shiftr_spec by lia. change (31 + 1)%Z with 32%Z.
        replace (Z.testbit x 32) with false; [reflexivity|].
        replace x with (x mod 2 ^ 32)%Z by (apply Z.mod_small; lia).
        symmetry. apply Z.mod_pow2_bits_high. lia. }
      replace (Z.lxor (Z.shiftr x 1) 0xEDB88320) with (Z.lxor (Z.shiftr x 1) 0xEDB88320 mod 2 ^ 31)%Z in T
        by (apply Z.mod_small; lia).
      rewrite Z.mod_pow2_bits_high in T by lia. discriminate.
    + rewrite Z.shiftr_div_pow2 in D by lia. change (2 ^ 1)%Z with 2%Z in D.
      rewrite <- Z.negb_even in O. apply negb_false_iff, Z.even_spec in O as (y & ->).
      rewrite Z.mul_comm, Z.div_mul in D by lia. rewrite P2. lia.
Qed.

Lemma same_high a b k : (0 <= k)%Z -> (0 <= a)%Z -> (0 <= b)%Z ->
  (a / 2 ^ k = b / 2 ^ k)%Z -> (0 <= Z.lxor a b < 2 ^ k)%Z.
Proof.
  intros Hk Ha Hb E. split; [apply Z.lxor_nonneg; lia|].
  assert (Z.shiftr (Z.lxor a b) k = 0)%Z as S.
  { rewrite Z.shiftr_lxor, !Z.shiftr_div_pow2, E by lia. apply Z.lxor_nilpotent. }
  rewrite Z.shiftr_div_pow2 in S by lia. apply Z.div_small_iff in S; [|pose proof (Z.pow_pos_nonneg 2 k); lia].
  assert (0 < 2 ^ k)%Z by (apply Z.pow_pos_nonneg; lia). lia.
Qed.

(** A crc whose last 8k bits are those of another one: the last k bytes of text are equal. *)
Lemma crc_tail p u1 u2 : length u1 = length u2 -> length u1 <= 4 ->
  (crc32 (p ++ u1) / 2 ^ (32 - 8 * Z.of_nat (length u1)) =
   crc32 (p ++ u2) / 2 ^ (32 - 8 * Z.of_nat (length u1)))%Z -> u1 = u2.
Proof.
  intros L L4 E. pose proof (crc32_range (p ++ u1)) as R1. pose proof (crc32_range (p ++ u2)) as R2.
  apply same_high in E; [|lia|lia|lia].
  unfold crc32 in E. rewrite !fold_left_app in E.
  assert (R : (0 <= fold_left crc_byte p 0xFFFFFFFF < 2 ^ 32)%Z) by (apply fold_range; lia).
  set (c := fold_left crc_byte p 0xFFFFFFFF%Z) in *. clearbody c.
  rewrite !fold_crc in E. rewrite <- L in E.
  set (x1 := Z.lxor c (le_value u1)) in *. set (x2 := Z.lxor c (le_value u2)) in *.
  rewrite (Z.lxor_comm (crc_bits _ x2)), Z.lxor_assoc, <- (Z.lxor_assoc _ _ (crc_bits _ x2)), Z.lxor_nilpotent,
    Z.lxor_0_l, <- crc_bits_lxor in E.
  assert (X : Z.lxor x1 x2 = Z.lxor (le_value u1) (le_value u2)).
  { unfold x1, x2. rewrite (Z.lxor_comm c), Z.lxor_assoc, <- (Z.lxor_assoc c c), Z.lxor_nilpotent, Z.lxor_0_l. reflexivity. }
  rewrite X in E.
  pose proof (le_value_range u1) as B1. pose proof (le_value_range u2) as B2. rewrite <- L in B2.
  assert (P : (256 ^ Z.of_nat (length u1) = 2 ^ (8 * Z.of_nat (length u1)))%Z).
  { change 256%Z with (2 ^ 8)%Z. now rewrite <- Z.pow_mul_r by lia. }
  rewrite P in B1, B2.
  assert (B : (0 <= Z.lxor (le_value u1) (le_value u2) < 2 ^ (8 * Z.of_nat (length u1)))%Z)
    by (apply lxor_range; lia).
  assert (2 ^ (8 * Z.of_nat (length u1)) <= 2 ^ 32)%Z by (apply Z.pow_le_mono_r; lia).
  assert (K : Z.lxor (le_value u1) (le_value u2) = 0%Z).
  { pose proof (crc_bits_small (8 * length u1) (Z.lxor (le_value u1) (le_value u2)) _ ltac:(lia) ltac:(lia) eq_refl) as S.
    replace (Z.of_nat (8 * length u1)) with (8 * Z.of_nat (length u1))%Z in S by lia.
    specialize (S ltac:(lia)).
    generalize dependent (crc_bits (8 * length u1) (Z.lxor (le_value u1) (le_value u2))). intros D E S.
    clear - B E S. destruct (Z.eq_dec D 0) as [->|]; [exact S|].
    assert (1 * 2 ^ (8 * Z.of_nat (length u1)) <= D * 2 ^ (8 * Z.of_nat (length u1)))%Z
      by (apply Z.mul_le_mono_nonneg_r; lia). lia. }
  apply Z.lxor_eq in K. now apply le_value_inj.
Qed.

Lemma letter_inj u v w : (0 <= v < 64)%Z -> (0 <= w < 64)%Z -> letter u v = letter u w -> v = w.
Proof.
  intros Hv Hw E. pose proof (symbol_letter u v Hv) as A. rewrite E, symbol_letter in A by assumption. congruence.
Qed.

Lemma by_digits x y k : (k <> 0)%Z -> (x / k = y / k)%Z -> (x mod k = y mod k)%Z -> x = y.
Proof. intros K D M. rewrite (Z.div_mod x k K), (Z.div_mod y k K), D, M. reflexivity. Qed.

(** Four bytes whose Base64 texts agree from character n on. *)
Lemma text_tail a b v1 v2 q : (0 <= a < 2 ^ 32)%Z -> (0 <= b < 2 ^ 32)%Z ->
  std_text (le_bytes 4 a) = v1 ++ q -> std_text (le_bytes 4 b) = v2 ++ q ->
  length v1 = length v2 -> 1 <= length v1 <= 3 ->
  (a / 2 ^ (8 * Z.of_nat (length v1)) = b / 2 ^ (8 * Z.of_nat (length v1)))%Z.
Proof.
  intros Ha Hb Ea Eb L N. unfold std_text in *. rewrite <- enc_rfc in Ea, Eb.
  cbn [le_bytes enc] in Ea, Eb.
  destruct v1 as [|x1 v1]; [cbn in N; lia|]. destruct v2 as [|y1 v2]; [cbn in L; lia|].
  assert (I0 : forall x y, e0 false x = e0 false y -> (b2z x / 4 = b2z y / 4)%Z).
  { intros x y. pose proof (b2z_range x). pose proof (b2z_range y). apply letter_inj; lia. }
  assert (I1 : forall x x' y y', e1 false x x' = e1 false y y' -> (b2z x' / 16 = b2z y' / 16)%Z).
  { intros x x' y y' Q. pose proof (b2z_range x). pose proof (b2z_range y). pose proof (b2z_range x'). pose proof (b2z_range y').
    apply letter_inj in Q; lia. }
  assert (I2 : forall x x' y y', e2 false x x' = e2 false y y' -> (b2z x mod 16 = b2z y mod 16 /\ b2z x' / 64 = b2z y' / 64)%Z).
  { intros x x' y y' Q. pose proof (b2z_range x). pose proof (b2z_range y). pose proof (b2z_range x'). pose proof (b2z_range y').
    apply letter_inj in Q; lia. }
  assert (I3 : forall x y, e3 false x = e3 false y -> (b2z x mod 64 = b2z y mod 64)%Z).
  { intros x y. pose proof (b2z_range x). pose proof (b2z_range y). apply letter_inj; lia. }
  assert (I1' : forall x y, e1' false x = e1' false y -> (b2z x mod 4 = b2z y mod 4)%Z).
  { intros x y Q. pose proof (b2z_range x). pose proof (b2z_range y). apply letter_inj in Q; lia. }
  destruct v1 as [|x2 v1]; [|destruct v1 as [|x3 v1]; [|destruct v1; [|cbn in N; lia]]];
  (destruct v2 as [|y2 v2]; [|destruct v2 as [|y3 v2]; [|destruct v2; [|cbn in L; lia]]]); try (cbn in L; lia);
  cbn [app] in Ea, Eb.
  all: assert (H3 : e3 false (z2b (a / 256 / 256)) = e3 false (z2b (b / 256 / 256))) by congruence.
  all: assert (H4 : e0 false (z2b (a / 256 / 256 / 256)) = e0 false (z2b (b / 256 / 256 / 256))) by congruence.
  all: assert (H5 : e1' false (z2b (a / 256 / 256 / 256)) = e1' false (z2b (b / 256 / 256 / 256))) by congruence.
  all: apply I3 in H3; apply I0 in H4; apply I1' in H5; rewrite !b2z_z2b in H3, H4, H5.
  all: cbn [length].
  - assert (H1 : e1 false (z2b a) (z2b (a / 256)) = e1 false (z2b b) (z2b (b / 256))) by congruence.
    assert (H2 : e2 false (z2b (a / 256)) (z2b (a / 256 / 256)) = e2 false (z2b (b / 256)) (z2b (b / 256 / 256))) by congruence.
    apply I1 in H1; apply I2 in H2 as (H2 & H2'); rewrite !b2z_z2b in H1; rewrite !b2z_z2b in H2; rewrite !b2z_z2b in H2'.
    clear - Ha Hb H1 H2 H2' H3 H4 H5. change (2 ^ (8 * Z.of_nat 1))%Z with 256%Z.
    assert (B3 : ((a / 256 / 256 / 256) mod 256 = (b / 256 / 256 / 256) mod 256)%Z)
      by (apply (by_digits _ _ 4); [lia|exact H4|exact H5]).
    assert (B2 : ((a / 256 / 256) mod 256 = (b / 256 / 256) mod 256)%Z)
      by (apply (by_digits _ _ 64); [lia|exact H2'|exact H3]).
    assert (B1 : ((a / 256) mod 256 = (b / 256) mod 256)%Z)
      by (apply (by_digits _ _ 16); [lia|exact H1|exact H2]).
    clear - Ha Hb B1 B2 B3. change (2 ^ 32)%Z with 4294967296%Z in *. lia.
  - assert (H2 : e2 false (z2b (a / 256)) (z2b (a / 256 / 256)) = e2 false (z2b (b / 256)) (z2b (b / 256 / 256))) by congruence.
    apply I2 in H2 as (_ & H2'); rewrite !b2z_z2b in H2'.
    clear - Ha Hb H2' H3 H4 H5. change (2 ^ (8 * Z.of_nat 2))%Z with 65536%Z.
    assert (B3 : ((a / 256 / 256 / 256) mod 256 = (b / 256 / 256 / 256) mod 256)%Z)
      by (apply (by_digits _ _ 4); [lia|exact H4|exact H5]).
    assert (B2 : ((a / 256 / 256) mod 256 = (b / 256 / 256) mod 256)%Z)
      by (apply (by_digits _ _ 64); [lia|exact H2'|exact H3]).
    clear - Ha Hb B2 B3. change (2 ^ 32)%Z with 4294967296%Z in *. lia.
  - clear - Ha Hb H4 H5. change (2 ^ (8 * Z.of_nat 3))%Z with 16777216%Z.
    assert (B3 : ((a / 256 / 256 / 256) mod 256 = (b / 256 / 256 / 256) mod 256)%Z)
      by (apply (by_digits _ _ 4); [lia|exact H4|exact H5]).
    clear - Ha Hb B3. change (2 ^ 32)%Z with 4294967296%Z in *. lia.
Qed.

Lemma crc_text_inj a b : crc_text a = crc_text b -> crc32 a = crc32 b.
Proof.
  intros S. unfold crc_text, std_text in S. rewrite <- !enc_rfc in S.
  pose proof (decode_enc false "="%byte (le_bytes 4 (crc32 a)) (le4_ne _) (or_introl eq_refl)) as D1.
  pose proof (decode_enc false "="%byte (le_bytes 4 (crc32 b)) (le4_ne _) (or_introl eq_refl)) as D2.
  rewrite S, D2 in D1. clear D2 S.
  pose proof (crc32_range a). pose proof (crc32_range b).
  assert (E : le_bytes 4 (crc32 b) = le_bytes 4 (crc32 a)) by congruence.
  rewrite <- (le_value_bytes 4 (crc32 a)) by (change (256 ^ Z.of_nat 4)%Z with (2 ^ 32)%Z; lia).
  rewrite <- E. apply le_value_bytes. change (256 ^ Z.of_nat 4)%Z with (2 ^ 32)%Z. lia.
Qed.

(** Where a burst falls in a text cut into two parts. *)
Lemma burst_split n x y t : burst n (x ++ y) t ->
  exists x' y', t = x' ++ y' /\ length x' = length x /\ length y' = length y /\
   ((y' = y /\ burst n x x') \/ (x' = x /\ y' <> y /\ burst n y y') \/
    (exists p u1 u2 v1 v2 q, x = p ++ u1 /\ x' = p ++ u2 /\ y = v1 ++ q /\ y' = v2 ++ q /\ length u1 = length u2 /\ length v1 = length v2 /\ 1 <= length u1 /\ 1 <= length v1 /\ length u1 + length v1 <= n /\ (u1 <> u2 \/ v1 <> v2))).
Proof.
  intros (p & w1 & w2 & q & E & -> & L & L4 & N).
  destruct (le_dec (length p + length w1) (length x)) as [C|C]; [|destruct (le_dec (length x) (length p)) as [C'|C']].
  - (* inside x *)
    exists (p ++ w2 ++ firstn (length x - length p - length w1) q), y.
    assert (Q : q = firstn (length x - length p - length w1) q ++ y /\ x = p ++ w1 ++ firstn (length x - length p - length w1) q).
    { assert (X : firstn (length x) (x ++ y) = x) by now rewrite firstn_app, Nat.sub_diag, firstn_O, app_nil_r, firstn_all.
      assert (Y : skipn (length x) (x ++ y) = y) by now rewrite skipn_app, Nat.sub_diag, skipn_all.
      rewrite E in X, Y. rewrite app_assoc in X, Y. rewrite firstn_app in X. rewrite skipn_app in Y.
      rewrite firstn_all2 in X by (rewrite app_length; lia).
      rewrite skipn_all2 in Y by (rewrite app_length; lia). cbn [app] in Y.
      rewrite app_length in X, Y. replace (length x - (length p + length w1)) with (length x - length p - length w1) in * by lia.
      split.
      - rewrite <- Y. now rewrite firstn_skipn.
      - rewrite <- X at 1. now rewrite <- app_assoc. }
    destruct Q as (Q1 & Q2). split; [|split; [|split; [reflexivity|]]].
    + rewrite Q1 at 1. now rewrite !app_assoc.
    + rewrite Q2 at 2. rewrite !app_length. lia.
    + left. split; [reflexivity|]. exists p, w1, w2, (firstn (length x - length p - length w1) q). auto.
  - (* inside y *)
    exists x, (skipn (length x) p ++ w2 ++ q).
    assert (X : firstn (length x) (x ++ y) = x) by now rewrite firstn_app, Nat.sub_diag, firstn_O, app_nil_r, firstn_all.
    assert (Y : skipn (length x) (x ++ y) = y) by now rewrite skipn_app, Nat.sub_diag, skipn_all.
    rewrite E in X, Y. rewrite firstn_app in X. rewrite skipn_app in Y.
    replace (length x - length p) with 0 in X, Y by lia. rewrite firstn_O, app_nil_r in X. rewrite skipn_O in Y.
    split; [|split; [reflexivity|split]].
    + rewrite <- X at 1. now rewrite (app_assoc (firstn (length x) p)), firstn_skipn.
    + rewrite <- Y. rewrite !app_length. lia.
    + right; left. split; [reflexivity|]. rewrite <- Y. split.
      * intros Q. apply app_inv_head in Q. apply app_inv_tail in Q. congruence.
      * exists (skipn (length x) p), w1, w2, q. auto.
  - (* across *)
    assert (X : firstn (length x) (x ++ y) = x) by now rewrite firstn_app, Nat.sub_diag, firstn_O, app_nil_r, firstn_all.
    assert (Y : skipn (length x) (x ++ y) = y) by now rewrite skipn_app, Nat.sub_diag, skipn_all.
    rewrite E in X, Y.
    rewrite firstn_app, (firstn_all2 p), firstn_app in X by lia.
    rewrite skipn_app, (skipn_all2 p), skipn_app in Y by lia.
    replace (length x - length p - length w1) with 0 in X, Y by lia.
    rewrite firstn_O, app_nil_r in X. rewrite skipn_O in Y. cbn [app] in Y.
    remember (length x - length p) as k eqn:K.
    exists (p ++ firstn k w2), (skipn k w2 ++ q).
    split; [|split; [|split]].
    + rewrite <- app_assoc, (app_assoc (firstn k w2)), firstn_skipn. reflexivity.
    + rewrite app_length, firstn_length. lia.
    + rewrite <- Y, !app_length, !skipn_length. lia.
    + right; right. exists p, (firstn k w1), (firstn k w2), (skipn k w1), (skipn k w2), q.
      rewrite !firstn_length, !skipn_length. repeat split; auto; try lia.
      destruct (list_eq_dec Byte.byte_eq_dec (firstn k w1) (firstn k w2)) as [Q|Q]; [right|now left].
      intros Q'. apply N. rewrite <- (firstn_skipn k w1), <- (firstn_skipn k w2). congruence.
Qed.

(** A burst of at most four characters anywhere in a text with a correct checksum. *)
Lemma burst_rejected body h t : (Z.of_nat (length body) < 2 ^ 32)%Z -> h = crc_text body ->
  burst 4 (body ++ h) t -> exists body' h', t = body' ++ h' /\ length body' = length body /\
    length h' = 8 /\ crc_text body' <> h'.
Proof.
  intros L Hh B. apply burst_split in B as (x' & y' & -> & Lx & Ly & C).
  assert (L8 : length h = 8) by (subst h; apply crc_text_length).
  exists x', y'. split; [reflexivity|]. split; [exact Lx|]. split; [congruence|].
  destruct C as [(-> & B)|[(-> & N & _)|(p & u1 & u2 & v1 & v2 & q & Ex & Ex' & Ey & Ey' & Lu & Lv & U & V & S & D)]].
  - intros E. apply (burst_detected _ _ B). apply crc_text_inj. congruence.
  - intros E. congruence.
  - intros E. rewrite Hh in Ey. rewrite Ey' in E. unfold crc_text in Ey, E.
    pose proof (text_tail _ _ v1 v2 q (crc32_range _) (crc32_range _) Ey E Lv ltac:(lia)) as T.
    assert (u1 = u2).
    { apply (crc_tail p); [exact Lu|lia|]. rewrite <- Ex, <- Ex'.
      replace (32 - 8 * Z.of_nat (length u1))%Z
        with (8 * Z.of_nat (length v1) + (32 - 8 * Z.of_nat (length u1) - 8 * Z.of_nat (length v1)))%Z by lia.
      rewrite Z.pow_add_r by lia.
      rewrite <- !Z.div_div by (try apply Z.pow_pos_nonneg; try apply Z.pow_nonzero; lia).
      now rewrite T. }
    subst u2. destruct D as [D|D]; [congruence|]. apply D.
    assert (X : x' = body) by congruence. rewrite X in E. apply (app_inv_tail q). transitivity (std_text (le_bytes 4 (crc32 body))); [now symmetry|exact E].
Qed.

Lemma burst_prefix n x y t : burst n (x ++ y) t ->
  exists x' y', t = x' ++ y' /\ length x' = length x /\ length y' = length y /\
    (x' <> x \/ (x' = x /\ burst n y y')).
Proof.
  intros B. apply burst_split in B as (x' & y' & E & Lx & Ly & C). exists x', y'.
  repeat split; auto.
  destruct C as [(-> & (p & w1 & w2 & q & -> & -> & L & _ & N))|[(-> & _ & B)|
    (p & u1 & u2 & v1 & v2 & q & -> & -> & -> & -> & Lu & Lv & U & V & S & D)]].
  - left. intros Q. apply N. apply app_inv_head in Q. apply app_inv_tail in Q. congruence.
  - right. auto.
  - destruct (list_eq_dec Byte.byte_eq_dec u1 u2) as [<-|Nu].
    + right. split; [reflexivity|]. exists [], v1, v2, q. repeat split; auto; [lia|].
      destruct D; congruence.
    + left. intros Q. apply app_inv_head in Q. congruence.
Qed.

Lemma burst_suffix n x y t : burst n (x ++ y) t ->
  exists x' y', t = x' ++ y' /\ length x' = length x /\ length y' = length y /\
    (y' <> y \/ (y' = y /\ burst n x x')).
Proof.
  intros B. apply burst_split in B as (x' & y' & E & Lx & Ly & C). exists x', y'.
  repeat split; auto.
  destruct C as [(-> & B)|[(-> & N & _)|
    (p & u1 & u2 & v1 & v2 & q & -> & -> & -> & -> & Lu & Lv & U & V & S & D)]].
  - right. auto.
  - left. exact N.
  - destruct (list_eq_dec Byte.byte_eq_dec v1 v2) as [<-|Nv].
    + right. split; [reflexivity|]. exists p, u1, u2, []. rewrite !app_nil_r. repeat split; auto; [lia|].
      destruct D; congruence.
    + left. intros Q. apply app_inv_tail in Q. congruence.
Qed.
