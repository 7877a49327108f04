(** C120: the exact run-length text, its length, how far it is from the shortest one, and the length of a hash.
    Specifications: S_RleExact ([runs_of], [rle_text], [wasted], [hash_length]), S_Rle ([expand], [string_bits]). *)
From Verif Require Import Prelude P_Prelude M_ByteHandler M_Vector2D M_BitMatrix S_Matrix P_BitMatrix P_Cells P_Serial P_Vector2D
  M_LayoutCore M_Rle S_Rle P_Rle M_Crc32 S_Crc32 P_Crc32 M_Base64 S_Base64 P_Base64 M_Hash S_Hash P_Hash S_RleExact P_RleExact
  Props_BitMatrix Props_Base64 Props_Rle Props_Hash.
Local Open Scope nat_scope.

(** ** C120 *)
Theorem C120_exact_text : forall al m A, shows m A -> nonempty A -> memory_ok al (arows A) (acols A) ->
  Rle_Encode al m = Ok (rle_text (abits A)).
Proof.
  intros al m A S (Nr & Nc) M. unfold Rle_Encode. rewrite (LM_not_ok al m A S M).
  rewrite (proj2 (Nat.eqb_neq _ _)), (proj2 (Nat.eqb_neq _ _)) by lia. cbn [orb].
  pose proof S as (H & Hr & Hc & G). rewrite G by assumption. cbn [bind].
  rewrite Hr, Hc.
  rewrite (for2_bits _ rle_step).
  2:{ intros st i j Hi Hj. rewrite G by assumption. reflexivity. }
  assert (B : exists rest, abits A = acell A 0 0 :: rest).
  { pose proof (abits_nth A 0 0 Nr Nc) as N0. destruct (abits A) as [|b rest]; [discriminate|].
    cbn in N0. exists rest. congruence. }
  destruct B as (rest & B). exact (encode_bits_exact (abits A) _ _ B).
Qed.

Theorem C120_exact_bytes : forall s, s <> [] -> Rle_ByteEncode s = Ok (rle_text (string_bits s)).
Proof.
  intros s N. rewrite ByteEncode_bits. destruct s as [|b s]; [congruence|].
  change (at_ (b :: s) 0) with (Ok b). cbn [bind].
  exact (encode_bits_exact (string_bits (b :: s)) (Z.testbit (b2z b) 7) (skipn 1 (string_bits (b :: s))) eq_refl).
Qed.

(** The specification is faithful: the runs are the bits, they alternate, and none is empty. *)
Theorem C120_maximal_runs : forall l,
  flat_map (fun r => repeat (fst r) (snd r)) (runs_of l) = l /\
  Forall (fun r => 0 < snd r) (runs_of l) /\
  forall k a b, nth_error (runs_of l) k = Some a -> nth_error (runs_of l) (k + 1) = Some b -> fst b = negb (fst a).
Proof.
  intros l. split; [apply runs_flat|]. pose proof (runs_alternate l) as A. split.
  - induction A; constructor; auto.
  - induction A as [|v n Hn|v n n' rs Hn A IH]; intros k a b E1 E2.
    + destruct k; discriminate.
    + destruct k as [|[|k]]; discriminate.
    + destruct k as [|k]; [cbn in E1, E2; injection E1 as <-; injection E2 as <-; reflexivity|]. exact (IH k a b E1 E2).
Qed.

(** Its length, exactly: a run of n cells takes n / 127 + 1 bytes. *)
Theorem C120_length : forall al m A s, shows m A -> nonempty A -> memory_ok al (arows A) (acols A) ->
  Rle_Encode al m = Ok s -> length s = list_sum (map (fun r => snd r / 127 + 1) (runs_of (abits A))).
Proof.
  intros al m A s S N M E. rewrite (C120_exact_text al m A S N M) in E. injection E as <-. rewrite rle_length.
  induction (runs_of (abits A)) as [|r rs IH]; [reflexivity|]. cbn [map list_sum fold_right] in *. unfold list_sum in IH. rewrite <- IH. reflexivity.
Qed.

(** No run-length text of the same cells is shorter by more than the number of runs whose length is a
    multiple of 127, and one is shorter by exactly that. *)
Theorem C120_distance_from_shortest : forall al m A s, shows m A -> nonempty A -> memory_ok al (arows A) (acols A) ->
  Rle_Encode al m = Ok s ->
  (forall t, expand t = abits A -> length s <= length t + wasted (abits A)) /\
  exists t, expand t = abits A /\ length s = length t + wasted (abits A).
Proof.
  intros al m A s S N M E. rewrite (C120_exact_text al m A S N M) in E. injection E as <-. rewrite length_cost. split.
  - intros t T. rewrite <- T at 1. pose proof (cost_least t). lia.
  - exists (flat_map tight (runs_of (abits A))). destruct (tight_ok (runs_of (abits A))) as (X & L).
    rewrite X, L. split; [apply runs_flat|reflexivity].
Qed.

(** So the text is not always the shortest one. *)
Theorem C120_shortest_refuted :
  ~ (forall al m A s t, shows m A -> memory_ok al (arows A) (acols A) -> nonempty A ->
       Rle_Encode al m = Ok s -> expand t = abits A -> length s <= length t).
Proof.
  intros H. pose proof (C04_constructor_zero infinite_memory 1 127 eq_refl) as S0.
  specialize (H infinite_memory _ _ _ [x7f] S0 eq_refl ltac:(split; cbn; lia)
    (C120_exact_text infinite_memory _ _ S0 ltac:(split; cbn; lia) eq_refl) eq_refl).
  vm_compute in H. lia.
Qed.

Lemma groups_add n k : 0 < k -> groups k (k + n) = S (groups k n).
Proof.
  intros H. unfold groups. replace (k + n + k - 1) with ((n + k - 1) + 1 * k) by lia. rewrite Nat.div_add by lia. lia.
Qed.

Lemma lines_length n body t : 0 < n -> in_lines n body t -> length t = length body + 2 * (groups n (length body) - 1).
Proof.
  intros Hn (ls & last & -> & -> & F & L). rewrite !app_length.
  assert (G : groups n (length (concat ls) + length last) = S (length ls) /\
    length (flat_map (fun l => l ++ CRLF) ls) = length (concat ls) + 2 * length ls).
  { induction F as [|l ls Hl F (G & E)]; cbn [concat flat_map length].
    - split; [|lia]. unfold groups. cbn [Nat.add].
      symmetry. apply (Nat.div_unique (length last + n - 1) n 1 (length last - 1)); lia.
    - rewrite !app_length, E, Hl. split; [rewrite <- Nat.add_assoc, groups_add by lia; lia|]. change (length CRLF) with 2. lia. }
  destruct G as (-> & ->). lia.
Qed.

Lemma rfc_groups s : length (rfc_encode false "="%byte s) = 4 * groups 3 (length s).
Proof.
  rewrite <- enc_rfc, enc_length. unfold groups. replace (length s + 3 - 1) with (length s + 2) by lia. reflexivity.
Qed.

(** The length of a hash is determined by the length of the run-length text. *)
Theorem C120_hash_length : forall al m A h, shows m A -> nonempty A -> memory_ok al (arows A) (acols A) ->
  EncodeHash al m = Ok h -> (Z.of_nat (length h) < 2 ^ 32)%Z ->
  length h = hash_length (list_sum (map (fun r => snd r / 127 + 1) (runs_of (abits A)))).
Proof.
  intros al m A h S N M E L.
  destruct (EncodeHash_ok al m A S N M) as (runs & Nr & R & X & Q).
  pose proof (C120_length al m A runs S N M R) as LR. rewrite <- LR.
  rewrite Q in E. destruct (Base64Encode _ radix64) as [b| |] eqn:B; try discriminate.
  cbn [bind] in E. assert (Eh : h = strBegin ++ b ++ strEnd) by congruence.
  destruct (encode_lines 76 _ (hash_payload_ne runs (u32 (arows A)) (u32 (acols A))) ltac:(lia)) as (t & Mm & Ln).
  change (Base64Encode (hash_payload runs (u32 (arows A)) (u32 (acols A))) mime = Ok t) in Mm.
  rewrite (radix_encode _ t (hash_payload_ne _ _ _) Mm) in B.
  destruct (_ =? 0)%Z; [discriminate|]. destruct (_ =? 0)%Z in B; [discriminate|].
  assert (Eb : b = t ++ crc_text (hashed_part t)) by congruence.
  rewrite Eh, Eb, !app_length, strBegin_length, strEnd_length, crc_text_length.
  rewrite (lines_length 76 _ t ltac:(lia) Ln). unfold std_text.
  rewrite rfc_groups. unfold hash_payload. rewrite !app_length, rfc_groups, size_field_length.
  change (length (lit "__PARAMETERS____SIZE__")) with 22. change (length (lit "__ENCODE_TYPE__")) with 15. cbn [length].
  replace (4 * groups 3 (length runs) + (22 + (24 + (15 + 1)))) with (4 * groups 3 (length runs) + 62) by lia.
  unfold hash_length. cbv zeta. lia.
Qed.

(** A 1 x 127 matrix of zeros: one full byte and one that counts nothing; its hash. *)
Example C120_example : exists h, Rle_Encode infinite_memory (BM_ctor infinite_memory 1 127) = Ok [x7f; x00] /\
  EncodeHash infinite_memory (BM_ctor infinite_memory 1 127) = Ok h /\ length h = hash_length 2 /\ hash_length 2 = 160.
Proof. eexists. repeat split; vm_compute; reflexivity. Qed.

Print Assumptions C120_exact_text.
Print Assumptions C120_exact_bytes.
Print Assumptions C120_maximal_runs.
Print Assumptions C120_length.
Print Assumptions C120_distance_from_shortest.
Print Assumptions C120_shortest_refuted.
Print Assumptions C120_hash_length.
