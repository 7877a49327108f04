(** C121: the storage that hashing asks for.
    Specifications: S_Matrix ([shows], [nonempty]), S_RleExact ([rle_text]). *)
From Verif Require Import Prelude P_Prelude M_ByteHandler M_Vector2D M_BitMatrix S_Matrix P_BitMatrix P_Cells P_Serial P_Vector2D
  M_LayoutCore M_Rle S_Rle P_Rle M_Crc32 S_Crc32 P_Crc32 M_Base64 S_Base64 P_Base64 M_Hash S_Hash P_Hash S_RleExact P_RleExact
  Props_BitMatrix Props_Base64 Props_Rle Props_Hash Props_RleExact M_Reserve.
Local Open Scope Z_scope.

Lemma encode_in h al m A : shows m A -> nonempty A -> memory_ok al (arows A) (acols A) ->
  Rle_Encode_in h al m =
    (let* _ := reserve h ((Z.of_nat (arows A) * Z.of_nat (arows A)) mod 2 ^ 64) in Rle_Encode al m).
Proof.
  intros S (Nr & Nc) M. pose proof S as (_ & Hr & _).
  unfold Rle_Encode_in, Rle_Encode. rewrite (LM_not_ok al m A S M).
  rewrite (proj2 (Nat.eqb_neq _ _)), (proj2 (Nat.eqb_neq _ _)) by lia. cbn [orb].
  rewrite Hr. reflexivity.
Qed.

Lemma hash_in h al m A : shows m A -> nonempty A -> memory_ok al (arows A) (acols A) ->
  EncodeHash_in h al m =
    (let* _ := reserve h ((Z.of_nat (arows A) * Z.of_nat (arows A)) mod 2 ^ 64) in EncodeHash al m).
Proof.
  intros S N M. unfold EncodeHash_in, EncodeHash. rewrite (encode_in h al m A S N M).
  rewrite (LM_not_ok al m A S M). destruct N as (Nr & Nc).
  rewrite (proj2 (Nat.eqb_neq _ _)), (proj2 (Nat.eqb_neq _ _)) by lia. cbn [orb].
  destruct (reserve h _); reflexivity.
Qed.

(** ** C121 *)
(** When there is room for rows * rows characters (the product modulo 2^64), nothing is to be seen of the
    reservation: encoding, hashing and writing a file do what C30-C40 and C120 say. *)
Theorem C121_room : forall h al m A, shows m A -> nonempty A -> memory_ok al (arows A) (acols A) ->
  let asked := (Z.of_nat (arows A) * Z.of_nat (arows A)) mod 2 ^ 64 in
  asked <= max_size h -> has_room h asked = true ->
  Rle_Encode_in h al m = Ok (rle_text (abits A)) /\
  EncodeHash_in h al m = EncodeHash al m /\
  forall can_write accepted d f, FlushFile_in h al can_write accepted d m f = FlushFile al can_write accepted d m f.
Proof.
  intros h al m A S N M asked L R.
  assert (E : reserve h asked = Ok tt).
  { unfold reserve. rewrite (proj2 (Z.ltb_ge _ _)) by exact L. now rewrite R. }
  pose proof (hash_in h al m A S N M) as Q. fold asked in Q. rewrite E in Q. cbn [bind] in Q.
  split; [|split; [exact Q|]].
  - rewrite (encode_in h al m A S N M). fold asked. rewrite E. cbn [bind]. exact (C120_exact_text al m A S N M).
  - intros. unfold FlushFile_in, FlushFile. rewrite Q. reflexivity.
Qed.

(** When there is not, all of them throw - whatever the cells and however many columns - and FlushFile has emptied
    the file by then. *)
Theorem C121_no_room : forall h al m A, shows m A -> nonempty A -> memory_ok al (arows A) (acols A) ->
  let asked := (Z.of_nat (arows A) * Z.of_nat (arows A)) mod 2 ^ 64 in
  forall e, (max_size h < asked /\ e = LengthError) \/ (asked <= max_size h /\ has_room h asked = false /\ e = BadAlloc) ->
  Rle_Encode_in h al m = Throw e /\
  EncodeHash_in h al m = Throw e /\
  forall can_write accepted d f, f <> [] -> can_write f = true ->
    FlushFile_in h al can_write accepted d m f = ([disk_put d f []], Throw e) /\ disk_put d f [] f = Some [].
Proof.
  intros h al m A S N M asked e H.
  assert (E : reserve h asked = Throw e).
  { unfold reserve. destruct H as [(L & ->)|(L & R & ->)].
    - now rewrite (proj2 (Z.ltb_lt _ _)) by exact L.
    - rewrite (proj2 (Z.ltb_ge _ _)) by exact L. now rewrite R. }
  pose proof (hash_in h al m A S N M) as Q. fold asked in Q. rewrite E in Q. cbn [bind] in Q.
  split; [|split; [exact Q|]].
  - rewrite (encode_in h al m A S N M). fold asked. rewrite E. reflexivity.
  - intros cw acc d f Nf Cw. split.
    + unfold FlushFile_in. rewrite (proj2 (Nat.eqb_neq _ _)) by (destruct f; [congruence|cbn [length]; lia]).
      rewrite Cw. cbn [negb]. rewrite Q. reflexivity.
    + unfold disk_put. now rewrite streqb_refl.
Qed.

(** The room asked for has nothing to do with the room needed: a matrix of one column needs at most one character
    per row, yet a heap that has room for all of that refuses. *)
Theorem C121_room_for_the_text_suffices_refuted :
  ~ (forall h al m A, shows m A -> nonempty A -> memory_ok al (arows A) (acols A) ->
       (forall n, n <= Z.of_nat (length (rle_text (abits A))) -> has_room h n = true) ->
       (Z.of_nat (arows A) * Z.of_nat (acols A)) <= max_size h ->
       Rle_Encode_in h al m = Ok (rle_text (abits A))).
Proof.
  intros H.
  set (h := mkheap (2 ^ 62) (fun n => n <=? 8)).
  pose proof (C04_constructor_zero infinite_memory 10 1 eq_refl) as S0.
  assert (E : Rle_Encode_in h infinite_memory (BM_ctor infinite_memory 10 1) = Throw BadAlloc).
  { eapply (C121_no_room h infinite_memory _ _ S0 ltac:(split; cbn; lia) eq_refl BadAlloc). right.
    repeat split; vm_compute; congruence. }
  rewrite (H h infinite_memory _ _ S0 ltac:(split; cbn; lia) eq_refl) in E; [discriminate E| |vm_compute; congruence].
  intros n Hn. assert (L : Z.of_nat (length (rle_text (abits (azero 10 1)))) = 1) by (vm_compute; reflexivity).
  rewrite L in Hn. cbn [h has_room]. apply Z.leb_le. lia.
Qed.

(** For every number of rows from 2 below 2^32: the text of a matrix of one column is shorter than the request. *)
Theorem C121_asks_for_the_square : forall h al m A, shows m A -> nonempty A -> memory_ok al (arows A) (acols A) ->
  acols A = 1%nat -> 2 <= Z.of_nat (arows A) < 2 ^ 32 ->
  (forall n, has_room h n = true <-> n <= Z.of_nat (arows A)) -> Z.of_nat (arows A) * Z.of_nat (arows A) <= max_size h ->
  Z.of_nat (length (rle_text (abits A))) <= Z.of_nat (arows A) /\
  EncodeHash_in h al m = Throw BadAlloc.
Proof.
  intros h al m A S N M C1 R Hh Mx. split.
  - pose proof (C120_exact_text al m A S N M) as T.
    destruct (C30_faithful_and_bounded al m A S N M) as (s & E & _ & B).
    rewrite T in E. injection E as <-. rewrite C1 in B. lia.
  - apply (C121_no_room h al m A S N M BadAlloc). right.
    rewrite Z.mod_small by nia. split; [exact Mx|]. split; [|reflexivity].
    destruct (has_room h _) eqn:E; [|reflexivity]. apply Hh in E. nia.
Qed.

(** The product wraps: when 2^32 divides the number of rows, no room at all is asked for. *)
Theorem C121_wraps : forall h al m A k, shows m A -> nonempty A -> memory_ok al (arows A) (acols A) ->
  Z.of_nat (arows A) = k * 2 ^ 32 -> 0 <= max_size h -> has_room h 0 = true ->
  EncodeHash_in h al m = EncodeHash al m.
Proof.
  intros h al m A k S N M E Mx R.
  assert (Q : (Z.of_nat (arows A) * Z.of_nat (arows A)) mod 2 ^ 64 = 0).
  { rewrite E. replace (k * 2 ^ 32 * (k * 2 ^ 32)) with (k * k * 2 ^ 64) by ring. apply Z.mod_mul. lia. }
  apply (C121_room h al m A S N M); rewrite Q; assumption.
Qed.

(** A matrix of 100000 rows and one column asks for 10^10 characters. *)
Example C121_example :
  let h := mkheap (2 ^ 62) (fun n => n <=? 2 ^ 33) in
  let m := BM_ctor infinite_memory (Z.to_nat 100000) 1 in
  EncodeHash_in h infinite_memory m = Throw BadAlloc /\
  Rle_Encode_in h infinite_memory (BM_ctor infinite_memory 3 5) = Ok [x0f].
Proof.
  set (r := Z.to_nat 100000). intros h m.
  assert (Er : Z.of_nat r = 100000) by (unfold r; rewrite Z2Nat.id; lia).
  assert (S0 : shows m (azero r 1)) by (unfold m; apply C04_constructor_zero; reflexivity).
  split.
  - apply (C121_no_room h infinite_memory m _ S0).
    + split; cbn [azero arows acols]; lia.
    + reflexivity.
    + right. cbn [azero arows]. rewrite Er. repeat split; vm_compute; congruence.
  - vm_compute. reflexivity.
Qed.

Print Assumptions C121_room.
Print Assumptions C121_no_room.
Print Assumptions C121_room_for_the_text_suffices_refuted.
Print Assumptions C121_asks_for_the_square.
Print Assumptions C121_wraps.
