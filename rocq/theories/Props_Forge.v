(** C123: what the checksum does not protect from.
    Specifications: S_Crc32 ([crc32], [burst]), S_Flips ([flipped]). *)
From Verif Require Import Prelude P_Prelude M_Crc32 S_Crc32 P_Crc32 S_Flips P_Flips P_Forge M_Base64 S_Base64 P_Base64 Props_Base64.
Local Open Scope Z_scope.

(** ** C123 *)
(** In any place of any text, four bytes can be chosen so that the checksum has any value one likes - in exactly
    one way. *)
Theorem C123_any_checksum_by_four_bytes : forall p q v, 0 <= v < 2 ^ 32 -> Z.of_nat (length p + 4 + length q) < 2 ^ 32 ->
  exists w, length w = 4%nat /\
    CalcHash (Some (p ++ w ++ q)) (Z.of_nat (length (p ++ w ++ q))) = Ok v /\
    forall w', length w' = 4%nat -> CalcHash (Some (p ++ w' ++ q)) (Z.of_nat (length (p ++ w' ++ q))) = Ok v -> w' = w.
Proof.
  intros p q v Hv L. destruct (forge p q v Hv) as (w & Lw & E). exists w. split; [exact Lw|].
  assert (H : forall w, length w = 4%nat -> CalcHash (Some (p ++ w ++ q)) (Z.of_nat (length (p ++ w ++ q))) = Ok (crc32 (p ++ w ++ q))).
  { intros x Lx. apply CalcHash_ok.
    - intros F. apply (f_equal (@length byte)) in F. rewrite !app_length in F. cbn [length] in F. lia.
    - rewrite !app_length. lia. }
  split; [rewrite H by exact Lw; now rewrite E|].
  intros w' Lw' Q. rewrite H in Q by exact Lw'. assert (Q' : crc32 (p ++ w' ++ q) = crc32 (p ++ w ++ q)) by congruence.
  destruct (list_eq_dec byte_eq_dec w' w) as [->|N]; [reflexivity|]. exfalso.
  revert Q'. apply burst_detected. exists p, w', w, q. repeat split; try lia. exact N.
Qed.

(** So every text of at least five bytes has a twin of the same length and the same checksum, different in the last
    five bytes at most. *)
Theorem C123_twins : forall p b w, length w = 4%nat -> Z.of_nat (length p + 5) < 2 ^ 32 ->
  forall b', exists w', length w' = 4%nat /\
    CalcHash (Some (p ++ b' :: w')) (Z.of_nat (length (p ++ b' :: w'))) = CalcHash (Some (p ++ b :: w)) (Z.of_nat (length (p ++ b :: w))).
Proof.
  intros p b w Lw L b'.
  destruct (C123_any_checksum_by_four_bytes (p ++ [b']) [] (crc32 (p ++ b :: w)) (crc32_range _)) as (w' & Lw' & E & _).
  { rewrite app_length. cbn [length]. lia. }
  exists w'. split; [exact Lw'|]. rewrite app_nil_r, <- app_assoc in E. cbn [app] in E. rewrite E.
  symmetry. apply CalcHash_ok.
  - destruct p; discriminate.
  - rewrite app_length. cbn [length]. lia.
Qed.

(** A text followed by its own checksum (least significant byte first) always has the same checksum. *)
Theorem C123_residue : forall s, s <> [] -> Z.of_nat (length s) + 4 < 2 ^ 32 ->
  exists c, CalcHash (Some s) (Z.of_nat (length s)) = Ok c /\
    CalcHash (Some (s ++ le_bytes 4 c)) (Z.of_nat (length (s ++ le_bytes 4 c))) = Ok 0x2144DF1C.
Proof.
  intros s N L. exists (crc32 s). split; [apply CalcHash_ok; [exact N|lia]|].
  rewrite CalcHash_ok.
  - f_equal. unfold crc32 at 1. rewrite fold_left_app.
    set (c := fold_left crc_byte s 0xFFFFFFFF). rewrite fold_crc, le_bytes_length.
    rewrite le_value_bytes by apply crc32_range. unfold crc32. fold c.
    rewrite <- Z.lxor_assoc, Z.lxor_nilpotent, Z.lxor_0_l. vm_compute. reflexivity.
  - destruct s; [congruence|discriminate].
  - rewrite app_length, le_bytes_length. lia.
Qed.

(** What a change does to the checksum depends on the flipped bits and the length, not on the text. *)
Theorem C123_effect_of_a_change : forall s t s' t' a b a' b', s <> [] -> Z.of_nat (length s) < 2 ^ 32 ->
  length t = length s -> length s' = length s -> length t' = length s -> flipped s t = flipped s' t' ->
  CalcHash (Some s) (Z.of_nat (length s)) = Ok a -> CalcHash (Some t) (Z.of_nat (length t)) = Ok b ->
  CalcHash (Some s') (Z.of_nat (length s')) = Ok a' -> CalcHash (Some t') (Z.of_nat (length t')) = Ok b' ->
  Z.lxor a b = Z.lxor a' b'.
Proof.
  intros s t s' t' a b a' b' N L L1 L2 L3 F.
  assert (H : forall x, length x = length s -> CalcHash (Some x) (Z.of_nat (length x)) = Ok (crc32 x)).
  { intros x Lx. apply CalcHash_ok; [|lia]. intros ->. destruct s; [congruence|discriminate]. }
  rewrite !H by congruence. intros [= <-] [= <-] [= <-] [= <-].
  rewrite !crc_difference by congruence. rewrite F, L2. reflexivity.
Qed.

(** The checksum in a Radix-64 text does not show that the text is unchanged: for every text there is another one of the
    same length with the same checksum. *)
Theorem C123_equal_checksums_equal_texts_refuted :
  ~ (forall s t h, length s = length t -> (8 <= length s)%nat -> CalcHash (Some s) (Z.of_nat (length s)) = Ok h ->
       CalcHash (Some t) (Z.of_nat (length t)) = Ok h -> s = t).
Proof.
  intros H.
  destruct (C123_twins (lit "layer") "1"%byte (lit "9999") eq_refl ltac:(cbn; lia) "2"%byte) as (w & Lw & E).
  assert (F : lit "layer" ++ "1"%byte :: lit "9999" = lit "layer" ++ "2"%byte :: w).
  { eapply H.
    - rewrite !app_length. cbn [length]. rewrite Lw. reflexivity.
    - cbn. lia.
    - apply CalcHash_ok; [discriminate|cbn; lia].
    - rewrite E. apply CalcHash_ok; [discriminate|cbn; lia]. }
  apply app_inv_head in F. injection F as F _. discriminate F.
Qed.

(** "layer19999" and its twin that starts with "layer2". *)
Example C123_example :
  bridge (fold_left crc_byte (lit "layer2") 0xFFFFFFFF) (Z.lxor (crc32 (lit "layer19999")) 0xFFFFFFFF) = [x83; x68; x30; xa0] /\
  CalcHash (Some (lit "layer2" ++ [x83; x68; x30; xa0])) 10 = CalcHash (Some (lit "layer19999")) 10.
Proof. split; vm_compute; reflexivity. Qed.

Print Assumptions C123_any_checksum_by_four_bytes.
Print Assumptions C123_twins.
Print Assumptions C123_residue.
Print Assumptions C123_effect_of_a_change.
Print Assumptions C123_equal_checksums_equal_texts_refuted.
