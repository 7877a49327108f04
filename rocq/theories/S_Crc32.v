(** Specification of CRC-32 independent of the code: the textbook bit-at-a-time definition.
    The register is shifted right; when the bit shifted out is 1 the reflected polynomial
    0xEDB88320 is added (over GF(2)); the register starts at 0xFFFFFFFF and is complemented
    at the end. *)
From Verif Require Import Prelude.
Local Open Scope Z_scope.

Definition crc_bit (c : Z) : Z :=
  if Z.odd c then Z.lxor (Z.shiftr c 1) 0xEDB88320 else Z.shiftr c 1.

Fixpoint crc_bits (n : nat) (c : Z) : Z :=
  match n with O => c | S n' => crc_bits n' (crc_bit c) end.

Definition crc_byte (c : Z) (b : byte) : Z := crc_bits 8 (Z.lxor c (b2z b)).

Definition crc32 (s : list byte) : Z :=
  Z.lxor (fold_left crc_byte s 0xFFFFFFFF) 0xFFFFFFFF.

(** Two texts of the same length that agree outside a window of [n] consecutive bytes,
    and differ inside it. *)
Definition burst (n : nat) (s t : list byte) : Prop :=
  exists p w1 w2 q, s = p ++ w1 ++ q /\ t = p ++ w2 ++ q /\
    length w1 = length w2 /\ (length w1 <= n)%nat /\ w1 <> w2.
