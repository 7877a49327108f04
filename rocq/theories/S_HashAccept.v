(** Specification of the texts the hash decoder accepts.  Nothing of the model is used. *)
From Verif Require Import Prelude S_Crc32 S_Base64 S_Hash.

(** A text between the two marker lines, followed by the Base64 of its own CRC-32. *)
Definition sealed (text h : list byte) : Prop :=
  h = hash_begin ++ text ++ rfc_encode false "="%byte (le_bytes 4 (crc32 text)) ++ hash_end.

(** [pat] occurs somewhere in [s]. *)
Definition occurs (pat s : list byte) : Prop := exists a b, s = a ++ pat ++ b.

(** Bit [k] of a byte taken as a signed number: its bit 7 goes on for ever. *)
Definition signed_bit (b : byte) (k : Z) : bool := Z.testbit (b2z b) (Z.min k 7).

(** Bit [k] of the number read from the 16 bytes of a size field on x86-64: bytes 0-7 and, once more,
    bytes 8-15 are placed at bits 0, 8, ..., 56, as signed numbers, one over the other. *)
Definition size_bit (field : list byte) (k : Z) : bool :=
  existsb (fun i => (Z.of_nat (8 * (i mod 8)) <=? k)%Z &&
                    signed_bit (nth i field x00) (k - Z.of_nat (8 * (i mod 8)))) (seq 0 16).

(** The 16 bytes give r rows and c columns. *)
Definition stored_sizes (field : list byte) (r c : Z) : Prop :=
  length field = 16 /\ (0 <= r < 2 ^ 32)%Z /\ (0 <= c < 2 ^ 32)%Z /\
  forall k, (0 <= k < 32)%Z -> Z.testbit c k = size_bit field k /\ Z.testbit r k = size_bit field (32 + k).
