(** Specification of the matrix hash text.  Uses the Base64/CRC and run-length specifications,
    nothing of the model. *)
From Verif Require Import Prelude S_Matrix S_Crc32 S_Base64 S_Rle.
Local Open Scope Z_scope.

(** Byte [k] (0 = least significant) of a number. *)
Definition byte_of (v k : Z) : Z := (v / 256 ^ k) mod 256.

(** The number stored in the size field. *)
Definition size_number (r c : Z) : Z := r * 2 ^ 32 + c.

(** A size field survives decoding on x86-64: every byte that is negative as a signed character
    is followed (in the more significant places) by 0xFF bytes only. *)
Definition size_survives (r c : Z) : Prop :=
  forall i j, 0 <= i < j -> j < 8 ->
    128 <= byte_of (size_number r c) i -> byte_of (size_number r c) j = 255.

(** The 24 characters of the size field. *)
Definition size_field (r c : Z) : list byte :=
  rfc_encode false "="%byte (repeat x00 8 ++ le_bytes 8 (size_number r c)).

(** What is protected by the checksum: the run-length text in Base64, then the parameters. *)
Definition hash_payload (runs : list byte) (r c : Z) : list byte :=
  rfc_encode false "="%byte runs ++ lit "__PARAMETERS____SIZE__" ++ size_field r c
  ++ lit "__ENCODE_TYPE__" ++ [x03].

Definition hash_begin : list byte := lit "---------BEGIN_MATRIX---------" ++ CRLF.
Definition hash_end : list byte := CRLF ++ lit "---------END_MATRIX---------".

(** [hash_text runs r c h]: h is the hash text of the given run-length text and sizes: the
    payload in Base64 lines of 76 characters, the Base64 of its CRC-32, between the two marker
    lines.  (For texts below 4 GiB.) *)
Definition hash_text (runs : list byte) (r c : Z) (h : list byte) : Prop :=
  exists lines, in_lines 76 (rfc_encode false "="%byte (hash_payload runs r c)) lines /\
    h = hash_begin ++ lines ++ rfc_encode false "="%byte (le_bytes 4 (crc32 lines)) ++ hash_end.
