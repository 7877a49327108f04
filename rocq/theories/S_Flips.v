(** Transmission errors that flip single bits of a text. *)
From Verif Require Import Prelude.

(** Bit [i] of a text; the numbering inside a byte does not matter for what follows. *)
Definition text_bit (s : list byte) (i : nat) : bool :=
  match nth_error s (i / 8) with
  | Some b => Z.testbit (b2z b) (Z.of_nat (i mod 8))
  | None => false
  end.

(** The places where two texts of the same length have different bits. *)
Definition flipped (s t : list byte) : list nat :=
  filter (fun i => xorb (text_bit s i) (text_bit t i)) (seq 0 (8 * length s)).

(** [t] is [s] with exactly [k] bits flipped. *)
Definition flips (k : nat) (s t : list byte) : Prop :=
  length s = length t /\ length (flipped s t) = k.
