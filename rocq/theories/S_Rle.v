(** Specification of the run-length format: each byte is a run; bit 7 is the repeated value,
    the low seven bits the number of repetitions. *)
From Verif Require Import Prelude S_Matrix.

Definition run (b : byte) : list bool :=
  repeat (Z.testbit (b2z b) 7) (Z.to_nat (b2z b mod 128)).

Definition expand (s : list byte) : list bool := flat_map run s.

(** The bits of a byte string, most significant bit of each byte first. *)
Definition string_bits (s : list byte) : list bool :=
  flat_map (fun b => map (fun k => Z.testbit (b2z b) k) [7; 6; 5; 4; 3; 2; 1; 0]%Z) s.

(** The r x c array filled in row-major order with [l], false when [l] is exhausted. *)
Definition filled (r c : nat) (l : list bool) : amat :=
  mkamat r c (fun i j => nth (i * c + j) l false).
