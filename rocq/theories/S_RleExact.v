(** Specification of the canonical run-length text and of its length.  Nothing of the model is used. *)
From Verif Require Import Prelude S_Matrix.

(** The maximal runs of a bit string: (value, length), in order. *)
Fixpoint runs_of (l : list bool) : list (bool * nat) :=
  match l with
  | [] => []
  | b :: t => match runs_of t with
              | (v, n) :: r => if Bool.eqb b v then (v, S n) :: r else (b, 1) :: (v, n) :: r
              | [] => [(b, 1)]
              end
  end.

(** A byte with the given value bit and count (below 128). *)
Definition run_byte (v : bool) (n : nat) : byte := z2b ((if v then 128 else 0) + Z.of_nat n).

(** A maximal run is written as full bytes of 127 followed by one byte with what is left: when the
    length is a multiple of 127 that last byte counts nothing. *)
Definition run_text (r : bool * nat) : list byte :=
  repeat (run_byte (fst r) 127) (snd r / 127) ++ [run_byte (fst r) (snd r mod 127)].

Definition rle_text (l : list bool) : list byte := flat_map run_text (runs_of l).

(** The number of maximal runs whose length is a multiple of 127. *)
Definition wasted (l : list bool) : nat :=
  length (filter (fun r => snd r mod 127 =? 0) (runs_of l)).

(** Number of groups of k, the last one possibly incomplete. *)
Definition groups (k n : nat) : nat := (n + k - 1) / k.

(** The length of a hash text whose run-length text has n bytes: marker lines of 32 and 30
    characters, 8 characters of checksum, and the payload in Base64 lines of 76 characters with a line break of two
    between them. *)
Definition hash_length (n : nat) : nat :=
  let payload := 4 * groups 3 n + 62 in
  let body := 4 * groups 3 payload in
  32 + body + 2 * (groups 76 body - 1) + 8 + 30.
