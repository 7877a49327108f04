(** Specification vocabulary for ratios of bits. *)
From Verif Require Import Prelude S_Matrix.

(** how many bits of a list are v *)
Definition count (v : bool) (l : list bool) : nat := length (filter (Bool.eqb v) l).

(** how many cells of an array are v, and in how many cells two arrays of equal size differ *)
Definition cells_equal_to (v : bool) (A : amat) : nat := count v (abits A).
Definition differences (A B : amat) : nat :=
  count true (flat_map (fun i => map (fun j => negb (Bool.eqb (acell A i j) (acell B i j))) (seq 0 (acols A)))
                       (seq 0 (arows A))).
Definition cell_number (A : amat) : nat := arows A * acols A.
