(** Specification vocabulary for zonding one part of a matrix: rows i0..i1 and columns j0..j1 of
    it stand for a workspace cut into cells; row i0 + k is the k-th row of the workspace. *)
From Coq Require Import Reals.
From Flocq Require Import Core.
From Verif Require Import Prelude M_Zond S_Zond.
Local Open Scope Z_scope.

Definition small_bounds (b : indicies) : Prop :=
  0 <= iBegin b <= iEnd b /\ iEnd b < 2 ^ 30 /\ 0 <= jBegin b <= jEnd b /\ jEnd b < 2 ^ 30.

(** Positions below 2^30. *)
Definition position_small (r : R) : Prop := (r < IZR (2 ^ 30 - 1))%R.

(** The k-th row (column) after the first is not lost: the rectangle lies within one row
    (column) of cells, or k is at least the number of the first row of the part - which was meant
    to be an offset into the matrix, and has nothing to do with the rectangle. *)
Definition not_lost (from to : R) (first k : Z) : Prop := Zfloor from = Zfloor to \/ first <= k.
