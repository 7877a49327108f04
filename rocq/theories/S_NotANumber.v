(** Specification vocabulary: a zond whose settings are not numbers. *)
From Coq Require Import Reals.
From Flocq Require Import Core IEEE754.BinarySingleNaN.
From Verif Require Import Prelude M_Double.

(** The double that is not a number, and infinity. *)
Definition nan : double := B754_nan.
Definition infinity : double := B754_infinity false.

(** On an axis of n cells, a rectangle begins at b and ends at e (in cells).  Cell k is inside it as far as can be told without an accuracy:
    the rectangle reaches over a border of cells; it begins before cell k does, or at the edge; and it does not end before cell k does, or it
    reaches the last cell. *)
Definition surely (b e : R) (n k : Z) : Prop :=
  (0 <= k < n)%Z /\ Zfloor b <> Zfloor e /\ (b < IZR k \/ b = 0)%R /\ (IZR k + 1 <= e \/ IZR (n - 1) <= e)%R.
