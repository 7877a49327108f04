(** Specification vocabulary for doubles: which double is "the nearest to" a real number. *)
From Coq Require Import Reals.
From Flocq Require Import Core IEEE754.BinarySingleNaN.
From Verif Require Import Prelude M_Double.

(** Rounding of a real number to the binary64 grid, ties to even (unbounded above). *)
Definition rnd (r : R) : R := round radix2 (FLT_exp (-1074) 53) ZnearestE r.

(** [nearest x r]: x is a finite double, and it is the binary64 number nearest to r. *)
Definition nearest (x : double) (r : R) : Prop := is_finite x = true /\ B2R x = rnd r.

(** The real number a finite double stands for. *)
Definition real (x : double) (r : R) : Prop := is_finite x = true /\ B2R x = r.
