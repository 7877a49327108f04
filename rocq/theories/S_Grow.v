(** Specification vocabulary: rectangles that grow. *)
From Coq Require Import Reals.
From Flocq Require Import Core.
From Verif Require Import Prelude M_LayoutData S_Generator S_EndToEnd.

(** The rectangle lt-rb lies inside the rectangle lt'-rb' (y grows upwards, lt is the upper left corner). *)
Definition lies_in (lt rb lt' rb' : coord) : Prop :=
  (cx lt' <= cx lt /\ cx rb <= cx rb' /\ cy lt <= cy lt' /\ cy rb' <= cy rb)%Z.

(** Every rectangle of the first kind lies inside one of the second. *)
Definition grown (R R' : coord -> coord -> Prop) : Prop :=
  forall lt rb, R lt rb -> exists lt' rb', R' lt' rb' /\ lies_in lt rb lt' rb'.

(** The place p, measured in cells, is in the first half of a cell. *)
Definition first_half (p : R) : Prop := (p - IZR (Zfloor p) < 1 / 2)%R.
