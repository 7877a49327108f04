(** Specification vocabulary: the area that the rectangles of a layout cover. *)
From Coq Require Import Reals.
From Flocq Require Import Core.
From Verif Require Import Prelude M_LayoutData S_Generator S_EndToEnd S_Exact S_Grow.

(** The centre of cell (i,j) lies in the rectangle (edges included). *)
Definition has_centre (mn mx : coord) (r c : nat) (lt rb : coord) (i j : nat) : Prop :=
  (columns mn mx c (cx lt) <= INR j + 1 / 2 <= columns mn mx c (cx rb))%R /\
  (rows mn mx r (cy lt) <= INR i + 1 / 2 <= rows mn mx r (cy rb))%R.

(** The centre of cell (i,j) lies in one of the rectangles. *)
Definition covered (mn mx : coord) (r c : nat) (R : coord -> coord -> Prop) (i j : nat) : Prop :=
  exists lt rb, R lt rb /\ has_centre mn mx r c lt rb i j.

(** An end that is not rounded up to the next cell: in the first half of a cell (or on its left border), but not in
    the last cell of the line - or at least at the centre of the last cell. *)
Definition clean_end (n : nat) (to : R) : Prop :=
  (INR n - 1 / 2 <= to)%R \/ (to < INR n - 1)%R /\ first_half to.

(** Both ends of all rectangles are clean. *)
Definition clean (mn mx : coord) (r c : nat) (R : coord -> coord -> Prop) : Prop :=
  forall lt rb, R lt rb -> clean_end c (columns mn mx c (cx rb)) /\ clean_end r (rows mn mx r (cy rb)).
