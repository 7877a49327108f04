(** Specification vocabulary: one layout drawn at two resolutions. *)
From Coq Require Import Reals.
From Verif Require Import Prelude M_LayoutData S_Generator S_EndToEnd.

(** Where the centre of cell k lies when a side is cut into n cells, as a fraction of the side. *)
Definition centre (n k : nat) : R := ((INR k + 1 / 2) / INR n)%R.

(** The centres of cell (i,j) of r times c cells and of cell (i',j') of r' times c' cells are, each
    way, at most a cell of the one and a cell of the other apart (and a millionth of that). *)
Definition neighbours (r c r' c' i j i' j' : nat) : Prop :=
  (Rabs (centre r i - centre r' i') <= (1 + margin) * (/ INR r + / INR r') /\
   Rabs (centre c j - centre c' j') <= (1 + margin) * (/ INR c + / INR c'))%R.

(** The part of the rectangle that lies in the box is, each way, at least as long as a cell (and two
    margins). *)
Definition a_cell_wide (mn mx : coord) (r c : nat) (lt rb : coord) : Prop :=
  (columns mn mx c (cx lt) + (1 + 2 * margin) <= Rmin (columns mn mx c (cx rb)) (INR c) /\
   rows mn mx r (cy lt) + (1 + 2 * margin) <= Rmin (rows mn mx r (cy rb)) (INR r))%R.
