(** Specification of the text that shows a matrix: one line of 0s and 1s per row, then an empty
    line. *)
From Verif Require Import Prelude S_Matrix.

Definition bit_char (b : bool) : byte := if b then "1"%byte else "0"%byte.
Definition line_feed : byte := x0a.

(** Line i: the characters of its cells and the line feed. *)
Definition row_line (A : amat) (i : nat) (t : list byte) : Prop :=
  exists cs, t = cs ++ [line_feed] /\ length cs = acols A /\
    forall j, j < acols A -> nth_error cs j = Some (bit_char (acell A i j)).

Definition picture_text (A : amat) (t : list byte) : Prop :=
  exists ls, t = concat ls ++ [line_feed] /\ length ls = arows A /\
    forall i, i < arows A -> exists l, nth_error ls i = Some l /\ row_line A i l.
