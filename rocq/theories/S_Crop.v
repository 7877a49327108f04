(** Specification vocabulary: a window of a sheet. *)
From Coq Require Import Reals.
From Verif Require Import Prelude M_LayoutData S_Matrix S_Zond S_EndToEnd S_Wobble.
Local Open Scope Z_scope.

(** The sheet is the box from mn to mx, cut into R rows and C columns.  The box from mn' to mx' is the window of r rows and c
    columns below the first a rows and right of the first b columns: its sides are where the cells of the sheet end. *)
Definition window_of (mn mx : coord) (R C : nat) (mn' mx' : coord) (r c a b : nat) : Prop :=
  (cx mn' - cx mn) * Z.of_nat C = Z.of_nat b * (cx mx - cx mn) /\
  (cx mx' - cx mn') * Z.of_nat C = Z.of_nat c * (cx mx - cx mn) /\
  (cy mx - cy mx') * Z.of_nat R = Z.of_nat a * (cy mx - cy mn) /\
  (cy mx' - cy mn') * Z.of_nat R = Z.of_nat r * (cy mx - cy mn) /\
  (a + r <= R)%nat /\ (b + c <= C)%nat.

(** The r rows and c columns of an array that begin at row a and column b. *)
Definition block (a b r c : nat) (A : amat) : amat := mkamat r c (fun i j => acell A (a + i) (b + j)).

(** A rectangle whose bounding box is what its corners say. *)
Definition plain (g : geom) : Prop :=
  g_type g = GTrectangle /\ exists lt rb, corners g lt rb /\
    g_min g = mkcoord (cx lt) (cy rb) /\ g_max g = mkcoord (cx rb) (cy lt).

(** The rectangle comes near some cell of the window. *)
Definition comes_near (mn mx : coord) (r c : nat) (q : rect) : Prop :=
  exists i j, (i < r)%nat /\ (j < c)%nat /\ near_centre mn mx r c (fst q) (snd q) i j.

(** Its first corner is left of and above its second one. *)
Definition oriented (q : rect) : Prop := cx (fst q) <= cx (snd q) /\ cy (snd q) <= cy (fst q).
