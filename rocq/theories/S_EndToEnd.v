(** Specification vocabulary for what a bitmap shows of a layout: positions measured in cells of
    the box given to Init. *)
From Coq Require Import Reals.
From Verif Require Import Prelude M_LayoutData M_Converter S_Converter M_Zond S_Zond S_Generator.
Local Open Scope Z_scope.

(** The position of the coordinate x, in columns from the left edge, when the box is cut into c
    columns; of y, in rows from the top edge, when it is cut into r rows. *)
Definition columns (mn mx : coord) (c : nat) (x : Z) : R := (IZR (x - cx mn) * INR c / IZR (cx mx - cx mn))%R.
Definition rows (mn mx : coord) (r : nat) (y : Z) : R := (IZR (cy mx - y) * INR r / IZR (cy mx - cy mn))%R.

(** One 2^20th of a cell. *)
Definition margin : R := (/ IZR (2 ^ 20))%R.

(** A box of at least one unit each way whose sides fit in 32 bits, cut into at most 2^30 parts
    each way. *)
Definition fine_box (mn mx : coord) (r c : nat) : Prop :=
  coord32 mn /\ coord32 mx /\ 1 <= cx mx - cx mn < 2 ^ 31 /\ 1 <= cy mx - cy mn < 2 ^ 31 /\
  1 <= Z.of_nat r <= 2 ^ 30 /\ 1 <= Z.of_nat c <= 2 ^ 30.

(** A rectangle, given by its left-top and right-bottom corners, that the arithmetic of the code
    can deal with: it does not reach 2^30 cells beyond the left or the top edge of the box. *)
Definition manageable (mn mx : coord) (r c : nat) (lt rb : coord) : Prop :=
  coord32 lt /\ coord32 rb /\ cx lt <= cx rb /\ cy rb <= cy lt /\
  differences_fit lt rb (box_workspace mn mx) /\
  (columns mn mx c (cx rb) <= IZR (2 ^ 30))%R /\ (rows mn mx r (cy rb) <= IZR (2 ^ 30))%R.

(** It does not begin left of or above the box. *)
Definition starts_inside (mn mx lt : coord) : Prop := cx mn <= cx lt /\ cy lt <= cy mx.

(** The centre of cell (i,j) lies in the rectangle, a margin away from its edges. *)
Definition covers_centre (mn mx : coord) (r c : nat) (lt rb : coord) (i j : nat) : Prop :=
  (columns mn mx c (cx lt) + margin <= INR j + 1 / 2 <= columns mn mx c (cx rb) - margin /\
   rows mn mx r (cy lt) + margin <= INR i + 1 / 2 <= rows mn mx r (cy rb) - margin)%R.

(** The centre of cell (i,j) is at most one cell (and the margin) away from the rectangle, in
    each direction. *)
Definition near_centre (mn mx : coord) (r c : nat) (lt rb : coord) (i j : nat) : Prop :=
  (columns mn mx c (cx lt) - 1 - margin <= INR j + 1 / 2 <= columns mn mx c (cx rb) + 1 + margin /\
   rows mn mx r (cy lt) - 1 - margin <= INR i + 1 / 2 <= rows mn mx r (cy rb) + 1 + margin)%R.

(** It ends at least one cell before one of the four edges of the box. *)
Definition leaves_a_cell (mn mx : coord) (r c : nat) (lt rb : coord) : Prop :=
  (1 + margin <= columns mn mx c (cx lt) \/ columns mn mx c (cx rb) <= INR c - 1 - margin \/
   1 + margin <= rows mn mx r (cy lt) \/ rows mn mx r (cy rb) <= INR r - 1 - margin)%R.

(** The conversion of the object succeeds with the given stack. *)
Definition collectable (heap : list element) (stack : nat) (g : geom) : Prop :=
  match g_type g with
  | GTpath => exists w, path_width g w /\ g_coords g <> [] /\ path_fits (g_coords g) (Z.quot w 2)
  | GTreference => exists l, SplitSref heap stack (Some g) (mkcoord 0 0) = Ok l
  | _ => True
  end.
