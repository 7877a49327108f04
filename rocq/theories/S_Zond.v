(** Specification vocabulary for zonding: what is drawn on an abstract array, and positions
    measured in cells. *)
From Coq Require Import Reals.
From Flocq Require Import Core IEEE754.BinarySingleNaN.
From Verif Require Import Prelude M_Double S_Double M_LayoutData M_Zond M_BitMatrix S_Matrix.
Local Open Scope Z_scope.

(** The array A with the selected cells set in addition. *)
Definition adraw (A : amat) (sel : Z -> Z -> bool) : amat :=
  mkamat (arows A) (acols A) (fun i j => acell A i j || sel (Z.of_nat i) (Z.of_nat j)).

(** [within b i j]: cell (i,j) lies within the bound indices. *)
Definition within (b : indicies) (i j : Z) : Prop :=
  iBegin b <= i <= iEnd b /\ jBegin b <= j <= jEnd b.

(** B is A with bits added inside the bounds and nothing else changed. *)
Definition only_adds (b : indicies) (A B : amat) : Prop :=
  arows B = arows A /\ acols B = acols A /\
  forall i j, (i < arows A)%nat -> (j < acols A)%nat ->
    (acell A i j = true -> acell B i j = true) /\
    (acell B i j <> acell A i j -> within b (Z.of_nat i) (Z.of_nat j)).

(** The two corners ZondRectangle reads from a rectangle. *)
Definition corners (g : geom) (lt rb : coord) : Prop :=
  nth_error (g_coords g) 0 = Some lt /\ nth_error (g_coords g) 2 = Some rb.

(** bound indices of an r x c drawing *)
Definition full_bounds (r c : Z) : indicies := mkind 0 (r - 1) 0 (c - 1).

(** A finite positive double and its value; 2^-32 is the width of a cell when the narrowest
    box (one unit) is cut into the largest number of parts a uint32_t can express. *)
Definition cell_size (x : double) (q : R) : Prop :=
  real x q /\ (/ IZR (2 ^ 32) <= q <= IZR (2 ^ 60))%R.

(** The position of a coordinate, in cells, at distance d (an integer) from the edge of the
    workspace, as the double division computes it. *)
Definition position (d : Z) (q : R) : R := rnd (IZR d / q).

(** B is A with exactly the selected cells set in addition. *)
Definition drawn (A B : amat) (sel : Z -> Z -> Prop) : Prop :=
  arows B = arows A /\ acols B = acols A /\
  forall i j, (i < arows A)%nat -> (j < acols A)%nat ->
    (acell B i j = true <-> acell A i j = true \/ sel (Z.of_nat i) (Z.of_nat j)).

Definition ws32 (w : workspace) : Prop := coord32 (leftTop w) /\ coord32 (rightBot w).

(** The rectangle with corners lt, rb contains the workspace. *)
Definition contains_ws (lt rb : coord) (w : workspace) : Prop :=
  cx lt <= cx (leftTop w) /\ cx (rightBot w) <= cx rb /\
  cy (leftTop w) <= cy lt /\ cy rb <= cy (rightBot w).

(** The rectangle ends at least one whole cell before one of the four edges. *)
Definition one_cell_short (lt rb : coord) (w : workspace) (qx qy : R) : Prop :=
  (IZR (cx (leftTop w)) + qx <= IZR (cx lt) \/ IZR (cx rb) <= IZR (cx (rightBot w)) - qx \/
   IZR (cy lt) <= IZR (cy (leftTop w)) - qy \/ IZR (cy (rightBot w)) + qy <= IZR (cy rb))%R.

(** The differences the code computes fit in 32 bits. *)
Definition differences_fit (lt rb : coord) (w : workspace) : Prop :=
  int32 (cx lt - cx (leftTop w)) /\ int32 (cx rb - cx (leftTop w)) /\
  int32 (cy (leftTop w) - cy lt) /\ int32 (cy (leftTop w) - cy rb).

(** The four positions, in cells, of the edges of the rectangle. *)
Definition col_from (lt : coord) (w : workspace) (qx : R) : R := position (cx lt - cx (leftTop w)) qx.
Definition col_to (rb : coord) (w : workspace) (qx : R) : R := position (cx rb - cx (leftTop w)) qx.
Definition row_from (lt : coord) (w : workspace) (qy : R) : R := position (cy (leftTop w) - cy lt) qy.
Definition row_to (rb : coord) (w : workspace) (qy : R) : R := position (cy (leftTop w) - cy rb) qy.

(** The double 2^31 - 1 and everything below: positions that convert to int32_t. *)
Definition position_fits (r : R) : Prop := (r < IZR (2 ^ 31 - 1))%R.

(** A zond whose cells measure qx x qy, with accuracy e (at most 1/8). *)
Definition tuned (z : zond) (qx qy e : R) : Prop :=
  cell_size (dx z) qx /\ cell_size (dy z) qy /\ real (eps z) e /\ (0 <= e <= 1 / 8)%R /\
  (e * qx <= 1 / 4)%R /\ (e * qy <= 1 / 4)%R.

(** The object after a sequence of calls, each of which may throw (and then changes nothing). *)
Definition after_SetEps (z : zond) (calls : list double) : zond :=
  fold_left (fun z e => match SetEps z e with Ok z' => z' | _ => z end) calls z.

(** A value outside [0, 1/2], or infinite. *)
Definition out_of_range (x : double) : Prop :=
  (exists r, real x r /\ (r < 0 \/ 1 / 2 < r)%R) \/ exists s, x = B754_infinity s.

(** A column (row) counts as overshot when the rectangle ends before its centre by more than
    the accuracy.  It is set exactly when the rectangle spans more than one column and either
    ends in the second half of the previous column - the overshot column is then not even
    touched - or reaches into the last column of the matrix. *)
Definition overshot (from to : R) (n k : Z) : Prop :=
  Zfloor from < Zfloor to /\
  (k = Zfloor to + 1 /\ (1 / 2 <= to - IZR (Zfloor to))%R \/ k = n - 1 /\ (IZR (n - 1) <= to)%R).
