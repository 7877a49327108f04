(** Specification vocabulary: exactly which cells a rectangle marks, in terms of the places of
    its edges measured in cells. *)
From Coq Require Import Reals.
From Flocq Require Import Core.
From Verif Require Import Prelude M_LayoutData M_Zond S_Zond S_Generator S_EndToEnd.

(** A line of n cells and a segment from [from] to [to], measured in cells.  Cell k is marked
    when the segment begins at or before its centre and ends at or after it - or when the cell
    is overshot (see S_Zond). *)
Definition marked (n : nat) (from to : R) (k : nat) : Prop :=
  (from <= INR k + 1 / 2)%R /\ ((INR k + 1 / 2 <= to)%R \/ overshot from to (Z.of_nat n) (Z.of_nat k)).

(** At least a 1024th of a cell away from all cell borders and centres. *)
Definition clear_of_halves (p : R) : Prop := forall k : Z, (/ IZR (2 ^ 10) <= Rabs (p - IZR k / 2))%R.

(** The side of the box is cut into n cells of a whole number of units (at most 2^18). *)
Definition whole_cells (side : Z) (n : nat) : Prop := exists q, (side = q * Z.of_nat n /\ 1 <= q <= 2 ^ 18)%Z.

(** An edge at distance d from the beginning of a side that is cut into n cells: its place can
    be told from the cell borders and centres. *)
Definition sharp (side : Z) (n : nat) (d : Z) : Prop :=
  whole_cells side n \/ d = 0%Z \/ (side <= d)%Z \/ clear_of_halves (IZR d * INR n / IZR side).

(** All four edges of the rectangle. *)
Definition sharp_edges (mn mx : coord) (r c : nat) (lt rb : coord) : Prop :=
  sharp (cx mx - cx mn) c (cx lt - cx mn) /\ sharp (cx mx - cx mn) c (cx rb - cx mn) /\
  sharp (cy mx - cy mn) r (cy mx - cy lt) /\ sharp (cy mx - cy mn) r (cy mx - cy rb).

(** Cell (i,j) is marked by the rectangle. *)
Definition marks (mn mx : coord) (r c : nat) (lt rb : coord) (i j : nat) : Prop :=
  marked r (rows mn mx r (cy lt)) (rows mn mx r (cy rb)) i /\
  marked c (columns mn mx c (cx lt)) (columns mn mx c (cx rb)) j.

(** The rectangles that are drawn for the candidates [items] in the box. *)
Definition draws (heap : list element) (mn mx : coord) (items : list (option geom)) (lt rb : coord) : Prop :=
  exists item s, In (Some item) items /\ to_draw heap (box_workspace mn mx) item s /\ g_type s = GTrectangle /\ corners s lt rb.

(** Every drawn rectangle has its two corners, begins inside the box, and has sharp edges. *)
Definition tidy (heap : list element) (mn mx : coord) (r c : nat) (items : list (option geom)) : Prop :=
  forall item s, In (Some item) items -> to_draw heap (box_workspace mn mx) item s -> g_type s = GTrectangle ->
    exists lt rb, corners s lt rb /\ manageable mn mx r c lt rb /\ starts_inside mn mx lt /\ sharp_edges mn mx r c lt rb.

(** Every rectangle of the first layout lies, measured in cells of its box, where some rectangle
    of the second lies in its box. *)
Definition same_places (r c : nat) (mn mx : coord) (R : coord -> coord -> Prop) (mn' mx' : coord) (R' : coord -> coord -> Prop) : Prop :=
  forall lt rb, R lt rb -> exists lt' rb', R' lt' rb' /\
    columns mn mx c (cx lt) = columns mn' mx' c (cx lt') /\ columns mn mx c (cx rb) = columns mn' mx' c (cx rb') /\
    rows mn mx r (cy lt) = rows mn' mx' r (cy lt') /\ rows mn mx r (cy rb) = rows mn' mx' r (cy rb').

(** Everything k times as large. *)
Definition scaled (k : Z) (p : coord) : coord := mkcoord (k * cx p) (k * cy p).
Definition scaled_geom (k : Z) (g : geom) : geom :=
  mkgeom (g_type g) (g_layer g) (map (scaled k) (g_coords g)) (scaled k (g_min g)) (scaled k (g_max g)) (g_class g).
Definition scaled_item (k : Z) (o : option geom) : option geom := option_map (scaled_geom k) o.
