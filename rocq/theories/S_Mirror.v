(** Specification vocabulary: mirror images and quarter turns of rectangles, of layouts and of bitmaps. *)
From Coq Require Import Reals.
From Verif Require Import Prelude M_LayoutData S_Matrix S_EndToEnd S_Exact S_Wobble S_Nudge S_Turn.
Local Open Scope Z_scope.

(** The mirror image of a rectangle within the box from mn to mx: left and right exchanged if fx, top and bottom
    exchanged if fy (both: turned by 180 degrees).  Given, as always, by its left-top and its right-bottom corner. *)
Definition reflected (fx fy : bool) (mn mx : coord) (q : rect) : rect :=
  let x a := cx mn + cx mx - a in
  let y a := cy mn + cy mx - a in
  (mkcoord (if fx then x (cx (snd q)) else cx (fst q)) (if fy then y (cy (snd q)) else cy (fst q)),
   mkcoord (if fx then x (cx (fst q)) else cx (snd q)) (if fy then y (cy (fst q)) else cy (snd q))).

(** The eight ways to lay a sheet on a square table: if t the axes are exchanged ((x,y) goes to (-y,-x), as in S_Turn),
    then left and right, top and bottom.  t together with one of fx and fy is a turn by 90 degrees. *)
Record symmetry := mksym { axes : bool; left_right : bool; top_bottom : bool }.

(** The box, its lower left and its upper right corner; and a rectangle in the box. *)
Definition image_min (s : symmetry) (mn mx : coord) : coord := if axes s then turned mx else mn.
Definition image_max (s : symmetry) (mn mx : coord) : coord := if axes s then turned mn else mx.
Definition image_rect (s : symmetry) (mn mx : coord) (q : rect) : rect :=
  reflected (left_right s) (top_bottom s) (image_min s mn mx) (image_max s mn mx)
    (if axes s then (turned (fst q), turned (snd q)) else q).

(** An array of cells. *)
Definition opposite (f : bool) (n k : nat) : nat := if f then (n - 1 - k)%nat else k.
Definition mirror (fx fy : bool) (A : amat) : amat :=
  mkamat (arows A) (acols A) (fun i j => acell A (opposite fy (arows A) i) (opposite fx (acols A) j)).
Definition across (A : amat) : amat := mkamat (acols A) (arows A) (fun i j => acell A j i).
Definition image_cells (s : symmetry) (A : amat) : amat :=
  mirror (left_right s) (top_bottom s) (if axes s then across A else A).

(** How many rows and columns a sheet has whose image has r rows and c columns. *)
Definition sheet_rows (s : symmetry) (r c : nat) : nat := if axes s then c else r.
Definition sheet_columns (s : symmetry) (r c : nat) : nat := if axes s then r else c.

(** The rectangles two layouts draw, side by side: every rectangle of either has its partner, and is at most d cells off
    the partner's image. *)
Definition drawn_as_image (s : symmetry) (d : R) (heap heap' : list element) (mn mx mn' mx' : coord) (r c : nat)
    (items items' : list (option geom)) (pairs : list (rect * rect)) : Prop :=
  (forall lt rb, draws heap mn mx items lt rb <-> exists q', In ((lt, rb), q') pairs) /\
  (forall lt rb, draws heap' mn' mx' items' lt rb <-> exists q, In (q, (lt, rb)) pairs) /\
  (forall q q', In (q, q') pairs -> off_by d mn mx (image_min s mn' mx') (image_max s mn' mx') r c q (image_rect s mn' mx' q')).

(** A point of the box, and when it lies in a rectangle. *)
Definition image_point (s : symmetry) (mn mx p : coord) : coord :=
  let a := if axes s then turned p else p in
  mkcoord (if left_right s then cx (image_min s mn mx) + cx (image_max s mn mx) - cx a else cx a)
          (if top_bottom s then cy (image_min s mn mx) + cy (image_max s mn mx) - cy a else cy a).
Definition in_rect (p : coord) (q : rect) : Prop := cx (fst q) <= cx p <= cx (snd q) /\ cy (snd q) <= cy p <= cy (fst q).
