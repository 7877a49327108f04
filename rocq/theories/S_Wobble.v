(** Specification vocabulary: layouts that are drawn slightly differently. *)
From Coq Require Import Reals.
From Verif Require Import Prelude M_LayoutData M_Zond S_Zond S_Generator S_EndToEnd S_Degrade S_Exact.

(** A rectangle: its left-top and its right-bottom corner. *)
Notation rect := (coord * coord)%type.

(** Each edge of the rectangle q, measured in cells of its box, is at most d cells away from the same edge of q',
    measured in cells of its own box. *)
Definition off_by (d : R) (mn mx mn' mx' : coord) (r c : nat) (q q' : rect) : Prop :=
  (Rabs (columns mn mx c (cx (fst q)) - columns mn' mx' c (cx (fst q'))) <= d /\
   Rabs (columns mn mx c (cx (snd q)) - columns mn' mx' c (cx (snd q'))) <= d /\
   Rabs (rows mn mx r (cy (fst q)) - rows mn' mx' r (cy (fst q'))) <= d /\
   Rabs (rows mn mx r (cy (snd q)) - rows mn' mx' r (cy (snd q'))) <= d)%R.

(** The rectangles two layouts draw, side by side: every rectangle of either has its partner, at most d cells off. *)
Definition drawn_alike (d : R) (heap heap' : list element) (mn mx mn' mx' : coord) (r c : nat)
    (items items' : list (option geom)) (pairs : list (rect * rect)) : Prop :=
  (forall lt rb, draws heap mn mx items lt rb <-> exists q', In ((lt, rb), q') pairs) /\
  (forall lt rb, draws heap' mn' mx' items' lt rb <-> exists q, In (q, (lt, rb)) pairs) /\
  (forall q q', In (q, q') pairs -> off_by d mn mx mn' mx' r c q q').

(** An upper bound for the number of cells along the edges of a rectangle: four cells and four times the
    inaccuracy thick, as long as half of the circumference (and the corners). *)
Definition seam (d : R) (mn mx : coord) (r c : nat) (q : rect) : R :=
  ((4 + 4 * d + 4 * margin) * (width mn mx c (fst q) (snd q) + height mn mx r (fst q) (snd q) + 6 + 4 * d + 4 * margin))%R.

(** Every drawn rectangle has its two corners and begins inside the box. *)
Definition drawable (heap : list element) (mn mx : coord) (r c : nat) (items : list (option geom)) : Prop :=
  forall item s, In (Some item) items -> to_draw heap (box_workspace mn mx) item s -> g_type s = GTrectangle ->
    exists lt rb, corners s lt rb /\ manageable mn mx r c lt rb /\ starts_inside mn mx lt.
