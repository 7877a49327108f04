(** Specification vocabulary for small differences between two layouts. *)
From Coq Require Import Reals.
From Verif Require Import Prelude M_LayoutData S_Matrix M_Zond S_Zond S_Generator S_EndToEnd.

(** The sides of the rectangle with left-top corner lt and right-bottom corner rb, measured in
    cells of the box cut into r rows and c columns. *)
Definition width (mn mx : coord) (c : nat) (lt rb : coord) : R := (columns mn mx c (cx rb) - columns mn mx c (cx lt))%R.
Definition height (mn mx : coord) (r : nat) (lt rb : coord) : R := (rows mn mx r (cy rb) - rows mn mx r (cy lt))%R.

(** The area, in cells, of the rectangle with a rim of three half cells (and the margin) all
    around. *)
Definition area_with_rim (mn mx : coord) (r c : nat) (q : coord * coord) : R :=
  ((width mn mx c (fst q) (snd q) + 3 + 2 * margin) * (height mn mx r (fst q) (snd q) + 3 + 2 * margin))%R.

(** The area of the rectangle without a rim of half a cell (and the margin) all around. *)
Definition area_without_rim (mn mx : coord) (r c : nat) (q : coord * coord) : R :=
  ((width mn mx c (fst q) (snd q) - 1 - 2 * margin) * (height mn mx r (fst q) (snd q) - 1 - 2 * margin))%R.

Definition total (l : list R) : R := fold_right Rplus 0%R l.

(** All objects of [items] are among [items'], and what the others draw are rectangles from the
    list [rects] that begin inside the box. *)
Definition adds_rectangles (heap : list element) (mn mx : coord) (r c : nat)
    (items items' : list (option geom)) (rects : list (coord * coord)) : Prop :=
  (forall g, In (Some g) items -> In (Some g) items') /\
  (forall item s, In (Some item) items' -> ~ In (Some item) items ->
     to_draw heap (box_workspace mn mx) item s -> g_type s = GTrectangle ->
     exists lt rb, corners s lt rb /\ In (lt, rb) rects /\ manageable mn mx r c lt rb /\ starts_inside mn mx lt).

(** The rectangle lies in the box. *)
Definition inside_box (mn mx lt rb : coord) : Prop :=
  (cx mn <= cx lt /\ cx lt <= cx rb /\ cx rb <= cx mx /\ cy mn <= cy rb /\ cy rb <= cy lt /\ cy lt <= cy mx)%Z.
