(** Specification vocabulary for the way from an MSK file to a bitmap. *)
From Coq Require Import Reals.
From Verif Require Import Prelude M_LayoutData S_Converter M_Zond S_Zond S_Generator S_EndToEnd M_Msk.
Local Open Scope Z_scope.

(** The corners of the rectangle with the left-bottom corner p and the right-top corner q. *)
Definition left_top (p q : coord) : coord := mkcoord (cx p) (cy q).
Definition right_bottom (p q : coord) : coord := mkcoord (cx q) (cy p).

(** It has a point in common with the box from mn to mx (its corners may be in any order). *)
Definition meets (mn mx p q : coord) : Prop :=
  exists x y, cx mn <= x <= cx mx /\ cy mn <= y <= cy mx /\
    (cx p <= x <= cx q \/ cx q <= x <= cx p) /\ (cy p <= y <= cy q \/ cy q <= y <= cy p).

(** A layout as the user makes it. *)
Definition no_layout : layout_data := mkdata [] [] FFundefined.
