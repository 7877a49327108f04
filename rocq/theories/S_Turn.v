(** Specification vocabulary: layouts turned over (the axes exchanged). *)
From Verif Require Import Prelude M_LayoutData M_BitMatrix M_Converter S_Converter S_Zond S_EndToEnd.
Local Open Scope Z_scope.

(** The reflection that exchanges "to the right" and "downwards". *)
Definition turned (p : coord) : coord := mkcoord (- cy p) (- cx p).

(** An object turned over; the two corners of its bounding box change places. *)
Definition turned_geom (g : geom) : geom :=
  mkgeom (g_type g) (g_layer g) (map turned (g_coords g)) (turned (g_max g)) (turned (g_min g)) (g_class g).
Definition turned_item (o : option geom) : option geom := option_map turned_geom o.

(** The second matrix is the first one with rows and columns exchanged. *)
Definition transposed (a b : bm) : Prop :=
  GetRowCount b = GetColumnCount a /\ GetColumnCount b = GetRowCount a /\
  forall i j, (i < GetRowCount a)%nat -> (j < GetColumnCount a)%nat -> exists v, Get a i j = Ok v /\ Get b j i = Ok v.

(** If the object is a rectangle: the arithmetic of the code can deal with it, and its turned corners fit in 32 bits. *)
Definition turnable (mn mx : coord) (r c : nat) (g : geom) : Prop := g_type g = GTrectangle ->
  exists lt rb, corners g lt rb /\ coord32 (turned lt) /\ coord32 (turned rb) /\ manageable mn mx r c lt rb.

(** The other reflection: left and right exchanged. *)
Definition mirrored (p : coord) : coord := mkcoord (- cx p) (cy p).
Definition mirrored_rectangle (g : geom) : geom :=
  mkgeom (g_type g) (g_layer g)
    match map mirrored (g_coords g) with a :: b :: c :: d :: t => b :: a :: d :: c :: t | l => l end
    (mkcoord (- cx (g_max g)) (cy (g_min g))) (mkcoord (- cx (g_min g)) (cy (g_max g))) (g_class g).
