(** Specification vocabulary for comparing layouts by their bitmaps. *)
From Verif Require Import Prelude M_LayoutData S_Converter M_Zond S_Zond S_Generator S_EndToEnd.
Local Open Scope Z_scope.

(** Everything moved by the vector v. *)
Definition moved (v p : coord) : coord := mkcoord (cx p + cx v) (cy p + cy v).
Definition moved_geom (v : coord) (g : geom) : geom :=
  mkgeom (g_type g) (g_layer g) (map (moved v) (g_coords g)) (moved v (g_min g)) (moved v (g_max g)) (g_class g).
Definition moved_item (v : coord) (o : option geom) : option geom := option_map (moved_geom v) o.

(** Two lists hold the same objects; the order, repetitions and null pointers do not matter. *)
Definition same_objects (a b : list (option geom)) : Prop := forall g, In (Some g) a <-> In (Some g) b.

(** A rectangle with respect to a box that is cut in r rows and c columns: it contains the box
    or ends a cell (and 2^-20 of it) short of one of its edges. *)
Definition decided (mn mx : coord) (r c : nat) (lt rb : coord) : Prop :=
  contains_ws lt rb (box_workspace mn mx) \/ leaves_a_cell mn mx r c lt rb.

(** Neither a path nor a reference. *)
Definition plain (o : option geom) : Prop :=
  match o with Some g => g_type g <> GTpath /\ g_type g <> GTreference | None => True end.
