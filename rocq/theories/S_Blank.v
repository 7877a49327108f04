(** Specification vocabulary for blank bitmaps. *)
From Verif Require Import Prelude M_LayoutData M_Zond S_Generator M_Gdsii.
Local Open Scope Z_scope.

(** The library object that the GDSII reader leaves behind, as the generator sees it: its layers
    bear the numbers of the list, and no geometries (GdsiiBinaryReader.cpp never stores any in a
    layer: they stay in the elements). *)
Definition from_gdsii (b : glib) (lib : library) : Prop :=
  Forall2 (fun y l => l_layer l = y_layer y /\ l_geometries l = []) (b_layers b) (lib_layers lib).

(** The differences of the coordinates of the box, as the code computes them, are 32-bit
    numbers. *)
Definition sides_fit (mn mx : coord) : Prop := int32 (cx mx - cx mn) /\ int32 (cy mn - cy mx).
