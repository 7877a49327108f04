(** Specification vocabulary: MSK files with slightly different numbers. *)
From Coq Require Import Reals.
From Verif Require Import Prelude M_LayoutData M_Msk S_Msk S_EndToEnd S_Degrade S_MskBitmap S_Wobble.
Local Open Scope Z_scope.

(** Two rectangles, every coordinate at most k units apart. *)
Definition nudged (k : Z) (a b : coord * coord) : Prop :=
  Z.abs (cx (fst a) - cx (fst b)) <= k /\ Z.abs (cy (fst a) - cy (fst b)) <= k /\
  Z.abs (cx (snd a) - cx (snd b)) <= k /\ Z.abs (cy (snd a) - cy (snd b)) <= k.

(** The rectangles on layer n, in the order of the file, with their left-top and right-bottom corners. *)
Definition on_layer (n : Z) (l : list (Z * coord * coord)) : list (coord * coord) :=
  flat_map (fun a => let '(n', p, q) := a in if n' =? n then [(left_top p q, right_bottom p q)] else []) l.

(** In a box of r rows and c columns k units are at most d cells. *)
Definition at_most_cells (k : Z) (d : R) (mn mx : coord) (r c : nat) : Prop :=
  (0 <= d /\ IZR k * INR c <= d * IZR (cx mx - cx mn) /\ IZR k * INR r <= d * IZR (cy mx - cy mn))%R.

(** Every rectangle on layer n can be drawn: it meets the box and does not begin left of or above it. *)
Definition all_drawable (mn mx : coord) (r c : nat) (n : Z) (l : list (Z * coord * coord)) : Prop :=
  forall p q, In (n, p, q) l -> meets mn mx p q /\ manageable mn mx r c (left_top p q) (right_bottom p q) /\ starts_inside mn mx (left_top p q).
