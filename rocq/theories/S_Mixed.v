(** Specification vocabulary: references of several sizes. *)
From Verif Require Import Prelude M_Double M_BitMatrix S_Matrix S_Ratio M_Hash S_Hash S_Library S_Damage.
Local Open Scope nat_scope.

(** The array A has as many rows and as many columns as Q. *)
Definition same_size (Q A : amat) : Prop := arows Q = arows A /\ acols Q = acols A.

(** Under one of these names there is an intact file with the array A. *)
Definition present (l : list (list byte * bm)) (d d' : disk) (names : list (list byte)) (A : amat) : Prop :=
  exists f m, In f names /\ intact d d' f /\ latest l f m /\ shows m A.
