(** Specification vocabulary: a copy that was given up half way. *)
From Verif Require Import Prelude M_BitMatrix S_Matrix.

(** A with its first k rows taken from B. *)
Definition rows_from (k : nat) (B A : amat) : amat :=
  mkamat (arows A) (acols A) (fun i j => if i <? k then acell B i j else acell A i j).

(** Every cell within the sizes the object reports can be read. *)
Definition readable (m : bm) : Prop :=
  forall i j, i < GetRowCount m -> j < GetColumnCount m -> exists v, Get m i j = Ok v.
