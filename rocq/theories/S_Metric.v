(** Specification vocabulary for chains of matrices and opposite arrays. *)
From Verif Require Import Prelude S_Matrix.

(** every cell the other way round *)
Definition opposite (A : amat) : amat := mkamat (arows A) (acols A) (fun i j => negb (acell A i j)).

(** [x0; x1; ...; xk]: R holds between each and the next *)
Fixpoint chain {A} (R : A -> A -> Prop) (x : A) (l : list A) : Prop :=
  match l with
  | [] => True
  | y :: t => R x y /\ chain R y t
  end.
