(** Specification vocabulary for matrices: an abstract r x c array of booleans, and when a
    BitMatrix object shows it to its callers.  Uses the model only through its public
    operations (Get, GetRowCount, GetColumnCount) and the class's members. *)
From Verif Require Import Prelude M_Vector2D M_BitMatrix.

(** An abstract array: only cells (i,j) with i < rows, j < cols matter. *)
Record amat := mkamat { arows : nat; acols : nat; acell : nat -> nat -> bool }.

Definition cdiv8 (n : nat) : nat := (n + 7) / 8.

(** The class invariant every live object should have: Isize rows of ceil(Jsize/8) bytes. *)
Definition healthy (m : bm) : Prop :=
  length (Bitmap m) = Isize m /\
  Forall (fun row => length row = cdiv8 (Jsize m)) (Bitmap m).

(** [shows m A]: the object is healthy, reports A's sizes, and Get returns A's cells. *)
Definition shows (m : bm) (A : amat) : Prop :=
  healthy m /\ GetRowCount m = arows A /\ GetColumnCount m = acols A /\
  forall i j, i < arows A -> j < acols A -> Get m i j = Ok (acell A i j).

(** Equality of abstract arrays as a caller sees them. *)
Definition asame (A B : amat) : Prop :=
  arows A = arows B /\ acols A = acols B /\
  forall i j, i < arows A -> j < acols A -> acell A i j = acell B i j.

Definition azero (r c : nat) : amat := mkamat r c (fun _ _ => false).
Definition afill (A : amat) (v : bool) : amat := mkamat (arows A) (acols A) (fun _ _ => v).

(** one cell *)
Definition aset (A : amat) (i j : nat) (v : bool) : amat :=
  mkamat (arows A) (acols A) (fun a b => if (a =? i) && (b =? j) then v else acell A a b).

(** the inclusive rectangle i0..i1 x j0..j1 *)
Definition aset_range (A : amat) (i0 j0 i1 j1 : nat) (v : bool) : amat :=
  mkamat (arows A) (acols A)
    (fun a b => if (i0 <=? a) && (a <=? i1) && (j0 <=? b) && (b <=? j1) then v else acell A a b).

(** eight columns of row i from column 8*jb, most significant bit first *)
Definition aset_byte (A : amat) (i jb : nat) (x : byte) : amat :=
  mkamat (arows A) (acols A)
    (fun a b => if (a =? i) && (b / 8 =? jb)
                then Z.testbit (b2z x) (7 - Z.of_nat (b mod 8)) else acell A a b).

Definition axor (A B : amat) : amat :=
  mkamat (arows A) (acols A) (fun i j => xorb (acell A i j) (acell B i j)).

(** the bits of an array in row-major order *)
Definition abits (A : amat) : list bool :=
  flat_map (fun i => map (fun j => acell A i j) (seq 0 (acols A))) (seq 0 (arows A)).

Definition nonempty (A : amat) : Prop := 0 < arows A /\ 0 < acols A.

(** The heap can / cannot provide an r x c bit matrix. *)
Definition memory_ok (al : allocator) (r c : nat) : Prop := al r (cdiv8 c) = AllocOk.
Definition out_of_memory (al : allocator) (r c : nat) : Prop :=
  al r (cdiv8 c) = AllocFailOuter \/ exists i, i < r /\ al r (cdiv8 c) = AllocFailRow i.
