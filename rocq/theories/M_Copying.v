(** Model of the copies of src/Common/Impl/BitMatrix/BitMatrix.cpp and src/Common/Impl/LayoutMatrix/LayoutMatrix.cpp when
    memory runs out in the middle.  M_BitMatrix and M_LayoutCore have the same functions with enough memory. *)
From Verif Require Import Prelude M_Vector2D M_BitMatrix M_LayoutCore.

(** What the heap does while the vector of rows of one matrix is assigned to the vector of rows of another: there is enough, or
    it refuses the request made after k rows have been replaced.  How often the library asks depends on the capacities of the
    vectors: any k is possible that is within both vectors; if the library builds the new rows aside first, k = 0.
    Vector2D.cpp:38-43 *)
Inductive heap_while_copying := Enough | RefusesAfter (k : nat).

(** k rows of [old] can have been replaced by rows of [new].  Vector2D.cpp:38-43 *)
Definition possible (h : heap_while_copying) (old new : list (list byte)) : Prop :=
  match h with Enough => True | RefusesAfter k => k <= length old /\ k < length new end.

(** Vector2D.cpp:38-43  operator=(const Vector2D&): the vector afterwards and the outcome.  std::vector promises no more than
    that the vector is still a vector; libstdc++ and libc++ replace the rows in order. *)
Definition V_assign_in (h : heap_while_copying) (old new : list (list byte)) : list (list byte) * res unit :=
  match h with
  | Enough => (V_copy new, Ok tt)
  | RefusesAfter k => (firstn k new ++ skipn k old, Throw BadAlloc)
  end.

(** BitMatrix.cpp:71-82  operator=(const BitMatrix&), from another object: the rows first, then the sizes. *)
Definition BM_assign_in (h : heap_while_copying) (self Rhs : bm) : bm * res unit :=
  match V_assign_in h (Bitmap self) (Bitmap Rhs) with
  | (d, Ok _) => (mkbm d (Isize Rhs) (Jsize Rhs), Ok tt)
  | (d, Throw e) => (mkbm d (Isize self) (Jsize self), Throw e)
  | (d, UB u) => (mkbm d (Isize self) (Jsize self), UB u)
  end.

(** BitMatrix.cpp:18-32  BitMatrix(const BitMatrix&): the new object has no rows; what is thrown is caught, and Reset. *)
Definition BM_copy_in (h : heap_while_copying) (Rhs : bm) : bm :=
  match V_assign_in h [] (Bitmap Rhs) with
  | (d, Ok _) => mkbm d (Isize Rhs) (Jsize Rhs)
  | _ => bm_empty
  end.

(** LayoutMatrix.cpp:79-93 and :95-109  operator=(const BitMatrix&), operator=(const LayoutMatrix&), from another object: Reset,
    the sizes, then the rows. *)
Definition LM_assign_in (h : heap_while_copying) (self m : bm) : bm * res unit :=
  let r := BM_Reset self in
  let (d, o) := V_assign_in h (Bitmap r) (Bitmap m) in
  (mkbm d (Isize m) (Jsize m), o).

(** A noexcept function: what it gives, or nothing: an exception that would leave it ends the program (std::terminate).
    LayoutMatrix.cpp:62-68, :70-75 *)
Definition or_terminates {A} (o : res unit) (x : A) : option A := match o with Ok _ => Some x | _ => None end.

(** LayoutMatrix.cpp:62-68  LayoutMatrix(LayoutMatrix&&) noexcept: copies.  (new object, source afterwards) *)
Definition LM_move_in (h : heap_while_copying) (m : bm) : option (bm * bm) :=
  let (d, o) := V_assign_in h [] (Bitmap m) in or_terminates o (mkbm d (Isize m) (Jsize m), m).

(** LayoutMatrix.cpp:70-75  LayoutMatrix(BitMatrix&&) noexcept: copies the rows and one of the sizes. *)
Definition LM_of_BM_move_in (h : heap_while_copying) (m : bm) : option (bm * bm) :=
  let (d, o) := V_assign_in h [] (Bitmap m) in or_terminates o (mkbm d (Isize m) 0, m).

(** LayoutMatrix.cpp:111-122  operator=(BitMatrix&&) noexcept, from another object; [left] as in M_LayoutCore. *)
Definition LM_move_assign_BM_in (h : heap_while_copying) (left : list (list byte)) (self m : bm) : option (bm * bm) :=
  let (d, o) := V_assign_in h (Bitmap (BM_Reset self)) (Bitmap m) in
  or_terminates o (mkbm d (Isize m) (Jsize m), mkbm left (Isize m) (Jsize m)).
