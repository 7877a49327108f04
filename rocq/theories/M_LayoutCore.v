(** Model of the special members of class LayoutMatrix (src/Common/Impl/LayoutMatrix/
    LayoutMatrix.cpp:57-131, Include/LayoutMatrix.h).  A LayoutMatrix is a BitMatrix with no
    further data.  Memory is available for the copies made by the assignment operators (an
    allocation failure, which inside the [noexcept] ones terminates the program: M_Copying). *)
From Verif Require Import Prelude M_Vector2D M_BitMatrix.

(** LayoutMatrix.h:82-93  LayoutMatrix(), LayoutMatrix(RowCnt, ColCnt) *)
Definition LM_ctor : allocator -> nat -> nat -> bm := BM_ctor.

(** LayoutMatrix.h:101-102  LayoutMatrix(const BitMatrix&) *)
Definition LM_of_BM_copy : allocator -> bm -> bm := BM_copy.

(** LayoutMatrix.cpp:62-68  LayoutMatrix(LayoutMatrix&&): copies; the source is unchanged.
    (new object, source afterwards) *)
Definition LM_move (m : bm) : bm * bm := (mkbm (V_copy (Bitmap m)) (Isize m) (Jsize m), m).

(** LayoutMatrix.cpp:70-75  LayoutMatrix(BitMatrix&&): Jsize keeps its member initialiser 0. *)
Definition LM_of_BM_move (m : bm) : bm * bm := (mkbm (V_copy (Bitmap m)) (Isize m) 0, m).

(** LayoutMatrix.cpp:80-93 and :95-109  copy assignment from a different object *)
Definition LM_assign (self m : bm) : bm := mkbm (V_copy (Bitmap m)) (Isize m) (Jsize m).

(** LayoutMatrix.cpp:111-122  operator=(BitMatrix&&) from a different object: copies, then
    moves matrix.Bitmap onto itself (:118, a std::vector self-move: [left] is whatever the
    library leaves there).  (target, source) *)
Definition LM_move_assign_BM (left : list (list byte)) (self m : bm) : bm * bm :=
  (mkbm (V_copy (Bitmap m)) (Isize m) (Jsize m), mkbm left (Isize m) (Jsize m)).

(** LayoutMatrix.cpp:124-131  operator=(LayoutMatrix&&) from a different object *)
Definition LM_move_assign (self m : bm) : bm * bm :=
  let (d, rest) := V_move (Bitmap m) in
  (mkbm d (Isize m) (Jsize m), mkbm rest (Isize m) (Jsize m)).

(** LayoutMatrix.cpp:111-122 and :124-131 when the argument is the object itself (there is no test for
    that, unlike :83 and :98): Reset comes first, so what is then copied or moved is an empty vector and
    two zero sizes. *)
Definition LM_self_move_assign (self : bm) : bm :=
  let r := BM_Reset self in
  mkbm (fst (V_move (Bitmap r))) (Isize r) (Jsize r).

(** LayoutMatrix.h:225-226  operator!: converts *this to a BitMatrix by copy, so an
    allocation failure (caught in the copy constructor) makes the object look empty. *)
Definition LM_not (al : allocator) (m : bm) : bool := BM_not (BM_copy al m).
