(** Model of src/Common/Impl/Vector2D/Vector2D.cpp (class template Vector2D<T>).
    The object is its only member [data], a vector of rows. *)
From Verif Require Import Prelude.

(** What the heap does during one Resize(r,c): every allocation succeeds, the row table
    cannot be allocated, or row [i] cannot be allocated.  std::bad_alloc and
    std::length_error (both std::exception) are not distinguished: [BadAlloc].
    Vector2D.cpp:57-67 *)
Inductive alloc_result := AllocOk | AllocFailOuter | AllocFailRow (i : nat).

(** An allocator answers for every requested shape.  Vector2D.cpp:57-67 *)
Definition allocator := nat -> nat -> alloc_result.

(** A heap that never fails.  Vector2D.cpp:57-67 *)
Definition infinite_memory : allocator := fun _ _ => AllocOk.

Section V2D.
Context {T : Type} (dflt : T).

(** Vector2D.cpp:57-67  Resize: clear, resize(RowCnt), then resize every row (elements are
    value-initialised).  The object left behind by an exception is returned too. *)
Definition V_Resize (al : allocator) (RowCnt ColCnt : nat) : list (list T) * res unit :=
  match al RowCnt ColCnt with
  | AllocOk => (repeat (repeat dflt ColCnt) RowCnt, Ok tt)
  | AllocFailOuter => ([], Throw BadAlloc)
  | AllocFailRow i =>
      if i <? RowCnt
      then (repeat (repeat dflt ColCnt) i ++ repeat [] (RowCnt - i), Throw BadAlloc)
      else (repeat (repeat dflt ColCnt) RowCnt, Ok tt)
  end.

(** Vector2D.cpp:98-103  IsIndexValid *)
Definition V_IsIndexValid (Index : nat) : bool :=
  if ((0 =? Index) || (5000 <? Index))%nat then false else true.

(** Vector2D.cpp:11-18  Vector2D(RowCnt, ColCnt) *)
Definition V_ctor (al : allocator) (RowCnt ColCnt : nat) : res (list (list T)) :=
  if negb (V_IsIndexValid RowCnt) || negb (V_IsIndexValid ColCnt) then Ok []
  else match V_Resize al RowCnt ColCnt with
       | (d, Ok _) => Ok d
       | (_, Throw e) => Throw e
       | (_, UB u) => UB u
       end.

(** Vector2D.cpp:72-80 and :84-92  At (const and non-const) *)
Definition V_At (data : list (list T)) (Row Col : nat) : res T :=
  if length data <=? Row then Throw InvalidArgument
  else let* r := at_ data Row in
       if length r <=? Col then Throw InvalidArgument else at_ r Col.

(** Assignment through the reference returned by the non-const At, Vector2D.cpp:84-92 *)
Definition V_AtPut (data : list (list T)) (Row Col : nat) (x : T) : res (list (list T)) :=
  let* _ := V_At data Row Col in
  let* r := at_ data Row in
  let* r' := put_ r Col x in
  put_ data Row r'.

(** Vector2D.cpp:109-112 *)
Definition V_RowCount (data : list (list T)) : nat := length data.

(** Vector2D.cpp:118-122  data[0].size(), unchecked *)
Definition V_ColCount (data : list (list T)) : res nat :=
  let* r := at_ data 0 in Ok (length r).

(** Vector2D.cpp:145-155  CheckParameters.  The loop over i reads only data[i].size(). *)
Definition V_CheckParameters (data : list (list T)) : bool :=
  match data with
  | [] => false
  | r0 :: _ => forallb (fun r => negb ((0 =? length r) || negb (length r0 =? length r))) data
  end.

(** Vector2D.cpp:127-130  operator! *)
Definition V_not (data : list (list T)) : bool := negb (V_CheckParameters data).

(** Vector2D.cpp:135-139 *)
Definition V_Reset (data : list (list T)) : list (list T) :=
  match data with [] => data | _ => [] end.

(** Vector2D.cpp:30-34 and :47-52  move: the new object and what is left of the source
    (an empty vector, as every standard library leaves it). *)
Definition V_move (rhs : list (list T)) : list (list T) * list (list T) := (rhs, []).

(** Vector2D.cpp:22-26 and :38-43  copy (memory available). *)
Definition V_copy (rhs : list (list T)) : list (list T) := rhs.
End V2D.
