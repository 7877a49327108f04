(** Model of src/Common/Impl/BitMatrix/BitMatrix.cpp (the ratio and comparison functions,
    which compute with doubles, are in M_Ratio.v). *)
From Verif Require Import Prelude M_ByteHandler M_Vector2D.

(** Include/BitMatrix.h: the three members.  Isize and Jsize are size_t; they are [nat]
    here and only converted to wrapping arithmetic where the code lets them wrap. *)
Record bm := mkbm { Bitmap : list (list byte); Isize : nat; Jsize : nat }.

(** g_bitsInByte, Include/ByteHandler.h *)
Definition bitsInByte : nat := 8.

(** Default-constructed object: no rows, both sizes 0 (member initialisers).  BitMatrix.h:34 *)
Definition bm_empty : bm := mkbm [] 0 0.

(** BitMatrix.cpp:521-526  Reset *)
Definition BM_Reset (m : bm) : bm := mkbm (V_Reset (Bitmap m)) 0 0.

(** BitMatrix.cpp:43 and :389: bytes per row *)
Definition colBytes (J : nat) : nat :=
  if J mod bitsInByte =? 0 then J / bitsInByte else J / bitsInByte + 1.

(** BitMatrix.cpp:35-52  BitMatrix(RowCnt, ColCnt): an allocation failure is caught and
    the object reset. *)
Definition BM_ctor (al : allocator) (RowCnt ColCnt : nat) : bm :=
  match V_Resize x00 al RowCnt (colBytes ColCnt) with
  | (d, Ok _) => mkbm d RowCnt ColCnt
  | (d, _) => BM_Reset (mkbm d RowCnt ColCnt)
  end.

(** BitMatrix.cpp:18-32  copy constructor; allocation failure is caught. *)
Definition BM_copy (al : allocator) (Rhs : bm) : bm :=
  match al (length (Bitmap Rhs)) (colBytes (Jsize Rhs)) with
  | AllocOk => mkbm (V_copy (Bitmap Rhs)) (Isize Rhs) (Jsize Rhs)
  | _ => bm_empty
  end.

(** BitMatrix.cpp:72-82  copy assignment, memory available (M_Copying: an allocation
    failure propagates). *)
Definition BM_assign (self Rhs : bm) : bm := mkbm (V_copy (Bitmap Rhs)) (Isize Rhs) (Jsize Rhs).

(** BitMatrix.cpp:55-61  move constructor: (new object, source afterwards).  The source's
    Isize and Jsize are not touched. *)
Definition BM_move (Rhs : bm) : bm * bm :=
  let (d, rest) := V_move (Bitmap Rhs) in
  (mkbm d (Isize Rhs) (Jsize Rhs), mkbm rest (Isize Rhs) (Jsize Rhs)).

(** BitMatrix.cpp:86-93  move assignment from a different object: (target, source) *)
Definition BM_move_assign (self Rhs : bm) : bm * bm :=
  let (d, rest) := V_move (Bitmap Rhs) in
  (mkbm d (Isize Rhs) (Jsize Rhs), mkbm rest (Isize Rhs) (Jsize Rhs)).

(** BitMatrix.cpp:86-93  move assignment of an object to itself: std::vector is moved onto itself; [left] is
    whatever the library leaves there (libstdc++: nothing). *)
Definition BM_self_move_assign (left : list (list byte)) (self : bm) : bm := mkbm left (Isize self) (Jsize self).

(** BitMatrix.cpp:136-141  operator! *)
Definition BM_not (m : bm) : bool :=
  if V_not (Bitmap m) then true
  else if ((0 =? Isize m) || (0 =? Jsize m))%nat then true else false.

(** BitMatrix.cpp:168-178 *)
Definition GetRowCount (m : bm) : nat := Isize m.
(** BitMatrix.cpp:174-178 *)
Definition GetColumnCount (m : bm) : nat := Jsize m.

(** Bitmap[i][j], unchecked (Vector2D operator[] then std::vector operator[]).
    BitMatrix.cpp:110, :155, :164 *)
Definition cell_ (m : bm) (i j : nat) : res byte :=
  let* r := at_ (Bitmap m) i in at_ r j.

(** Bitmap[i][j] = b, unchecked.  BitMatrix.cpp:195, :207, :219, :223, :236, :240 *)
Definition put_cell_ (m : bm) (i j : nat) (b : byte) : res bm :=
  let* r := at_ (Bitmap m) i in
  let* r' := put_ r j b in
  let* d := put_ (Bitmap m) i r' in
  Ok (mkbm d (Isize m) (Jsize m)).

(** BitMatrix.cpp:145-156  Get *)
Definition Get (m : bm) (i j : nat) : res bool :=
  if (Isize m <=? i) || (Jsize m <=? j) then Throw RuntimeError
  else let* b := cell_ m i (j / bitsInByte) in
       GetBit b (bitsInByte - 1 - j mod bitsInByte).

(** BitMatrix.cpp:160-165  UnsafeGet: static_cast<bool> of the shifted masked byte. *)
Definition UnsafeGet (m : bm) (i j : nat) : res bool :=
  let* b := cell_ m i (j / bitsInByte) in
  let p := bitsInByte - 1 - j mod bitsInByte in
  Ok (negb (Z.shiftr (Z.land (b2z b) (BIT p)) (Z.of_nat p) =? 0)%Z).

(** BitMatrix.cpp:183-196  Set *)
Definition Set_ (m : bm) (i j : nat) (Value : bool) : res bm :=
  if (Isize m <=? i) || (Jsize m <=? j) then Throw RuntimeError
  else let* b := cell_ m i (j / bitsInByte) in
       let* b' := SetBit b (bitsInByte - 1 - j mod bitsInByte) Value in
       put_cell_ m i (j / bitsInByte) b'.

(** BitMatrix.cpp:200-208  SetByte.  ColCount() is evaluated only when the row exists. *)
Definition SetByte (m : bm) (iBytePos jBytePos : nat) (Value : byte) : res bm :=
  if V_RowCount (Bitmap m) <=? iBytePos then Throw InvalidArgument
  else let* cc := V_ColCount (Bitmap m) in
       if cc <? jBytePos then Throw InvalidArgument
       else put_cell_ m iBytePos jBytePos Value.

(** BitMatrix.cpp:212-225  UnsafeSet *)
Definition UnsafeSet (m : bm) (i j : nat) (Value : bool) : res bm :=
  let* b := cell_ m i (j / bitsInByte) in
  let p := bitsInByte - 1 - j mod bitsInByte in
  put_cell_ m i (j / bitsInByte)
    (if Value then z2b (Z.lor (b2z b) (BIT p)) else z2b (Z.land (b2z b) (nBIT p))).

(** BitMatrix.cpp:229-242  UnsafeSetByte *)
Definition UnsafeSetByte (m : bm) (i j : nat) (value : bool) : res bm :=
  put_cell_ m i j (if value then xff else x00).

(** BitMatrix.cpp:246-263  SetRange.  The arguments are size_t values ([Z], 0 <= z < 2^64).
    The loops run from start to end inclusive; a loop whose end is 2^64-1 would not stop,
    but the checks let it through only if Isize (Jsize) is 2^64-1, which no object has. *)
Definition SetRange (m : bm) (iStart jStart iEnd jEnd : Z) (Value : bool) : res bm :=
  if ((iEnd <? iStart)%Z || (Z.of_nat (Isize m) <? iEnd)%Z) then Throw RuntimeError
  else if ((jEnd <? jStart)%Z || (Z.of_nat (Jsize m) <? jEnd)%Z) then Throw RuntimeError
  else
    for_each (upto (Z.to_nat iStart) (Z.to_nat iEnd + 1)) m (fun m i =>
      for_each (upto (Z.to_nat jStart) (Z.to_nat jEnd + 1)) m (fun m j =>
        UnsafeSet m i j Value)).

(** BitMatrix.cpp:345-348  Ones: the arguments Isize - 1, Jsize - 1 wrap at 0. *)
Definition Ones (m : bm) : res bm :=
  SetRange m 0 0 ((Z.of_nat (Isize m) - 1) mod 2 ^ 64) ((Z.of_nat (Jsize m) - 1) mod 2 ^ 64) true.

(** BitMatrix.cpp:352-361  Zeros *)
Definition Zeros (m : bm) : res bm :=
  for_each (upto 0 (V_RowCount (Bitmap m))) m (fun m i =>
    let* cc := V_ColCount (Bitmap m) in
    for_each (upto 0 cc) m (fun m j => put_cell_ m i j x00)).

(** BitMatrix.cpp:364-377  Randm.  [engine n] is the n-th number the engine draws (its seed is the
    clock); each cell takes the next one. *)
Definition Randm (engine : nat -> Z) (m : bm) : res bm :=
  let* s := for_each (upto 0 (Isize m)) (m, 0) (fun s i =>
    for_each (upto 0 (Jsize m)) s (fun s j => let '(m, n) := s in
      let* m' := UnsafeSet m i j ((engine n mod 2 =? 0)%Z) in Ok (m', S n))) in
  Ok (fst s).

(** BitMatrix.cpp:380-391  Resize: the object afterwards and the outcome.  An allocation
    failure propagates with Isize and Jsize already changed. *)
Definition Resize (al : allocator) (m : bm) (RowCnt ColCnt : nat) : bm * res unit :=
  if (RowCnt =? 0) || (ColCnt =? 0) then (m, Throw RuntimeError)
  else let (d, o) := V_Resize x00 al RowCnt (colBytes ColCnt) in
       (mkbm d RowCnt ColCnt, o).

(** BitMatrix.cpp:97-114  operator^ *)
Definition bm_xor (al : allocator) (a b : bm) : res bm :=
  if negb (Jsize a =? Jsize b) || negb (Isize a =? Isize b) then Throw InvalidArgument
  else
    let result := BM_ctor al (Isize a) (Jsize a) in
    if BM_not result then Throw RuntimeError
    else
      for_each (upto 0 (V_RowCount (Bitmap a))) result (fun r i =>
        let* cc := V_ColCount (Bitmap a) in
        for_each (upto 0 cc) r (fun r j =>
          let* x := cell_ a i j in
          let* y := cell_ b i j in
          put_cell_ r i j (z2b (Z.lxor (b2z x) (b2z y))))).

(** ** Serialisation *)

(** BitMatrix.cpp:413-437  SerializeSizes: byte count and in-memory (little-endian) image
    of the two 8-byte size_t members. *)
Definition SerializeSizes (m : bm) : res (list byte) :=
  if BM_not m then Throw RuntimeError
  else Ok (z2b 8 :: le_bytes 8 (Z.of_nat (Isize m))
           ++ z2b 8 :: le_bytes 8 (Z.of_nat (Jsize m))).

(** BitMatrix.cpp:441-465  SerializeMatrix; loop state (byteVec, currValue, bitCnt).
    A last partial byte is not pushed. *)
Definition SerializeMatrix (m : bm) : res (list byte) :=
  if BM_not m then Throw RuntimeError
  else
    let* st := for_each (upto 0 (Isize m)) ([], x00, 0) (fun st i =>
      for_each (upto 0 (Jsize m)) st (fun st j =>
        let '(byteVec, currValue, bitCnt) := st in
        let* v := UnsafeGet m i j in
        let* currValue := SetBit currValue bitCnt v in
        let bitCnt := bitCnt + 1 in
        if bitCnt =? 8 then Ok (byteVec ++ [currValue], x00, 0)
        else Ok (byteVec, currValue, bitCnt))) in
    let '(byteVec, _, _) := st in Ok byteVec.

(** BitMatrix.cpp:395-409  Serialize *)
Definition Serialize (m : bm) : res (list byte) :=
  if BM_not m then Throw RuntimeError
  else let* a := SerializeSizes m in
       let* b := SerializeMatrix m in
       Ok (a ++ b).

(** BitMatrix.cpp:479-485 and :490-496: copy [n] bytes from the iterator into the 8 bytes
    of a zero-initialised size_t.  Dereferencing at the end and writing past the object are
    undefined behaviour.  [pos] is the iterator; returns the value and the new iterator. *)
Definition read_size (s : list byte) (pos n : nat) : res (Z * nat) :=
  let* st := for_each (upto 0 n) (repeat x00 8, pos) (fun st i =>
    let '(buf, pos) := st in
    if 8 <=? i then UB BufferOverflow
    else let* b := at_ s pos in
         Ok (upd buf i b, pos + 1)) in
  let '(buf, pos) := st in Ok (le_value buf, pos).

(** BitMatrix.cpp:469-516  DeserializeMatrix.  colByteCnt is read (the iterator is
    dereferenced) but never used. *)
Definition DeserializeMatrix (al : allocator) (s : list byte) : res bm :=
  match s with
  | [] => Throw InvalidArgument
  | b0 :: _ =>
      let rowByteCnt := Z.to_nat (b2z b0) in
      let* st := read_size s 1 rowByteCnt in
      let '(iSize, pos) := st in
      let* _ := at_ s pos in
      let* st := read_size s (pos + 1) rowByteCnt in
      let '(jSize, pos) := st in
      let iSize := Z.to_nat iSize in
      let jSize := Z.to_nat jSize in
      let retVal := BM_ctor al iSize jSize in
      let* st := for_each (upto 0 iSize) (retVal, pos, 0) (fun st i =>
        for_each (upto 0 jSize) st (fun st j =>
          let '(m, pos, bitCnt) := st in
          let* b := at_ s pos in
          let* v := GetBit b bitCnt in
          let* m := Set_ m i j v in
          let bitCnt := bitCnt + 1 in
          if bitCnt =? 8 then Ok (m, pos + 1, 0) else Ok (m, pos, bitCnt))) in
      let '(m, _, _) := st in Ok m
  end.

(** BitMatrix.cpp:530-546  FromString; RowCnt and ColCnt are uint32_t and their product is
    taken modulo 2^32.  string_view::operator[] is unchecked. *)
Definition FromString (al : allocator) (Str : list byte) (RowCnt ColCnt : nat) : res bm :=
  if negb (Z.of_nat (length Str) =? (Z.of_nat RowCnt * Z.of_nat ColCnt) mod 2 ^ 32)%Z
  then Throw InvalidArgument
  else
    let matrix := BM_ctor al RowCnt ColCnt in
    let* st := for_each (upto 0 (RowCnt / 8 + if RowCnt mod 8 =? 0 then 0 else 1)) (matrix, 0)
      (fun st i =>
        for_each (upto 0 (ColCnt / 8 + if ColCnt mod 8 =? 0 then 0 else 1)) st (fun st j =>
          let '(m, strIndex) := st in
          let* b := at_ Str strIndex in
          let* m := SetByte m i j b in
          Ok (m, strIndex + 1))) in
    let '(m, _) := st in Ok m.
