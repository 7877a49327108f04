(** Model of the reservation that the run-length encoder makes before it writes anything
    (RunLengthEncoding.cpp:124), and of the functions through which a user meets it.  M_Rle and M_Hash leave it
    out: they are the case in which it succeeds.  Other requests for storage of strings are not modelled. *)
From Verif Require Import Prelude M_ByteHandler M_Vector2D M_BitMatrix M_LayoutCore M_Rle M_Base64 M_Hash.
Local Open Scope Z_scope.

(** What the library and the heap say to std::string::reserve: the greatest length of a string (max_size()), and the
    lengths for which there is storage.  Used by RunLengthEncoding.cpp:124 *)
Record string_heap := mkheap { max_size : Z; has_room : Z -> bool }.

(** std::string::reserve(n), called at RunLengthEncoding.cpp:124 *)
Definition reserve (h : string_heap) (n : Z) : res unit :=
  if max_size h <? n then Throw LengthError
  else if has_room h n then Ok tt else Throw BadAlloc.

(** RunLengthEncoding.cpp:117-156  Encode(const LayoutMatrix&), with :124: the product of two size_t values *)
Definition Rle_Encode_in (h : string_heap) (al : allocator) (m : bm) : res (list byte) :=
  if LM_not al m then Ok []
  else
    let* _ := reserve h ((Z.of_nat (GetRowCount m) * Z.of_nat (GetRowCount m)) mod 2 ^ 64) in
    let* curr := Get m 0 0 in
    let* st := for_each (upto 0 (GetRowCount m)) ([], curr, x00) (fun st i =>
      for_each (upto 0 (GetColumnCount m)) st (fun st j =>
        let* v := Get m i j in rle_step st v)) in
    rle_finish st.

(** LayoutMatrix.cpp:252-284  EncodeHash *)
Definition EncodeHash_in (h : string_heap) (al : allocator) (Matrix : bm) : res (list byte) :=
  if LM_not al Matrix then Throw InvalidArgument
  else
    let* resultStr := Rle_Encode_in h al Matrix in
    let* resultStr := Base64Encode resultStr standard in
    let* sz := EncodeSz (u32 (GetRowCount Matrix)) (u32 (GetColumnCount Matrix)) in
    let* e := EncodeEncodings true true in
    let resultStr := resultStr ++ sectionParameters ++ sectionSize ++ sz ++ sectionEncodeType ++ [e] in
    let* resultStr := Base64Encode resultStr radix64 in
    Ok (strBegin ++ resultStr ++ strEnd).

(** LayoutMatrix.cpp:313-328  FlushFile, see M_Hash for the parameters.  An exception leaves the function after the
    file has been opened and emptied. *)
Definition FlushFile_in (h : string_heap) (al : allocator) (can_write : list byte -> bool) (accepted : nat)
  (d : disk) (self : bm) (FileName : list byte) : list disk * res bool :=
  if (length FileName =? 0)%nat then ([], Ok false)
  else if negb (can_write FileName) then ([], Ok false)
  else
    let d1 := disk_put d FileName [] in
    match EncodeHash_in h al self with
    | Throw e => ([d1], Throw e)
    | UB u => ([d1], UB u)
    | Ok hash =>
        ([d1] ++ map (fun k => disk_put d FileName (firstn k hash))
                   (seq 1 (Nat.min accepted (length hash))), Ok true)
    end.
