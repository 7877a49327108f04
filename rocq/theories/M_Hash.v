(** Model of the hash and file functions of class LayoutMatrix
    (src/Common/Impl/LayoutMatrix/LayoutMatrix.cpp:11-24, :133-328).
    A LayoutMatrix is a BitMatrix ([bm]); [al] answers every allocation of a bit matrix.
    Not modelled: memory exhaustion of std::string, std::stringstream. *)
From Verif Require Import Prelude M_ByteHandler M_Vector2D M_BitMatrix M_LayoutCore M_Rle M_Base64.

(** LayoutMatrix.cpp:14-19 *)
Definition sectionParameters : list byte := lit "__PARAMETERS__".
(** LayoutMatrix.cpp:15 *)
Definition sectionSize : list byte := lit "__SIZE__".
(** LayoutMatrix.cpp:16 *)
Definition sectionEncodeType : list byte := lit "__ENCODE_TYPE__".
(** LayoutMatrix.cpp:18 *)
Definition strBegin : list byte := lit "---------BEGIN_MATRIX---------" ++ [x0d; x0a].
(** LayoutMatrix.cpp:19 *)
Definition strEnd : list byte := [x0d; x0a] ++ lit "---------END_MATRIX---------".
(** LayoutMatrix.cpp:21 *)
Definition parametersLen : nat :=
  length sectionParameters + length sectionSize + 24 + length sectionEncodeType + 1.
(** LayoutMatrix.cpp:22-23 *)
Definition rleBitPos : nat := 1.
(** LayoutMatrix.cpp:23 *)
Definition base64BitPos : nat := 0.

(** size_t arithmetic: a negative difference wraps around (lengths are below 2^64).
    LayoutMatrix.cpp:183, :190, :196, :215 *)
Definition wrap64 (x : Z) : Z := (if x <? 0 then x + 2 ^ 64 else x)%Z.
(** LayoutMatrix.cpp:183, :190, :196, :215 *)
Definition size_sub (a b : nat) : Z := wrap64 (Z.of_nat a - Z.of_nat b).

(** std::string_view::substr(pos, n): std::out_of_range when pos > size().
    LayoutMatrix.cpp:181-215 *)
Definition substr (s : list byte) (pos n : Z) : res (list byte) :=
  if (Z.of_nat (length s) <? pos)%Z then Throw OutOfRange
  else Ok (firstn (Z.to_nat (Z.min n (Z.of_nat (length s)))) (skipn (Z.to_nat pos) s)).
(** substr(pos): up to the end.  LayoutMatrix.cpp:196-211 *)
Definition substr_from (s : list byte) (pos : Z) : res (list byte) :=
  if (Z.of_nat (length s) <? pos)%Z then Throw OutOfRange else Ok (skipn (Z.to_nat pos) s).

(** std::string_view::find(pat) != npos.  LayoutMatrix.cpp:197 *)
Fixpoint contains (s pat : list byte) : bool :=
  streqb (firstn (length pat) s) pat ||
  match s with [] => false | _ :: t => contains t pat end.

(** The two readings of [x << n] on size_t with n >= 64: undefined behaviour (the C++
    standard), or the shift instruction of x86-64, which uses the count modulo 64.
    LayoutMatrix.cpp:158 *)
Inductive shift_rule := StrictCpp | X86.

(** LayoutMatrix.cpp:158, :229 *)
Definition shl64 (rule : shift_rule) (v n : Z) : res Z :=
  if (n <? 64)%Z then Ok ((v * 2 ^ n) mod 2 ^ 64)%Z
  else match rule with
       | StrictCpp => UB BadShift
       | X86 => Ok ((v * 2 ^ (n mod 64)) mod 2 ^ 64)%Z
       end.

(** LayoutMatrix.cpp:147-162  DecodeSz: (ColCnt, RowCnt).  (size_t)EncodedSzStr[i] extends the
    sign of the character. *)
Definition DecodeSz (rule : shift_rule) (EncodedSzStr : list byte) : res (Z * Z) :=
  if negb (length EncodedSzStr =? 16) then Throw InvalidArgument
  else
    let* sz := for_each (upto 0 (length EncodedSzStr)) 0%Z (fun sz i =>
      let* c := at_ EncodedSzStr i in
      let* x := shl64 rule (schar c mod 2 ^ 64)%Z (Z.of_nat i * 8)%Z in
      Ok (Z.lor sz x)) in
    Ok (Z.land sz (2 ^ 32 - 1), Z.land (Z.shiftr sz 32) (2 ^ 32 - 1))%Z.

(** LayoutMatrix.cpp:165-173  DecodeEncodings: (Rle, Base64); both read rleBitPos. *)
Definition DecodeEncodings (EncodedEncodings : byte) : res (bool * bool) :=
  let* Rle := GetBit EncodedEncodings rleBitPos in
  let* Base64 := GetBit EncodedEncodings rleBitPos in
  Ok (Rle, Base64).

(** LayoutMatrix.cpp:223-239  EncodeSz; RowCnt and ColCnt are uint32_t values. *)
Definition EncodeSz (RowCnt ColCnt : Z) : res (list byte) :=
  let encodedSz := Z.lor ColCnt (Z.shiftl RowCnt 32) in
  Base64Encode (repeat x00 8 ++ le_bytes 8 encodedSz) standard.

(** LayoutMatrix.cpp:241-250  EncodeEncodings *)
Definition EncodeEncodings (Rle Base64 : bool) : res byte :=
  let* v := if Rle then SetBit x00 rleBitPos true else Ok x00 in
  if Base64 then SetBit v base64BitPos true else Ok v.

(** size_t converted to uint32_t.  LayoutMatrix.cpp:274 *)
Definition u32 (n : nat) : Z := (Z.of_nat n mod 2 ^ 32)%Z.

(** LayoutMatrix.cpp:252-284  EncodeHash.  (:274 computes the size field again and drops it.) *)
Definition EncodeHash (al : allocator) (Matrix : bm) : res (list byte) :=
  if LM_not al Matrix then Throw InvalidArgument
  else
    let* resultStr := Rle_Encode al Matrix in
    let* resultStr := Base64Encode resultStr standard in
    let* sz := EncodeSz (u32 (GetRowCount Matrix)) (u32 (GetColumnCount Matrix)) in
    let* e := EncodeEncodings true true in
    let resultStr := resultStr ++ sectionParameters ++ sectionSize ++ sz ++ sectionEncodeType ++ [e] in
    let* resultStr := Base64Encode resultStr radix64 in
    Ok (strBegin ++ resultStr ++ strEnd).

(** LayoutMatrix.cpp:175-221  DecodeHash.  :220 converts the BitMatrix returned by FromString
    with LayoutMatrix(BitMatrix&&). *)
Definition DecodeHash (rule : shift_rule) (al : allocator) (Hash : list byte) : res bm :=
  if length Hash =? 0 then Throw InvalidArgument
  else
    let* b := substr Hash 0 (Z.of_nat (length strBegin)) in
    if negb (streqb b strBegin) then Throw InvalidArgument
    else
    let* e := substr Hash (size_sub (length Hash) (length strEnd)) (Z.of_nat (length strEnd)) in
    if negb (streqb e strEnd) then Throw InvalidArgument
    else
    let* Hash := substr Hash (Z.of_nat (length strBegin))
                   (wrap64 (Z.of_nat (length Hash) - Z.of_nat (length strBegin) - Z.of_nat (length strEnd))) in
    let* Hash := Base64Decode Hash radix64 in
    let* parameters := substr_from Hash (size_sub (length Hash) parametersLen) in
    if negb (contains parameters sectionParameters) then Throw InvalidArgument
    else
    let* parameters := substr_from parameters (Z.of_nat (length sectionParameters)) in
    let* s := substr parameters 0 (Z.of_nat (length sectionSize)) in
    if negb (streqb s sectionSize) then Throw InvalidArgument
    else
    let* parameters := substr_from parameters (Z.of_nat (length sectionSize)) in
    let* szStr := substr parameters 0 24 in
    let* szBytes := Base64Decode szStr standard in
    let* sz := DecodeSz rule szBytes in
    let '(colCnt, rowCnt) := sz in
    let* parameters := substr_from parameters 24 in
    let* t := substr parameters 0 (Z.of_nat (length sectionEncodeType)) in
    if negb (streqb t sectionEncodeType) then Throw InvalidArgument
    else
    let* parameters := substr_from parameters (Z.of_nat (length sectionEncodeType)) in
    let* p0 := at_ parameters 0 in
    let* enc := DecodeEncodings p0 in
    let '(isRle, isBase64) := enc in
    let* Hash := substr Hash 0 (size_sub (length Hash) parametersLen) in
    if isRle : bool
    then let* bytes := Base64Decode Hash standard in
         Rle_DecodeMatrix al bytes (Z.to_nat rowCnt) (Z.to_nat colCnt)
    else let* m := FromString al Hash (Z.to_nat rowCnt) (Z.to_nat colCnt) in
         Ok (fst (LM_of_BM_move m)).

(** LayoutMatrix.cpp:133-137 *)
Definition GetHash (al : allocator) (m : bm) : res (list byte) := EncodeHash al m.

(** LayoutMatrix.cpp:139-144  InitMatrFromHash: (object afterwards, outcome) *)
Definition InitMatrFromHash (rule : shift_rule) (al : allocator) (self : bm) (Hash : list byte)
  : bm * res unit :=
  match DecodeHash rule al Hash with
  | Ok m => (fst (LM_move_assign self m), Ok tt)
  | Throw e => (self, Throw e)
  | UB u => (self, UB u)
  end.

(** ** Files.  A disk maps file names to contents ([None]: cannot be opened for reading).
    LayoutMatrix.cpp:288-328 *)
Definition disk := list byte -> option (list byte).
(** LayoutMatrix.cpp:319-325 *)
Definition disk_put (d : disk) (name content : list byte) : disk :=
  fun n => if streqb n name then Some content else d n.

(** LayoutMatrix.cpp:288-309  ReadFile: (object afterwards, outcome).  A text file is read as
    its bytes (no newline translation). *)
Definition ReadFile (rule : shift_rule) (al : allocator) (d : disk) (self : bm) (FileName : list byte)
  : bm * res bool :=
  if length FileName =? 0 then (self, Ok false)
  else match d FileName with
       | None => (self, Ok false)
       | Some text =>
           match DecodeHash rule al text with
           | Throw e => (self, Throw e)
           | UB u => (self, UB u)
           | Ok tmp => if LM_not al tmp then (self, Ok false)
                       else (fst (LM_move_assign self tmp), Ok true)
           end
       end.

(** LayoutMatrix.cpp:313-328  FlushFile.  [can_write] says whether the file can be opened for
    writing, [accepted] how many bytes the disk accepts (a short write is not noticed).
    Result: the successive states of the disk after the initial one (every prefix of the data
    may be on the disk at some moment), and the outcome. *)
Definition FlushFile (al : allocator) (can_write : list byte -> bool) (accepted : nat)
  (d : disk) (self : bm) (FileName : list byte) : list disk * res bool :=
  if length FileName =? 0 then ([], Ok false)
  else if negb (can_write FileName) then ([], Ok false)
  else
    let d1 := disk_put d FileName [] in
    match EncodeHash al self with
    | Throw e => ([d1], Throw e)
    | UB u => ([d1], UB u)
    | Ok hash =>
        ([d1] ++ map (fun k => disk_put d FileName (firstn k hash))
                   (seq 1 (Nat.min accepted (length hash))), Ok true)
    end.
