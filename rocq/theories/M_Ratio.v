(** Model of the functions that compute ratios with doubles:
    BitMatrix.cpp:117-132, :281-341 and RunLengthEncoding.cpp:8-18, :108-114. *)
From Verif Require Import Prelude M_Double M_ByteHandler M_Vector2D M_BitMatrix M_LayoutCore M_Rle.

(** BitMatrix.cpp:281-305  CalcRatio.  Isize * Jsize is a size_t product. *)
Definition CalcRatio (m : bm) (Value : bool) : res double :=
  match for_each (upto 0 (Isize m)) (dz 0) (fun unit i =>
          for_each (upto 0 (Jsize m)) unit (fun unit j =>
            let* b := UnsafeGet m i j in
            Ok (if Bool.eqb b Value then dadd unit (dz 1) else unit))) with
  | Ok unit => Ok (ddiv unit (dz ((Z.of_nat (Isize m) * Z.of_nat (Jsize m)) mod 2 ^ 64)%Z))
  | Throw _ => Ok (dz (-1))
  | UB u => UB u
  end.

(** BitMatrix.cpp:307-317 *)
Definition OneRatio (m : bm) : res double := CalcRatio m true.
(** BitMatrix.cpp:313-317  ZeroRatio *)
Definition ZeroRatio (m : bm) : res double := CalcRatio m false.

(** BitMatrix.cpp:320-341  Compare: every std::exception becomes -1 *)
Definition Compare (al : allocator) (FirstMatrix SecondMatrix : bm) : res double :=
  match (let* x := bm_xor al FirstMatrix SecondMatrix in OneRatio x) with
  | Ok r => if deq r (dz (-1)) then Ok r else Ok (dsub (dz 1) r)
  | Throw _ => Ok (dz (-1))
  | UB u => UB u
  end.

(** BitMatrix.cpp:117-123  operator== *)
Definition bm_eq (al : allocator) (a b : bm) : res bool :=
  let* c := Compare al a b in Ok (dge c (dlit 9999 10000)).

(** BitMatrix.cpp:126-132  operator!= *)
Definition bm_ne (al : allocator) (a b : bm) : res bool :=
  let* c := Compare al a b in Ok (dle c (dlit 9999 10000)).

(** RunLengthEncoding.cpp:8-18  CalcCompressionCoeffitient(string_view, bool) *)
Definition Rle_CoeffStr (Str : list byte) (ByteInterpretation : bool) : res double :=
  if length Str =? 0 then Ok (dz 0)
  else
    let strLen := dz (Z.of_nat (length Str)) in
    if ByteInterpretation
    then let* e := Rle_ByteEncode Str in Ok (ddiv strLen (dz (Z.of_nat (length e))))
    else Ok (ddiv strLen (dz (Z.of_nat (length (Rle_EncodeStr Str))))).

(** RunLengthEncoding.cpp:108-114  CalcCompressionCoeffitient(const LayoutMatrix&) *)
Definition Rle_CoeffMatrix (al : allocator) (Matrix : bm) : res double :=
  if LM_not al Matrix then Ok (dz 0)
  else
    let* s := Serialize Matrix in
    let* e := Rle_Encode al Matrix in
    Ok (ddiv (dz (Z.of_nat (length s))) (dz (Z.of_nat (length e)))).
