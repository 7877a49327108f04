(** Model of src/Common/Impl/LayoutReader/Helpers/GDSIIHelperFunctions.cpp and of the unions in
    src/Common/Include/GDSIITypes.hpp.  Objects are little-endian in memory (x86-64); [char] is
    eight bits.  Reading a union member other than the one written is taken to reinterpret the
    bytes (as the compilers in question document).  The functions work in place; here they map
    the old value to the new one.  A double that does not hold a number yet (bytes just read
    from a file) or any longer (bytes about to be written) is given by its eight bytes. *)
From Flocq Require Import Core.Zaux Core.FLX IEEE754.BinarySingleNaN.
From Verif Require Import Prelude M_LayoutData M_Double.
Local Open Scope Z_scope.

(** conversion of an int to int16_t: modulo 2^16.  GDSIIHelperFunctions.cpp:15-21 *)
Definition to_int16 (z : Z) : Z := (z + 2 ^ 15) mod 2 ^ 16 - 2 ^ 15.

(** GDSIITypes.hpp: UNION_WORD, UNION_DWORD: the bytes of an integer, the integer with given bytes.
    GDSIITypes.hpp:91-94 *)
Definition image16 (v : Z) : list byte := le_bytes 2 (v mod 2 ^ 16).
(** GDSIITypes.hpp:96-99 *)
Definition image32 (v : Z) : list byte := le_bytes 4 (v mod 2 ^ 32).
(** GDSIITypes.hpp:91-94 *)
Definition value16 (l : list byte) : Z := to_int16 (le_value l).
(** GDSIITypes.hpp:96-99 *)
Definition value32 (l : list byte) : Z := to_int32 (le_value l).

(** GDSIIHelperFunctions.cpp:7-23  Normalize_WORD.  The operands are promoted to int; every assignment converts back. *)
Definition Normalize_WORD (v : Z) : res Z :=
  let u := image16 v in
  let* tempByte := at_ u 1 in
  let* b0 := at_ u 0 in
  let* u := put_ u 1 b0 in
  let* u := put_ u 0 tempByte in
  let v := value16 u in
  if Z.land v 32768 =? 0 then Ok v
  else
    let v := to_int16 (Z.land v 32767) in
    let v := to_int16 (Z.lxor v 32767) in
    let v := to_int16 (v + 1) in
    Ok (to_int16 (v * -1)).

(** GDSIIHelperFunctions.cpp:25-33  DeNormalize_WORD (the loop runs once: sizeof(int16_t) / 2 = 1) *)
Definition DeNormalize_WORD (v : Z) : res Z :=
  let p := image16 v in
  let* p := for_each (upto 0 1) p (fun p i =>
    let* byte := at_ p i in
    let* last := at_ p (2 - i - 1) in
    let* p := put_ p i last in
    put_ p (2 - i - 1) byte) in
  Ok (value16 p).

(** GDSIIHelperFunctions.cpp:39-46 and :60-67  the bytes of the union are exchanged 3 with 0, 2 with 1 *)
Definition swap_dword (v : Z) : res Z :=
  let u := image32 v in
  let* tempByte := at_ u 3 in
  let* b := at_ u 0 in
  let* u := put_ u 3 b in
  let* u := put_ u 0 tempByte in
  let* tempByte := at_ u 2 in
  let* b := at_ u 1 in
  let* u := put_ u 2 b in
  let* u := put_ u 1 tempByte in
  Ok (value32 u).

(** GDSIIHelperFunctions.cpp:35-54  Normalize_DWORD: the arithmetic is that of int; at :48 the operands are converted to
    unsigned int *)
Definition Normalize_DWORD (v : Z) : res Z :=
  let* v := swap_dword v in
  if Z.land (v mod 2 ^ 32) 2147483648 =? 0 then Ok v
  else
    let v := Z.land v 2147483647 in
    let v := Z.lxor v 2147483647 in
    let* v := chk32 (v + 1) in
    chk32 (v * -1).

(** GDSIIHelperFunctions.cpp:56-68  DeNormalize_DWORD *)
Definition DeNormalize_DWORD (v : Z) : res Z := swap_dword v.

(** pow((double)2, n) and pow((double)16, n) for the arguments that occur: the exact power.
    (The C++ standard does not promise it; the libraries in use deliver it.).
    GDSIIHelperFunctions.cpp:85, :111, :119 *)
Definition dpow2 (n : Z) : double := binary_normalize 53 1024 _ _ mode_NE 1 n false.
(** GDSIIHelperFunctions.cpp:86, :102 *)
Definition dpow16 (n : Z) : double := dpow2 (4 * n).

(** GDSIIHelperFunctions.cpp:70-91  Normalize_DOUBLE *)
Definition Normalize_DOUBLE (byteArray : list byte) : res double :=
  let* b0 := at_ byteArray 0 in
  let realSign := Z.land (b2z b0) 128 in
  let realExponent := Z.land (b2z b0) 127 - 64 in
  let* realMantissa := for_each (upto 1 8) (dz 0) (fun m i =>
    let* b := at_ byteArray i in
    Ok (dadd (dmul m (dz 256)) (dz (b2z b)))) in
  let realMantissa := ddiv realMantissa (dpow2 (7 * 8)) in
  let realMantissa := dmul realMantissa (dpow16 realExponent) in
  Ok (if realSign =? 0 then realMantissa else dmul realMantissa (dz (-1))).

(** GDSIIHelperFunctions.cpp:101-105  the loop over the exponents: the value of the loop variable and of mantissa
    afterwards *)
Fixpoint find_exponent (in_num : double) (exponents : list Z) (mantissa : double) : Z * double :=
  match exponents with
  | [] => (64, mantissa)
  | e :: t =>
      let mantissa := ddiv in_num (dpow16 e) in
      if dle mantissa (dz 1) then (e, mantissa) else find_exponent in_num t mantissa
  end.

(** fmod(a, n) for a positive integer n: exact, with the sign of a; NaN for infinite a.
    GDSIIHelperFunctions.cpp:120 *)
Definition dfmod (a : double) (n : Z) : double :=
  match a with
  | B754_finite s m e _ =>
      if 0 <=? e
      then binary_normalize 53 1024 _ _ mode_NE (cond_Zopp s ((Zpos m * 2 ^ e) mod n)) 0 s
      else binary_normalize 53 1024 _ _ mode_NE (cond_Zopp s (Zpos m mod (n * 2 ^ (- e)))) e s
  | B754_zero s => B754_zero s
  | _ => B754_nan
  end.

(** GDSIIHelperFunctions.cpp:93-125  DeNormalize_DOUBLE.  The constant at :100 is 2^-52. *)
Definition DeNormalize_DOUBLE (v : double) : res (list byte) :=
  let in_num := Babs v in
  let '(exponent, mantissa) :=
    if dge (Babs in_num) (dpow2 (-52))
    then find_exponent in_num (map (fun i => Z.of_nat i - 64) (seq 0 128)) (dz 0)
    else (0, dz 0) in
  let exponent := exponent + 64 in
  let exponent := if dlt v (dz 0) then Z.lor exponent 128 else exponent in
  let mantissa := dmul mantissa (dpow2 56) in
  let byteArray := [z2b exponent] in
  for_each [6; 5; 4; 3; 2; 1; 0]%nat byteArray (fun byteArray mantissa_ktr =>
    let* part_mantissa := for_each (upto 0 mantissa_ktr) mantissa (fun p _ => Ok (ddiv p (dpow2 8))) in
    let* b := dcast 0 255 (dfmod part_mantissa 256) in
    Ok (byteArray ++ [z2b b])).
