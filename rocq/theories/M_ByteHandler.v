(** Model of src/Common/Impl/ByteHandler/ByteHandler.cpp and Include/ByteHandler.h *)
From Verif Require Import Prelude.
Local Open Scope Z_scope.

(** Include/ByteHandler.h:17  #define BIT(n) (1U << (n)), a 32-bit unsigned value
    (n < 32 at every use). *)
Definition BIT (n : nat) : Z := (Z.shiftl 1 (Z.of_nat n)) mod 2 ^ 32.

(** ~BIT(n) as a 32-bit unsigned value.  ByteHandler.h:17, used at ByteHandler.cpp:35, :50 *)
Definition nBIT (n : nat) : Z := 2 ^ 32 - 1 - BIT n.

(** ByteHandler.cpp:40-52  SetBit(Byte&, uint8_t, bool): the new byte, or the exception
    (thrown before the byte is touched). *)
Definition SetBit (b : byte) (pos : nat) (v : bool) : res byte :=
  if (8 <=? pos)%nat then Throw InvalidArgument
  else Ok (if v then z2b (Z.lor (b2z b) (BIT pos)) else z2b (Z.land (b2z b) (nBIT pos))).

(** ByteHandler.cpp:68-78  GetBit(Byte, uint8_t); conversion of the shifted value to bool. *)
Definition GetBit (b : byte) (pos : nat) : res bool :=
  if (8 <=? pos)%nat then Throw InvalidArgument
  else Ok (negb (Z.shiftr (Z.land (b2z b) (BIT pos)) (Z.of_nat pos) =? 0)).

(** The common argument check of the array overloads, ByteHandler.cpp:29 and :61
    (g_ptrSz = sizeof(void* ) = 8; MAX_BIT_POS(n) = 8n-1 in size_t arithmetic).
    [arr = None] is a null pointer; otherwise the array really has [ArrSz] elements. *)
Definition arr_args_bad (arr : option (list byte)) (ArrSz Pos : Z) : bool :=
  match arr with
  | None => true
  | Some _ => (ArrSz <? 8) || ((8 * ArrSz - 1) mod 2 ^ 64 <? Pos)
  end.

(** ByteHandler.cpp:22-37  SetBit(Byte*, size_t, size_t, bool).
    The switch has no break: the [true] case falls through into the [false] case.
    byteIndex = ArrSz * 8 / Pos, bitIndex = (uint8_t)(8 % Pos). *)
Definition SetBitArr (arr : option (list byte)) (ArrSz Pos : Z) (v : bool)
  : res (list byte) :=
  if arr_args_bad arr ArrSz Pos then Throw InvalidArgument
  else match arr with
       | None => UB NullDeref
       | Some a =>
           if Pos =? 0 then UB DivByZero
           else
             let byteIndex := Z.to_nat (ArrSz * 8 mod 2 ^ 64 / Pos) in
             let bitIndex := Z.to_nat (8 mod Pos) in
             let* a1 := (if v
                         then let* x := at_ a byteIndex in
                              put_ a byteIndex (z2b (Z.lor (b2z x) (BIT bitIndex)))
                         else Ok a) in
             let* y := at_ a1 byteIndex in
             put_ a1 byteIndex (z2b (Z.land (b2z y) (nBIT bitIndex)))
       end.

(** ByteHandler.cpp:55-65  GetBit(Byte*, size_t, size_t). *)
Definition GetBitArr (arr : option (list byte)) (ArrSz Pos : Z) : res bool :=
  if arr_args_bad arr ArrSz Pos then Throw InvalidArgument
  else match arr with
       | None => UB NullDeref
       | Some a =>
           if Pos =? 0 then UB DivByZero
           else
             let byteIndex := Z.to_nat (ArrSz * 8 mod 2 ^ 64 / Pos) in
             let bitIndex := 8 mod Pos in
             let* x := at_ a byteIndex in
             Ok (negb (Z.shiftr (Z.land (b2z x) bitIndex) bitIndex =? 0))
       end.

(** The loop  while (x >>= 1) cnt++  of ByteHandler.cpp:86 and :110.
    Fuel exhaustion is reported as [None]. *)
Fixpoint shr_loop (fuel : nat) (x cnt : Z) : option Z :=
  match fuel with
  | O => None
  | S f => let x' := Z.shiftr x 1 in
           if x' =? 0 then Some cnt else shr_loop f x' (cnt + 1)
  end.

(** ByteHandler.cpp:81-88 *)
Definition GetHigherBitPos (b : byte) : option Z := shr_loop 8 (b2z b) 0.

(** The loop  while (!(Byte & BIT(0))) { Byte >>= 1; cnt++; }  of ByteHandler.cpp:98. *)
Fixpoint low_loop (fuel : nat) (x cnt : Z) : option Z :=
  match fuel with
  | O => None
  | S f => if Z.land x (BIT 0) =? 0 then low_loop f (Z.shiftr x 1) (cnt + 1) else Some cnt
  end.

(** ByteHandler.cpp:91-100; static_cast<uint8_t>(-1) = 255. *)
Definition GetLowerBitPos (b : byte) : option Z :=
  if b2z b =? 0 then Some 255 else low_loop 8 (b2z b) 0.

(** ByteHandler.cpp:103-113; the counter is a uint8_t but never exceeds 63. *)
Definition CalcRealByteCnt (n : Z) : option Z :=
  if n <=? 255 then Some 1
  else match shr_loop 64 n 0 with
       | Some p => Some (p mod 256 / 8 + 1)
       | None => None
       end.
