(** How the C++ type [double] is represented: IEEE-754 binary64 of the Flocq library (one NaN),
    round to nearest, ties to even.  Nothing in this file models a particular function of the
    repository.  Contraction into fused operations and extended precision are not modelled
    (x86-64 SSE2 code). *)
From Flocq Require Import Core.FLX IEEE754.BinarySingleNaN.
From Verif Require Import Prelude.

(** the type of LayoutBitmapZond.h:44-45, LayoutBitmapGenerator.h:48, LayoutData.hpp:6-9 *)
Definition double := binary_float 53 1024.
#[export] Instance double_prec : Prec_gt_0 53 := eq_refl.
#[export] Instance double_emax : Prec_lt_emax 53 1024 := eq_refl.

(** conversion of an integer value to double.
    used for example at LayoutBitmapGenerator.cpp:104 (division of integers as doubles) *)
Definition dz (z : Z) : double := binary_normalize 53 1024 _ _ mode_NE z 0 false.
(** + on double, LayoutBitmapZond.cpp:142 *)
Definition dadd : double -> double -> double := Bplus mode_NE.
(** - on double, LayoutBitmapZond.cpp:143 *)
Definition dsub : double -> double -> double := Bminus mode_NE.
(** times on double, GDSIIHelperFunctions.cpp:81 *)
Definition dmul : double -> double -> double := Bmult mode_NE.
(** / on double, LayoutBitmapZond.cpp:162-165 *)
Definition ddiv : double -> double -> double := Bdiv mode_NE.

(** comparisons; all are false when an operand is NaN.  <, GDSIIHelperFunctions.cpp:108 *)
Definition dlt (a b : double) : bool := Bltb a b.
(** <=, LayoutBitmapZond.cpp:85 *)
Definition dle (a b : double) : bool := Bleb a b.
(** >, BitMatrix.cpp:131 *)
Definition dgt (a b : double) : bool := Bltb b a.
(** >=, LayoutBitmapZond.cpp:93 *)
Definition dge (a b : double) : bool := Bleb b a.
(** ==, LayoutBitmapZond.cpp:51-104 *)
Definition deq (a b : double) : bool := Beqb a b.

(** std::trunc, std::round (ties away from zero), LayoutBitmapZond.cpp:69-70, :88, :97 *)
Definition dtrunc (a : double) : double := Bnearbyint mode_ZR a.
(** std::round, LayoutBitmapZond.cpp:99 *)
Definition dround (a : double) : double := Bnearbyint mode_NA a.

(** static_cast of a double to an integer type with values lo..hi: truncation; undefined
    behaviour when the truncated value is not in the range (also NaN, infinity).
    LayoutBitmapZond.cpp:67-100 *)
Definition dcast (lo hi : Z) (a : double) : res Z :=
  if is_finite a
  then let t := Btrunc a in
       if ((lo <=? t) && (t <=? hi))%Z then Ok t else UB BadCast
  else UB BadCast.

(** The nearest double to a decimal literal p/q (p, q < 2^53).
    LayoutBitmapGenerator.h:56, BitMatrix.cpp:122 *)
Definition dlit (p q : Z) : double := ddiv (dz p) (dz q).
