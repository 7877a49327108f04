(** Specification vocabulary for GDSII numbers.  Nothing here mentions the functions of the
    model. *)
From Coq Require Import Reals.
From Flocq Require Import Core.
From Verif Require Import Prelude.
Local Open Scope Z_scope.

(** The value of a sequence of bytes, the most significant first. *)
Fixpoint big_endian (l : list byte) : Z :=
  match l with
  | [] => 0
  | b :: t => b2z b * 256 ^ Z.of_nat (length t) + big_endian t
  end.

(** The same bytes as a two's complement number. *)
Definition twos_complement (l : list byte) : Z :=
  match l with
  | b :: _ => if 128 <=? b2z b then big_endian l - 256 ^ Z.of_nat (length l) else big_endian l
  | [] => 0
  end.

(** A GDSII real: a sign bit, an exponent of 16 in excess of 64 in seven bits, a fraction in 56
    bits. *)
Definition gdsii_real (l : list byte) (r : R) : Prop :=
  exists b ds s e, l = b :: ds /\ length ds = 7%nat /\ b2z b = 128 * s + e /\ (s = 0 \/ s = 1) /\ 0 <= e < 128 /\
    (r = (if s =? 0 then 1 else -1) * (IZR (big_endian ds) / IZR (2 ^ 56)) * powerRZ 16 (e - 64))%R.
