(** Common vocabulary of the model: outcomes, bytes, bounds-checked sequences, loops.
    Nothing in this file models a particular function of the repository; it fixes how
    C++ notions are represented. *)
From Coq Require Export List ZArith Lia Bool Arith ZifyBool ZifyNat.
From Coq Require Export Strings.Byte.
From Coq Require Strings.String.
Export Coq.Strings.String.StringSyntax.
Export ListNotations.
Local Open Scope nat_scope.

(** C++ exceptions thrown by the code (std::exception subclasses). *)
Inductive exn := InvalidArgument | RuntimeError | OutOfRange | BadAlloc | LengthError.

(** Undefined behaviour, by kind.  It is an outcome of its own. *)
Inductive ub :=
| OobIndex        (* operator[] or iterator dereference outside the sequence *)
| BufferOverflow  (* write past a local object *)
| DivByZero
| BadShift        (* shift count >= width *)
| SignedOverflow
| BadCast         (* double -> integer out of range *)
| NullDeref
| TypeConfusion   (* static_cast to a class the object is not *)
| StackOverflow
| DoubleFree      (* an object is deleted twice, or used after deletion *)
| Indeterminate   (* an object that was never given a value is read *)
| Unparsable      (* scanf conversion whose value does not fit *)
| Diverges.       (* a loop whose bound in the model is exhausted: it does not terminate *)

Inductive res (A : Type) : Type :=
| Ok (a : A)
| Throw (e : exn)
| UB (u : ub).
Arguments Ok {A} a.
Arguments Throw {A} e.
Arguments UB {A} u.

Definition bind {A B} (x : res A) (f : A -> res B) : res B :=
  match x with
  | Ok a => f a
  | Throw e => Throw e
  | UB u => UB u
  end.

Notation "'let*' x ':=' e 'in' k" := (bind e (fun x => k))
  (at level 200, x pattern, e at level 100, k at level 200, right associativity).

(** Bytes.  [byte] has exactly 256 values; conversions to and from [Z]. *)
Definition b2z (b : byte) : Z := Z.of_N (Byte.to_N b).

(** Conversion of an integer to an 8-bit unsigned value: modulo 256. *)
Definition z2b (z : Z) : byte :=
  match Byte.of_N (Z.to_N (z mod 256)%Z) with
  | Some b => b
  | None => x00
  end.

(** [char] is a signed 8-bit type on the modelled platforms: its value after promotion. *)
Definition schar (b : byte) : Z :=
  if (b2z b <? 128)%Z then b2z b else (b2z b - 256)%Z.

Definition beqb (a b : byte) : bool := Byte.eqb a b.

Fixpoint list_eqb {A} (eqb : A -> A -> bool) (a b : list A) : bool :=
  match a, b with
  | [], [] => true
  | x :: a', y :: b' => eqb x y && list_eqb eqb a' b'
  | _, _ => false
  end.

(** A string literal of the source as its characters. *)
Definition lit (s : String.string) : list byte := String.list_byte_of_string s.
Arguments lit s%string_scope.

(** std::string comparison. *)
Definition streqb : list byte -> list byte -> bool := list_eqb beqb.

(** Unchecked indexing: undefined behaviour outside the sequence. *)
Definition at_ {A} (l : list A) (i : nat) : res A :=
  match nth_error l i with
  | Some x => Ok x
  | None => UB OobIndex
  end.

Fixpoint upd {A} (l : list A) (i : nat) (x : A) : list A :=
  match l, i with
  | [], _ => []
  | _ :: t, O => x :: t
  | h :: t, S i' => h :: upd t i' x
  end.

(** Unchecked assignment to an element. *)
Definition put_ {A} (l : list A) (i : nat) (x : A) : res (list A) :=
  if i <? length l then Ok (upd l i x) else UB OobIndex.

(** A [for] loop over the values of [l], threading the state [s]; stops at the first
    exception or undefined behaviour. *)
Fixpoint for_each {S A} (l : list A) (s : S) (f : S -> A -> res S) : res S :=
  match l with
  | [] => Ok s
  | x :: t => match f s x with
              | Ok s' => for_each t s' f
              | Throw e => Throw e
              | UB u => UB u
              end
  end.

(** lo, lo+1, ..., hi-1 *)
Definition upto (lo hi : nat) : list nat := seq lo (hi - lo).

(** Little-endian image of an unsigned integer in [n] bytes. *)
Fixpoint le_bytes (n : nat) (z : Z) : list byte :=
  match n with
  | O => []
  | S n' => z2b z :: le_bytes n' (z / 256)%Z
  end.

(** Value of a little-endian image. *)
Fixpoint le_value (l : list byte) : Z :=
  match l with
  | [] => 0%Z
  | b :: t => (b2z b + 256 * le_value t)%Z
  end.

(** Evaluation of concrete examples: existential witnesses are found by running the model. *)
Ltac run_example :=
  match goal with
  | |- exists _, _ => eexists; run_example
  | |- _ /\ _ => split; [run_example | run_example]
  | |- ?l = ?r => let v := eval vm_compute in l in
                  transitivity v; [vm_cast_no_check (eq_refl v) | vm_compute; reflexivity]
  end.
