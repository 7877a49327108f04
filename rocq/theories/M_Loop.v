(** C++ [while]/[for] loops with a run-time condition.  The number of iterations is bounded by
    2^64 (a loop that has not stopped by then counts as [Diverges]); the bound is a binary
    number so that concrete runs evaluate.  Nothing here models a particular function. *)
From Verif Require Import Prelude.

(** loops such as LayoutBitmapZond.cpp:146, :183 *)
Inductive step (S R : Type) : Type :=
| Next (s : S)
| Stop (r : R).
Arguments Next {S R} s.
Arguments Stop {S R} r.

(** at most [p] iterations.  loops such as LayoutBitmapZond.cpp:146, :183 *)
Fixpoint iter_pos {S R} (p : positive) (f : S -> step S R) (s : S) : step S R :=
  match p with
  | xH => f s
  | xO q => match iter_pos q f s with
            | Next s1 => iter_pos q f s1
            | Stop r => Stop r
            end
  | xI q => match f s with
            | Next s1 => match iter_pos q f s1 with
                         | Next s2 => iter_pos q f s2
                         | Stop r => Stop r
                         end
            | Stop r => Stop r
            end
  end.

(** the same with a unary bound (for proofs).  loops such as LayoutBitmapZond.cpp:146, :183 *)
Fixpoint iter_nat {S R} (n : nat) (f : S -> step S R) (s : S) : step S R :=
  match n with
  | O => Next s
  | S n' => match f s with
            | Next s1 => iter_nat n' f s1
            | Stop r => Stop r
            end
  end.

(** loops such as LayoutBitmapZond.cpp:146, :183 *)
Definition loop_bound : positive := (2 ^ 64)%positive.

(** loops such as LayoutBitmapZond.cpp:146, :183 *)
Definition loop {S R} (f : S -> step S R) (diverged : S -> R) (s : S) : R :=
  match iter_pos loop_bound f s with
  | Stop r => r
  | Next s' => diverged s'
  end.
