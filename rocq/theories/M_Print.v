(** Model of BitMatrix::Print (BitMatrix.cpp:266-278): the text written to standard output.
    A bool is printed as 0 or 1 (std::boolalpha is not set anywhere in the repository). *)
From Verif Require Import Prelude M_BitMatrix.

(** BitMatrix.cpp:273 *)
Definition digit (b : bool) : byte := if b then "1"%byte else "0"%byte.
(** BitMatrix.cpp:275, :277 *)
Definition newline : byte := "010"%byte.

(** BitMatrix.cpp:266-278  Print *)
Definition Print (m : bm) : res (list byte) :=
  let* out := for_each (upto 0 (Isize m)) [] (fun out i =>
    let* out := for_each (upto 0 (Jsize m)) out (fun out j =>
      let* b := UnsafeGet m i j in
      Ok (out ++ [digit b])) in
    Ok (out ++ [newline])) in
  Ok (out ++ [newline]).
