(** Model of the part of the C library function sscanf that the MSK reader uses (C17 7.21.6.2):
    ordinary characters, white space, %d and %s.  Nothing here is code of the repository; the
    calls are at MskReader.cpp:186, :296 and :329. *)
From Verif Require Import Prelude M_LayoutData.
Local Open Scope Z_scope.

(** used by MskReader.cpp:186, :296, :329 *)
Inductive directive := DLit (b : byte) | DSpace | DInt | DStr.

(** isspace in the "C" locale.  used by MskReader.cpp:186, :296, :329 *)
Definition isspace (b : byte) : bool := (b2z b =? 32) || ((9 <=? b2z b) && (b2z b <=? 13)).
(** used by MskReader.cpp:186, :296, :329 *)
Definition isdigit (b : byte) : bool := (48 <=? b2z b) && (b2z b <=? 57).

(** The directives of a format string.  used by MskReader.cpp:186, :296, :329 *)
Fixpoint directives (f : list byte) : list directive :=
  match f with
  | [] => []
  | c :: t =>
      if isspace c then DSpace :: directives t
      else if beqb c "%" then
        match t with
        | d :: t' => if beqb d "d" then DInt :: directives t' else if beqb d "s" then DStr :: directives t' else DLit c :: directives t
        | [] => [DLit c]
        end
      else DLit c :: directives t
  end.

(** used by MskReader.cpp:186, :296, :329 *)
Fixpoint skip_space (s : list byte) : list byte :=
  match s with
  | c :: t => if isspace c then skip_space t else s
  | [] => []
  end.

(** The longest prefix of characters satisfying p, and the rest.
    used by MskReader.cpp:186, :296, :329 *)
Fixpoint span (p : byte -> bool) (s : list byte) : list byte * list byte :=
  match s with
  | c :: t => if p c then let '(a, b) := span p t in (c :: a, b) else ([], s)
  | [] => ([], [])
  end.

(** used by MskReader.cpp:186, :296, :329 *)
Definition decimal (ds : list byte) : Z := fold_left (fun v d => 10 * v + (b2z d - 48)) ds 0.

(** The optional sign of %d: whether it is a minus, and the rest.
    used by MskReader.cpp:186, :296, :329 *)
Definition sign (s : list byte) : bool * list byte :=
  match s with
  | c :: t => if beqb c "-" then (true, t) else if beqb c "+" then (false, t) else (false, s)
  | [] => (false, [])
  end.

(** Assigned values, and whether scanning stopped at the end of the input (an input failure).
    used by MskReader.cpp:186, :296, :329 *)
Inductive value := VInt (z : Z) | VStr (s : list byte).

(** A failed match ends the scan; so does the end of the input.  A number that does not fit in
    an int is undefined behaviour (7.21.6.2 p10).  used by MskReader.cpp:186, :296, :329 *)
Fixpoint scan (ds : list directive) (s : list byte) (acc : list value) : res (list value * bool) :=
  match ds with
  | [] => Ok (acc, false)
  | DLit b :: ds' =>
      match s with
      | [] => Ok (acc, true)
      | c :: t => if beqb c b then scan ds' t acc else Ok (acc, false)
      end
  | DSpace :: ds' => scan ds' (skip_space s) acc
  | DInt :: ds' =>
      match skip_space s with
      | [] => Ok (acc, true)
      | s' =>
          let '(minus, s1) := sign s' in
          let '(dg, rest) := span isdigit s1 in
          match dg with
          | [] => Ok (acc, false)
          | _ =>
              let v := if minus then - decimal dg else decimal dg in
              if (- 2 ^ 31 <=? v) && (v <? 2 ^ 31) then scan ds' rest (acc ++ [VInt v]) else UB Unparsable
          end
      end
  | DStr :: ds' =>
      match skip_space s with
      | [] => Ok (acc, true)
      | s' => let '(w, rest) := span (fun c => negb (isspace c)) s' in scan ds' rest (acc ++ [VStr w])
      end
  end.

(** The text of a std::string as sscanf sees it through c_str(): up to the first NUL.
    used by MskReader.cpp:186, :296, :329 *)
Definition c_str (s : list byte) : list byte := fst (span (fun c => negb (beqb c x00)) s).

(** sscanf: the return value (EOF = -1 when the input ends before the first conversion), and the
    values assigned.  used by MskReader.cpp:186, :296, :329 *)
Definition sscanf (line : list byte) (format : list byte) : res (Z * list value) :=
  let* r := scan (directives format) (c_str line) [] in
  let '(vs, ended) := r in
  Ok (if ended && (length vs =? 0)%nat then -1 else Z.of_nat (length vs), vs).

(** The i-th target: its initial value if nothing was assigned.
    used by MskReader.cpp:186, :296, :329 *)
Definition int_arg (vs : list value) (i : nat) (init : Z) : Z :=
  match nth_error vs i with Some (VInt z) => z | _ => init end.
(** used by MskReader.cpp:186, :296, :329 *)
Definition str_arg (vs : list value) (i : nat) : list byte :=
  match nth_error vs i with Some (VStr s) => s | _ => [] end.
