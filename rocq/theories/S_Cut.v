(** Specification vocabulary for MSK files that end early.  Nothing here mentions the functions of the model. *)
From Verif Require Import Prelude M_LayoutData S_Converter S_Msk.
Local Open Scope Z_scope.

(** [torn_args k t vs ended]: t is the beginning of a list of k numbers, each followed by a comma, and what follows; vs are
    the numbers it has (the last one perhaps without its last digits).  [ended] is false if t stops right after a sign. *)
Inductive torn_args : nat -> list byte -> list Z -> bool -> Prop :=
| torn_end k ws : Forall white ws -> torn_args k ws [] true
| torn_sign k ws sg : Forall white ws -> (sg = "+"%byte \/ sg = "-"%byte) -> torn_args (S k) (ws ++ [sg]) [] false
| torn_number k s z : number s z -> torn_args (S k) s [z] true
| torn_more k s z t vs e : number s z -> torn_args k t vs e -> torn_args (S k) (s ++ lit "," ++ t) (z :: vs) e.

(** What becomes of a last line that may end early: what it says, or undefined behaviour. *)
Inductive remains : list byte -> content + ub -> Prop :=
| remains_says x c : says x c -> remains x (inl c)
| remains_title x : begins (lit "TITLE") x -> remains x (inl Nothing)
| remains_sign x s : x = lit "REC(" ++ s \/ x = lit "BB(" ++ s -> torn_args 4 s [] false -> remains x (inl Nothing)
| remains_bb : remains (lit "BB") (inl (Bounding (mkcoord 0 0) (mkcoord 0 0)))
| remains_box s vs e : torn_args 4 s vs e -> (vs <> [] \/ e = true) ->
    int32 (nth 2 vs 0 - nth 0 vs 0) -> int32 (nth 3 vs 0 - nth 1 vs 0) ->
    remains (lit "BB(" ++ s) (inl (Bounding (mkcoord (nth 0 vs 0) (nth 1 vs 0)) (mkcoord (nth 2 vs 0) (nth 3 vs 0))))
| breaks_box s vs e : torn_args 4 s vs e -> (vs <> [] \/ e = true) ->
    ~ (int32 (nth 2 vs 0 - nth 0 vs 0) /\ int32 (nth 3 vs 0 - nth 1 vs 0)) ->
    remains (lit "BB(" ++ s) (inr SignedOverflow)
| breaks_keyword : remains (lit "REC") (inr OobIndex)
| breaks_rec s vs e : torn_args 4 s vs e -> (vs <> [] \/ e = true) -> remains (lit "REC(" ++ s) (inr OobIndex).

(** [shortened vs us]: us are the numbers vs up to some place, there perhaps one without its last digits, then zeros. *)
Inductive shortened : list Z -> list Z -> Prop :=
| short_stop vs : shortened vs (repeat 0 (length vs))
| short_digits v vs j : shortened (v :: vs) (Z.quot v (10 ^ Z.of_nat j) :: repeat 0 (length vs))
| short_keep v vs us : shortened vs us -> shortened (v :: vs) (v :: us).

(** [left_of c o]: what may be left of a line that says c. *)
Inductive left_of : content -> content + ub -> Prop :=
| left_all c : left_of c (inl c)
| left_nothing c : left_of c (inl Nothing)
| left_name name name' p q : begins name' name -> left_of (Rect name p q) (inl (Rect name' p q))
| left_box a b c d a' b' c' d' : shortened [a; b; c; d] [a'; b'; c'; d'] ->
    left_of (Bounding (mkcoord a b) (mkcoord c d)) (inl (Bounding (mkcoord a' b') (mkcoord c' d')))
| left_broken name p q : left_of (Rect name p q) (inr OobIndex)
| left_overflow p q : left_of (Bounding p q) (inr SignedOverflow).
