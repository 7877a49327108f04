(** Specification vocabulary for splitting a bitmap into fragments. *)
From Verif Require Import Prelude M_LayoutData M_Zond M_Generator.
Local Open Scope Z_scope.

(** A grid of r rows and c columns, and what stands at (i,j). *)
Definition grid {A} (r c : nat) (g : list (list A)) : Prop := length g = r /\ Forall (fun row => length row = c) g.
Definition at2 {A} (g : list (list A)) (i j : nat) : option A :=
  match nth_error g i with Some row => nth_error row j | None => None end.

(** The fragment is responsible for the cell in row a and column b. *)
Definition in_charge (f : fragment) (a b : Z) : Prop :=
  let ind := f_boundIndicies f in iBegin ind <= a <= iEnd ind /\ jBegin ind <= b <= jEnd ind.

(** The number of places of the grid at which P holds. *)
Definition count {A} (P : A -> bool) (g : list (list A)) : nat := length (filter P (concat g)).

(** What a loop leaves of a list when it erases the objects that are [handed] out, and steps
    over the successor of each of them: the objects left, the objects handed out, in order, and
    whether the last step was off the end. *)
Inductive walk {A} (handed : A -> bool) : list A -> list A -> list A -> bool -> Prop :=
| walk_end : walk handed [] [] [] true
| walk_keep x l left out ok : handed x = false -> walk handed l left out ok -> walk handed (x :: l) (x :: left) out ok
| walk_take x y l left out ok : handed x = true -> walk handed l left out ok -> walk handed (x :: y :: l) (y :: left) (x :: out) ok
| walk_off x : handed x = true -> walk handed [x] [] [x] false.

(** Every second element of a list, beginning with the first / with the second. *)
Fixpoint firsts {A} (l : list A) : list A := match l with x :: _ :: t => x :: firsts t | [x] => [x] | [] => [] end.
Fixpoint seconds {A} (l : list A) : list A := match l with _ :: y :: t => y :: seconds t | _ => [] end.

(** An object is handed out when its bounding box meets the workspaces of at most two
    fragments. *)
Definition handed (fs : list (list fragment)) (g : geom) : bool :=
  (count (fun f => Intersects (f_angleCoords f) (Some g)) fs <=? 2)%nat.

(** What a fragment holds afterwards: what it held, and the given objects as far as they meet
    the box. *)
Definition received (box : workspace) (objects : list geom) (p p' : list (list (list geom))) : Prop :=
  forall i j l, at2 p i j = Some l -> at2 p' i j = Some (l ++ filter (fun g => Intersects box (Some g)) objects).
