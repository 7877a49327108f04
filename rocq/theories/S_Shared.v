(** Specification vocabulary for programs with several generators. *)
From Verif Require Import Prelude M_Double M_LayoutData M_Vector2D M_BitMatrix M_Zond M_Generator S_Generator M_Shared.

(** GetMatrix of variable k gives the pointer a. *)
Definition handle (w : world) (k a : nat) : Prop :=
  exists o, nth_error (w_generators w) k = Some o /\ go_bitmap o = a.
(** What a pointer to a bitmap shows. *)
Definition shown (w : world) (a : nat) : option bm := nth_error (w_matrices w) a.
(** The value of variable k, its pointers followed. *)
Definition value (w : world) (k : nat) (g : generator) : Prop :=
  exists o, nth_error (w_generators w) k = Some o /\ load w o = g.

(** The calls of a program on variable k, the pointers to layouts replaced by the layouts. *)
Definition call_of (ds : list layout) (k : nat) (op : operation) : list call :=
  match op with
  | OInit k' p L mn mx =>
      if k' =? k then [CInit (match p with None => None | Some a => nth_error ds a end) L mn mx] else []
  | OSetLayerArray k' L => if k' =? k then [CSetLayerArray L] else []
  | OProcess k' r c => if k' =? k then [CProcess r c] else []
  | _ => []
  end.
Definition calls_of (ds : list layout) (k : nat) (ops : list operation) : list call := flat_map (call_of ds k) ops.

(** A step that neither copies variable k, nor assigns to or from it, nor writes to the bitmap a,
    nor changes a layout. *)
Definition leaves_alone (k a : nat) (op : operation) : Prop :=
  match op with
  | OCopy k' => k' <> k
  | OAssign k' from => k' <> k /\ from <> k
  | OWrite a' _ => a' <> a
  | OChangeLayout _ _ => False
  | _ => True
  end.

(** A step that does not assign to variable k. *)
Definition keeps_variable (k : nat) (op : operation) : Prop :=
  match op with OAssign k' _ => k' <> k | _ => True end.

(** A step that neither processes nor copies a variable that holds the pointer a (in the world w), and
    does not write through a. *)
Definition elsewhere (w : world) (a : nat) (op : operation) : Prop :=
  match op with
  | OCopy k | OAssign _ k | OProcess k _ _ => ~ handle w k a
  | OWrite a' _ => a' <> a
  | _ => True
  end.

(** A step that only makes or changes layouts. *)
Definition layout_step (op : operation) : Prop :=
  match op with OLayout _ | OChangeLayout _ _ => True | _ => False end.
