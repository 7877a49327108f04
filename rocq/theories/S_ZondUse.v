(** Specification vocabulary: a zond used directly, and the settings that are in force. *)
From Coq Require Import Reals.
From Flocq Require Import Core IEEE754.BinarySingleNaN.
From Verif Require Import Prelude M_Double S_Double M_LayoutData M_Zond S_Zond.
Local Open Scope Z_scope.

(** A call of one of the setters. *)
Inductive setter :=
  | ZEps (e : double)
  | ZDeltas (x y : double)
  | ZBounds (b : indicies)
  | ZWorkspace (w : workspace).

(** The object after the call; a call that throws leaves it as it was, and the caller goes on. *)
Definition perform (z : zond) (c : setter) : zond :=
  match c with
  | ZEps e => match SetEps z e with Ok z' => z' | _ => z end
  | ZDeltas x y => match SetDeltas z x y with Ok z' => z' | _ => z end
  | ZBounds b => SetBoundIndicies z b
  | ZWorkspace w => SetWorkspaceCoord z w
  end.

(** An object constructed with accuracy e, after the calls. *)
Definition in_use (e : double) (calls : list setter) : zond := fold_left perform calls (zond_new e).

(** Below zero: a negative number or minus infinity (neither the negative zero nor a NaN). *)
Definition negative (x : double) : Prop := (exists r, real x r /\ (r < 0)%R) \/ x = B754_infinity true.

(** The value a setting has: the default before the first call that is effective, and then that of the last such call. *)
Inductive latest {A : Type} (effective : setter -> A -> Prop) (default : A) : list setter -> A -> Prop :=
  | latest_default calls : (forall c a, In c calls -> ~ effective c a) -> latest effective default calls default
  | latest_call before c after a : effective c a -> (forall c' a', In c' after -> ~ effective c' a') ->
      latest effective default (before ++ c :: after) a.

(** Which calls are effective for which setting. *)
Definition sets_bounds (c : setter) (b : indicies) : Prop := c = ZBounds b.
Definition sets_workspace (c : setter) (w : workspace) : Prop := c = ZWorkspace w.
Definition sets_deltas (c : setter) (d : double * double) : Prop :=
  c = ZDeltas (fst d) (snd d) /\ ~ negative (fst d) /\ ~ negative (snd d).

(** The accuracies that were passed, in order. *)
Definition accuracies (calls : list setter) : list double :=
  flat_map (fun c => match c with ZEps e => [e] | _ => [] end) calls.

(** The accuracy in force: the first value that is out of range, if there is one, and otherwise the last. *)
Inductive accuracy_in_force : list double -> double -> Prop :=
  | stuck before e after : (forall x, In x before -> ~ out_of_range x) -> out_of_range e -> accuracy_in_force (before ++ e :: after) e
  | free before e : (forall x, In x (before ++ [e]) -> ~ out_of_range x) -> accuracy_in_force (before ++ [e]) e.
