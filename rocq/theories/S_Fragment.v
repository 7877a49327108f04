(** Specification vocabulary for Fragment: histories of public calls and what they leave in
    force. *)
From Verif Require Import Prelude M_LayoutData M_Zond M_Generator.
Local Open Scope Z_scope.

(** The public calls (true: a matrix, false: a null pointer); the calls of PushGeometry are left
    out: what they store is never used. *)
Inductive fcall :=
| FSetMatrix (Matrix : bool)
| FSetWorkspaceCoords (w : workspace)
| FSetIndicies (iBegin jBegin iEnd jEnd : Z)
| FProcess
| FReset.

(** One call: the object afterwards (when the call throws it is unchanged); [None] when it was
    undefined behaviour. *)
Definition fstep (f : fragment) (c : fcall) : option fragment :=
  match c with
  | FSetMatrix b => match F_SetMatrix f b with Ok f' => Some f' | Throw _ => Some f | UB _ => None end
  | FSetWorkspaceCoords w => Some (F_SetWorkspaceCoords f w)
  | FSetIndicies a b c d => Some (F_SetIndicies f a b c d)
  | FProcess => match F_Process f with Ok f' => Some f' | Throw _ => Some f | UB _ => None end
  | FReset => Some (F_Reset f)
  end.
Fixpoint fhistory (f : fragment) (calls : list fcall) : option fragment :=
  match calls with
  | [] => Some f
  | c :: t => match fstep f c with Some f' => fhistory f' t | None => None end
  end.

(** The matrix is set: the last of the SetMatrix(non-null) and Reset calls is a SetMatrix. *)
Definition matrix_set (calls : list fcall) : Prop :=
  exists a b, calls = a ++ FSetMatrix true :: b /\ ~ In FReset b.

(** The workspace in force: that of the last SetWorkspaceCoords with no Reset after it, or the
    point (0,0). *)
Definition workspace_set (calls : list fcall) (w : workspace) : Prop :=
  (exists a b, calls = a ++ FSetWorkspaceCoords w :: b /\ ~ In FReset b /\ forall w', ~ In (FSetWorkspaceCoords w') b) \/
  (w = mkws (mkcoord 0 0) (mkcoord 0 0) /\
   ((forall w', ~ In (FSetWorkspaceCoords w') calls) \/
    exists a b, calls = a ++ FReset :: b /\ forall w', ~ In (FSetWorkspaceCoords w') b)).

(** The closed box from mn to mx and the workspace have a point in common. *)
Definition touches (w : workspace) (mn mx : coord) : Prop :=
  exists x y, cx mn <= x <= cx mx /\ cy mn <= y <= cy mx /\
    cx (leftTop w) <= x <= cx (rightBot w) /\ cy (rightBot w) <= y <= cy (leftTop w).

(** Not inverted. *)
Definition proper (w : workspace) : Prop := cx (leftTop w) <= cx (rightBot w) /\ cy (rightBot w) <= cy (leftTop w).

(** The workspace of the last SetWorkspaceCoords, whether or not a Reset came after it, or the
    point (0,0); the indices of the last SetIndicies, or zeros. *)
Definition last_workspace (calls : list fcall) (w : workspace) : Prop :=
  (exists a b, calls = a ++ FSetWorkspaceCoords w :: b /\ forall w', ~ In (FSetWorkspaceCoords w') b) \/
  (w = mkws (mkcoord 0 0) (mkcoord 0 0) /\ forall w', ~ In (FSetWorkspaceCoords w') calls).
Definition last_indices (calls : list fcall) (iB jB iE jE : Z) : Prop :=
  (exists a b, calls = a ++ FSetIndicies iB jB iE jE :: b /\ forall x y z t, ~ In (FSetIndicies x y z t) b) \/
  ((iB = 0 /\ jB = 0 /\ iE = 0 /\ jE = 0) /\ forall x y z t, ~ In (FSetIndicies x y z t) calls).
