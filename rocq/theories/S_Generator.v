(** Specification vocabulary for the bitmap generator: call histories, the layers that count,
    the objects that are drawn. *)
From Coq Require Import Permutation.
From Verif Require Import Prelude M_Double M_LayoutData M_Vector2D M_BitMatrix S_Matrix M_Zond S_Zond S_Converter M_Generator.
Local Open Scope Z_scope.

(** The public calls on a generator. *)
Inductive call :=
| CInit (Data : option layout) (Layers : list Z) (Min Max : coord)
| CSetLayerArray (Layers : list Z)
| CProcess (RowCount ColumnCount : nat).

(** The machine: what a stray read finds, the heap, the stack. *)
Record machine := mkmachine { m_stray : stray_read; m_heap : allocator; m_stack : nat }.

(** The object after a history of calls, exceptions being caught by the caller; [None] when a
    call was undefined behaviour. *)
Fixpoint history (M : machine) (g : generator) (calls : list call) : option generator :=
  match calls with
  | [] => Some g
  | CInit d L mn mx :: t => history M (fst (Init g d L mn mx)) t
  | CSetLayerArray L :: t => history M (SetLayerArray g L) t
  | CProcess r c :: t =>
      match Process (m_stray M) (m_heap M) (m_stack M) g r c with
      | (_, UB _) => None
      | (g', _) => history M g' t
      end
  end.

(** An Init call that gets past the test of its first two arguments. *)
Definition usable_init (c : call) : Prop :=
  match c with CInit (Some _) (_ :: _) _ _ => True | _ => False end.

(** The box with corners Min, Max is not inverted. *)
Definition ordered_box (Min Max : coord) : Prop := cx Min <= cx Max /\ cy Min <= cy Max.

(** What is in force after a history of calls: nothing yet; nothing and never again; or a
    layout, the selected layers and a box.  Only the first usable Init counts; a later
    SetLayerArray replaces the layers. *)
Inductive setting := Fresh | Dead | Live (d : layout) (L : list Z) (mn mx : coord).

Inductive next_setting : setting -> call -> setting -> Prop :=
| next_init d L mn mx : L <> [] -> ordered_box mn mx ->
    next_setting Fresh (CInit (Some d) L mn mx) (Live d L mn mx)
| next_bad_box d L mn mx : L <> [] -> ~ ordered_box mn mx ->
    next_setting Fresh (CInit (Some d) L mn mx) Dead
| next_layers d L mn mx L' :
    next_setting (Live d L mn mx) (CSetLayerArray L') (Live d L' mn mx)
| next_unusable s d L mn mx : ~ usable_init (CInit d L mn mx) -> next_setting s (CInit d L mn mx) s
| next_again s d L mn mx : s <> Fresh -> next_setting s (CInit d L mn mx) s
| next_early s L : s = Fresh \/ s = Dead -> next_setting s (CSetLayerArray L) s
| next_process s r c : next_setting s (CProcess r c) s.

Inductive in_force : list call -> setting -> Prop :=
| in_force_start : in_force [] Fresh
| in_force_next calls s c s' : in_force calls s -> next_setting s c s' -> in_force (calls ++ [c]) s'.

(** The workspace of a box: its left-top and right-bottom corners. *)
Definition box_workspace (mn mx : coord) : workspace :=
  mkws (mkcoord (cx mn) (cy mx)) (mkcoord (cx mx) (cy mn)).

(** The matrix a call of Process leaves and how it ends. *)
Definition result (p : generator * res bool) : bm * res bool := (GetMatrix (fst p), snd p).

(** Two lists hold the same numbers (the layers are a std::set). *)
Definition same_set (L L' : list Z) : Prop := forall n, In n L <-> In n L'.

(** The first layer of a library whose number is selected. *)
Definition first_selected (L : list Z) (lib : library) (l : layer) : Prop :=
  exists pre post, lib_layers lib = pre ++ l :: post /\ In (l_layer l) L /\
    forall l', In l' pre -> ~ In (l_layer l') L.
Definition none_selected (L : list Z) (lib : library) : Prop :=
  forall l, In l (lib_layers lib) -> ~ In (l_layer l) L.

(** Two libraries with the same first selected layer (or none). *)
Definition same_first (L : list Z) (a b : library) : Prop :=
  (exists l, first_selected L a l /\ first_selected L b l) \/ (none_selected L a /\ none_selected L b).

(** The geometries of the first selected layers, library by library. *)
Inductive candidates (L : list Z) : list library -> list (option geom) -> Prop :=
| candidates_nil : candidates L [] []
| candidates_none lib t l : none_selected L lib -> candidates L t l -> candidates L (lib :: t) l
| candidates_some lib ly t l :
    first_selected L lib ly -> candidates L t l -> candidates L (lib :: t) (l_geometries ly ++ l).

(** The bounding box of the object meets the workspace. *)
Definition overlaps (w : workspace) (g : geom) : Prop :=
  cx (g_min g) <= cx (rightBot w) /\ cx (leftTop w) <= cx (g_max g) /\
  cy (rightBot w) <= cy (g_max g) /\ cy (g_min g) <= cy (leftTop w).

(** The candidate item causes the shape s to be drawn. *)
Definition to_draw (heap : list element) (w : workspace) (item s : geom) : Prop :=
  overlaps w item /\ overlaps w s /\
  ((g_type item = GTrectangle \/ g_type item = GTpolygon) /\ s = item \/
   (exists width, path_width item width /\ (2 <= length (g_coords item))%nat /\
      point_box (mkcoord 0 0) (g_layer item) s) \/
   (g_type item = GTreference /\ exists k, refers_to item k /\ occurs_in heap (mkcoord 0 0) k s)).

(** The zond Process uses for an r x c matrix over the workspace w. *)
Definition process_zond (w : workspace) (r c : nat) (z : zond) : Prop :=
  boundIndicies z = full_bounds (Z.of_nat r) (Z.of_nat c) /\ angleCoords z = w /\
  CalcDelta (cx (leftTop w)) (cx (rightBot w)) (Z.of_nat c) = Ok (dx z) /\
  CalcDelta (cy (leftTop w)) (cy (rightBot w)) (Z.of_nat r) = Ok (dy z) /\
  eps z = dlit 1 (10 ^ 13).

(** Zonding the shape s alone, on a blank r x c matrix, sets cell (i,j). *)
Definition sets (z : zond) (r c : nat) (s : geom) (i j : nat) : Prop :=
  exists m m', shows m (azero r c) /\ ZondGeometry z (Some s) m = (m', Ok tt) /\ Get m' i j = Ok true.

(** Two matrices look the same to a caller. *)
Definition same_matrix (a b : bm) : Prop := exists A, shows a A /\ shows b A.
