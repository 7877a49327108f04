(** Model of src/Common/Impl/LayoutBitmapGenerator/LayoutBitmapGenerator.cpp (the member
    functions reachable from the public interface), Include/LayoutBitmapGenerator.h, and of
    src/Common/Impl/LayoutFragment/LayoutFragment.cpp.  The layout's elements live in a heap of
    elements (M_LayoutData); library pointers are not null.  The bitmap is owned by the
    generator: the shared pointer GetMatrix returns shows this object. *)
From Verif Require Import Prelude M_Double M_LayoutData M_Converter M_Vector2D M_BitMatrix M_Print M_Zond.
Local Open Scope Z_scope.

(** LayoutData.hpp:143-155  the part of LayoutData the generator reads *)
Record layout := mklayout { lay_heap : list element; lay_libraries : list library }.

(** LayoutBitmapGenerator.cpp:97-105 and LayoutFragment.cpp:9-17  CalcDelta; PartCnt is a
    uint32_t: arguments of type size_t are converted.  Division by zero is the IEEE one. *)
Definition CalcDelta (N1 N2 PartCnt : Z) : res double :=
  let* d := sub32 N2 N1 in
  Ok (ddiv (dz (Z.abs d)) (dz (PartCnt mod 2 ^ 32))).

(** LayoutFragment.h:9-22  Fragment; the geometry lists are only ever appended to and are not
    modelled; layoutMatrix is a pointer, [true] when not null. *)
Record fragment := mkfragment {
  f_angleCoords : workspace; f_boundIndicies : indicies; f_layoutMatrix : bool;
  f_dx : double; f_dy : double; f_zond : zond }.

(** LayoutFragment.h:23, LayoutBitmapZond.h:54 *)
Definition fragment_new : fragment :=
  mkfragment ws_init ind_init false (dz 0) (dz 0) (zond_new (dz 0)).

(** LayoutFragment.cpp:48-54  SetMatrix *)
Definition F_SetMatrix (f : fragment) (Matrix : bool) : res fragment :=
  if negb Matrix then Throw InvalidArgument
  else Ok (mkfragment (f_angleCoords f) (f_boundIndicies f) true (f_dx f) (f_dy f) (f_zond f)).

(** LayoutFragment.cpp:57-63  SetWorkspaceCoords *)
Definition F_SetWorkspaceCoords (f : fragment) (w : workspace) : fragment :=
  mkfragment w (f_boundIndicies f) (f_layoutMatrix f) (f_dx f) (f_dy f) (SetWorkspaceCoord (f_zond f) w).

(** LayoutFragment.cpp:66-78  SetIndicies *)
Definition F_SetIndicies (f : fragment) (iB jB iE jE : Z) : fragment :=
  let b := mkind iB iE jB jE in
  mkfragment (f_angleCoords f) b (f_layoutMatrix f) (f_dx f) (f_dy f) (SetBoundIndicies (f_zond f) b).

(** LayoutFragment.cpp:36-45  Reset: the bound indices and the zond keep their values *)
Definition F_Reset (f : fragment) : fragment :=
  mkfragment (fst (SetAngleCoords (f_angleCoords f) (mkcoord 0 0) (mkcoord 0 0))) (f_boundIndicies f)
    false (dz 0) (dz 0) (f_zond f).

(** LayoutFragment.cpp:81-98  Process; the size_t differences wrap *)
Definition F_Process (f : fragment) : res fragment :=
  if negb (f_layoutMatrix f) then Throw RuntimeError
  else
    let w := f_angleCoords f in
    let b := f_boundIndicies f in
    let* x := CalcDelta (cx (leftTop w)) (cx (rightBot w)) (to_size (jEnd b - jBegin b + 1)) in
    let* y := CalcDelta (cy (leftTop w)) (cy (rightBot w)) (to_size (iEnd b - iBegin b + 1)) in
    let* z := SetDeltas (f_zond f) x y in
    Ok (mkfragment w b (f_layoutMatrix f) x y z).

(** LayoutBitmapGenerator.cpp:301-317 and LayoutFragment.cpp:19-34
    GeometryWorkspaceIntersection *)
Definition Intersects (w : workspace) (item : option geom) : bool :=
  match item with
  | None => false
  | Some g =>
      negb ((cx (rightBot w) <? cx (g_min g)) || (cx (g_max g) <? cx (leftTop w))
            || (cy (g_max g) <? cy (rightBot w)) || (cy (leftTop w) <? cy (g_min g)))
  end.

(** LayoutBitmapGenerator.h:31-48  LayoutBitmapGenerator *)
Record generator := mkgen {
  gen_data : option layout;
  gen_coords : workspace;
  gen_layers : list Z;
  gen_bitmap : bm;
  gen_fragments : list (list fragment);
  gen_geometryList : list geom;
  gen_legacyList : list geom;
  gen_zond : zond;
  gen_dx : double;
  gen_dy : double }.

(** LayoutBitmapGenerator.h:56  constructor (the one fragment can be allocated) *)
Definition gen_new : generator :=
  mkgen None ws_init [] bm_empty [[fragment_new]] [] [] (zond_new (dlit 1 (10 ^ 13))) (dz 0) (dz 0).

(** LayoutBitmapGenerator.cpp:393-403  Reset: rightBot keeps its value *)
Definition Reset (g : generator) : generator :=
  mkgen None (mkws (mkcoord 0 0) (rightBot (gen_coords g))) [] (gen_bitmap g) (V_Reset (gen_fragments g))
    [] [] (gen_zond g) (dz 0) (dz 0).

(** LayoutBitmapGenerator.cpp:18-35  Init: the object afterwards and the outcome *)
Definition Init (g : generator) (Data : option layout) (Layers : list Z) (Min Max : coord)
  : generator * res unit :=
  match Data with
  | None => (g, Throw InvalidArgument)
  | Some d =>
      if match Layers with [] => true | _ => false end || V_not (gen_fragments g)
      then (g, Throw InvalidArgument)
      else
        let g1 := Reset g in
        match SetAngleCoords (gen_coords g1) (mkcoord (cx Min) (cy Max)) (mkcoord (cx Max) (cy Min)) with
        | (w, false) =>
            (mkgen (gen_data g1) w (gen_layers g1) (gen_bitmap g1) (gen_fragments g1) (gen_geometryList g1)
               (gen_legacyList g1) (gen_zond g1) (gen_dx g1) (gen_dy g1), Throw InvalidArgument)
        | (w, true) =>
            (mkgen (Some d) w Layers (gen_bitmap g1) (gen_fragments g1) (gen_geometryList g1)
               (gen_legacyList g1) (gen_zond g1) (gen_dx g1) (gen_dy g1), Ok tt)
        end
  end.

(** LayoutBitmapGenerator.cpp:385-390  SetLayerArray *)
Definition SetLayerArray (g : generator) (Layers : list Z) : generator :=
  mkgen (gen_data g) (gen_coords g) Layers (gen_bitmap g) (gen_fragments g) (gen_geometryList g)
    (gen_legacyList g) (gen_zond g) (gen_dx g) (gen_dy g).

(** LayoutBitmapGenerator.cpp:107-111  GetMatrix *)
Definition GetMatrix (g : generator) : bm := gen_bitmap g.

(** LayoutBitmapGenerator.cpp:319-365  ProcessGeometries, on the two lists
    (geometryList, legacyGeometryList).  [stack] is the call depth SplitSref may use. *)
Definition ProcessGeometries (heap : list element) (stack : nat) (w : workspace)
  (lists : list geom * list geom) (Geometries : list (option geom)) : res (list geom * list geom) :=
  for_each Geometries lists (fun lists item =>
    if Intersects w item then
      match item with
      | None => Ok lists
      | Some g =>
          match g_type g with
          | GTrectangle | GTpolygon => Ok (fst lists, snd lists ++ [g])
          | GTpath =>
              let* boxes := PathToRectList (Some g) in
              Ok (fst lists ++ filter (fun b => Intersects w (Some b)) boxes, snd lists)
          | GTreference =>
              let* boxes := SplitSref heap stack (Some g) (mkcoord 0 0) in
              Ok (fst lists ++ filter (fun b => Intersects w (Some b)) boxes, snd lists)
          | _ => Ok lists
          end
      end
    else Ok lists).

(** std::set<int16_t>::count.  LayoutBitmapGenerator.cpp:375 *)
Definition selected (Layers : list Z) (n : Z) : bool := existsb (Z.eqb n) Layers.

(** LayoutBitmapGenerator.cpp:372-380  the loop over the layers of one library: it is left
    after the first layer that is selected *)
Fixpoint first_layer (Layers : list Z) (ls : list layer) : option layer :=
  match ls with
  | [] => None
  | l :: t => if selected Layers (l_layer l) then Some l else first_layer Layers t
  end.

(** LayoutBitmapGenerator.cpp:367-382  InitGeometryItems *)
Definition InitGeometryItems (stack : nat) (Data : option layout) (w : workspace) (Layers : list Z)
  (lists : list geom * list geom) : res (list geom * list geom) :=
  match Data with
  | None => UB NullDeref
  | Some d =>
      for_each (lay_libraries d) lists (fun lists lib =>
        match first_layer Layers (lib_layers lib) with
        | Some l => ProcessGeometries (lay_heap d) stack w lists (l_geometries l)
        | None => Ok lists
        end)
  end.

(** LayoutBitmapGenerator.cpp:121-131  the two loops of ZondMatrix: the first failure ends it *)
Fixpoint zond_all (z : zond) (gs : list geom) (m : bm) : bm * res unit :=
  match gs with
  | [] => (m, Ok tt)
  | g :: t => match ZondGeometry z (Some g) m with
              | (m', Ok _) => zond_all z t m'
              | (m', Throw e) => (m', Throw e)
              | (m', UB u) => (m', UB u)
              end
  end.

(** What reading data[0].size() of a Vector2D without rows gives: undefined behaviour in C++;
    [Some v]: what a machine that lets the read happen found there.  Vector2D.cpp:118-122 *)
Definition stray_read := option Z.

(** Vector2D.cpp:118-122 *)
Definition ColCount (stray : stray_read) (data : list (list fragment)) : res Z :=
  match data with
  | r :: _ => Ok (Z.of_nat (length r))
  | [] => match stray with None => UB OobIndex | Some v => Ok v end
  end.

(** LayoutBitmapGenerator.cpp:52-58  SetMatrix(bitmap) on all fragments; bitmap is not null *)
Definition set_matrices (stray : stray_read) (fs : list (list fragment)) : res (list (list fragment)) :=
  for_each (upto 0 (length fs)) fs (fun fs i =>
    let* n := ColCount stray fs in
    for_each (upto 0 (Z.to_nat n)) fs (fun fs j =>
      let* row := at_ fs i in
      let* f := at_ row j in
      let* f' := F_SetMatrix f true in
      let* row' := put_ row j f' in
      put_ fs i row')).

(** LayoutBitmapGenerator.cpp:60-94  Process after the sizes are checked and the bitmap is
    resized: the matrix, the zond, the lists and the outcome.  dx and dy are stored but never
    read again; their final values are set in ZondMatrix (:115-119). *)
Definition Process (stray : stray_read) (al : allocator) (stack : nat) (g : generator) (RowCount ColumnCount : nat)
  : generator * res bool :=
  let rest (b : bm) (fr : list (list fragment)) (l1 l2 : list geom) (z : zond) (x y : double) :=
    mkgen (gen_data g) (gen_coords g) (gen_layers g) b fr l1 l2 z x y in
  if (RowCount =? 0)%nat then (g, Throw InvalidArgument)
  else if (ColumnCount =? 0)%nat then (g, Throw InvalidArgument)
  else
    match M_BitMatrix.Resize al (gen_bitmap g) RowCount ColumnCount with
    | (b, Throw e) => (rest b (gen_fragments g) (gen_geometryList g) (gen_legacyList g) (gen_zond g) (gen_dx g) (gen_dy g), Throw e)
    | (b, UB u) => (rest b (gen_fragments g) (gen_geometryList g) (gen_legacyList g) (gen_zond g) (gen_dx g) (gen_dy g), UB u)
    | (b, Ok _) =>
        let lt := leftTop (gen_coords g) in
        let rb := rightBot (gen_coords g) in
        match
          (let* fr := set_matrices stray (gen_fragments g) in
           let* n := ColCount stray fr in
           let* x1 := CalcDelta (cx lt) (cx rb) n in
           let* y1 := CalcDelta (cy lt) (cy rb) (Z.of_nat (V_RowCount fr)) in
           let* curr_dx := CalcDelta (cx lt) (cx rb) (Z.of_nat (GetColumnCount b)) in
           let* curr_dy := CalcDelta (cy lt) (cy rb) (Z.of_nat (GetRowCount b)) in
           Ok (fr, x1, y1, curr_dx, curr_dy))
        with
        | Throw e => (rest b (gen_fragments g) [] [] (gen_zond g) (gen_dx g) (gen_dy g), Throw e)
        | UB u => (rest b (gen_fragments g) [] [] (gen_zond g) (gen_dx g) (gen_dy g), UB u)
        | Ok (fr, x1, y1, curr_dx, curr_dy) =>
            match SetDeltas (gen_zond g) curr_dx curr_dy with
            | Throw e => (rest b fr [] [] (gen_zond g) x1 y1, Throw e)
            | UB u => (rest b fr [] [] (gen_zond g) x1 y1, UB u)
            | Ok z1 =>
                let bounds := mkind 0 (Z.of_nat RowCount - 1) 0 (Z.of_nat ColumnCount - 1) in
                let z := SetWorkspaceCoord (SetBoundIndicies z1 bounds) (gen_coords g) in
                match InitGeometryItems stack (gen_data g) (gen_coords g) (gen_layers g) ([], []) with
                | Throw e => (rest b fr [] [] z x1 y1, Throw e)
                | UB u => (rest b fr [] [] z x1 y1, UB u)
                | Ok (l1, l2) =>
                    match CalcDelta (cx lt) (cx rb) (Z.of_nat (GetRowCount b)),
                          CalcDelta (cy lt) (cy rb) (Z.of_nat (GetColumnCount b)) with
                    | Ok x2, Ok y2 =>
                        match zond_all z (l1 ++ l2) b with
                        | (b', Ok _) =>
                            (rest b' fr l1 l2 z x2 y2,
                             let* _ := Print b' in Ok true)
                        | (b', Throw e) => (rest b' fr l1 l2 z x2 y2, Throw e)
                        | (b', UB u) => (rest b' fr l1 l2 z x2 y2, UB u)
                        end
                    | UB u, _ | _, UB u => (rest b fr l1 l2 z x1 y1, UB u)
                    | Throw e, _ | _, Throw e => (rest b fr l1 l2 z x1 y1, Throw e)
                    end
                end
            end
        end
    end.
