(** Model of the private member functions of LayoutBitmapGenerator that nothing calls
    (src/Common/Impl/LayoutBitmapGenerator/LayoutBitmapGenerator.cpp:133-296): splitting the
    bitmap and its box into fragments and handing out the geometries. *)
From Verif Require Import Prelude M_Double M_LayoutData M_Zond M_Generator.
Local Open Scope Z_scope.

(** The loops [for i < fragmentMatrix.RowCount(), j < fragmentMatrix.ColCount()] with an
    assignment to fragmentMatrix[i][j] (LayoutBitmapGenerator.cpp:139-150 and :224-229) *)
Definition over_fragments (stray : stray_read) (fs : list (list fragment)) (f : nat -> nat -> fragment -> res fragment)
  : res (list (list fragment)) :=
  for_each (upto 0 (length fs)) fs (fun fs i =>
    let* n := ColCount stray fs in
    for_each (upto 0 (Z.to_nat n)) fs (fun fs j =>
      let* row := at_ fs i in
      let* x := at_ row j in
      let* x' := f i j x in
      let* row' := put_ row j x' in
      put_ fs i row')).

(** LayoutBitmapGenerator.cpp:136-152  InitFragmentsWorkspaces; [box] is
    preloadedData.bitmapCoords; the bitmap is not null *)
Definition InitFragmentsWorkspaces (stray : stray_read) (box : workspace) (dx dy : double) (fs : list (list fragment))
  : res (list (list fragment)) :=
  over_fragments stray fs (fun i j f =>
    let X (k : nat) := cast_int32 (dadd (dz (cx (leftTop box))) (dmul (dz (Z.of_nat k)) dx)) in
    let Y (k : nat) := cast_int32 (dsub (dz (cy (leftTop box))) (dmul (dz (Z.of_nat k)) dy)) in
    let* x1 := X j in
    let* y1 := Y i in
    let* x2 := X (S j) in
    let* y2 := Y (S i) in
    let tmp := fst (SetAngleCoords ws_init (mkcoord x1 y1) (mkcoord x2 y2)) in
    F_SetMatrix (F_SetWorkspaceCoords f tmp) true).

(** LayoutBitmapGenerator.cpp:217-231  InitFragmentsIndicies; size_t arithmetic *)
Definition InitFragmentsIndicies (stray : stray_read) (rows cols : nat) (fs : list (list fragment)) : res (list (list fragment)) :=
  let r := Z.of_nat (length fs) in
  if r =? 0 then UB DivByZero
  else
    let i_add := Z.of_nat rows / r in
    let* c := ColCount stray fs in
    if c =? 0 then UB DivByZero
    else
      let j_add := Z.of_nat cols / c in
      over_fragments stray fs (fun i j f =>
        Ok (F_SetIndicies f (to_size (Z.of_nat i * i_add)) (to_size (Z.of_nat j * j_add))
              (to_size (to_size ((Z.of_nat i + 1) * i_add) - 1)) (to_size (to_size ((Z.of_nat j + 1) * j_add) - 1)))).

(** LayoutBitmapGenerator.cpp:155-173  GetFragmentIntersectionCnt; the counter is a uint32_t *)
Definition GetFragmentIntersectionCnt (stray : stray_read) (fs : list (list fragment)) (Geom : option geom) : res Z :=
  match Geom with
  | None => Ok 0
  | Some _ =>
      for_each (upto 0 (length fs)) 0 (fun n i =>
        let* c := ColCount stray fs in
        for_each (upto 0 (Z.to_nat c)) n (fun n j =>
          let* row := at_ fs i in
          let* f := at_ row j in
          Ok (if Intersects (f_angleCoords f) Geom then (n + 1) mod 2 ^ 32 else n)))
  end.

(** LayoutBitmapGenerator.cpp:184-193 and :202-211: PushGeometry of one object; the condition is
    the one of the generator, not of the fragment; [pushed] holds what PushGeometry has stored
    in the fragments *)
Definition push_everywhere (stray : stray_read) (box : workspace) (fs : list (list fragment)) (g : geom)
  (pushed : list (list (list geom))) : res (list (list (list geom))) :=
  for_each (upto 0 (length fs)) pushed (fun pushed i =>
    let* c := ColCount stray fs in
    for_each (upto 0 (Z.to_nat c)) pushed (fun pushed j =>
      if Intersects box (Some g) then
        let* row := at_ pushed i in
        let* l := at_ row j in
        let* row' := put_ row j (l ++ [g]) in
        put_ pushed i row'
      else Ok pushed)).

(** LayoutBitmapGenerator.cpp:180-196 and :198-214: one of the two loops of
    DistributeGeometries.  The iterator stands before [after]; erase returns the iterator to the
    next object, std::prev changes nothing (its result is dropped), and the ++ of the loop
    steps over that object; ++ at the end is undefined behaviour. *)
Fixpoint distribute (stray : stray_read) (box : workspace) (fs : list (list fragment)) (before after : list geom)
  (pushed : list (list (list geom))) : res (list geom * list (list (list geom))) :=
  match after with
  | [] => Ok (before, pushed)
  | g :: t =>
      let* n := GetFragmentIntersectionCnt stray fs (Some g) in
      if 2 <? n then distribute stray box fs (before ++ [g]) t pushed
      else
        let* pushed := push_everywhere stray box fs g pushed in
        match t with
        | [] => UB OobIndex
        | g' :: t' => distribute stray box fs (before ++ [g']) t' pushed
        end
  end.

(** LayoutBitmapGenerator.cpp:176-215  DistributeGeometries: the two lists that remain, and what
    the fragments hold (first the converted objects, then the others) *)
Definition DistributeGeometries (stray : stray_read) (box : workspace) (fs : list (list fragment)) (l1 l2 : list geom)
  (p1 p2 : list (list (list geom))) : res (list geom * list geom * list (list (list geom)) * list (list (list geom))) :=
  let* r1 := distribute stray box fs [] l1 p1 in
  let* r2 := distribute stray box fs [] l2 p2 in
  Ok (fst r1, fst r2, snd r1, snd r2).

(** LayoutBitmapGenerator.cpp:235-296  pushRectangle, both overloads: [decides] is true for the
    one at :267-296, which reports that the rectangle lies in one fragment; the other returns
    false in the end.  An int32_t divided by a double and converted to size_t. *)
Definition pushRectangle (stray : stray_read) (decides : bool) (box : workspace) (dx dy : double) (fs : list (list fragment)) (g : geom)
  : res bool :=
  let* lt := at_ (g_coords g) 0 in
  let* rb := at_ (g_coords g) 2 in
  let i_last := to_size (Z.of_nat (length fs) - 1) in
  let* c := ColCount stray fs in
  let j_last := to_size (c - 1) in
  let* t1 := sub32 (cx lt) (cx (leftTop box)) in
  let* j_begin := if 0 <? t1 then cast_size (ddiv (dz t1) dx) else Ok 0 in
  let* t2 := sub32 (cx rb) (cx (leftTop box)) in
  let* w := if 0 <=? t2 then sub32 (cx (rightBot box)) (cx (leftTop box)) else Ok 0 in
  let* j_end := if (0 <=? t2) && (t2 <? w) then cast_size (ddiv (dz t2) dx) else Ok j_last in
  let* t3 := sub32 (cy (leftTop box)) (cy lt) in
  let* i_begin := if 0 <? t3 then cast_size (ddiv (dz t3) dy) else Ok 0 in
  let* t4 := sub32 (cy (leftTop box)) (cy rb) in
  let* h := if 0 <? t4 then sub32 (cy (leftTop box)) (cy (rightBot box)) else Ok 0 in
  let* i_end := if (0 <? t4) && (t4 <? h) then cast_size (ddiv (dz t4) dy) else Ok i_last in
  Ok (decides && (i_begin =? i_end) && (j_begin =? j_end)).
