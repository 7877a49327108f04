(** Model of src/Common/Impl/LayoutConverter/LayoutConverter.cpp.  Pointers to elements are
    positions in a heap of elements (M_LayoutData); shared_ptr lists are lists. *)
From Verif Require Import Prelude M_LayoutData.
Local Open Scope Z_scope.

(** LayoutConverter.cpp:19-24  enum class LineOrientation *)
Inductive LineOrientation := LOundefined | LOhorizontal | LOvertical.
(** LayoutConverter.cpp:28-35  enum class PathElemPos *)
Inductive PathElemPos := PPundefined | PPbegin | PPmid | PPend.

(** LayoutConverter.cpp:38-45  InCalcDelta *)
Definition InCalcDelta (first second : Z) : res Z := sub32 second first.

(** LayoutConverter.cpp:53-58  InGetType *)
Definition InGetType (g : option geom) : geometry_type :=
  match g with None => GTundefined | Some g => g_type g end.

(** LayoutConverter.cpp:107-118  the running minimum and maximum over coords[1..] *)
Definition widen (mm : coord * coord) (c : coord) : coord * coord :=
  let '(mn, mx) := mm in
  (mkcoord (if cx c <? cx mn then cx c else cx mn) (if cy c <? cy mn then cy c else cy mn),
   mkcoord (if cx mx <? cx c then cx c else cx mx) (if cy mx <? cy c then cy c else cy mx)).

(** LayoutConverter.cpp:68-119  InFillBox: the box afterwards *)
Definition InFillBox (box : option geom) (LeftBot RightTop : coord) (LayerNum : Z) : res geom :=
  match box with
  | None => Throw InvalidArgument
  | Some b =>
      if negb (gt_eqb (g_type b) GTrectangle) then Throw InvalidArgument
      else
        let* width := InCalcDelta (cx LeftBot) (cx RightTop) in
        let* height := InCalcDelta (cy LeftBot) (cy RightTop) in
        let* x := sub32 (cx RightTop) width in
        let* y := sub32 (cy RightTop) height in
        let cs := g_coords b ++ [mkcoord x (cy RightTop); RightTop; mkcoord (cx RightTop) y;
                                 mkcoord x y; mkcoord x (cy RightTop)] in
        let* c0 := at_ cs 0 in
        let '(mn, mx) := fold_left widen (tl cs) (c0, c0) in
        Ok (mkgeom (g_type b) LayerNum cs mn mx (g_class b))
  end.

(** LayoutConverter.cpp:130-137  InGetOrientation *)
Definition InGetOrientation (b e : coord) : LineOrientation :=
  if (cx b =? cx e) && (cy b =? cy e) then LOundefined
  else if cx b =? cx e then LOvertical
  else LOhorizontal.

(** LayoutConverter.cpp:146-161  InAddCoordValue *)
Definition add_coord (c d : coord) : res coord :=
  let* x := add32 (cx c) (cx d) in
  let* y := add32 (cy c) (cy d) in
  Ok (mkcoord x y).

(** LayoutConverter.cpp:146-160  InAddCoordValue *)
Definition InAddCoordValue (g : geom) (d : coord) : res geom :=
  let* mn := add_coord (g_min g) d in
  let* mx := add_coord (g_max g) d in
  let* cs := for_each (g_coords g) [] (fun acc c => let* c' := add_coord c d in Ok (acc ++ [c'])) in
  Ok (mkgeom (g_type g) (g_layer g) cs mn mx (g_class g)).

(** How a case of the outer switch of InCalcRectAngles is left: by [return], or by falling
    through to the next case with (leftTop, rightBot).  The [break] statements at LayoutConverter.cpp:200 ... :283
    leave the inner switch only. *)
Inductive flow := Returned (r : coord * coord) | FellThrough (lt rb : coord).

(** LayoutData.hpp:14  Coord(), used at LayoutConverter.cpp:286 *)
Definition origin : coord := mkcoord 0 0.

(** LayoutConverter.cpp:185-236  case LineOrientation::horizontal *)
Definition case_horizontal (b e : coord) (h : Z) (pos : PathElemPos) : res flow :=
  let y := cy b in
  match pos with
  | PPbegin =>
      if cx b <? cx e then
        let* a1 := add32 y h in
        let* a2 := add32 (cx e) h in
        let* a3 := sub32 y h in
        Ok (FellThrough (mkcoord (cx b) a1) (mkcoord a2 a3))
      else
        let* a1 := sub32 y h in
        let* a2 := sub32 (cx e) h in
        let* a3 := add32 y h in
        Ok (FellThrough (mkcoord a2 a3) (mkcoord (cx b) a1))
  | PPmid =>
      if cx b <? cx e then
        let* a1 := sub32 (cx b) h in
        let* a2 := add32 y h in
        let* a3 := add32 (cx e) h in
        let* a4 := sub32 y h in
        Ok (FellThrough (mkcoord a1 a2) (mkcoord a3 a4))
      else
        let* a1 := add32 (cx b) h in
        let* a2 := sub32 y h in
        let* a3 := sub32 (cx e) h in
        let* a4 := add32 y h in
        Ok (FellThrough (mkcoord a3 a4) (mkcoord a1 a2))
  | PPend =>
      if cx b <? cx e then
        let* a1 := sub32 (cx b) h in
        let* a2 := add32 y h in
        let* a3 := sub32 y h in
        Ok (FellThrough (mkcoord a1 a2) (mkcoord (cx e) a3))
      else
        let* a1 := add32 (cx b) h in
        let* a2 := sub32 y h in
        let* a3 := add32 y h in
        Ok (FellThrough (mkcoord (cx e) a3) (mkcoord a1 a2))
  | PPundefined => Ok (Returned (origin, origin))
  end.

(** LayoutConverter.cpp:238-285  case LineOrientation::vertical *)
Definition case_vertical (b e : coord) (h : Z) (pos : PathElemPos) : res flow :=
  let x := cx b in
  match pos with
  | PPbegin =>
      if cy e <? cy b then
        let* a1 := sub32 x h in
        let* a2 := add32 x h in
        let* a3 := sub32 (cy e) h in
        Ok (FellThrough (mkcoord a1 (cy b)) (mkcoord a2 a3))
      else
        let* a1 := add32 x h in
        let* a2 := sub32 x h in
        let* a3 := add32 (cy e) h in
        Ok (FellThrough (mkcoord a2 a3) (mkcoord a1 (cy b)))
  | PPmid =>
      if cy e <? cy b then
        let* a1 := sub32 x h in
        let* a2 := add32 (cy b) h in
        let* a3 := add32 x h in
        let* a4 := sub32 (cy e) h in
        Ok (FellThrough (mkcoord a1 a2) (mkcoord a3 a4))
      else
        let* a1 := add32 x h in
        let* a2 := sub32 (cy b) h in
        let* a3 := sub32 x h in
        let* a4 := add32 (cy e) h in
        Ok (FellThrough (mkcoord a3 a4) (mkcoord a1 a2))
  | PPend =>
      if cy e <? cy b then
        let* a1 := sub32 x h in
        let* a2 := add32 (cy b) h in
        let* a3 := add32 x h in
        Ok (FellThrough (mkcoord a1 a2) (mkcoord a3 (cy e)))
      else
        let* a1 := add32 x h in
        let* a2 := sub32 (cy b) h in
        let* a3 := sub32 x h in
        Ok (FellThrough (mkcoord a3 (cy e)) (mkcoord a1 a2))
  | PPundefined => Ok (Returned (origin, origin))
  end.

(** LayoutConverter.cpp:286  default *)
Definition case_default : res (coord * coord) := Ok (origin, origin).

(** LayoutConverter.cpp:172-289  InCalcRectAngles: horizontal falls through to vertical, and
    vertical to default; the [return] at :288 is never reached. *)
Definition InCalcRectAngles (b e : coord) (h : Z) (pos : PathElemPos) : res (coord * coord) :=
  match pos with
  | PPundefined => Ok (origin, origin)
  | _ =>
      match InGetOrientation b e with
      | LOhorizontal =>
          let* f := case_horizontal b e h pos in
          match f with
          | Returned r => Ok r
          | FellThrough _ _ =>
              let* f' := case_vertical b e h pos in
              match f' with
              | Returned r => Ok r
              | FellThrough _ _ => case_default
              end
          end
      | LOvertical =>
          let* f := case_vertical b e h pos in
          match f with
          | Returned r => Ok r
          | FellThrough _ _ => case_default
          end
      | LOundefined => case_default
      end
  end.

(** LayoutConverter.cpp:301-315  the loop of PathToRectList.  [size() - 1] is 2^64-1 for an
    empty vector: the first iteration is then entered and reads coords[0]; iterations after it
    do not matter. *)
Definition path_boxes (cs : list coord) (h lay : Z) : res (list geom) :=
  let n := length cs in
  for_each (upto 0 (if (n =? 0)%nat then 1%nat else (n - 1)%nat)) []
    (fun boxes i =>
       let pos := if ((2 <=? n) && (n - 2 =? i))%nat then PPend else PPmid in
       let* a := at_ cs i in
       let* b := at_ cs (i + 1) in
       let* ang := InCalcRectAngles a b h pos in
       let* box := InFillBox (Some new_rectangle) (mkcoord (cx (fst ang)) (cy (snd ang)))
                             (mkcoord (cx (snd ang)) (cy (fst ang))) lay in
       Ok (boxes ++ [box])).

(** LayoutConverter.cpp:292-316  PathToRectList *)
Definition PathToRectList (path : option geom) : res (list geom) :=
  if negb (gt_eqb (InGetType path) GTpath) then Throw InvalidArgument
  else
    match path with
    | None => Throw InvalidArgument
    | Some p =>
        match g_class p with
        | CPath _ _ width => path_boxes (g_coords p) (Z.quot width 2) (g_layer p)
        | _ => UB TypeConfusion
        end
    end.

(** LayoutConverter.cpp:318-376  SplitSref.  [depth] bounds the recursion: the call stack.
    Each call first needs a frame. *)
Fixpoint SplitSref (heap : list element) (depth : nat) (Sref : option geom) (Min : coord)
  : res (list geom) :=
  match depth with
  | O => UB StackOverflow
  | S depth' =>
      match Sref with
      | None => Ok []
      | Some r =>
          match g_class r with
          | CReference _ None => UB NullDeref
          | CReference _ (Some k) =>
              let* el := at_ heap k in
              let* Min' := add_coord Min (e_min el) in
              for_each (e_geometries el) []
                (fun refArr it =>
                   match it with
                   | None => Ok refArr
                   | Some g =>
                       match g_type g with
                       | GTpolygon =>
                           match g_class g with
                           | CPolygon _ =>
                               let* s := InAddCoordValue g Min' in
                               Ok (refArr ++ [s])
                           | _ => UB TypeConfusion
                           end
                       | GTpath =>
                           let* arr := PathToRectList (Some g) in
                           for_each arr refArr
                             (fun refArr p =>
                                let* s := InAddCoordValue p Min' in
                                Ok (refArr ++ [s]))
                       | GTrectangle =>
                           match g_class g with
                           | CRectangle _ =>
                               let* s := InAddCoordValue g Min' in
                               Ok (refArr ++ [s])
                           | _ => UB TypeConfusion
                           end
                       | GTreference =>
                           let* arr := SplitSref heap depth' (Some g) Min' in
                           Ok (refArr ++ arr)
                       | _ => Ok refArr
                       end
                   end)
          | _ => UB TypeConfusion
          end
      end
  end.
