(** Model of src/Common/Impl/LayoutBitmapZond/LayoutBitmapZond.cpp, Include/LayoutBitmapZond.h and
    of WorkspaceCoords (LayoutMatrix.cpp:30-54).  The matrix pointer is not null. *)
From Verif Require Import Prelude M_Double M_LayoutData M_Loop M_BitMatrix.
Local Open Scope Z_scope.

(** LayoutMatrix.h:32-67  WorkspaceCoords *)
Record workspace := mkws { leftTop : coord; rightBot : coord }.
(** LayoutMatrix.h:32-67, LayoutData.hpp:14 *)
Definition ws_init : workspace := mkws (mkcoord 0 0) (mkcoord 0 0).

(** LayoutMatrix.cpp:30-40  SetAngleCoords: object afterwards and the returned bool *)
Definition SetAngleCoords (w : workspace) (LeftTop RightBot : coord) : workspace * bool :=
  if (cx RightBot <? cx LeftTop) || (cy LeftTop <? cy RightBot) then (w, false)
  else (mkws LeftTop RightBot, true).

(** LayoutMatrix.cpp:42-54  isInWorkspace *)
Definition isInWorkspace (w : workspace) (Point : coord) : bool :=
  if (cx (leftTop w) <? cx Point) && (cx Point <? cx (rightBot w)) then
    if (cy Point <? cy (leftTop w)) && (cy (rightBot w) <? cy Point) then true
    else false
  else false.

(** LayoutBitmapZond.h:25-31  Indicies (size_t members) *)
Record indicies := mkind { iBegin : Z; iEnd : Z; jBegin : Z; jEnd : Z }.
(** LayoutBitmapZond.h:27-30 *)
Definition ind_init : indicies := mkind 0 0 0 0.

(** LayoutBitmapZond.h:39-57  LayoutZond *)
Record zond := mkzond {
  boundIndicies : indicies; angleCoords : workspace; dx : double; dy : double; eps : double }.

(** LayoutBitmapZond.h:54-57  constructor *)
Definition zond_new (Eps : double) : zond := mkzond ind_init ws_init (dz 0) (dz 0) Eps.

(** LayoutBitmapZond.cpp:16-22  SetEps: tests the stored accuracy, not the argument. *)
Definition SetEps (z : zond) (Eps : double) : res zond :=
  if dlt (eps z) (dz 0) || dgt (eps z) (dlit 1 2) then Throw InvalidArgument
  else Ok (mkzond (boundIndicies z) (angleCoords z) (dx z) (dy z) Eps).

(** LayoutBitmapZond.cpp:25-33  SetDeltas *)
Definition SetDeltas (z : zond) (dx' dy' : double) : res zond :=
  if dgt (dz 0) dy' || dgt (dz 0) dx' then Throw InvalidArgument
  else Ok (mkzond (boundIndicies z) (angleCoords z) dx' dy' (eps z)).

(** LayoutBitmapZond.h:86-88, :96-98 *)
Definition SetBoundIndicies (z : zond) (b : indicies) : zond :=
  mkzond b (angleCoords z) (dx z) (dy z) (eps z).
(** LayoutBitmapZond.h:96-98 *)
Definition SetWorkspaceCoord (z : zond) (w : workspace) : zond :=
  mkzond (boundIndicies z) w (dx z) (dy z) (eps z).

(** static_cast<int32_t>, static_cast<size_t> of a double.  LayoutBitmapZond.cpp:67 *)
Definition cast_int32 : double -> res Z := dcast (- 2 ^ 31) (2 ^ 31 - 1).
(** LayoutBitmapZond.cpp:75-100 *)
Definition cast_size : double -> res Z := dcast 0 (2 ^ 64 - 1).

(** LayoutBitmapZond.cpp:51-104  NormIndicies(BeginInd, EndInd, Delta, Eps, BoundIndicies);
    the size_t bounds are converted to double in the comparisons of :85 and :93. *)
Definition NormPair (BeginInd EndInd Delta Eps : double) (bfirst bsecond : Z) : res (Z * Z) :=
  if dgt (dz 0) BeginInd || dgt (dz 0) EndInd then Throw InvalidArgument
  else if dlt EndInd BeginInd then Throw InvalidArgument
  else if dge (dz 0) Delta then Throw InvalidArgument
  else
    let mid := dlit 1 2 in
    let error := dmul Eps Delta in
    let* e32 := cast_int32 EndInd in
    let* b32 := cast_int32 BeginInd in
    let* d := sub32 e32 b32 in
    let bm := dsub BeginInd (dtrunc BeginInd) in
    let em := dsub EndInd (dtrunc EndInd) in
    if d =? 0 then
      if (dge bm (dsub mid error) && dle bm (dadd mid error))
         || (dge em (dsub mid error) && dle em (dadd mid error))
         || (dle bm (dadd mid error) && dge em (dsub mid error))
      then
        let* k := cast_size BeginInd in
        Ok (k, k)
      else Ok (1, 0)
    else
      let* first :=
        if dle BeginInd (dz bfirst) then Ok bfirst
        else if dge (dadd mid error) bm then cast_size BeginInd
        else let* k := cast_size BeginInd in Ok (to_size (k + 1)) in
      let* second :=
        if dge EndInd (dz bsecond) then Ok bsecond
        else if dle (dsub mid error) em then cast_size (dround EndInd)
        else let* k := cast_size EndInd in Ok (to_size (k - 1)) in
      Ok (first, second).

(** LayoutBitmapZond.cpp:36-49  NormIndicies(iBegin, iEnd, jBegin, jEnd): rows first *)
Definition NormIndicies (z : zond) (iB iE jB jE : double) : res indicies :=
  let b := boundIndicies z in
  let* ip := NormPair iB iE (dy z) (eps z) (iBegin b) (iEnd b) in
  let* jp := NormPair jB jE (dx z) (eps z) (jBegin b) (jEnd b) in
  Ok (mkind (fst ip) (snd ip) (fst jp) (snd jp)).

(** [for (int32_t i = start; cond(i); i++) body], the state being the matrix.  The initial
    value is converted from size_t; i++ at 2^31-1 is undefined behaviour.
    LayoutBitmapZond.cpp:146-147, :183-184 *)
Definition for32 (start : Z) (cond : Z -> bool) (body : bm -> Z -> bm * res unit) (m : bm)
  : bm * res unit :=
  loop (fun st : Z * bm =>
          let '(i, m) := st in
          if cond i then
            match body m i with
            | (m', Ok _) => if i =? 2 ^ 31 - 1 then Stop (m', UB SignedOverflow)
                            else Next (i + 1, m')
            | (m', Throw e) => Stop (m', Throw e)
            | (m', UB u) => Stop (m', UB u)
            end
          else Stop (m, Ok tt))
       (fun st => (snd st, UB Diverges))
       (to_int32 start, m).

(** try { Matrix->Set(i, j, 1); } catch (...) {}   (LayoutBitmapZond.cpp:149-155 and :186-192); the int32_t
    indices are converted to size_t. *)
Definition try_set (m : bm) (i j : Z) : bm * res unit :=
  match Set_ m (Z.to_nat (to_size i)) (Z.to_nat (to_size j)) true with
  | Ok m' => (m', Ok tt)
  | Throw _ => (m, Ok tt)
  | UB u => (m, UB u)
  end.

(** LayoutBitmapZond.cpp:142-143  the test for a rectangle that covers the workspace;
    int32_t values are converted to double. *)
Definition covers_test (z : zond) (lt rb : coord) : bool :=
  let w := angleCoords z in
  let two := dz 2 in
  (dle (dz (cx lt)) (dsub (dadd (dz (cx (leftTop w))) (ddiv (dx z) two)) (dmul (dx z) (eps z)))
   && dge (dz (cx rb)) (dadd (dsub (dz (cx (rightBot w))) (ddiv (dx z) two)) (dmul (dx z) (eps z))))
  && (dge (dz (cy lt)) (dadd (dsub (dz (cy (leftTop w))) (ddiv (dy z) two)) (dmul (dy z) (eps z)))
   && dle (dz (cy rb)) (dsub (dadd (dz (cy (rightBot w))) (ddiv (dy z) two)) (dmul (dy z) (eps z)))).

(** LayoutBitmapZond.cpp:162-174  the four index values (int32_t subtraction, then division by
    a double) and their normalisation *)
Definition rect_indices (z : zond) (lt rb : coord) : res indicies :=
  let w := angleCoords z in
  let* jb := sub32 (cx lt) (cx (leftTop w)) in
  let* je := sub32 (cx rb) (cx (leftTop w)) in
  let* ib := sub32 (cy (leftTop w)) (cy lt) in
  let* ie := sub32 (cy (leftTop w)) (cy rb) in
  NormIndicies z (ddiv (dz ib) (dy z)) (ddiv (dz ie) (dy z))
                 (ddiv (dz jb) (dx z)) (ddiv (dz je) (dx z)).

(** LayoutBitmapZond.cpp:131-194  ZondRectangle: matrix afterwards and the outcome.  A
    comparison between an int32_t and a size_t is made in size_t. *)
Definition ZondRectangle (z : zond) (g : geom) (m : bm) : bm * res unit :=
  match at_ (g_coords g) 0, at_ (g_coords g) 2 with
  | Ok lt, Ok rb =>
      let b := boundIndicies z in
      if covers_test z lt rb then
        for32 (iBegin b) (fun i => to_size i <=? iEnd b)
          (fun m i =>
             for32 (jBegin b) (fun j => to_size j <=? jEnd b)
               (fun m j => try_set m i j) m) m
      else
        match rect_indices z lt rb with
        | Ok n =>
            let ib := to_size (iBegin n + iBegin b) in
            let ie := to_size (iEnd n + iBegin b) in
            let jb := to_size (jBegin n + jBegin b) in
            let je := to_size (jEnd n + jBegin b) in
            for32 ib (fun i => (to_size i <=? ie) && (iBegin b <=? to_size i) && (to_size i <=? iEnd b))
              (fun m i =>
                 for32 jb (fun j => (to_size j <=? je) && (jBegin b <=? to_size j) && (to_size j <=? jEnd b))
                   (fun m j => try_set m i j) m) m
        | Throw e => (m, Throw e)
        | UB u => (m, UB u)
        end
  | _, _ => (m, UB OobIndex)
  end.

(** LayoutBitmapZond.cpp:197-203  ZondPolygon does nothing. *)
Definition ZondPolygon (z : zond) (g : geom) (m : bm) : bm * res unit := (m, Ok tt).

(** LayoutBitmapZond.cpp:107-128  ZondGeometry (both overloads): a null geometry is
    dereferenced. *)
Definition ZondGeometry (z : zond) (g : option geom) (m : bm) : bm * res unit :=
  match g with
  | None => (m, UB NullDeref)
  | Some g =>
      match g_type g with
      | GTpolygon => ZondPolygon z g m
      | GTrectangle => ZondRectangle z g m
      | _ => (m, Throw InvalidArgument)
      end
  end.
