(** Model of src/Common/Impl/LayoutReader/ReaderImpl/GdsiiBinaryReader.cpp and
    Include/GdsiiReader.hpp, GDSIITypes.hpp.  Function pointers, allocation failure and errors of
    the disk are not modelled. *)
From Flocq Require Import Core.Zaux Core.FLX IEEE754.BinarySingleNaN.
From Verif Require Import Prelude M_LayoutData M_Converter M_Double M_Msk M_GdsiiHelpers.
Local Open Scope Z_scope.

(** ** Objects: LayoutData.hpp:6-131, with the members that this reader sets.  The member [type]
    is the class; transformationFlags is never set. *)
Inductive shape_class :=
| SPolygon (dataType : Z)
| SPath (dataType pathType width : Z)
| SText (textType flagsPresentation pathType flagsTransformation : Z) (magnification : double) (width : Z) (stringValue : list byte)
| SRectangle (rectType : Z)
| SReference (name : list byte) (pElement : option (nat * nat)) (magnification : double).

(** Geometry; a property is an index and a value.  LayoutData.hpp:32-41 *)
Record obj := mkobj {
  o_layer : Z; o_props : list (Z * list byte); o_coords : list coord; o_min : coord; o_max : coord; o_class : shape_class }.
(** Element.  LayoutData.hpp:86-102 *)
Record struc := mkstruc {
  s_name : list byte; s_objs : list obj; s_flat : bool; s_min : coord; s_max : coord; s_nested : bool }.
(** Layer; name and geometries stay empty.  LayoutData.hpp:104-109 *)
Record glayer := mkglayer { y_layer : Z; y_dataType : Z }.
(** Library.  LayoutData.hpp:111-131 *)
Record glib := mkglib {
  b_name : list byte; b_user : double; b_physical : double; b_elements : list struc; b_layers : list glayer; b_min : coord; b_max : coord }.

(** LayoutData.hpp:40-84, :94, :119-122  the constructors *)
Definition new_obj (c : shape_class) : obj := mkobj (-1) [] [] (mkcoord (-1) (-1)) (mkcoord (-1) (-1)) c.
(** LayoutData.hpp:94  Element() *)
Definition new_struc : struc := mkstruc [] [] true (mkcoord (-1) (-1)) (mkcoord (-1) (-1)) false.
(** LayoutData.hpp:119-122  Library() *)
Definition new_glib : glib := mkglib [] (dlit 1 1000) (dlit 1 1000000000) [] [] (mkcoord 0 0) (mkcoord 0 0).

(** ** The input stream: the bytes from the current position on, good() and eof().
    LayoutReader.hpp:18-22 (member file) *)
Record stream := mkstream { s_rest : list byte; s_good : bool; s_eof : bool }.

(** std::istream::read: the bytes that were read.  GdsiiBinaryReader.cpp:31, :39, :62 *)
Definition sread (n : nat) (s : stream) : list byte * stream :=
  if negb (s_good s) then ([], s)
  else if (length (s_rest s) <? n)%nat then (s_rest s, mkstream [] false true)
  else (firstn n (s_rest s), mkstream (skipn n (s_rest s)) true false).
(** seekg(n, cur) on a good stream; a position beyond the end is allowed.
    GdsiiBinaryReader.cpp:38, :130 *)
Definition sseek (n : nat) (s : stream) : stream :=
  if negb (s_good s) then s else mkstream (skipn n (s_rest s)) true false.

(** read into an object with the given bytes; into an object without a value.
    GdsiiBinaryReader.cpp:143, :211, :403, :498 *)
Definition read_over (old : list byte) (s : stream) : list byte * stream :=
  let '(got, s) := sread (length old) s in (got ++ skipn (length got) old, s).
(** GdsiiBinaryReader.cpp:157-158, :635 *)
Definition read_new (n : nat) (s : stream) : res (list byte * stream) :=
  let '(got, s) := sread n s in if (length got <? n)%nat then UB Indeterminate else Ok (got, s).

(** The eight bytes of a double (IEEE 754 binary64, little-endian).  GDSIITypes.hpp:101-104 *)
Definition double_bits (x : double) : Z :=
  match x with
  | B754_zero s => if s then 2 ^ 63 else 0
  | B754_infinity s => (if s then 2 ^ 63 else 0) + 2047 * 2 ^ 52
  | B754_nan => 2047 * 2 ^ 52 + 2 ^ 51
  | B754_finite s m e _ =>
      (if s then 2 ^ 63 else 0) + (if Zpos m <? 2 ^ 52 then Zpos m else (e + 1075) * 2 ^ 52 + (Zpos m - 2 ^ 52))
  end.
(** GDSIITypes.hpp:101-104 *)
Definition double_image (x : double) : list byte := le_bytes 8 (double_bits x).

(** GDSIITypes.hpp:3-7  GDSIIRecord: length (uint16_t), recordType (int8_t), dataType (int8_t).
    GdsiiBinaryReader.cpp:65-66, :32-33  Normalize_WORD on the length, then -= 4. *)
Definition record_length (l0 l1 : byte) : res Z :=
  let* v := Normalize_WORD (value16 [l0; l1]) in Ok ((v - 4) mod 2 ^ 16).

(** ** The state of the loop: the stream, the libraries of the layout, whether p_activeLibrary is
    set (it is the last library), p_activeElement, and whether p_activeGeometry is set (it is the
    last object of the active element).  GdsiiReader.hpp:13-17 *)
Record gstate := mkgstate {
  g_stream : stream; g_libs : list glib; g_lib : bool; g_elem : option struc; g_geom : bool }.

(** GdsiiReader.hpp:13-17: assignment to the stream *)
Definition set_stream (s : stream) (st : gstate) : gstate := mkgstate s (g_libs st) (g_lib st) (g_elem st) (g_geom st).
(** GdsiiBinaryReader.cpp:154, :329: access to the last object that was pushed *)
Fixpoint upd_last {A} (f : A -> A) (l : list A) : list A :=
  match l with [] => [] | [x] => [f x] | x :: t => x :: upd_last f t end.
(** GdsiiReader.hpp:14: a change of *p_activeLibrary *)
Definition with_lib (f : glib -> glib) (st : gstate) : gstate :=
  mkgstate (g_stream st) (upd_last f (g_libs st)) (g_lib st) (g_elem st) (g_geom st).
(** GdsiiReader.hpp:15: a change of *p_activeElement *)
Definition with_elem (f : struc -> struc) (st : gstate) : gstate :=
  mkgstate (g_stream st) (g_libs st) (g_lib st) (option_map f (g_elem st)) (g_geom st).
(** LayoutData.hpp:88: a change of the member geometries *)
Definition with_objs (f : list obj -> list obj) (e : struc) : struc :=
  mkstruc (s_name e) (f (s_objs e)) (s_flat e) (s_min e) (s_max e) (s_nested e).
(** GdsiiReader.hpp:16: a change of *p_activeGeometry *)
Definition with_geom (f : obj -> obj) : gstate -> gstate := with_elem (with_objs (upd_last f)).
(** LayoutData.hpp:43-84: assignment to the members of the derived class *)
Definition set_class (c : shape_class) (o : obj) : obj := mkobj (o_layer o) (o_props o) (o_coords o) (o_min o) (o_max o) c.

(** *p_activeGeometry.  GdsiiReader.hpp:16 *)
Definition active (st : gstate) : option obj :=
  match g_elem st with
  | Some e => match rev (s_objs e) with o :: _ => Some o | [] => None end
  | None => None
  end.
(** GdsiiReader.hpp:15: p_activeElement is not null *)
Definition has_elem (st : gstate) : bool := match g_elem st with Some _ => true | None => false end.
(** the guards of the sections: between the records that belong to a library, to a structure, to an element.
    GdsiiBinaryReader.cpp:176-187, :198-209, :225-236 *)
Definition in_library (st : gstate) : bool := g_lib st && negb (has_elem st) && negb (g_geom st).
(** GdsiiBinaryReader.cpp:260-271, :282-293, :315-326 *)
Definition in_structure (st : gstate) : bool := g_lib st && has_elem st && negb (g_geom st).
(** GdsiiBinaryReader.cpp:390-401, :570-581 *)
Definition in_element (st : gstate) : bool := g_lib st && has_elem st && g_geom st.

(** reading an int16_t: into a variable that is 0, without a value.
    GdsiiBinaryReader.cpp:142-144, :421-423, :828-829, :899-901 *)
Definition read_word0 (st : gstate) : res (Z * gstate) :=
  let '(img, s) := read_over [x00; x00] (g_stream st) in
  let* v := Normalize_WORD (value16 img) in Ok (v, set_stream s st).
(** GdsiiBinaryReader.cpp:634-636, :659-661, :708-710, :782-784 *)
Definition read_word_new (st : gstate) : res (Z * gstate) :=
  let* r := read_new 2 (g_stream st) in
  let '(img, s) := r in
  let* v := Normalize_WORD (value16 img) in Ok (v, set_stream s st).
(** GdsiiBinaryReader.cpp:189-194, :273-278, :604-609, :686-691  a string of the record's length, up to the first NUL *)
Fixpoint until_nul (l : list byte) : list byte :=
  match l with [] => [] | c :: t => if beqb c x00 then [] else c :: until_nul t end.
(** GdsiiBinaryReader.cpp:189-194, :273-278, :604-609, :686-691 *)
Definition read_string (len : Z) (st : gstate) : list byte * gstate :=
  let '(got, s) := sread (Z.to_nat len) (g_stream st) in (until_nul got, set_stream s st).

(** GdsiiBinaryReader.cpp:141-145 *)
Definition ReadSection_HEADER (len : Z) (st : gstate) : res gstate :=
  let* r := read_word0 st in Ok (snd r).

(** GdsiiBinaryReader.cpp:156-172, :240-256  two DateTime objects without a value are read, all members normalised *)
Definition read_dates (st : gstate) : res gstate :=
  let* r := read_new 12 (g_stream st) in
  let* r := read_new 12 (snd r) in
  Ok (set_stream (snd r) st).

(** GdsiiBinaryReader.cpp:148-173 *)
Definition ReadSection_BEGINLIBRARY (len : Z) (st : gstate) : res gstate :=
  if g_lib st then Ok st
  else read_dates (mkgstate (g_stream st) (g_libs st ++ [new_glib]) true (g_elem st) (g_geom st)).

(** GdsiiBinaryReader.cpp:175-195 *)
Definition ReadSection_LIBNAME (len : Z) (st : gstate) : res gstate :=
  if negb (in_library st) then Ok st
  else
    let '(str, st) := read_string len st in
    Ok (with_lib (fun b => mkglib str (b_user b) (b_physical b) (b_elements b) (b_layers b) (b_min b) (b_max b)) st).

(** GdsiiBinaryReader.cpp:197-215 *)
Definition ReadSection_UNITS (len : Z) (st : gstate) : res gstate :=
  if negb (in_library st) then Ok st
  else
    let lib := last (g_libs st) new_glib in
    let '(img, s) := read_over (double_image (b_user lib) ++ double_image (b_physical lib)) (g_stream st) in
    let* user := Normalize_DOUBLE (firstn 8 img) in
    let* physical := Normalize_DOUBLE (skipn 8 img) in
    Ok (with_lib (fun b => mkglib (b_name b) user physical (b_elements b) (b_layers b) (b_min b) (b_max b)) (set_stream s st)).

(** GdsiiBinaryReader.cpp:217-222 *)
Definition ReadSection_ENDLIBRARY (len : Z) (st : gstate) : res gstate :=
  Ok (mkgstate (g_stream st) (g_libs st) false (g_elem st) (g_geom st)).

(** GdsiiBinaryReader.cpp:224-257 *)
Definition ReadSection_BEGINSTRUCTURE (len : Z) (st : gstate) : res gstate :=
  if negb (in_library st) then Ok st
  else read_dates (mkgstate (g_stream st) (g_libs st) (g_lib st) (Some new_struc) (g_geom st)).

(** GdsiiBinaryReader.cpp:259-279 *)
Definition ReadSection_STRNAME (len : Z) (st : gstate) : res gstate :=
  if negb (in_structure st) then Ok st
  else
    let '(str, st) := read_string len st in
    Ok (with_elem (fun e => mkstruc str (s_objs e) (s_flat e) (s_min e) (s_max e) (s_nested e)) st).

(** the comparisons at GdsiiBinaryReader.cpp:300-307: the box mn..mx is enlarged to hold the box a..b *)
Definition widen_box (mm : coord * coord) (o : obj) : coord * coord :=
  let '(mn, mx) := mm in
  (mkcoord (if cx (o_min o) <? cx mn then cx (o_min o) else cx mn) (if cy (o_min o) <? cy mn then cy (o_min o) else cy mn),
   mkcoord (if cx mx <? cx (o_max o) then cx (o_max o) else cx mx) (if cy mx <? cy (o_max o) then cy (o_max o) else cy mx)).

(** GdsiiBinaryReader.cpp:281-312 *)
Definition bound_struc (e : struc) : struc :=
  match s_objs e with
  | [] => e
  | o :: t =>
      let '(mn, mx) := fold_left widen_box t (o_min o, o_max o) in
      mkstruc (s_name e) (s_objs e) (s_flat e) mn mx (s_nested e)
  end.
(** GdsiiBinaryReader.cpp:281-312  ReadSection_ENDSTRUCTURE *)
Definition ReadSection_ENDSTRUCTURE (len : Z) (st : gstate) : res gstate :=
  if negb (in_structure st) then Ok st
  else
    match g_elem st with
    | None => Ok st
    | Some e =>
        Ok (mkgstate (g_stream st)
              (upd_last (fun b => mkglib (b_name b) (b_user b) (b_physical b) (b_elements b ++ [bound_struc e]) (b_layers b) (b_min b) (b_max b)) (g_libs st))
              (g_lib st) None (g_geom st))
    end.

(** GdsiiBinaryReader.cpp:314-330, :332-348, :350-367, :371-387, :863-879  a new object in the active element *)
Definition begin_element (c : shape_class) (st : gstate) : res gstate :=
  if negb (in_structure st) then Ok st
  else
    let st := with_elem (with_objs (fun os => os ++ [new_obj c])) st in
    Ok (mkgstate (g_stream st) (g_libs st) (g_lib st) (g_elem st) true).
(** GdsiiBinaryReader.cpp:314-330 *)
Definition ReadSection_BOUNDARY (len : Z) (st : gstate) : res gstate := begin_element (SPolygon 0) st.
(** GdsiiBinaryReader.cpp:332-348 *)
Definition ReadSection_PATH (len : Z) (st : gstate) : res gstate := begin_element (SPath 0 0 0) st.
(** GdsiiBinaryReader.cpp:350-367 *)
Definition ReadSection_SREF (len : Z) (st : gstate) : res gstate :=
  let* st' := begin_element (SReference [] None (dz 1)) st in
  Ok (if in_structure st then with_elem (fun e => mkstruc (s_name e) (s_objs e) false (s_min e) (s_max e) (s_nested e)) st' else st').
(** GdsiiBinaryReader.cpp:371-387 *)
Definition ReadSection_TEXT (len : Z) (st : gstate) : res gstate := begin_element (SText 0 0 0 0 (dz 1) 0 []) st.
(** GdsiiBinaryReader.cpp:863-879 *)
Definition ReadSection_BOX (len : Z) (st : gstate) : res gstate := begin_element (SRectangle 0) st.

(** GdsiiBinaryReader.cpp:389-405 *)
Definition ReadSection_LAYER (len : Z) (st : gstate) : res gstate :=
  if negb (in_element st) then Ok st
  else
    match active st with
    | None => UB NullDeref
    | Some o =>
        let '(img, s) := read_over (image16 (o_layer o)) (g_stream st) in
        let* v := Normalize_WORD (value16 img) in
        Ok (with_geom (fun o => mkobj v (o_props o) (o_coords o) (o_min o) (o_max o) (o_class o)) (set_stream s st))
    end.

(** a change of the class members of the active object.  GdsiiBinaryReader.cpp:425-435, :456-466 *)
Definition change_class (f : shape_class -> shape_class) : gstate -> gstate := with_geom (fun o => set_class (f (o_class o)) o).

(** GdsiiBinaryReader.cpp:407-436 *)
Definition ReadSection_DATATYPE (len : Z) (st : gstate) : res gstate :=
  if negb (in_element st) then Ok st
  else
    let* r := read_word0 st in
    let '(v, st) := r in
    Ok (change_class (fun c => match c with SPolygon _ => SPolygon v | SPath _ pt w => SPath v pt w | c => c end) st).

(** GdsiiBinaryReader.cpp:438-467 *)
Definition ReadSection_WIDTH (len : Z) (st : gstate) : res gstate :=
  if negb (in_element st) then Ok st
  else
    let '(img, s) := read_over [x00; x00; x00; x00] (g_stream st) in
    let* v := Normalize_DWORD (value32 img) in
    Ok (change_class (fun c => match c with SPath dt pt _ => SPath dt pt v | SText a b p f m _ str => SText a b p f m v str | c => c end) (set_stream s st)).

(** GdsiiBinaryReader.cpp:498-501 etc.  one coordinate is read over the variable coord, whose last value remains when
    the file ends *)
Definition read_coord (c : coord) (s : stream) : res (coord * stream) :=
  let '(img, s) := read_over (image32 (cx c) ++ image32 (cy c)) s in
  let* x := Normalize_DWORD (value32 (firstn 4 img)) in
  let* y := Normalize_DWORD (value32 (skipn 4 img)) in
  Ok (mkcoord x y, s).
(** GdsiiBinaryReader.cpp:497-504 *)
Fixpoint read_coords (n : nat) (c : coord) (s : stream) : res (list coord * stream) :=
  match n with
  | O => Ok ([], s)
  | S n' =>
      let* r := read_coord c s in
      let '(c, s) := r in
      let* r := read_coords n' c s in
      let '(cs, s) := r in Ok (c :: cs, s)
  end.

(** GdsiiBinaryReader.cpp:469-567 *)
Definition bound_obj (o : obj) (cs : list coord) : obj :=
  match cs with
  | [] => mkobj (o_layer o) (o_props o) cs (o_min o) (o_max o) (o_class o)
  | c0 :: t => let '(mn, mx) := fold_left widen t (c0, c0) in mkobj (o_layer o) (o_props o) cs mn mx (o_class o)
  end.
(** GdsiiBinaryReader.cpp:469-567  ReadSection_XY *)
Definition ReadSection_XY (len : Z) (st : gstate) : res gstate :=
  if negb (in_element st) then Ok st
  else
    match active st with
    | None => UB NullDeref
    | Some o =>
        match o_class o with
        | SReference _ _ _ | SText _ _ _ _ _ _ _ =>
            let* r := read_coord (mkcoord 0 0) (g_stream st) in
            let '(c, s) := r in
            Ok (with_geom (fun o => bound_obj o (o_coords o ++ [c])) (set_stream s st))
        | _ =>
            let* r := read_coords (Z.to_nat (len / 8)) (mkcoord 0 0) (g_stream st) in
            let '(cs, s) := r in
            Ok (with_geom (fun o => bound_obj o cs) (set_stream s st))
        end
    end.

(** GdsiiBinaryReader.cpp:569-584 *)
Definition ReadSection_ENDELEMENT (len : Z) (st : gstate) : res gstate :=
  if negb (in_element st) then Ok st
  else Ok (mkgstate (g_stream st) (g_libs st) (g_lib st) (g_elem st) false).

(** GdsiiBinaryReader.cpp:629-632: the test of the type *)
Definition is_text (st : gstate) : bool := match active st with Some o => match o_class o with SText _ _ _ _ _ _ _ => true | _ => false end | None => false end.
(** GdsiiBinaryReader.cpp:599-602: the test of the type *)
Definition is_reference (st : gstate) : bool := match active st with Some o => match o_class o with SReference _ _ _ => true | _ => false end | None => false end.
(** GdsiiBinaryReader.cpp:894-897: the test of the type *)
Definition is_rectangle (st : gstate) : bool := match active st with Some o => match o_class o with SRectangle _ => true | _ => false end | None => false end.

(** GdsiiBinaryReader.cpp:586-610 *)
Definition ReadSection_SNAME (len : Z) (st : gstate) : res gstate :=
  if negb (in_element st && is_reference st) then Ok st
  else
    let '(str, st) := read_string len st in
    Ok (change_class (fun c => match c with SReference _ p m => SReference str p m | c => c end) st).
(** GdsiiBinaryReader.cpp:616-639 *)
Definition ReadSection_TEXTTYPE (len : Z) (st : gstate) : res gstate :=
  if negb (in_element st && is_text st) then Ok st
  else
    let* r := read_word_new st in
    let '(v, st) := r in
    Ok (change_class (fun c => match c with SText _ b p f m w str => SText v b p f m w str | c => c end) st).
(** GdsiiBinaryReader.cpp:641-664 *)
Definition ReadSection_PRESENTATION (len : Z) (st : gstate) : res gstate :=
  if negb (in_element st && is_text st) then Ok st
  else
    let* r := read_word_new st in
    let '(v, st) := r in
    Ok (change_class (fun c => match c with SText a _ p f m w str => SText a v p f m w str | c => c end) st).
(** GdsiiBinaryReader.cpp:668-692 *)
Definition ReadSection_STRING (len : Z) (st : gstate) : res gstate :=
  if negb (in_element st && is_text st) then Ok st
  else
    let '(str, st) := read_string len st in
    Ok (change_class (fun c => match c with SText a b p f m w _ => SText a b p f m w str | c => c end) st).
(** GdsiiBinaryReader.cpp:694-726 *)
Definition ReadSection_STRANS (len : Z) (st : gstate) : res gstate :=
  if negb (in_element st) then Ok st
  else
    let* r := read_word_new st in
    let '(v, st) := r in
    Ok (change_class (fun c => match c with SText a b p _ m w str => SText a b p v m w str | c => c end) st).
(** GdsiiBinaryReader.cpp:728-760 *)
Definition ReadSection_MAG (len : Z) (st : gstate) : res gstate :=
  if negb (in_element st) then Ok st
  else
    let '(img, s) := read_over (double_image (dz 0)) (g_stream st) in
    let* mag := Normalize_DOUBLE img in
    Ok (change_class (fun c => match c with SReference n p _ => SReference n p mag | SText a b p f _ w str => SText a b p f mag w str | c => c end) (set_stream s st)).
(** GdsiiBinaryReader.cpp:768-797 *)
Definition ReadSection_PATHTYPE (len : Z) (st : gstate) : res gstate :=
  if negb (in_element st) then Ok st
  else
    let* r := read_word_new st in
    let '(v, st) := r in
    Ok (change_class (fun c => match c with SPath dt _ w => SPath dt v w | SText a b _ f m w str => SText a b v f m w str | c => c end) st).
(** GdsiiBinaryReader.cpp:809-833: a property whose value is still empty refuses the next one.  (ReadSection_PROPVALUE,
    :835-861, is not called from anywhere.) *)
Definition ReadSection_PROPATTR (len : Z) (st : gstate) : res gstate :=
  if negb (in_element st) then Ok st
  else
    match active st with
    | None => UB NullDeref
    | Some o =>
        match rev (o_props o) with
        | (_, []) :: _ => Ok st
        | _ =>
            let* r := read_word0 st in
            let '(v, st) := r in
            Ok (with_geom (fun o => mkobj (o_layer o) (o_props o ++ [(v, [])]) (o_coords o) (o_min o) (o_max o) (o_class o)) st)
        end
    end.
(** GdsiiBinaryReader.cpp:881-904 *)
Definition ReadSection_BOXTYPE (len : Z) (st : gstate) : res gstate :=
  if negb (in_element st && is_rectangle st) then Ok st
  else
    let* r := read_word0 st in
    let '(v, st) := r in
    Ok (change_class (fun c => match c with SRectangle _ => SRectangle v | c => c end) st).

(** GdsiiBinaryReader.cpp:68-131  the switch; GDSIITypes.hpp gives the numbers *)
Definition dispatch (recordType : Z) (len : Z) (st : gstate) : res gstate :=
  match recordType with
  | 0 => ReadSection_HEADER len st
  | 1 => ReadSection_BEGINLIBRARY len st
  | 2 => ReadSection_LIBNAME len st
  | 3 => ReadSection_UNITS len st
  | 4 => ReadSection_ENDLIBRARY len st
  | 5 => ReadSection_BEGINSTRUCTURE len st
  | 6 => ReadSection_STRNAME len st
  | 7 => ReadSection_ENDSTRUCTURE len st
  | 8 => ReadSection_BOUNDARY len st
  | 9 => ReadSection_PATH len st
  | 10 => ReadSection_SREF len st
  | 12 => ReadSection_TEXT len st
  | 13 => ReadSection_LAYER len st
  | 14 => ReadSection_DATATYPE len st
  | 15 => ReadSection_WIDTH len st
  | 16 => ReadSection_XY len st
  | 17 => ReadSection_ENDELEMENT len st
  | 18 => ReadSection_SNAME len st
  | 22 => ReadSection_TEXTTYPE len st
  | 23 => ReadSection_PRESENTATION len st
  | 25 => ReadSection_STRING len st
  | 26 => ReadSection_STRANS len st
  | 27 => ReadSection_MAG len st
  | 33 => ReadSection_PATHTYPE len st
  | 43 => ReadSection_PROPATTR len st
  | 45 => ReadSection_BOX len st
  | 46 => ReadSection_BOXTYPE len st
  | _ => Ok (set_stream (sseek (Z.to_nat len) (g_stream st)) st)
  end.

(** GdsiiBinaryReader.cpp:60-132  the loop.  A read that does not get four bytes reaches the end of the file (or found
    it earlier): the loop ends. *)
Fixpoint read_loop (fuel : nat) (st : gstate) : res gstate :=
  match fuel with
  | O => UB Diverges
  | S fuel =>
      let '(got, s) := sread 4 (g_stream st) in
      match got with
      | [l0; l1; ty; _] =>
          if s_eof s then Ok (set_stream s st)
          else
            let* len := record_length l0 l1 in
            let* st := dispatch (schar ty) len (set_stream s st) in
            read_loop fuel st
      | _ => if s_eof s then Ok (set_stream s st) else UB Diverges
      end
  end.

(** GdsiiBinaryReader.cpp:942-952  ResolveStructureReference: the first element with the name; it is marked as nested *)
Fixpoint find_index {A} (p : A -> bool) (l : list A) : option nat :=
  match l with
  | [] => None
  | x :: t => if p x then Some 0%nat else option_map S (find_index p t)
  end.
(** GdsiiBinaryReader.cpp:942-952 *)
Fixpoint resolve_name (name : list byte) (libs : list glib) : option (nat * nat) :=
  match libs with
  | [] => None
  | b :: t =>
      match find_index (fun e => streqb (s_name e) name) (b_elements b) with
      | Some j => Some (0%nat, j)
      | None => match resolve_name name t with Some (i, j) => Some (S i, j) | None => None end
      end
  end.
(** GdsiiBinaryReader.cpp:947 *)
Definition mark_nested (i j : nat) (libs : list glib) : list glib :=
  match nth_error libs i with
  | None => libs
  | Some b =>
      match nth_error (b_elements b) j with
      | None => libs
      | Some e =>
          upd libs i (mkglib (b_name b) (b_user b) (b_physical b)
            (upd (b_elements b) j (mkstruc (s_name e) (s_objs e) (s_flat e) (s_min e) (s_max e) true)) (b_layers b) (b_min b) (b_max b))
      end
  end.
(** GdsiiBinaryReader.cpp:946 *)
Definition set_obj (i j k : nat) (o : obj) (libs : list glib) : list glib :=
  match nth_error libs i with
  | None => libs
  | Some b =>
      match nth_error (b_elements b) j with
      | None => libs
      | Some e =>
          upd libs i (mkglib (b_name b) (b_user b) (b_physical b)
            (upd (b_elements b) j (mkstruc (s_name e) (upd (s_objs e) k o) (s_flat e) (s_min e) (s_max e) (s_nested e))) (b_layers b) (b_min b) (b_max b))
      end
  end.

(** GdsiiBinaryReader.cpp:923-930  the positions (i, j, k) in the order of the three loops; the state is None after an
    unresolved reference *)
Definition positions (libs : list glib) : list (nat * nat * nat) :=
  concat (map (fun i => concat (map (fun j => map (fun k => (i, j, k))
    (seq 0 (match nth_error libs i with Some b => match nth_error (b_elements b) j with Some e => length (s_objs e) | None => 0 end | None => 0 end)%nat))
    (seq 0 (match nth_error libs i with Some b => length (b_elements b) | None => 0 end)%nat))) (seq 0 (length libs))).
(** GdsiiBinaryReader.cpp:926 *)
Definition get_obj (i j k : nat) (libs : list glib) : option obj :=
  match nth_error libs i with
  | Some b => match nth_error (b_elements b) j with Some e => nth_error (s_objs e) k | None => None end
  | None => None
  end.
(** GdsiiBinaryReader.cpp:926-929 *)
Definition resolve_at (st : list glib * bool) (p : nat * nat * nat) : list glib * bool :=
  let '(libs, ok) := st in
  let '(i, j, k) := p in
  if negb ok then st
  else
    match get_obj i j k libs with
    | Some o =>
        match o_class o with
        | SReference name _ mag =>
            match resolve_name name libs with
            | Some (i', j') => (mark_nested i' j' (set_obj i j k (set_class (SReference name (Some (i', j')) mag) o) libs), true)
            | None => (libs, false)
            end
        | _ => st
        end
    | None => st
    end.
(** GdsiiBinaryReader.cpp:922-930 *)
Definition resolve_all (libs : list glib) : list glib * bool := fold_left resolve_at (positions libs) (libs, true).

(** GdsiiBinaryReader.cpp:954-989  EnumerateLayers, the first part, for one library *)
Definition layer_of (o : obj) : option glayer :=
  match o_class o with
  | SReference _ _ _ => None
  | SPolygon dt => Some (mkglayer (o_layer o) dt)
  | SPath dt _ _ => Some (mkglayer (o_layer o) dt)
  | _ => Some (mkglayer (o_layer o) 0)
  end.
(** GdsiiBinaryReader.cpp:976 *)
Definition same_layer (a b : glayer) : bool := (y_layer a =? y_layer b) && (y_dataType a =? y_dataType b).
(** GdsiiBinaryReader.cpp:974-986 *)
Definition collect (ls : list glayer) (o : obj) : list glayer :=
  match layer_of o with
  | None => ls
  | Some y => if existsb (same_layer y) ls then ls else ls ++ [y]
  end.
(** GdsiiBinaryReader.cpp:954-989 *)
Definition collect_layers (b : glib) : list glayer := fold_left collect (concat (map s_objs (b_elements b))) (b_layers b).

(** GdsiiBinaryReader.cpp:992-1002  the second part.  Both swaps exchange the member layer only. *)
Definition reorder_step (ls : list glayer) (k : nat) : list glayer :=
  match nth_error ls (k - 1), nth_error ls k with
  | Some a, Some b =>
      let '(a, b) := if y_layer b <? y_layer a then (mkglayer (y_layer b) (y_dataType a), mkglayer (y_layer a) (y_dataType b)) else (a, b) in
      let '(a, b) := if (y_layer b =? y_layer a) && (y_dataType b <? y_dataType a)
                     then (mkglayer (y_layer b) (y_dataType a), mkglayer (y_layer a) (y_dataType b)) else (a, b) in
      upd (upd ls (k - 1) a) k b
  | _, _ => ls
  end.
(** GdsiiBinaryReader.cpp:992-1002 *)
Definition reorder (ls : list glayer) : list glayer :=
  fold_left (fun ls _ => fold_left reorder_step (seq 1 (length ls - 1)) ls) (seq 0 (length ls)) ls.
(** GdsiiBinaryReader.cpp:954-1004 *)
Definition EnumerateLayers (libs : list glib) : list glib :=
  map (fun b => mkglib (b_name b) (b_user b) (b_physical b) (b_elements b) (reorder (collect_layers b)) (b_min b) (b_max b)) libs.

(** GdsiiBinaryReader.cpp:1006-1028  EvaluateBoundingBox.  After the assignments at :1015-1016 the four comparisons
    are of a value with itself. *)
Definition bound_lib (b : glib) : glib :=
  let '(mn, mx) := fold_left (fun (mm : coord * coord) e =>
    if s_nested e then mm
    else
      let mn := s_min e in
      let mx := s_max e in
      (mkcoord (if cx (s_min e) <? cx mn then cx (s_min e) else cx mn) (if cy (s_min e) <? cy mn then cy (s_min e) else cy mn),
       mkcoord (if cx (s_max e) <? cx mx then cx (s_max e) else cx mx) (if cy (s_max e) <? cy mx then cy (s_max e) else cy mx)))
    (b_elements b) (b_min b, b_max b) in
  mkglib (b_name b) (b_user b) (b_physical b) (b_elements b) (b_layers b) mn mx.

(** GdsiiBinaryReader.cpp:920-940  PostProcessLayout *)
Definition PostProcessLayout (libs : list glib) : list glib * bool :=
  let '(libs, ok) := resolve_all libs in
  if ok then (map bound_lib (EnumerateLayers libs), true) else (libs, false).

(** LayoutData.hpp:144-147 *)
Record gdata := mkgdata { gd_name : list Z; gd_libraries : list glib; gd_format : file_format }.

(** GdsiiReader.hpp:13-16, LayoutReader.hpp:18-22: the name of the file, whether p_data is set.
    The three active pointers are null before the first Read that goes past GdsiiBinaryReader.cpp:52; a later Read
    is not modelled.  The stream is always closed between calls. *)
Record greader := mkgreader { gr_name : list Z; gr_data : bool }.
(** GdsiiBinaryReader.cpp:17, LayoutReader.cpp:5 *)
Definition greader_new : greader := mkgreader [] false.

(** GdsiiBinaryReader.cpp:50-139  Read on a reader whose active pointers are null.  The layout afterwards, the reader
    and the result; a null layout is dereferenced at :136 at the latest. *)
Definition gRead (fs : file_system) (r : greader) (layout : option gdata) : res (greader * option gdata * bool) :=
  if negb (gr_data r) then Ok (r, layout, false)
  else
    let r := mkgreader (gr_name r) (match layout with Some _ => true | None => false end) in
    match fs (narrow (gr_name r)) with
    | None => Ok (r, layout, false)
    | Some text =>
        match layout with
        | None => UB NullDeref
        | Some d =>
            let* st := read_loop (S (length text)) (mkgstate (mkstream text true false) (gd_libraries d) false None false) in
            let '(libs, ok) := PostProcessLayout (g_libs st) in
            Ok (r, Some (mkgdata (gr_name r) libs FFgdsii_bin), ok)
        end
    end.

(** GdsiiBinaryReader.cpp:20-48  IsMyFormat.  The record has no value before the first read; the second read leaves
    what it cannot fill. *)
Definition extension (name : list Z) : list Z :=
  match find_last_of 46 name with None => name | Some i => skipn (S i) name end.
(** GdsiiBinaryReader.cpp:23-24: comparison of wide strings *)
Definition zeqb : list Z -> list Z -> bool := list_eqb Z.eqb.
(** GdsiiBinaryReader.cpp:32-34, :40-42 *)
Definition header_ok (rec : list byte) (ty len : Z) : res bool :=
  match rec with
  | l0 :: l1 :: rest =>
      let* n := record_length l0 l1 in
      match rest with
      | [] => UB Indeterminate
      | t :: rest =>
          if negb (schar t =? ty) then Ok false
          else
            match rest with
            | [] => UB Indeterminate
            | d :: _ => Ok ((schar d =? 2) && (n =? len))
            end
      end
  | _ => UB Indeterminate
  end.
(** GdsiiBinaryReader.cpp:20-48 *)
Definition gIsMyFormat (fs : file_system) (r : greader) (fName : list Z) : res (greader * bool) :=
  let r := mkgreader fName (gr_data r) in
  if negb (zeqb (extension fName) (map b2z (lit "gds")) || zeqb (extension fName) (map b2z (lit "gdsii"))) then Ok (r, false)
  else
    match fs (narrow fName) with
    | None => Ok (r, false)
    | Some text =>
        let '(rec, s) := sread 4 (mkstream text true false) in
        let* ok := header_ok rec 0 2 in
        if negb ok then Ok (r, false)
        else
          (* the length member now holds 2 in the order of the machine *)
          let s := sseek 2 s in
          let '(rec, s) := read_over (le_bytes 2 2 ++ skipn 2 rec) s in
          let* ok := header_ok rec 1 24 in
          Ok (r, ok)
    end.
