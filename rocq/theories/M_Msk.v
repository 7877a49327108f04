(** Model of src/Common/Impl/LayoutReader/ReaderImpl/MskReader.cpp, Include/MskReader.hpp and
    src/Common/Impl/LayoutReader/LayoutReader.cpp.  Objects reached through the pointers kept in
    Element::geometries and Layer::geometries are values here (nobody changes them afterwards).
    Not modelled: exhaustion of memory; errors while reading an open file; that deleting a
    derived object through a base pointer without a virtual destructor (:282, :312, :341 and
    LayoutReader.cpp:16, :24) is formally undefined (Geometry and LayoutReader have none). *)
From Verif Require Import Prelude M_LayoutData M_Converter M_Scanf M_Generator.
Local Open Scope Z_scope.

(** LayoutData.hpp:133-142 *)
Inductive file_format := FFundefined | FFgdsii_bin | FFgdsii_ascii | FFmsk | FFother.

(** LayoutData.hpp:144-147  LayoutData; the name is a sequence of wide characters. *)
Record layout_data := mkdata { ld_name : list Z; ld_libraries : list library; ld_format : file_format }.

(** What the language leaves open: whether the UTF-8 facet accepts surrogates, and the value of
    the member dataType of a new Layer, which no constructor sets (LayoutData.hpp:104-109);
    the value may depend on the position of the layer. *)
Record platform := mkplatform { accepts_surrogates : bool; uninitialised : nat -> Z }.

(** The files that can be opened, by name, with their contents.  MskReader.cpp:54, :108 *)
Definition file_system := list byte -> option (list byte).

(** std::string(Fname.begin(), Fname.end()) at MskReader.cpp:52, :54, :108: each wchar_t is converted to char *)
Definition narrow (w : list Z) : list byte := map z2b w.

(** LayoutReader.hpp:18-30, MskReader.hpp:20-27: the file name, whether the stream is open, and
    whether p_activeElement and p_activeLibrary point to objects (they belong to the layout of
    the last successful Read). *)
Record reader := mkreader { rd_name : list Z; rd_open : bool; rd_active : bool }.
(** MskReader.hpp:27 *)
Definition reader_new : reader := mkreader [] false false.

(** MskReader.cpp:19-37  g_layerMap *)
Definition g_layerMap : list (list byte * Z) :=
  [(lit "TITLE", -6); (lit "BB", -5); (lit "VI", -4); (lit "NW", 1); (lit "DN", 16); (lit "DP", 17);
   (lit "PO", 13); (lit "CO", 19); (lit "ME", 23); (lit "M2", 27); (lit "M3", 34); (lit "M4", 36);
   (lit "M5", 53); (lit "M6", 55)].
(** MskReader.cpp:39-41  g_undefinedLayerNum *)
Definition g_undefinedLayerNum : Z := - 2 ^ 15.

(** MskReader.cpp:71-79  LayerNameToLayerNum *)
Fixpoint lookup (m : list (list byte * Z)) (n : list byte) : option Z :=
  match m with
  | [] => None
  | (k, v) :: t => if streqb k n then Some v else lookup t n
  end.
(** MskReader.cpp:71-79 *)
Definition LayerNameToLayerNum (n : list byte) : Z :=
  match lookup g_layerMap n with None => g_undefinedLayerNum | Some v => v end.

(** MskReader.cpp:51-52  the regular expression \w+\.msk$ (ignoring case, anywhere in the string) *)
Definition is_word (b : byte) : bool :=
  isdigit b || ((65 <=? b2z b) && (b2z b <=? 90)) || ((97 <=? b2z b) && (b2z b <=? 122)) || beqb b "_".
(** MskReader.cpp:51 (icase) *)
Definition to_lower (b : byte) : byte :=
  if (65 <=? b2z b) && (b2z b <=? 90) then z2b (b2z b + 32) else b.
(** MskReader.cpp:51-52 *)
Fixpoint match_here (s : list byte) : bool :=
  match s with
  | c :: t => is_word c && (streqb (map to_lower t) (lit ".msk") || match_here t)
  | [] => false
  end.
(** MskReader.cpp:52 *)
Fixpoint regex_search (s : list byte) : bool :=
  match_here s || match s with _ :: t => regex_search t | [] => false end.

(** std::getline until the end of the file: the lines of a text; a last line without newline
    counts unless it is empty.  MskReader.cpp:59, :121 *)
Fixpoint getlines (cur : list byte) (s : list byte) : list (list byte) :=
  match s with
  | [] => match cur with [] => [] | _ => [cur] end
  | c :: t => if beqb c "010" then cur :: getlines [] t else getlines (cur ++ [c]) t
  end.

(** std::string::find(...) != npos.  MskReader.cpp:126-128 *)
Fixpoint prefixb (p s : list byte) : bool :=
  match p, s with
  | [], _ => true
  | a :: p', b :: s' => beqb a b && prefixb p' s'
  | _, [] => false
  end.
(** MskReader.cpp:126-128 *)
Fixpoint contains (p s : list byte) : bool :=
  prefixb p s || match s with _ :: t => contains p t | [] => false end.

(** MskReader.cpp:44-68  IsMyFormat: the reader afterwards and the result.  open() fails on a
    stream that is open already.  The stream stays open when the file is empty: getline fails,
    and so does the test at :65. *)
Definition IsMyFormat (fs : file_system) (r : reader) (Fname : list Z) : reader * bool :=
  if negb (regex_search (narrow Fname)) then (r, false)
  else
    match (if rd_open r then None else fs (narrow Fname)) with
    | None => (r, false)
    | Some text =>
        match getlines [] text with
        | [] => (mkreader Fname true (rd_active r), false)
        | line :: _ =>
            (mkreader Fname false (rd_active r),
             if (length line <? 7)%nat then false else streqb (firstn 7 line) (lit "VERSION"))
        end
    end.

(** MskReader.cpp:83-87  WcsStrToUtf8 (std::wstring_convert throws std::range_error, here RuntimeError) *)
Definition utf8_char (pl : platform) (c : Z) : res (list byte) :=
  if (0 <=? c) && (c <? 128) then Ok [z2b c]
  else if (128 <=? c) && (c <? 2048) then Ok [z2b (192 + c / 64); z2b (128 + c mod 64)]
  else if (55296 <=? c) && (c <? 57344) && negb (accepts_surrogates pl) then Throw RuntimeError
  else if (2048 <=? c) && (c <? 65536) then
    Ok [z2b (224 + c / 4096); z2b (128 + c / 64 mod 64); z2b (128 + c mod 64)]
  else if (65536 <=? c) && (c <? 1114112) then
    Ok [z2b (240 + c / 262144); z2b (128 + c / 4096 mod 64); z2b (128 + c / 64 mod 64); z2b (128 + c mod 64)]
  else Throw RuntimeError.
(** MskReader.cpp:83-87 *)
Definition WcsStrToUtf8 (pl : platform) (w : list Z) : res (list byte) :=
  for_each w [] (fun out c => let* u := utf8_char pl c in Ok (out ++ u)).

(** find_last_of with a single character: the position, npos (None) if absent.
    MskReader.cpp:94-95 *)
Fixpoint find_last_of (c : Z) (w : list Z) : option nat :=
  match w with
  | [] => None
  | x :: t => match find_last_of c t with
              | Some i => Some (S i)
              | None => if x =? c then Some 0%nat else None
              end
  end.

(** MskReader.cpp:90-98  GetElemName.  substr stops at the end of the string; the count at :97 is a size_t:
    when the last point precedes the last slash (or is absent) it wraps to a value beyond the
    end of the string, unless there is no point at all and the slash is at position 0 or later
    (npos - pos - 1, still beyond the end). *)
Definition GetElemName (pl : platform) (name : list Z) : res (list byte) :=
  match find_last_of 47 name with
  | None =>
      WcsStrToUtf8 pl (match find_last_of 46 name with None => name | Some d => firstn d name end)
  | Some s =>
      let tail := skipn (S s) name in
      WcsStrToUtf8 pl
        (match find_last_of 46 name with
         | None => tail
         | Some d => if (s <? d)%nat then firstn (d - s - 1) tail else tail
         end)
  end.

(** MskReader.cpp:347-353  CalcDelta *)
Definition CalcDelta (first second : Z) : res Z := sub32 second first.

(** MskReader.cpp:197-244  FillBox (the pointer is never null at the call sites) *)
Definition FillBox (b : geom) (LeftBot RightTop : coord) (LNum : Z) : res geom :=
  let* dx := CalcDelta (cx LeftBot) (cx RightTop) in
  let* dy := CalcDelta (cy LeftBot) (cy RightTop) in
  let* x := sub32 (cx RightTop) dx in
  let* y := sub32 (cy RightTop) dy in
  let cs := g_coords b ++ [mkcoord x (cy RightTop); RightTop; mkcoord (cx RightTop) y;
                           mkcoord x y; mkcoord x (cy RightTop)] in
  let* c0 := at_ cs 0 in
  let '(mn, mx) := fold_left widen (tl cs) (c0, c0) in
  Ok (mkgeom (g_type b) LNum cs mn mx (g_class b)).

(** A char array of n characters receives a string and its terminator.  MskReader.cpp:184, :326 *)
Definition fits_buffer (n : nat) (s : list byte) : res unit :=
  if (length s <? n)%nat then Ok tt else UB BufferOverflow.

(** MskReader.cpp:176-194  ParseRecLine: None when it returns false *)
Definition ParseRecLine (Line : list byte) : res (option (coord * coord * list byte)) :=
  let* r := sscanf Line (lit "REC(%d,%d,%d,%d,%s)") in
  let '(n, vs) := r in
  let* _ := fits_buffer 8 (str_arg vs 4) in
  if n =? 0 then Ok None
  else
    let LeftBot := mkcoord (int_arg vs 0 0) (int_arg vs 1 0) in
    let width := int_arg vs 2 0 in
    let height := int_arg vs 3 0 in
    let name := str_arg vs 4 in
    let* last := match name with [] => UB OobIndex | _ => at_ name (length name - 1) end in
    let name := if beqb ")" last then removelast name else name in
    let* x := add32 (cx LeftBot) width in
    let* y := add32 (cy LeftBot) height in
    Ok (Some (LeftBot, mkcoord x y, name)).

(** The library and the element under construction (what p_activeLibrary and p_activeElement point to).
    MskReader.hpp:22-23 *)
Definition building : Type := library * element.

(** MskReader.cpp:276, :306 *)
Definition add_geometry (e : element) (g : geom) : element :=
  mkelement (e_name e) (e_geometries e ++ [Some g]) (e_min e) (e_max e).
(** MskReader.cpp:263-274, :305 *)
Definition set_layers (l : library) (ls : list layer) : library :=
  mklibrary (lib_name l) (lib_elements l) ls (lib_min l) (lib_max l).

(** A try block whose handler only releases what the block allocated.
    MskReader.cpp:278-284, :308-314, :338-343 *)
Definition swallow {A} (x : res A) (otherwise : A) : res A :=
  match x with Throw _ => Ok otherwise | _ => x end.

(** MskReader.cpp:263-274  find_if over the layers; the geometry is appended to the first layer with the
    number, or to a new one at the end *)
Fixpoint insert_layer (pl : platform) (pos : nat) (ls : list layer) (num : Z) (name : list byte) (g : geom) : list layer :=
  match ls with
  | [] => [mklayer num (uninitialised pl pos) name [Some g]]
  | l :: t =>
      if num =? l_layer l then mklayer (l_layer l) (l_dataType l) (l_name l) (l_geometries l ++ [Some g]) :: t
      else l :: insert_layer pl (S pos) t num name g
  end.

(** MskReader.cpp:247-285  ReadSectionRectangle *)
Definition ReadSectionRectangle (pl : platform) (FileLine : list byte) (st : building) : res building :=
  let '(lib, el) := st in
  swallow (
    let* p := ParseRecLine FileLine in
    match p with
    | None => Throw RuntimeError
    | Some (leftBot, rightTop, layerName) =>
        let layerNum := LayerNameToLayerNum layerName in
        if layerNum =? g_undefinedLayerNum then Throw RuntimeError
        else
          let* currBox := FillBox new_rectangle leftBot rightTop layerNum in
          Ok (set_layers lib (insert_layer pl 0 (lib_layers lib) layerNum layerName currBox), add_geometry el currBox)
    end) st.

(** MskReader.cpp:288-315  ReadSectionBoundingBox *)
Definition ReadSectionBoundingBox (pl : platform) (FileLine : list byte) (st : building) : res building :=
  let '(lib, el) := st in
  swallow (
    let* r := sscanf FileLine (lit "BB(%d,%d,%d,%d)") in
    let '(n, vs) := r in
    if n =? 0 then Throw RuntimeError
    else
      let leftBot := mkcoord (int_arg vs 0 0) (int_arg vs 1 0) in
      let rightTop := mkcoord (int_arg vs 2 0) (int_arg vs 3 0) in
      let layerNum := LayerNameToLayerNum (lit "BB") in
      let* boundingBox := FillBox new_rectangle leftBot rightTop layerNum in
      let l := mklayer layerNum (uninitialised pl (length (lib_layers lib))) (lit "BB") [Some boundingBox] in
      Ok (set_layers lib (lib_layers lib ++ [l]), add_geometry el boundingBox)) st.

(** MskReader.cpp:318-344  ReadSectionTitle: the Text object is not stored anywhere *)
Definition ReadSectionTitle (FileLine : list byte) (st : building) : res building :=
  swallow (
    let* r := sscanf FileLine (lit "TITLE %d %d  #%s") in
    let '(n, vs) := r in
    let* _ := fits_buffer 64 (str_arg vs 2) in
    if n =? 0 then Throw RuntimeError else Ok st) st.

(** MskReader.cpp:121-129  one turn of the loop of Read *)
Definition ReadLine (pl : platform) (st : building) (line : list byte) : res building :=
  let fileLine := filter (fun c => negb (beqb c "010")) (filter (fun c => negb (beqb c "013")) line) in
  let* st := if contains (lit "BB") fileLine then ReadSectionBoundingBox pl fileLine st else Ok st in
  let* st := if contains (lit "REC") fileLine then ReadSectionRectangle pl fileLine st else Ok st in
  if contains (lit "TITLE") fileLine then ReadSectionTitle fileLine st else Ok st.

(** MskReader.cpp:136-148  the bounding box of libraries[0]->elements[0] *)
Definition bound_element (e : element) : res element :=
  let* g0 := at_ (e_geometries e) 0 in
  match g0 with
  | None => UB NullDeref
  | Some g0 =>
      let* mm := for_each (tl (e_geometries e)) (g_min g0, g_max g0) (fun mm g =>
        match g with
        | None => UB NullDeref
        | Some g =>
            let '(mn, mx) := mm in
            Ok (mkcoord (if cx (g_min g) <? cx mn then cx (g_min g) else cx mn)
                        (if cy (g_min g) <? cy mn then cy (g_min g) else cy mn),
                mkcoord (if cx mx <? cx (g_max g) then cx (g_max g) else cx mx)
                        (if cy mx <? cy (g_max g) then cy (g_max g) else cy mx))
        end) in
      Ok (mkelement (e_name e) (e_geometries e) (fst mm) (snd mm))
  end.
(** MskReader.cpp:136-148 *)
Definition bound_first (libs : list library) : res (list library) :=
  let* l0 := at_ libs 0 in
  let* e0 := at_ (lib_elements l0) 0 in
  let* e0 := bound_element e0 in
  Ok (upd libs 0 (mklibrary (lib_name l0) (upd (lib_elements l0) 0 e0) (lib_layers l0) (lib_min l0) (lib_max l0))).

(** LayoutData.hpp:86-102 and :111-131  the default constructors *)
Definition new_element (name : list byte) : element := mkelement name [] (mkcoord (-1) (-1)) (mkcoord (-1) (-1)).
(** LayoutData.hpp:119-122 *)
Definition new_library (name : list byte) : library := mklibrary name [] [] (mkcoord 0 0) (mkcoord 0 0).

(** MskReader.cpp:112-148  the part of the try block of Read that follows the opening of the file: the data
    read from the stream and the layout *)
Definition ReadOpened (pl : platform) (name : list Z) (text : list byte) (d : layout_data) : res layout_data :=
  let* en := GetElemName pl name in
  let* ln := WcsStrToUtf8 pl name in
  let* st := for_each (getlines [] text) (new_library ln, new_element en) (ReadLine pl) in
  let '(lib, el) := st in
  let lib := mklibrary (lib_name lib) (lib_elements lib ++ [el]) (lib_layers lib) (lib_min lib) (lib_max lib) in
  let* libs := bound_first (ld_libraries d ++ [lib]) in
  Ok (mkdata name libs FFmsk).

(** MskReader.cpp:101-173  Read: the reader and the layout afterwards, and the result.  When the stream is
    open already, open() fails but is_open() holds: the loop then reads nothing.
    The handler deletes the objects of p_activeElement and p_activeLibrary when it finds them: after an
    earlier success they belong to a layout, and ~Library deletes the element again. *)
Definition Read (pl : platform) (fs : file_system) (r : reader) (layout : option layout_data) :
    res (reader * option layout_data * bool) :=
  match layout with
  | None => Ok (mkreader (rd_name r) false (rd_active r), None, false)
  | Some d =>
      match (if rd_open r then Some [] else fs (narrow (rd_name r))) with
      | None =>
          if rd_active r then UB DoubleFree
          else Ok (mkreader (rd_name r) false false, Some (mkdata (ld_name d) (ld_libraries d) FFundefined), false)
      | Some text =>
          match ReadOpened pl (rd_name r) text d with
          | Ok d' => Ok (mkreader (rd_name r) false true, Some d', true)
          | Throw _ =>
              Ok (mkreader (rd_name r) false false, Some (mkdata (rd_name r) (ld_libraries d) FFundefined), false)
          | UB u => UB u
          end
      end
  end.

(** LayoutReader.cpp:7-19  GetReader *)
Definition GetReader (fs : file_system) (fName : list Z) : option reader :=
  let '(r, ok) := IsMyFormat fs reader_new fName in
  if ok then Some r else None.
