(** Pointer-level model of src/Common/Include/LayoutData.hpp (destructors, implicit copies) and
    of Read in src/Common/Impl/LayoutReader/ReaderImpl/MskReader.cpp: objects live in a heap and
    the vectors hold addresses.  M_Msk models the same functions with the objects as values.
    An address is never given out twice, so a stale address is recognised as such.  Running
    out of memory is not modelled.  Deleting a derived object through Geometry* (no virtual
    destructor) is taken to release the object. *)
From Verif Require Import Prelude M_LayoutData M_Scanf M_Msk.
Local Open Scope Z_scope.

(** the values of the pointers of LayoutData.hpp:88, :108, :114, :146 *)
Definition address := nat.
(** LayoutData.hpp:88, :108, :114, :146 *)
Definition pointer := option address.

(** LayoutData.hpp:86-91  Element *)
Record pelement := mkpelement {
  pe_name : list byte; pe_geometries : list pointer; pe_min : coord; pe_max : coord }.
(** LayoutData.hpp:104-109  Layer *)
Record player := mkplayer {
  py_layer : Z; py_dataType : Z; py_name : list byte; py_geometries : list pointer }.
(** LayoutData.hpp:111-117  Library (units are not modelled) *)
Record plibrary := mkplibrary {
  pb_name : list byte; pb_elements : list pointer; pb_layers : list player; pb_min : coord; pb_max : coord }.
(** LayoutData.hpp:144-147  LayoutData *)
Record pdata := mkpdata { pd_name : list Z; pd_libraries : list pointer; pd_format : file_format }.

(** What an address holds: an object of a class derived from Geometry, an Element, a Library.
    LayoutData.hpp:32-131 *)
Inductive cell :=
| CellGeometry (g : geom)
| CellElement (e : pelement)
| CellLibrary (b : plibrary).

(** the free store of MskReader.cpp:112-113, :251, :292, :322 *)
Record heap := mkheap { h_next : address; h_cell : address -> option cell }.

(** new.  MskReader.cpp:112-113, :251, :292, :322 *)
Definition allocate (h : heap) (c : cell) : address * heap :=
  (h_next h, mkheap (S (h_next h)) (fun a => if Nat.eqb a (h_next h) then Some c else h_cell h a)).
(** Assignment to an object that exists.  MskReader.cpp:115-117, :302, :331-336 *)
Definition store (h : heap) (a : address) (c : cell) : heap :=
  mkheap (h_next h) (fun x => if Nat.eqb x a then Some c else h_cell h x).
(** Releasing the memory of an object.  LayoutData.hpp:97, :125, :151 *)
Definition release (h : heap) (a : address) : heap :=
  mkheap (h_next h) (fun x => if Nat.eqb x a then None else h_cell h x).

(** The object a pointer of the type Geometry*, Element*, Library* points to.  LayoutData.hpp:88 *)
Definition load_geometry (h : heap) (p : pointer) : res geom :=
  match p with
  | None => UB NullDeref
  | Some a => match h_cell h a with
              | Some (CellGeometry g) => Ok g
              | Some _ => UB TypeConfusion
              | None => UB DoubleFree
              end
  end.
(** LayoutData.hpp:114 *)
Definition load_element (h : heap) (p : pointer) : res pelement :=
  match p with
  | None => UB NullDeref
  | Some a => match h_cell h a with
              | Some (CellElement e) => Ok e
              | Some _ => UB TypeConfusion
              | None => UB DoubleFree
              end
  end.
(** LayoutData.hpp:146 *)
Definition load_library (h : heap) (p : pointer) : res plibrary :=
  match p with
  | None => UB NullDeref
  | Some a => match h_cell h a with
              | Some (CellLibrary b) => Ok b
              | Some _ => UB TypeConfusion
              | None => UB DoubleFree
              end
  end.

(** delete of a Geometry*.  LayoutData.hpp:97, MskReader.cpp:282, :312 *)
Definition delete_geometry (h : heap) (p : pointer) : res heap :=
  match p with
  | None => Ok h
  | Some a => let* _ := load_geometry h p in Ok (release h a)
  end.

(** LayoutData.hpp:95-101  delete of an Element*: ~Element, then the memory.  The null pointers
    written into the vector of the dying object are not modelled. *)
Definition delete_element (h : heap) (p : pointer) : res heap :=
  match p with
  | None => Ok h
  | Some a =>
      let* e := load_element h p in
      let* h := for_each (pe_geometries e) h delete_geometry in
      Ok (release h a)
  end.

(** LayoutData.hpp:123-130  delete of a Library*: ~Library, then the memory; the layers hold
    pointers they do not delete *)
Definition delete_library (h : heap) (p : pointer) : res heap :=
  match p with
  | None => Ok h
  | Some a =>
      let* b := load_library h p in
      let* h := for_each (pb_elements b) h delete_element in
      Ok (release h a)
  end.

(** LayoutData.hpp:149-155  ~LayoutData *)
Definition destroy_data (h : heap) (d : pdata) : res heap := for_each (pd_libraries d) h delete_library.

(** LayoutData.hpp:143-155  the implicit copy constructor of LayoutData *)
Definition copy_data (d : pdata) : pdata := mkpdata (pd_name d) (pd_libraries d) (pd_format d).
(** LayoutData.hpp:111-131 and :86-102  the implicit copy constructors of Library and Element *)
Definition copy_library (b : plibrary) : plibrary :=
  mkplibrary (pb_name b) (pb_elements b) (pb_layers b) (pb_min b) (pb_max b).
(** LayoutData.hpp:86-102 *)
Definition copy_element (e : pelement) : pelement :=
  mkpelement (pe_name e) (pe_geometries e) (pe_min e) (pe_max e).
(** LayoutData.hpp:95-101, :123-130  ~Element and ~Library of objects that are not in the heap *)
Definition destroy_element (h : heap) (e : pelement) : res heap := for_each (pe_geometries e) h delete_geometry.
(** LayoutData.hpp:123-130 *)
Definition destroy_library (h : heap) (b : plibrary) : res heap := for_each (pb_elements b) h delete_element.

(** LayoutReader.hpp:18-30, MskReader.hpp:20-28: name, stream open, p_activeLibrary,
    p_activeElement *)
Record preader := mkpreader { pr_name : list Z; pr_open : bool; pr_library : pointer; pr_element : pointer }.

(** MskReader.cpp:263-274 *)
Fixpoint pinsert_layer (pl : platform) (pos : nat) (ls : list player) (num : Z) (name : list byte) (p : pointer) : list player :=
  match ls with
  | [] => [mkplayer num (uninitialised pl pos) name [p]]
  | l :: t =>
      if num =? py_layer l then mkplayer (py_layer l) (py_dataType l) (py_name l) (py_geometries l ++ [p]) :: t
      else l :: pinsert_layer pl (S pos) t num name p
  end.

(** MskReader.cpp:268-269 / :304-305 and :276 / :306: the library at [lib] gets the layers that [f]
    makes of its layers, the element at [el] gets one more geometry *)
Definition push (h : heap) (lib el : pointer) (f : list player -> list player) (p : pointer) : res heap :=
  let* b := load_library h lib in
  let h := match lib with
           | Some a => store h a (CellLibrary (mkplibrary (pb_name b) (pb_elements b) (f (pb_layers b)) (pb_min b) (pb_max b)))
           | None => h
           end in
  let* e := load_element h el in
  Ok (match el with
      | Some a => store h a (CellElement (mkpelement (pe_name e) (pe_geometries e ++ [p]) (pe_min e) (pe_max e)))
      | None => h
      end).

(** MskReader.cpp:247-285  ReadSectionRectangle: the members of the new object are filled in
    when all of them are known *)
Definition pReadSectionRectangle (pl : platform) (FileLine : list byte) (lib el : pointer) (h : heap) : res heap :=
  let (a, h) := allocate h (CellGeometry new_rectangle) in
  match
    (let* p := ParseRecLine FileLine in
     match p with
     | None => Throw RuntimeError
     | Some (leftBot, rightTop, layerName) =>
         let layerNum := LayerNameToLayerNum layerName in
         if layerNum =? g_undefinedLayerNum then Throw RuntimeError
         else
           let* currBox := FillBox new_rectangle leftBot rightTop layerNum in
           Ok (currBox, layerNum, layerName)
     end)
  with
  | Ok (currBox, layerNum, layerName) =>
      push (store h a (CellGeometry currBox)) lib el (fun ls => pinsert_layer pl 0 ls layerNum layerName (Some a)) (Some a)
  | Throw _ => delete_geometry h (Some a)
  | UB u => UB u
  end.

(** MskReader.cpp:288-315  ReadSectionBoundingBox *)
Definition pReadSectionBoundingBox (pl : platform) (FileLine : list byte) (lib el : pointer) (h : heap) : res heap :=
  let (a, h) := allocate h (CellGeometry new_rectangle) in
  match
    (let* r := sscanf FileLine (lit "BB(%d,%d,%d,%d)") in
     let '(n, vs) := r in
     if n =? 0 then Throw RuntimeError
     else FillBox new_rectangle (mkcoord (int_arg vs 0 0) (int_arg vs 1 0)) (mkcoord (int_arg vs 2 0) (int_arg vs 3 0))
            (LayerNameToLayerNum (lit "BB")))
  with
  | Ok boundingBox =>
      push (store h a (CellGeometry boundingBox)) lib el
        (fun ls => ls ++ [mkplayer (LayerNameToLayerNum (lit "BB")) (uninitialised pl (length ls)) (lit "BB") [Some a]]) (Some a)
  | Throw _ => delete_geometry h (Some a)
  | UB u => UB u
  end.

(** MskReader.cpp:318-344  ReadSectionTitle: the address of the new object is in a local
    variable only *)
Definition pReadSectionTitle (FileLine : list byte) (h : heap) : res heap :=
  let (a, h) := allocate h (CellGeometry (new_geom GTtext (CText 0 0 []))) in
  match
    (let* r := sscanf FileLine (lit "TITLE %d %d  #%s") in
     let '(n, vs) := r in
     let* _ := fits_buffer 64 (str_arg vs 2) in
     if n =? 0 then Throw RuntimeError
     else
       let leftBot := mkcoord (int_arg vs 0 0) (int_arg vs 1 0) in
       Ok (mkgeom GTtext (LayerNameToLayerNum (lit "TITLE")) [leftBot] leftBot leftBot
             (CText 0 (Z.of_nat (length (str_arg vs 2))) (str_arg vs 2))))
  with
  | Ok text => Ok (store h a (CellGeometry text))
  | Throw _ => delete_geometry h (Some a)
  | UB u => UB u
  end.

(** MskReader.cpp:121-129  one turn of the loop of Read *)
Definition pReadLine (pl : platform) (lib el : pointer) (h : heap) (line : list byte) : res heap :=
  let fileLine := filter (fun c => negb (beqb c "010")) (filter (fun c => negb (beqb c "013")) line) in
  let* h := if contains (lit "BB") fileLine then pReadSectionBoundingBox pl fileLine lib el h else Ok h in
  let* h := if contains (lit "REC") fileLine then pReadSectionRectangle pl fileLine lib el h else Ok h in
  if contains (lit "TITLE") fileLine then pReadSectionTitle fileLine h else Ok h.

(** MskReader.cpp:136-148  the bounding box of libraries[0]->elements[0] *)
Definition pbound_first (h : heap) (libs : list pointer) : res heap :=
  let* l0 := at_ libs 0 in
  let* b := load_library h l0 in
  let* e0 := at_ (pb_elements b) 0 in
  let* e := load_element h e0 in
  let* g0 := at_ (pe_geometries e) 0 in
  let* g := load_geometry h g0 in
  let* mm := for_each (tl (pe_geometries e)) (g_min g, g_max g) (fun mm p =>
    let* g := load_geometry h p in
    let '(mn, mx) := mm in
    Ok (mkcoord (if cx (g_min g) <? cx mn then cx (g_min g) else cx mn)
                (if cy (g_min g) <? cy mn then cy (g_min g) else cy mn),
        mkcoord (if cx mx <? cx (g_max g) then cx (g_max g) else cx mx)
                (if cy mx <? cy (g_max g) then cy (g_max g) else cy mx))) in
  Ok (match e0 with
      | Some a => store h a (CellElement (mkpelement (pe_name e) (pe_geometries e) (fst mm) (snd mm)))
      | None => h
      end).

(** MskReader.cpp:150-169  the handler of Read *)
Definition pread_failed (r : preader) (h : heap) (d : pdata) : res (heap * preader * option pdata * bool) :=
  let* h := delete_element h (pr_element r) in
  let* h := delete_library h (pr_library r) in
  Ok (h, mkpreader (pr_name r) false None None, Some (mkpdata (pd_name d) (pd_libraries d) FFundefined), false).

(** MskReader.cpp:101-173  Read.  Inside the loop and after it nothing throws (the sections
    catch what is thrown in them): the handler is entered with the heap as it was after the two
    allocations. *)
Definition pRead (pl : platform) (fs : file_system) (r : preader) (h : heap) (layout : option pdata) :
    res (heap * preader * option pdata * bool) :=
  match layout with
  | None => Ok (h, mkpreader (pr_name r) false (pr_library r) (pr_element r), None, false)
  | Some d =>
      match (if pr_open r then Some [] else fs (narrow (pr_name r))) with
      | None => pread_failed r h d
      | Some text =>
          let (lib, h) := allocate h (CellLibrary (mkplibrary [] [] [] (mkcoord 0 0) (mkcoord 0 0))) in
          let (el, h) := allocate h (CellElement (mkpelement [] [] (mkcoord (-1) (-1)) (mkcoord (-1) (-1)))) in
          let r := mkpreader (pr_name r) false (Some lib) (Some el) in
          let d := mkpdata (pr_name r) (pd_libraries d) (pd_format d) in
          match
            (let* en := GetElemName pl (pr_name r) in
             let* ln := WcsStrToUtf8 pl (pr_name r) in
             let h := store h el (CellElement (mkpelement en [] (mkcoord (-1) (-1)) (mkcoord (-1) (-1)))) in
             let h := store h lib (CellLibrary (mkplibrary ln [] [] (mkcoord 0 0) (mkcoord 0 0))) in
             let* h := for_each (getlines [] text) h (pReadLine pl (Some lib) (Some el)) in
             let* b := load_library h (Some lib) in
             let h := store h lib (CellLibrary (mkplibrary (pb_name b) (pb_elements b ++ [Some el]) (pb_layers b) (pb_min b) (pb_max b))) in
             let libs := pd_libraries d ++ [Some lib] in
             let* h := pbound_first h libs in
             Ok (h, mkpdata (pr_name r) libs FFmsk))
          with
          | Ok (h, d) => Ok (h, r, Some d, true)
          | Throw _ => pread_failed r h d
          | UB u => UB u
          end
      end
  end.
