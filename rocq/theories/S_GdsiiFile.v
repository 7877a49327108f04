(** Specification vocabulary for GDSII stream files: what a library consists of, how the format
    writes it down, and what a layout shows.  Nothing here mentions the functions of the model;
    the data of a layout (M_Gdsii: obj, struc, glib) are those of LayoutData.hpp. *)
From Coq Require Import Reals Permutation.
From Flocq Require Import Core.
From Verif Require Import Prelude M_LayoutData M_Double S_Double S_Converter S_Gdsii M_Gdsii.
Local Open Scope Z_scope.

(** ** Records *)
(** Two-byte and four-byte integers, the most significant byte first; points; strings, which are
    padded to an even length with a NUL. *)
Definition word (v : Z) : list byte := [z2b (v / 2 ^ 8); z2b v].
Definition dword (v : Z) : list byte := [z2b (v / 2 ^ 24); z2b (v / 2 ^ 16); z2b (v / 2 ^ 8); z2b v].
Definition point (c : coord) : list byte := dword (cx c) ++ dword (cy c).
Definition padded (s : list byte) : list byte := if Nat.even (length s) then s else s ++ [x00].

(** A record: its length in all, its type, the type of its data, its data. *)
Definition record (ty dt : Z) (data : list byte) : list byte :=
  word (4 + Z.of_nat (length data)) ++ [z2b ty; z2b dt] ++ data.

(** ** Elements, structures, libraries *)
(** STRANS, MAG, ANGLE; reals are given by their eight bytes. *)
Record transformation := mktransformation { t_flags : Z; t_mag : option (list byte); t_angle : option (list byte) }.

Inductive shape :=
| Boundary (layer datatype : Z) (xy : list coord)
| Path (layer datatype : Z) (pathtype width : option Z) (xy : list coord)
| Box (layer boxtype : Z) (xy : list coord)
| Text (layer texttype : Z) (presentation pathtype width : option Z) (trans : option transformation) (xy : coord) (string : list byte)
| Sref (sname : list byte) (trans : option transformation) (xy : coord).

(** An element with its optional ELFLAGS and PLEX and at most one property. *)
Record element := mkelement { el_flags : option Z; el_plex : option Z; el_shape : shape; el_property : option (Z * list byte) }.
(** A structure: the two dates (24 bytes), the name, the elements. *)
Record structure := mkstructure { st_dates : list byte; st_name : list byte; st_elements : list element }.
(** A library: the version, the two dates, the name, records that may follow it (REFLIBS, FONTS,
    GENERATIONS, ATTRTABLE), the two units (eight bytes each), the structures. *)
Record library := mklibrary {
  lb_version : Z; lb_dates : list byte; lb_name : list byte; lb_options : list (Z * Z * list byte);
  lb_user : list byte; lb_physical : list byte; lb_structures : list structure }.

(** ** How the format writes them *)
Definition optional {A} (f : A -> list byte) (x : option A) : list byte := match x with Some a => f a | None => [] end.
Definition trans_bytes (t : transformation) : list byte :=
  record 26 1 (word (t_flags t)) ++ optional (record 27 5) (t_mag t) ++ optional (record 28 5) (t_angle t).
Definition shape_type (s : shape) : Z :=
  match s with Boundary _ _ _ => 8 | Path _ _ _ _ _ => 9 | Sref _ _ _ => 10 | Text _ _ _ _ _ _ _ _ => 12 | Box _ _ _ => 45 end.
Definition shape_bytes (s : shape) : list byte :=
  match s with
  | Boundary l d xy => record 13 2 (word l) ++ record 14 2 (word d) ++ record 16 3 (concat (map point xy))
  | Path l d pt w xy =>
      record 13 2 (word l) ++ record 14 2 (word d) ++ optional (fun v => record 33 2 (word v)) pt ++ optional (fun v => record 15 3 (dword v)) w ++
      record 16 3 (concat (map point xy))
  | Box l b xy => record 13 2 (word l) ++ record 46 2 (word b) ++ record 16 3 (concat (map point xy))
  | Text l ty pr pt w t xy str =>
      record 13 2 (word l) ++ record 22 2 (word ty) ++ optional (fun v => record 23 1 (word v)) pr ++ optional (fun v => record 33 2 (word v)) pt ++
      optional (fun v => record 15 3 (dword v)) w ++ optional trans_bytes t ++ record 16 3 (point xy) ++ record 25 6 (padded str)
  | Sref n t xy => record 18 6 (padded n) ++ optional trans_bytes t ++ record 16 3 (point xy)
  end.
Definition element_bytes (e : element) : list byte :=
  record (shape_type (el_shape e)) 0 [] ++
  optional (fun v => record 38 1 (word v)) (el_flags e) ++ optional (fun v => record 47 3 (dword v)) (el_plex e) ++
  shape_bytes (el_shape e) ++
  optional (fun p => record 43 2 (word (fst p)) ++ record 44 6 (padded (snd p))) (el_property e) ++
  record 17 0 [].
Definition structure_bytes (s : structure) : list byte :=
  record 5 2 (st_dates s) ++ record 6 6 (padded (st_name s)) ++ concat (map element_bytes (st_elements s)) ++ record 7 0 [].
Definition library_bytes (b : library) : list byte :=
  record 0 2 (word (lb_version b)) ++ record 1 2 (lb_dates b) ++ record 2 6 (padded (lb_name b)) ++
  concat (map (fun o => record (fst (fst o)) (snd (fst o)) (snd o)) (lb_options b)) ++
  record 3 5 (lb_user b ++ lb_physical b) ++ concat (map structure_bytes (lb_structures b)) ++ record 4 0 [].

(** The beginning of a file: up to the units; up to the elements of a structure, which is still
    open, after the structures of b; up to the property of an element, which is still open too. *)
Definition library_head (b : library) : list byte :=
  record 0 2 (word (lb_version b)) ++ record 1 2 (lb_dates b) ++ record 2 6 (padded (lb_name b)) ++
  concat (map (fun o => record (fst (fst o)) (snd (fst o)) (snd o)) (lb_options b)) ++ record 3 5 (lb_user b ++ lb_physical b).
Definition open_structure (b : library) (s : structure) : list byte :=
  library_head b ++ concat (map structure_bytes (lb_structures b)) ++
  record 5 2 (st_dates s) ++ record 6 6 (padded (st_name s)) ++ concat (map element_bytes (st_elements s)).
Definition open_element (b : library) (s : structure) (e : element) : list byte :=
  open_structure b s ++ record (shape_type (el_shape e)) 0 [] ++
  optional (fun v => record 38 1 (word v)) (el_flags e) ++ optional (fun v => record 47 3 (dword v)) (el_plex e) ++ shape_bytes (el_shape e) ++
  optional (fun p => record 43 2 (word (fst p)) ++ record 44 6 (padded (snd p))) (el_property e).

(** The records that belong to an element: LAYER, DATATYPE, WIDTH, XY, SNAME, TEXTTYPE, PRESENTATION,
    STRING, STRANS, MAG, PATHTYPE, PROPATTR, BOXTYPE. *)
Definition element_record (ty : Z) : Prop := In ty [13; 14; 15; 16; 18; 22; 23; 25; 26; 27; 33; 43; 46].

(** The records the reader has a section for; all others are skipped. *)
Definition known_record (ty : Z) : Prop :=
  In ty [0; 1; 2; 3; 4; 5; 6; 7; 8; 9; 10; 12; 13; 14; 15; 16; 17; 18; 22; 23; 25; 26; 27; 33; 43; 45; 46].

(** Where a record can stand: before a library, between the structures of one, between the elements of
    a structure, inside an element. *)
Inductive place := AtStart | AmongStructures | AmongElements | InsideElement (e : element).

(** The beginnings of files that lead to these places. *)
Definition open_library (b : library) : list byte := library_head b ++ concat (map structure_bytes (lb_structures b)).

(** The places where a record is taken: HEADER and ENDLIB everywhere. *)
Definition taken (pl : place) (ty : Z) : Prop :=
  ty = 0 \/ ty = 4 \/
  match pl with
  | AtStart => ty = 1
  | AmongStructures => In ty [2; 3; 5]
  | AmongElements => In ty [6; 7; 8; 9; 10; 12; 45]
  | InsideElement e =>
      In ty [13; 14; 15; 16; 17; 26; 27; 33] \/
      (ty = 43 /\ el_property e = None) \/
      match el_shape e with
      | Sref _ _ _ => ty = 18
      | Text _ _ _ _ _ _ _ _ => In ty [22; 23; 25]
      | Box _ _ _ => ty = 46
      | _ => False
      end
  end.

(** ** What can be written *)
Definition int16 (v : Z) : Prop := - 2 ^ 15 <= v < 2 ^ 15.
(** all 32-bit integers but -2^31 *)
Definition int31 (v : Z) : Prop := - 2 ^ 31 < v < 2 ^ 31.
Definition fits {A} (P : A -> Prop) (x : option A) : Prop := forall a, x = Some a -> P a.
Definition string_ok (s : list byte) : Prop := ~ In x00 s /\ Z.of_nat (length s) <= 65530.
Definition point_ok (c : coord) : Prop := int31 (cx c) /\ int31 (cy c).
Definition points_ok (l : list coord) : Prop := l <> [] /\ Z.of_nat (length l) <= 8191 /\ Forall point_ok l.
Definition real_ok (l : list byte) : Prop := length l = 8%nat.
Definition trans_ok (t : transformation) : Prop := int16 (t_flags t) /\ fits real_ok (t_mag t) /\ fits real_ok (t_angle t).
Definition shape_ok (s : shape) : Prop :=
  match s with
  | Boundary l d xy => int16 l /\ int16 d /\ points_ok xy
  | Path l d pt w xy => int16 l /\ int16 d /\ fits int16 pt /\ fits int31 w /\ points_ok xy
  | Box l b xy => int16 l /\ int16 b /\ points_ok xy
  | Text l ty pr pt w t xy str =>
      int16 l /\ int16 ty /\ fits int16 pr /\ fits int16 pt /\ fits int31 w /\ fits trans_ok t /\ point_ok xy /\ string_ok str
  | Sref n t xy => string_ok n /\ fits trans_ok t /\ point_ok xy
  end.
Definition element_ok (e : element) : Prop :=
  shape_ok (el_shape e) /\ fits (fun p => int16 (fst p) /\ string_ok (snd p)) (el_property e).
Definition structure_ok (s : structure) : Prop :=
  length (st_dates s) = 24%nat /\ string_ok (st_name s) /\ Forall element_ok (st_elements s).
Definition option_ok (o : Z * Z * list byte) : Prop :=
  let '(ty, _, data) := o in (ty = 31 \/ ty = 32 \/ ty = 34 \/ ty = 35) /\ Z.of_nat (length data) <= 65531.
Definition library_ok (b : library) : Prop :=
  int16 (lb_version b) /\ length (lb_dates b) = 24%nat /\ string_ok (lb_name b) /\ Forall option_ok (lb_options b) /\ real_ok (lb_user b) /\ real_ok (lb_physical b) /\
  Forall structure_ok (lb_structures b).

(** A beginning of a file that leads to a place. *)
Inductive standing : place -> list byte -> Prop :=
| at_start : standing AtStart []
| among_structures b : library_ok b -> standing AmongStructures (open_library b)
| among_elements b s : library_ok b -> structure_ok s -> standing AmongElements (open_structure b s)
| inside_element b s e : library_ok b -> structure_ok s -> element_ok e -> standing (InsideElement e) (open_element b s e).

(** ** What a layout shows *)
(** The double nearest to a GDSII real; 1 when there is none. *)
Definition mag_of (t : option transformation) (x : double) : Prop :=
  match t with
  | Some t => match t_mag t with Some l => exists r, gdsii_real l r /\ nearest x r | None => x = dz 1 end
  | None => x = dz 1
  end.
Definition or0 (x : option Z) : Z := match x with Some v => v | None => 0 end.
Definition coords_of (s : shape) : list coord :=
  match s with Boundary _ _ xy | Path _ _ _ _ xy | Box _ _ xy => xy | Text _ _ _ _ _ _ xy _ => [xy] | Sref _ _ xy => [xy] end.
Definition layer_number (s : shape) : Z :=
  match s with Boundary l _ _ | Path l _ _ _ _ | Box l _ _ | Text l _ _ _ _ _ _ _ => l | Sref _ _ _ => -1 end.

(** j is the number of the first structure with the name. *)
Definition first_named (ss : list structure) (name : list byte) (j : nat) : Prop :=
  exists s, nth_error ss j = Some s /\ st_name s = name /\ forall i s', (i < j)%nat -> nth_error ss i = Some s' -> st_name s' <> name.

(** The object shows the element of a library with structures ss, as library number i of the
    layout.  Property values are dropped. *)
Definition shows_class (i : nat) (ss : list structure) (s : shape) (c : shape_class) : Prop :=
  match s with
  | Boundary _ d _ => c = SPolygon d
  | Path _ d pt w _ => c = SPath d (or0 pt) (or0 w)
  | Box _ b _ => c = SRectangle b
  | Text _ ty pr pt w t _ str => exists m, c = SText ty (or0 pr) (or0 pt) (match t with Some t => t_flags t | None => 0 end) m (or0 w) str /\ mag_of t m
  | Sref n t _ => exists j m, c = SReference n (Some (i, j)) m /\ first_named ss n j /\ mag_of t m
  end.
Definition shows (i : nat) (ss : list structure) (e : element) (o : obj) : Prop :=
  o_layer o = layer_number (el_shape e) /\ o_coords o = coords_of (el_shape e) /\
  bounding_box (coords_of (el_shape e)) (o_min o) (o_max o) /\
  o_props o = match el_property e with Some (a, _) => [(a, [])] | None => [] end /\
  shows_class i ss (el_shape e) (o_class o).

Definition is_sref (e : element) : bool := match el_shape e with Sref _ _ _ => true | _ => false end.
(** Some element of the structures refers to structure number j. *)
Definition referred (ss : list structure) (j : nat) : Prop :=
  exists s e n t xy, In s ss /\ In e (st_elements s) /\ el_shape e = Sref n t xy /\ first_named ss n j.

Definition shows_structure (i : nat) (ss : list structure) (j : nat) (s : structure) (e : struc) : Prop :=
  s_name e = st_name s /\ Forall2 (shows i ss) (st_elements s) (s_objs e) /\
  s_flat e = negb (existsb is_sref (st_elements s)) /\
  (st_elements s <> [] -> bounding_box (concat (map (fun x => coords_of (el_shape x)) (st_elements s))) (s_min e) (s_max e)) /\
  (st_elements s = [] -> s_min e = mkcoord (-1) (-1) /\ s_max e = mkcoord (-1) (-1)) /\
  (s_nested e = true <-> referred ss j).

Definition shows_library (i : nat) (b : library) (g : glib) : Prop :=
  b_name g = lb_name b /\
  (exists r, gdsii_real (lb_user b) r /\ nearest (b_user g) r) /\
  (exists r, gdsii_real (lb_physical b) r /\ nearest (b_physical g) r) /\
  length (b_elements g) = length (lb_structures b) /\
  (forall j s e, nth_error (lb_structures b) j = Some s -> nth_error (b_elements g) j = Some e -> shows_structure i (lb_structures b) j s e).

(** Every reference of the library names one of its structures. *)
Definition resolvable (ss : list structure) : Prop :=
  forall s e n t xy, In s ss -> In e (st_elements s) -> el_shape e = Sref n t xy -> exists j, first_named ss n j.

(** ** Layouts *)
Definition element_at (libs : list glib) (i j : nat) (e : struc) : Prop := exists b, nth_error libs i = Some b /\ nth_error (b_elements b) j = Some e.
(** element j of library i is the first one with the name *)
Definition first_element (libs : list glib) (name : list byte) (i j : nat) : Prop :=
  (exists e, element_at libs i j e /\ s_name e = name) /\
  forall i' j' e, (i' < i \/ (i' = i /\ j' < j))%nat -> element_at libs i' j' e -> s_name e <> name.
(** a reference to the name occurs *)
Definition refers_to (libs : list glib) (name : list byte) : Prop :=
  exists i j e o p m, element_at libs i j e /\ In o (s_objs e) /\ o_class o = SReference name p m.

(** The layer and the data type of an object that is not a reference. *)
Inductive layer_pair : obj -> Z * Z -> Prop :=
| pair_polygon o d : o_class o = SPolygon d -> layer_pair o (o_layer o, d)
| pair_path o d pt w : o_class o = SPath d pt w -> layer_pair o (o_layer o, d)
| pair_text o ty b p f m w s : o_class o = SText ty b p f m w s -> layer_pair o (o_layer o, 0)
| pair_box o t : o_class o = SRectangle t -> layer_pair o (o_layer o, 0).
Definition objects (b : glib) : list obj := concat (map s_objs (b_elements b)).
(** The different pairs of the objects, in the order in which they first appear. *)
Inductive first_pairs : list obj -> list (Z * Z) -> Prop :=
| fp_nil : first_pairs [] []
| fp_reference os ps o n p m : first_pairs os ps -> o_class o = SReference n p m -> first_pairs (os ++ [o]) ps
| fp_old os ps o p : first_pairs os ps -> layer_pair o p -> In p ps -> first_pairs (os ++ [o]) ps
| fp_new os ps o p : first_pairs os ps -> layer_pair o p -> ~ In p ps -> first_pairs (os ++ [o]) (ps ++ [p]).

(** ** Histories of a reader *)
(** What a program can make of a new reader with the two public functions, whatever the files. *)
Inductive used : greader -> Prop :=
| used_new : used greader_new
| used_asked fs r name r' b : used r -> gIsMyFormat fs r name = Ok (r', b) -> used r'
| used_read fs r d r' d' b : used r -> gRead fs r d = Ok (r', d', b) -> used r'.

(** ** What IsMyFormat looks at *)
(** The part of a name after its last dot; the whole name when it has none. *)
Definition has_extension (name ext : list Z) : Prop :=
  (~ In 46 name /\ name = ext) \/ (~ In 46 ext /\ exists base, name = base ++ [46] ++ ext).
Definition gds_name (name : list Z) : Prop := has_extension name [103; 100; 115] \/ has_extension name [103; 100; 115; 105; 105].
(** HEADER with two bytes, whatever they are; BGNLIB of 28 bytes.  Nothing behind is looked at; and
    when the file ends right after the type of the second record, its data type is not missed. *)
Definition gds_begin (text : list byte) : Prop :=
  exists v0 v1, (exists rest, text = [x00; x06; x00; x02; v0; v1; x00; x1c; x01; x02] ++ rest) \/ text = [x00; x06; x00; x02; v0; v1; x00; x1c; x01].

(** ** A small library, for examples *)
Definition ex_milli : list byte := [x3e; x41; x89; x37; x4b; xc6; xa7; xf0].
Definition ex_nano : list byte := [x39; x44; xb8; x2f; xa0; x9b; x5a; x54].
Definition ex_boundary : element :=
  mkelement None None (Boundary 3 7 [mkcoord 0 0; mkcoord 0 10; mkcoord 20 10; mkcoord 20 0; mkcoord 0 0]) (Some (1, [x76])).
Definition ex_path : element := mkelement (Some 0) None (Path 1 2 (Some 1) (Some 5) [mkcoord (-5) 0; mkcoord 5 0]) None.
Definition ex_text : element := mkelement None (Some 9) (Text 2 4 (Some 5) None None (Some (mktransformation (-32768) None None)) (mkcoord 1 1) [x68; x69]) None.
Definition ex_box : element := mkelement None None (Box 3 1 [mkcoord 1 1; mkcoord 2 2]) None.
Definition ex_sref (n : list byte) : element := mkelement None None (Sref n (Some (mktransformation 0 (Some ex_milli) None)) (mkcoord 100 100)) None.
Definition ex_cell : structure := mkstructure (repeat x00 24) [x41] [ex_boundary; ex_path; ex_box].
Definition ex_top : structure := mkstructure (repeat x00 24) [x54; x4f; x50] [ex_sref [x41]; ex_text].
Definition ex_big : structure := mkstructure (repeat x00 24) [x42] [mkelement None None (Boundary 9 0 [mkcoord 0 0; mkcoord 500 700]) None].
Definition ex_library : library := mklibrary 600 (repeat x00 24) [x4c; x49; x42] [(34, 2, [x00; x03])] ex_milli ex_nano [ex_cell; ex_big; ex_top].
Definition ex_broken : library := mklibrary 600 (repeat x00 24) [x4c] [] ex_milli ex_nano [mkstructure (repeat x00 24) [x41] [ex_sref [x5a]]].
Definition ex_gds : list Z := [97; 46; 103; 100; 115].
Definition ex_greader : greader := mkgreader ex_gds true.
Definition ex_gfs (text : list byte) : M_Msk.file_system := fun _ => Some text.
Definition ex_empty : gdata := mkgdata [] [] M_Msk.FFundefined.
(** the names, the numbers of objects and the nesting marks of the elements of a layout *)
Definition ex_view (r : res (greader * option gdata * bool)) : option (bool * list (list byte * list (list byte * nat * bool))) :=
  match r with
  | Ok (_, Some d, ok) => Some (ok, map (fun b => (b_name b, map (fun e => (s_name e, length (s_objs e), s_nested e)) (b_elements b))) (gd_libraries d))
  | _ => None
  end.
(** the layers and the box of each library *)
Definition ex_layers (r : res (greader * option gdata * bool)) : option (list (list (Z * Z) * coord * coord)) :=
  match r with
  | Ok (_, Some d, true) => Some (map (fun b => (map (fun y => (y_layer y, y_dataType y)) (b_layers b), b_min b, b_max b)) (gd_libraries d))
  | _ => None
  end.
(** a second property *)
Definition ex_two_properties : list byte :=
  open_element ex_library ex_top ex_boundary ++ record 43 2 (word 1) ++ record 44 6 [x61; x62] ++ record 17 0 [] ++ record 7 0 [] ++ record 4 0 [].
