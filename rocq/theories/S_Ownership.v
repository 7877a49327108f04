(** Specification vocabulary for ownership: which objects a layout owns, when the ownership is
    sound, which layout value a heap holds, what a heap has gained. *)
From Coq Require Import Permutation.
From Verif Require Import Prelude M_LayoutData M_Msk M_Ownership S_Msk.
Local Open Scope Z_scope.

(** The addresses in a list of pointers. *)
Definition targets (ps : list pointer) : list address := concat (map (fun p => match p with Some a => [a] | None => [] end) ps).

(** The objects that an element (a library, a layout) owns, the object at the address included. *)
Definition owned_by_element (h : heap) (a : address) : list address :=
  a :: match h_cell h a with Some (CellElement e) => targets (pe_geometries e) | _ => [] end.
Definition owned_by_library (h : heap) (a : address) : list address :=
  a :: match h_cell h a with Some (CellLibrary b) => concat (map (owned_by_element h) (targets (pb_elements b))) | _ => [] end.
Definition owned (h : heap) (d : pdata) : list address :=
  concat (map (owned_by_library h) (targets (pd_libraries d))).

(** The pointers point to objects of their types. *)
Definition is_geometry (h : heap) (a : address) : Prop := exists g, h_cell h a = Some (CellGeometry g).
Definition is_element (h : heap) (a : address) : Prop :=
  exists e, h_cell h a = Some (CellElement e) /\ Forall (is_geometry h) (targets (pe_geometries e)).
Definition is_library (h : heap) (a : address) : Prop :=
  exists b, h_cell h a = Some (CellLibrary b) /\ Forall (is_element h) (targets (pb_elements b)).

(** A sound layout: its pointers point to objects of their types, and no object has two owners. *)
Definition sound (h : heap) (d : pdata) : Prop :=
  Forall (is_library h) (targets (pd_libraries d)) /\ NoDup (owned h d).

(** The two heaps hold the same, but for the objects in the list, which are gone from the second. *)
Definition without (h : heap) (l : list address) (h' : heap) : Prop :=
  forall a, (In a l -> h_cell h' a = None) /\ (~ In a l -> h_cell h' a = h_cell h a).

(** No address at or above the next one is in use. *)
Definition regular (h : heap) : Prop := forall a, (h_next h <= a)%nat -> h_cell h a = None.

(** ** The value that a heap holds *)
Definition holds_geometry (h : heap) (p : pointer) (g : option geom) : Prop :=
  match p, g with
  | None, None => True
  | Some a, Some v => h_cell h a = Some (CellGeometry v)
  | _, _ => False
  end.
Definition holds_layer (h : heap) (l : player) (v : layer) : Prop :=
  py_layer l = l_layer v /\ py_dataType l = l_dataType v /\ py_name l = l_name v /\
  Forall2 (holds_geometry h) (py_geometries l) (l_geometries v).
Definition holds_element (h : heap) (p : pointer) (v : element) : Prop :=
  exists a ps, p = Some a /\ h_cell h a = Some (CellElement (mkpelement (e_name v) ps (e_min v) (e_max v))) /\
    Forall2 (holds_geometry h) ps (e_geometries v).
Definition holds_library (h : heap) (p : pointer) (v : library) : Prop :=
  exists a es ls, p = Some a /\ h_cell h a = Some (CellLibrary (mkplibrary (lib_name v) es ls (lib_min v) (lib_max v))) /\
    Forall2 (holds_element h) es (lib_elements v) /\ Forall2 (holds_layer h) ls (lib_layers v).
Definition holds (h : heap) (d : pdata) (v : layout_data) : Prop :=
  pd_name d = ld_name v /\ pd_format d = ld_format v /\ Forall2 (holds_library h) (pd_libraries d) (ld_libraries v).

(** The reader of M_Msk that a reader with pointers stands for. *)
Definition abstracts (r : preader) (v : reader) : Prop :=
  pr_name r = rd_name v /\ pr_open r = rd_open v /\
  (rd_active v = false -> pr_library r = None /\ pr_element r = None) /\
  (rd_active v = true -> pr_library r <> None /\ pr_element r <> None).

(** ** Lost objects *)
(** The number of lines that begin with TITLE (carriage returns apart). *)
Inductive titles : list (list byte) -> nat -> Prop :=
| titles_nil : titles [] 0
| titles_yes l l' t n : without_returns l l' -> begins (lit "TITLE") l' -> titles t n -> titles (l :: t) (S n)
| titles_no l l' t n : without_returns l l' -> ~ begins (lit "TITLE") l' -> titles t n -> titles (l :: t) n.
