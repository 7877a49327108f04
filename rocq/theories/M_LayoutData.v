(** Model of the layout data types, src/Common/Include/LayoutData.hpp, and of 32-bit integer
    arithmetic on coordinates. *)
From Verif Require Import Prelude.
Local Open Scope Z_scope.

(** LayoutData.hpp:11-16  Coord; the members are int32_t (values -2^31 .. 2^31-1). *)
Record coord := mkcoord { cx : Z; cy : Z }.

(** LayoutData.hpp:12: the values of an int32_t *)
Definition int32 (z : Z) : Prop := - 2 ^ 31 <= z < 2 ^ 31.
(** LayoutData.hpp:11-16 *)
Definition coord32 (c : coord) : Prop := int32 (cx c) /\ int32 (cy c).

(** int arithmetic: undefined behaviour when the result does not fit.  LayoutData.hpp:12 *)
Definition chk32 (z : Z) : res Z :=
  if (- 2 ^ 31 <=? z) && (z <? 2 ^ 31) then Ok z else UB SignedOverflow.
(** LayoutConverter.cpp:151-158 *)
Definition add32 (a b : Z) : res Z := chk32 (a + b).
(** MskReader.cpp:347-353, LayoutBitmapZond.cpp:162-168 *)
Definition sub32 (a b : Z) : res Z := chk32 (a - b).

(** conversion of an integer to int32_t (modulo 2^32), and of an int32_t to size_t.
    GDSIITypes.hpp:97 *)
Definition to_int32 (z : Z) : Z := (z + 2 ^ 31) mod 2 ^ 32 - 2 ^ 31.
(** LayoutBitmapZond.h:25-31 *)
Definition to_size (z : Z) : Z := z mod 2 ^ 64.

(** LayoutData.hpp:23-30 *)
Inductive geometry_type := GTundefined | GTpolygon | GTpath | GTtext | GTrectangle | GTreference.

(** LayoutData.hpp:23-30: comparison *)
Definition gt_eqb (a b : geometry_type) : bool :=
  match a, b with
  | GTundefined, GTundefined | GTpolygon, GTpolygon | GTpath, GTpath
  | GTtext, GTtext | GTrectangle, GTrectangle | GTreference, GTreference => true
  | _, _ => false
  end.

(** LayoutData.hpp:43-84: the class an object was created with, and the members of that class
    that the modelled code reads.  Elements are named by their position in a heap of elements;
    [None] is the null pointer.  Dangling pointers are not modelled. *)
Inductive gclass :=
| CGeometry
| CPolygon (dataType : Z)
| CPath (dataType pathType width : Z)
| CText (textType width : Z) (stringValue : list byte)
| CRectangle (rectType : Z)
| CReference (name : list byte) (pElement : option nat).

(** LayoutData.hpp:32-41  Geometry (properties are not modelled: nothing but the GDSII reader
    touches them). *)
Record geom := mkgeom {
  g_type : geometry_type;
  g_layer : Z;
  g_coords : list coord;
  g_min : coord;
  g_max : coord;
  g_class : gclass }.

(** LayoutData.hpp:40, :46-83  the default constructors of the derived classes *)
Definition new_geom (t : geometry_type) (c : gclass) : geom :=
  mkgeom t (-1) [] (mkcoord (-1) (-1)) (mkcoord (-1) (-1)) c.
(** LayoutData.hpp:72  Rectangle() *)
Definition new_rectangle : geom := new_geom GTrectangle (CRectangle 0).
(** LayoutData.hpp:46  Polygon() *)
Definition new_polygon : geom := new_geom GTpolygon (CPolygon 0).

(** LayoutData.hpp:86-102  Element; geometries are pointers, [None] is null. *)
Record element := mkelement {
  e_name : list byte;
  e_geometries : list (option geom);
  e_min : coord;
  e_max : coord }.

(** LayoutData.hpp:104-109 *)
Record layer := mklayer {
  l_layer : Z;
  l_dataType : Z;
  l_name : list byte;
  l_geometries : list (option geom) }.

(** LayoutData.hpp:111-131 (units are not modelled) *)
Record library := mklibrary {
  lib_name : list byte;
  lib_elements : list element;
  lib_layers : list layer;
  lib_min : coord;
  lib_max : coord }.
