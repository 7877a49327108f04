(** Specification vocabulary for the conversions: boxes, translation, flattening. *)
From Verif Require Import Prelude M_LayoutData.
Local Open Scope Z_scope.

(** The closed outline of the axis-parallel box with two opposite corners p (left-bottom) and
    q (right-top): left-top, right-top, right-bottom, left-bottom, left-top. *)
Definition outline (p q : coord) : list coord :=
  [mkcoord (cx p) (cy q); q; mkcoord (cx q) (cy p); p; mkcoord (cx p) (cy q)].

(** (mn, mx) is the bounding box of a set of points: it contains them all and each of its
    four sides is attained. *)
Definition bounding_box (l : list coord) (mn mx : coord) : Prop :=
  (forall c, In c l -> cx mn <= cx c <= cx mx /\ cy mn <= cy c <= cy mx) /\
  (exists c, In c l /\ cx c = cx mn) /\ (exists c, In c l /\ cx c = cx mx) /\
  (exists c, In c l /\ cy c = cy mn) /\ (exists c, In c l /\ cy c = cy mx).

(** The box of no extent at point p on a layer. *)
Definition point_box (p : coord) (lay : Z) (g : geom) : Prop :=
  g_type g = GTrectangle /\ g_class g = CRectangle 0 /\ g_layer g = lay /\
  g_coords g = [p; p; p; p; p] /\ g_min g = p /\ g_max g = p.

(** Translation of points and objects. *)
Definition shift_coord (d c : coord) : coord := mkcoord (cx c + cx d) (cy c + cy d).
Definition shift (d : coord) (g : geom) : geom :=
  mkgeom (g_type g) (g_layer g) (map (shift_coord d) (g_coords g))
         (shift_coord d (g_min g)) (shift_coord d (g_max g)) (g_class g).

(** Every coordinate of the object fits in 32 bits. *)
Definition geom32 (g : geom) : Prop :=
  coord32 (g_min g) /\ coord32 (g_max g) /\ Forall coord32 (g_coords g).

(** The intermediate values computed for the segment from b to e with half width h fit in 32
    bits.  A segment of no length computes nothing; the distance h beyond the second point is
    not computed on the last segment. *)
Definition segment_fits (b e : coord) (h : Z) (last : bool) : Prop :=
  b = e \/
  (int32 (cx b - h) /\ int32 (cx b + h) /\
   (cx b <> cx e -> int32 (cy b - h) /\ int32 (cy b + h)) /\
   (cx b < cx e -> last = false -> int32 (cx e + h)) /\
   (cx e < cx b -> last = false -> int32 (cx e - h)) /\
   (cy e < cy b -> int32 (cy b + h) /\ (last = false -> int32 (cy e - h))) /\
   (cy b <= cy e -> int32 (cy b - h) /\ (last = false -> int32 (cy e + h)))).

Definition path_fits (cs : list coord) (h : Z) : Prop :=
  forall i b e, nth_error cs i = Some b -> nth_error cs (i + 1) = Some e ->
    segment_fits b e h (i + 2 =? length cs)%nat.

(** Simpler and sufficient: all points keep the distance h from the limits. *)
Definition roomy (cs : list coord) (h : Z) : Prop :=
  forall c, In c cs ->
    int32 (cx c - h) /\ int32 (cx c + h) /\ int32 (cy c - h) /\ int32 (cy c + h).

(** The object is a path; its width. *)
Definition path_width (g : geom) (w : Z) : Prop :=
  g_type g = GTpath /\ exists dt pt, g_class g = CPath dt pt w.

(** The object is a reference to structure number k. *)
Definition refers_to (g : geom) (k : nat) : Prop := exists n, g_class g = CReference n (Some k).

(** Objects the flattening copies: a polygon or rectangle of the right class. *)
Definition plain_shape (g : geom) : Prop :=
  (g_type g = GTpolygon /\ exists dt, g_class g = CPolygon dt) \/
  (g_type g = GTrectangle /\ exists rt, g_class g = CRectangle rt).

(** Objects it ignores: null pointers, texts and objects of undefined type. *)
Definition ignored (o : option geom) : Prop :=
  match o with None => True | Some g => g_type g = GTtext \/ g_type g = GTundefined end.

(** [expands heap off k l]: structure k, placed at the offset off, expands to the list of
    shapes l.  The offset of the contents is off plus the minimum corner of the structure;
    the contents are expanded in order, depth first. *)
Inductive expands (heap : list element) : coord -> nat -> list geom -> Prop :=
| expands_intro off k el l :
    nth_error heap k = Some el ->
    coord32 (shift_coord (e_min el) off) ->
    contents heap (shift_coord (e_min el) off) (e_geometries el) l ->
    expands heap off k l
with contents (heap : list element) : coord -> list (option geom) -> list geom -> Prop :=
| contents_nil off : contents heap off [] []
| contents_ignored off o t l :
    ignored o -> contents heap off t l -> contents heap off (o :: t) l
| contents_shape off g t l :
    plain_shape g -> geom32 (shift off g) -> contents heap off t l ->
    contents heap off (Some g :: t) (shift off g :: l)
| contents_path off g w t boxes l :
    path_width g w -> g_coords g <> [] -> path_fits (g_coords g) (Z.quot w 2) ->
    length boxes = (length (g_coords g) - 1)%nat ->
    Forall (point_box off (g_layer g)) boxes ->
    contents heap off t l ->
    contents heap off (Some g :: t) (boxes ++ l)
| contents_ref off g k t l1 l2 :
    g_type g = GTreference -> refers_to g k -> expands heap off k l1 ->
    contents heap off t l2 ->
    contents heap off (Some g :: t) (l1 ++ l2).

(** Structure k contains a reference to structure k'. *)
Definition uses (heap : list element) (k k' : nat) : Prop :=
  exists el g, nth_error heap k = Some el /\ In (Some g) (e_geometries el) /\
    g_type g = GTreference /\ refers_to g k'.

(** Structures in which the references do not run in circles: they can be ranked. *)
Definition acyclic (heap : list element) : Prop :=
  exists rank : nat -> nat, forall k k', uses heap k k' -> (rank k' < rank k)%nat.

(** Every structure of the set S refers to some structure of S. *)
Definition endless (heap : list element) (S : nat -> Prop) : Prop :=
  forall k, S k -> exists k', S k' /\ uses heap k k'.

(** [reached heap off k d k']: expanding structure k at offset off reaches structure k', whose
    contents are placed at d: the sum of off and the minimum corners of the structures on the
    way. *)
Inductive reached (heap : list element) : coord -> nat -> coord -> nat -> Prop :=
| reached_here off k el :
    nth_error heap k = Some el -> reached heap off k (shift_coord (e_min el) off) k
| reached_below off k el r k1 d k' :
    nth_error heap k = Some el -> In (Some r) (e_geometries el) ->
    g_type r = GTreference -> refers_to r k1 ->
    reached heap (shift_coord (e_min el) off) k1 d k' ->
    reached heap off k d k'.

(** The object g lies in a structure reached, at d. *)
Definition placed (heap : list element) (off : coord) (k : nat) (g : geom) (d : coord) : Prop :=
  exists k' el, reached heap off k d k' /\ nth_error heap k' = Some el /\
    In (Some g) (e_geometries el).

(** s is the translated copy of a shape placed at d, or one of the point boxes, at d, of a path
    of at least two points. *)
Definition occurs_in (heap : list element) (off : coord) (k : nat) (s : geom) : Prop :=
  (exists g d, placed heap off k g d /\ plain_shape g /\ s = shift d g) \/
  (exists g d w, placed heap off k g d /\ path_width g w /\ (2 <= length (g_coords g))%nat /\
     point_box d (g_layer g) s).

(** All the objects of a set of structures are well formed: their class is the one their type
    says, references point to existing structures, paths have a point and keep their half
    width from the limits of the coordinate range. *)
Definition sound_object (heap : list element) (g : geom) : Prop :=
  match g_type g with
  | GTpolygon | GTrectangle => plain_shape g
  | GTpath => exists w, path_width g w /\ g_coords g <> [] /\ path_fits (g_coords g) (Z.quot w 2)
  | GTreference => exists k, refers_to g k /\ (k < length heap)%nat
  | _ => True
  end.
Definition sound_heap (heap : list element) : Prop :=
  forall el g, In el heap -> In (Some g) (e_geometries el) -> sound_object heap g.

(** All offsets, and all coordinates of shapes at their offsets, fit in 32 bits. *)
Definition fits_everywhere (heap : list element) (off : coord) (k : nat) : Prop :=
  (forall d k', reached heap off k d k' -> coord32 d) /\
  (forall g d, placed heap off k g d -> plain_shape g -> geom32 (shift d g)).
