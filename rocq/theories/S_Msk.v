(** Specification vocabulary for MSK files: numbers, lines, what a line says, what a layout
    shows.  Nothing here mentions the functions of the model. *)
From Coq Require Import Permutation.
From Verif Require Import Prelude M_LayoutData S_Converter.
Local Open Scope Z_scope.

(** ** Characters and numbers *)
Definition newline : byte := "010"%byte.
Definition return_char : byte := "013"%byte.
Definition white (c : byte) : Prop := b2z c = 32 \/ 9 <= b2z c <= 13.
Definition word_char (c : byte) : Prop :=
  48 <= b2z c <= 57 \/ 65 <= b2z c <= 90 \/ 97 <= b2z c <= 122 \/ c = "_"%byte.

(** A string of decimal digits and its value. *)
Inductive digits : list byte -> Z -> Prop :=
| digits_one c v : 0 <= v <= 9 -> b2z c = 48 + v -> digits [c] v
| digits_more s n c v : digits s n -> 0 <= v <= 9 -> b2z c = 48 + v -> digits (s ++ [c]) (10 * n + v).

(** A number: spaces, a sign or none, digits. *)
Definition numeral (s : list byte) (z : Z) : Prop :=
  exists ws sg ds n, Forall white ws /\ digits ds n /\ s = ws ++ sg ++ ds /\
    ((sg = [] /\ z = n) \/ (sg = lit "+" /\ z = n) \/ (sg = lit "-" /\ z = - n)).

(** ... that fits in 32 bits. *)
Definition number (s : list byte) (z : Z) : Prop := numeral s z /\ int32 z.

(** A word of characters that are neither white space nor NUL. *)
Definition word (s : list byte) : Prop := Forall (fun c => ~ white c /\ c <> x00) s.

(** What follows a word: the end of the line, white space, or NUL. *)
Definition ends_word (t : list byte) : Prop := t = [] \/ exists c t', t = c :: t' /\ (white c \/ c = x00).

(** ** Lines *)
Inductive content :=
| Nothing
| Bounding (leftBot rightTop : coord)
| Rect (name : list byte) (leftBot rightTop : coord).

(** p occurs at the beginning of s. *)
Definition begins (p s : list byte) : Prop := exists t, s = p ++ t.

(** [says line c]: the line, free of carriage returns, says c.
    - BB(x1,y1,x2,y2) gives a bounding box; anything may follow.
    - REC(x,y,width,height,name) gives a rectangle; the closing parenthesis may be missing; the
      name and the parenthesis have at most seven characters; white space ends the line's
      meaning.
    - TITLE x y #text gives nothing; the text has at most 63 characters.
    - A line that begins with none of BB, REC, TITLE says nothing. *)
Inductive says : list byte -> content -> Prop :=
| says_bb s1 s2 s3 s4 a b c d rest :
    number s1 a -> number s2 b -> number s3 c -> number s4 d -> int32 (c - a) -> int32 (d - b) ->
    says (lit "BB(" ++ s1 ++ lit "," ++ s2 ++ lit "," ++ s3 ++ lit "," ++ s4 ++ lit ")" ++ rest)
         (Bounding (mkcoord a b) (mkcoord c d))
| says_rec s1 s2 s3 s4 a b w h ws name close rest :
    number s1 a -> number s2 b -> number s3 w -> number s4 h -> int32 (a + w) -> int32 (b + h) ->
    Forall white ws -> word name -> (length (name ++ close) <= 7)%nat ->
    (close = lit ")" \/ (close = [] /\ name <> [] /\ last name x00 <> ")"%byte)) -> ends_word rest ->
    says (lit "REC(" ++ s1 ++ lit "," ++ s2 ++ lit "," ++ s3 ++ lit "," ++ s4 ++ lit "," ++ ws ++ name ++ close ++ rest)
         (Rect name (mkcoord a b) (mkcoord (a + w) (b + h)))
| says_title s1 s2 a b sp ws ws' text rest :
    number s1 a -> number s2 b -> white sp -> Forall white ws -> Forall white ws' -> word text -> text <> [] -> (length text <= 63)%nat ->
    ends_word rest ->
    says (lit "TITLE" ++ s1 ++ sp :: s2 ++ ws ++ lit "#" ++ ws' ++ text ++ rest) Nothing
| says_other line :
    ~ In x00 line -> ~ begins (lit "BB") line -> ~ begins (lit "REC") line -> ~ begins (lit "TITLE") line ->
    says line Nothing.

(** The line with its carriage returns removed. *)
Inductive without_returns : list byte -> list byte -> Prop :=
| wr_nil : without_returns [] []
| wr_drop l l' : without_returns l l' -> without_returns (return_char :: l) l'
| wr_keep c l l' : c <> return_char -> without_returns l l' -> without_returns (c :: l) (c :: l').

(** The lines of a text: each ends with a newline, except that the last one may not. *)
Inductive file_lines : list byte -> list (list byte) -> Prop :=
| lines_none : file_lines [] []
| lines_last l : l <> [] -> ~ In newline l -> file_lines l [l]
| lines_more l t ls : ~ In newline l -> file_lines t ls -> file_lines (l ++ newline :: t) (l :: ls).

(** The file with the given text says, line by line, the given contents. *)
Definition file_says (text : list byte) (cs : list content) : Prop :=
  exists ls, file_lines text ls /\ Forall2 (fun l c => exists l', without_returns l l' /\ says l' c) ls cs.

(** ** Layers *)
(** The layer names of MicroWind that are known, and their numbers. *)
Definition msk_layers : list (list byte * Z) :=
  [(lit "NW", 1); (lit "PO", 13); (lit "DN", 16); (lit "DP", 17); (lit "CO", 19); (lit "ME", 23); (lit "M2", 27);
   (lit "M3", 34); (lit "M4", 36); (lit "M5", 53); (lit "M6", 55); (lit "VI", -4); (lit "BB", -5); (lit "TITLE", -6)].

(** The shapes (layer, corner, opposite corner) that a list of contents gives, in order. *)
Inductive shapes : list content -> list (Z * coord * coord) -> Prop :=
| shapes_nil : shapes [] []
| shapes_nothing t l : shapes t l -> shapes (Nothing :: t) l
| shapes_bounding p q t l : shapes t l -> shapes (Bounding p q :: t) ((-5, p, q) :: l)
| shapes_known name n p q t l : In (name, n) msk_layers -> shapes t l -> shapes (Rect name p q :: t) ((n, p, q) :: l)
| shapes_unknown name p q t l : (forall n, ~ In (name, n) msk_layers) -> shapes t l -> shapes (Rect name p q :: t) l.

(** The object is the rectangle with the given layer and corners. *)
Definition depicts (s : Z * coord * coord) (o : option geom) : Prop :=
  let '(n, p, q) := s in
  exists g, o = Some g /\ g_type g = GTrectangle /\ g_class g = CRectangle 0 /\ g_layer g = n /\
    g_coords g = outline p q /\ bounding_box (outline p q) (g_min g) (g_max g).

(** All points of a list of objects; the objects on a layer. *)
Definition points (os : list (option geom)) : list coord := concat (map (fun o => match o with Some g => g_coords g | None => [] end) os).
Definition on_layer (n : Z) (o : option geom) : bool := match o with Some g => g_layer g =? n | None => false end.

(** The layers hold the objects os: together they hold them all, each object on the layer with
    its number; only bounding boxes have several layers; every other layer holds its objects in
    their order; every layer is called by its name. *)
Definition layers_hold (ls : list layer) (os : list (option geom)) : Prop :=
  Permutation (concat (map l_geometries ls)) os /\
  (forall ly o, In ly ls -> In o (l_geometries ly) -> exists g, o = Some g /\ g_layer g = l_layer ly) /\
  (forall i j a b, nth_error ls i = Some a -> nth_error ls j = Some b -> l_layer a = l_layer b -> i <> j -> l_layer a = -5) /\
  (forall ly, In ly ls -> l_layer ly <> -5 -> l_geometries ly = filter (on_layer (l_layer ly)) os) /\
  (forall ly, In ly ls -> In (l_name ly, l_layer ly) msk_layers).

(** ** Names *)
(** Characters that have a UTF-8 encoding. *)
Definition encodable (name : list Z) : Prop :=
  Forall (fun c => (0 <= c < 55296 \/ 57344 <= c < 1114112)) name.

(** The name, its characters cut to eight bits, ends in .msk, in any case, after a letter, a digit or an
    underscore. *)
Definition lower_case (c d : byte) : Prop :=
  (65 <= b2z c <= 90 /\ b2z d = b2z c + 32) \/ (~ (65 <= b2z c <= 90) /\ d = c).
Definition msk_name (s : list byte) : Prop :=
  exists pre c ext, s = pre ++ c :: ext /\ word_char c /\ Forall2 lower_case ext (lit ".msk").

(** ** Malformed lines *)
(** [cut_args k t vs]: t is a list of at most k numbers, each followed by a comma, that ends early: before a
    number (or before what follows the last comma), or after a number; vs are the numbers it has. *)
Inductive cut_args : nat -> list byte -> list Z -> Prop :=
| cut_end k ws : Forall white ws -> cut_args k ws []
| cut_number k s z : number s z -> cut_args (S k) s [z]
| cut_more k s z t vs : number s z -> cut_args k t vs -> cut_args (S k) (s ++ lit "," ++ t) (z :: vs).

(** [begun_args k t vs]: t is a list of exactly k numbers, each followed by a comma. *)
Inductive begun_args : nat -> list byte -> Prop :=
| begun_nil : begun_args 0 []
| begun_more k s z t : number s z -> begun_args k t -> begun_args (S k) (s ++ lit "," ++ t).

(** A text that does not begin with a digit. *)
Definition after_number (t : list byte) : Prop := t = [] \/ exists c t', t = c :: t' /\ ~ (48 <= b2z c <= 57).

(** Lines that are fatal, and the kind of undefined behaviour they lead to. *)
Inductive fatal : list byte -> ub -> Prop :=
| fatal_name s ws name rest : begun_args 4 s -> Forall white ws -> word name -> (8 <= length name)%nat -> ends_word rest ->
    fatal (lit "REC(" ++ s ++ ws ++ name ++ rest) BufferOverflow
| fatal_title s1 s2 a b sp ws ws' text rest :
    number s1 a -> number s2 b -> white sp -> Forall white ws -> Forall white ws' -> word text -> (64 <= length text)%nat ->
    ends_word rest -> fatal (lit "TITLE" ++ s1 ++ sp :: s2 ++ ws ++ lit "#" ++ ws' ++ text ++ rest) BufferOverflow
| fatal_rec : fatal (lit "REC") OobIndex
| fatal_cut s vs : cut_args 4 s vs -> fatal (lit "REC(" ++ s) OobIndex
| fatal_range p k s t z rest : (p = lit "REC(" \/ p = lit "BB(") -> (k < 4)%nat -> begun_args k s ->
    numeral t z -> ~ int32 z -> after_number rest -> fatal (p ++ s ++ t ++ rest) Unparsable
| fatal_bb s1 s2 s3 s4 a b c d rest :
    number s1 a -> number s2 b -> number s3 c -> number s4 d -> ~ (int32 (c - a) /\ int32 (d - b)) ->
    fatal (lit "BB(" ++ s1 ++ lit "," ++ s2 ++ lit "," ++ s3 ++ lit "," ++ s4 ++ lit ")" ++ rest) SignedOverflow
| fatal_sum s1 s2 s3 s4 a b w h ws name rest :
    number s1 a -> number s2 b -> number s3 w -> number s4 h -> ~ (int32 (a + w) /\ int32 (b + h)) ->
    Forall white ws -> word name -> name <> [] -> (length name <= 7)%nat -> ends_word rest ->
    fatal (lit "REC(" ++ s1 ++ lit "," ++ s2 ++ lit "," ++ s3 ++ lit "," ++ s4 ++ lit "," ++ ws ++ name ++ rest) SignedOverflow.

(** The text has a fatal line, all lines before which are in order. *)
Definition file_fatal (text : list byte) (u : ub) : Prop :=
  exists ls l l' more cs, file_lines text (ls ++ l :: more) /\
    Forall2 (fun l c => exists l', without_returns l l' /\ says l' c) ls cs /\ without_returns l l' /\ fatal l' u.

(** [short_bb l p q]: the line is BB or a BB( with fewer than four numbers; p and q have the
    numbers that are there, and 0 for the others. *)
Inductive short_bb : list byte -> coord -> coord -> Prop :=
| short_bare : short_bb (lit "BB") (mkcoord 0 0) (mkcoord 0 0)
| short_cut s vs : cut_args 4 s vs ->
    int32 (nth 2 vs 0 - nth 0 vs 0) -> int32 (nth 3 vs 0 - nth 1 vs 0) ->
    short_bb (lit "BB(" ++ s) (mkcoord (nth 0 vs 0) (nth 1 vs 0)) (mkcoord (nth 2 vs 0) (nth 3 vs 0)).
