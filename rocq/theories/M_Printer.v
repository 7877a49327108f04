(** Model of src/Common/Impl/UnitTests/LayoutPrinter/LayoutPrinter.cpp: the text written to
    standard output and to standard error.  boost::format replaces %n% by the n-th argument
    printed as by operator<< (integers in decimal).  The spacers are assumed to fit in memory. *)
From Verif Require Import Prelude M_LayoutData.
Local Open Scope Z_scope.

(** operator<< of a non-negative integer: its digits (fuel 20: 64-bit values).
    LayoutPrinter.cpp:36-42, :69-74 *)
Fixpoint put_digits (fuel : nat) (n : Z) : list byte :=
  match fuel with
  | O => []
  | S f => if n <? 10 then [z2b (48 + n)] else put_digits f (n / 10) ++ [z2b (48 + n mod 10)]
  end.

(** operator<< of an int16_t or int32_t.  LayoutPrinter.cpp:36-42, :69-74 *)
Definition put_int (z : Z) : list byte :=
  if z <? 0 then lit "-" ++ put_digits 20 (- z) else put_digits 20 z.

(** std::string(n, ' ')  LayoutPrinter.cpp:34-35, :58-59 *)
Definition spaces (n : nat) : list byte := repeat " "%byte n.

(** LayoutPrinter.cpp:25-31, :62-67 *)
Definition nl : list byte := [x0a].

(** LayoutPrinter.cpp:18-43  InGetGeometryDataStr, for a non-null pointer; g_spaceSz is 4 *)
Definition InGetGeometryDataStr (Geom : geom) (Depth : nat) : list byte :=
  let headerSpacer := spaces (4 * Depth) in
  let dataSpacer := spaces (4 * Depth + 2) in
  headerSpacer ++ lit "Geometry {" ++ nl ++
  dataSpacer ++ lit "Layer = " ++ put_int (g_layer Geom) ++ nl ++
  dataSpacer ++ lit "Min = {" ++ put_int (cx (g_min Geom)) ++ lit ", " ++ put_int (cy (g_min Geom)) ++ lit "}" ++ nl ++
  dataSpacer ++ lit "Max = {" ++ put_int (cx (g_max Geom)) ++ lit ", " ++ put_int (cy (g_max Geom)) ++ lit "}" ++ nl ++
  dataSpacer ++ lit "}" ++ nl.

(** LayoutPrinter.cpp:45-75  InPrintRectangle, for a non-null pointer: the text for cout.  The
    static_cast to Rectangle of an object of another class is [TypeConfusion]. *)
Definition InPrintRectangle (Rect : geom) (Depth : nat) : res (list byte) :=
  if negb (gt_eqb GTrectangle (g_type Rect)) then Throw InvalidArgument
  else
    match g_class Rect with
    | CRectangle rectType =>
        let headerSpacer := spaces (4 * Depth) in
        let dataSpacer := spaces (4 * Depth + 2) in
        let headerStr := InGetGeometryDataStr Rect (Depth + 1) in
        let* leftTop := at_ (g_coords Rect) 0 in
        let* rightBot := at_ (g_coords Rect) 2 in
        Ok (headerSpacer ++ lit "Rectangle{" ++ nl ++
            headerStr ++ nl ++
            dataSpacer ++ lit "Type " ++ put_int rectType ++ nl ++
            dataSpacer ++ lit "LeftTop = {" ++ put_int (cx leftTop) ++ lit ", " ++ put_int (cy leftTop) ++ lit "}" ++ nl ++
            dataSpacer ++ lit "RightBot = {" ++ put_int (cx rightBot) ++ lit ", " ++ put_int (cy rightBot) ++ lit "}" ++ nl ++
            headerSpacer ++ lit "}" ++ nl)
    | _ => UB TypeConfusion
    end.

(** LayoutPrinter.cpp:79-98  PrintGeometry: the texts written to cout and cerr *)
Definition PrintGeometry (Geom : option geom) (Depth : nat) : res (list byte * list byte) :=
  let body :=
    match Geom with
    | None => Throw InvalidArgument
    | Some g =>
        match g_type g with
        | GTrectangle => InPrintRectangle g Depth
        | _ => Ok []
        end
    end in
  match body with
  | Ok out => Ok (out, [])
  | Throw _ => Ok ([], lit "Invalid Geometry" ++ nl)
  | UB u => UB u
  end.
