(** Specification of the text that shows a rectangle. *)
From Verif Require Import Prelude M_LayoutData S_Msk.
Local Open Scope Z_scope.

(** The usual decimal form of an integer: no leading zeros, a minus sign for negative ones. *)
Definition plain (t : list byte) (z : Z) : Prop :=
  exists ds, digits ds (Z.abs z) /\ (hd_error ds = Some "0"%byte -> z = 0 /\ ds = ["0"%byte]) /\
    t = (if z <? 0 then lit "-" ++ ds else ds).

Definition plain_pair (t : list byte) (c : coord) : Prop :=
  exists a b, plain a (cx c) /\ plain b (cy c) /\ t = lit "{" ++ a ++ lit ", " ++ b ++ lit "}".

(** A line: spaces, text, line feed. *)
Definition line (indent : nat) (text : list byte) : list byte := repeat " "%byte indent ++ text ++ [x0a].

(** The text of a rectangle at a depth. *)
Definition rectangle_text (depth : nat) (layer type : Z) (mn mx lt rb : coord) (t : list byte) : Prop :=
  exists ly ty tmn tmx tlt trb, plain ly layer /\ plain ty type /\ plain_pair tmn mn /\ plain_pair tmx mx /\ plain_pair tlt lt /\ plain_pair trb rb /\
    t = line (4 * depth) (lit "Rectangle{") ++
          line (4 * depth + 4) (lit "Geometry {") ++
            line (4 * depth + 6) (lit "Layer = " ++ ly) ++
            line (4 * depth + 6) (lit "Min = " ++ tmn) ++
            line (4 * depth + 6) (lit "Max = " ++ tmx) ++
            line (4 * depth + 6) (lit "}") ++
          line 0 [] ++
          line (4 * depth + 2) (lit "Type " ++ ty) ++
          line (4 * depth + 2) (lit "LeftTop = " ++ tlt) ++
          line (4 * depth + 2) (lit "RightBot = " ++ trb) ++
        line (4 * depth) (lit "}").

(** A rectangle object with these values. *)
Definition rectangle_object (g : geom) (layer type : Z) (mn mx lt rb : coord) : Prop :=
  g_type g = GTrectangle /\ g_class g = CRectangle type /\ g_layer g = layer /\ g_min g = mn /\ g_max g = mx /\
  nth_error (g_coords g) 0 = Some lt /\ nth_error (g_coords g) 2 = Some rb /\
  int32 layer /\ int32 type /\ coord32 mn /\ coord32 mx /\ coord32 lt /\ coord32 rb.
