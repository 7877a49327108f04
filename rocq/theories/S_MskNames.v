(** Specification vocabulary for file names: UTF-8, path components, stems.  Nothing here mentions
    the functions of the model. *)
From Verif Require Import Prelude M_LayoutData S_Msk.
Local Open Scope Z_scope.

(** The UTF-8 encoding of a character (RFC 3629, section 3). *)
Inductive utf8_of : Z -> list byte -> Prop :=
| utf8_1 c : 0 <= c < 128 -> utf8_of c [z2b c]
| utf8_2 a b : 2 <= a < 32 -> 0 <= b < 64 -> utf8_of (64 * a + b) [z2b (192 + a); z2b (128 + b)]
| utf8_3 a b c : 0 <= a < 16 -> 0 <= b < 64 -> 0 <= c < 64 -> 2048 <= 64 * (64 * a + b) + c ->
    utf8_of (64 * (64 * a + b) + c) [z2b (224 + a); z2b (128 + b); z2b (128 + c)]
| utf8_4 a b c d : 0 <= a < 8 -> 0 <= b < 64 -> 0 <= c < 64 -> 0 <= d < 64 ->
    65536 <= 64 * (64 * (64 * a + b) + c) + d < 1114112 ->
    utf8_of (64 * (64 * (64 * a + b) + c) + d) [z2b (240 + a); z2b (128 + b); z2b (128 + c); z2b (128 + d)].

(** ... of a text. *)
Inductive utf8 : list Z -> list byte -> Prop :=
| utf8_nil : utf8 [] []
| utf8_cons c w b t : utf8_of c b -> utf8 w t -> utf8 (c :: w) (b ++ t).

(** c is what follows the last slash of the name (all of it if there is none). *)
Definition last_component (name c : list Z) : Prop :=
  ~ In 47 c /\ (name = c \/ exists d, name = d ++ 47 :: c).

(** b is what precedes the last point of c (all of it if there is none). *)
Definition stem (c b : list Z) : Prop :=
  (~ In 46 c /\ b = c) \/ exists e, c = b ++ 46 :: e /\ ~ In 46 e.

(** A character without UTF-8 encoding. *)
Definition beyond_unicode (c : Z) : Prop := c < 0 \/ 1114112 <= c.
