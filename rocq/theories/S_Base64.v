(** Specification of Base64 from RFC 4648, at the level of bits.  No definition of the model
    of Base64.cpp is used. *)
From Verif Require Import Prelude.
Local Open Scope Z_scope.

(** Bit [p] of a byte string, counting from the most significant bit of the first byte;
    false past the end. *)
Definition sbit (s : list byte) (p : nat) : bool :=
  match nth_error s (p / 8) with
  | Some b => Z.testbit (b2z b) (Z.of_nat (7 - p mod 8))
  | None => false
  end.

(** Value of a list of bits, most significant first. *)
Fixpoint bits_value (acc : Z) (l : list bool) : Z :=
  match l with
  | [] => acc
  | b :: t => bits_value (2 * acc + (if b then 1 else 0)) t
  end.

(** RFC 4648 tables 1 and 2: the 64 letters. *)
Definition alphabet (is_url : bool) : list byte :=
  lit "ABCDEFGHIJKLMNOPQRSTUVWXYZabcdefghijklmnopqrstuvwxyz0123456789"
  ++ (if is_url then lit "-_" else lit "+/").

Definition letter (is_url : bool) (v : Z) : byte := nth (Z.to_nat v) (alphabet is_url) x00.

(** The k-th group of six bits. *)
Definition sextet (s : list byte) (k : nat) : Z :=
  bits_value 0 (map (fun t => sbit s (6 * k + t)) (seq 0 6)).

(** RFC 4648 section 4: groups of six bits (the last one completed with zero bits) mapped to
    the alphabet, then padding up to a multiple of four characters. *)
Definition rfc_encode (is_url : bool) (pad : byte) (s : list byte) : list byte :=
  let k := ((8 * length s + 5) / 6)%nat in
  map (fun q => letter is_url (sextet s q)) (seq 0 k)
  ++ repeat pad ((4 - k mod 4) mod 4)%nat.

Definition std_text (s : list byte) : list byte := rfc_encode false "="%byte s.

(** The number a symbol stands for, in either alphabet. *)
Definition symbol (c : byte) : option Z :=
  let find al :=
    (fix go (l : list byte) (k : Z) : option Z :=
       match l with [] => None | x :: t => if beqb x c then Some k else go t (k + 1) end) al 0 in
  match find (alphabet false) with Some v => Some v | None => find (alphabet true) end.

Definition padding (c : byte) : Prop := c = "="%byte \/ c = "."%byte.

(** The low [n] bits of [v], most significant first. *)
Definition bits_of (n : nat) (v : Z) : list bool :=
  map (fun t => Z.testbit v (Z.of_nat (n - 1 - t))) (seq 0 n).

(** Whole bytes of a bit string, the rest (< 8 bits) is cut. *)
Fixpoint whole_bytes (fuel : nat) (l : list bool) : list byte :=
  match fuel with
  | O => []
  | S f => if (8 <=? length l)%nat
           then z2b (bits_value 0 (firstn 8 l)) :: whole_bytes f (skipn 8 l)
           else []
  end.

Definition bytes_of_bits (l : list bool) : list byte := whole_bytes (length l) l.

(** How the decoder reads a text, quartet by quartet: the sextets it collects, or the
    failure.  [decodes t (Ok vs)]: the sextet values used, in order. *)
Inductive reads : list byte -> res (list Z) -> Prop :=
| r_end : reads [] (Ok [])
| r_full c0 c1 c2 c3 v0 v1 v2 v3 t r :
    symbol c0 = Some v0 -> symbol c1 = Some v1 -> symbol c2 = Some v2 -> symbol c3 = Some v3 ->
    reads t (Ok r) -> reads (c0 :: c1 :: c2 :: c3 :: t) (Ok (v0 :: v1 :: v2 :: v3 :: r))
| r_full_throw c0 c1 c2 c3 v0 v1 v2 v3 t e :
    symbol c0 = Some v0 -> symbol c1 = Some v1 -> symbol c2 = Some v2 -> symbol c3 = Some v3 ->
    reads t (Throw e) -> reads (c0 :: c1 :: c2 :: c3 :: t) (Throw e)
| r_full_ub c0 c1 c2 c3 v0 v1 v2 v3 t u :
    symbol c0 = Some v0 -> symbol c1 = Some v1 -> symbol c2 = Some v2 -> symbol c3 = Some v3 ->
    reads t (UB u) -> reads (c0 :: c1 :: c2 :: c3 :: t) (UB u)
| r_pad2 c0 c1 c2 v0 v1 t :            (* padding in third place: the rest is ignored *)
    symbol c0 = Some v0 -> symbol c1 = Some v1 -> padding c2 ->
    reads (c0 :: c1 :: c2 :: t) (Ok [v0; v1])
| r_pad1 c0 c1 c2 c3 v0 v1 v2 t :      (* padding in fourth place *)
    symbol c0 = Some v0 -> symbol c1 = Some v1 -> symbol c2 = Some v2 -> padding c3 ->
    reads (c0 :: c1 :: c2 :: c3 :: t) (Ok [v0; v1; v2])
| r_bad0 c0 t : symbol c0 = None -> reads (c0 :: t) (Throw RuntimeError)
| r_bad1 c0 c1 v0 t : symbol c0 = Some v0 -> symbol c1 = None ->
    reads (c0 :: c1 :: t) (Throw RuntimeError)
| r_bad2 c0 c1 c2 v0 v1 t : symbol c0 = Some v0 -> symbol c1 = Some v1 ->
    symbol c2 = None -> ~ padding c2 -> reads (c0 :: c1 :: c2 :: t) (Throw RuntimeError)
| r_bad3 c0 c1 c2 c3 v0 v1 v2 t : symbol c0 = Some v0 -> symbol c1 = Some v1 ->
    symbol c2 = Some v2 -> symbol c3 = None -> ~ padding c3 ->
    reads (c0 :: c1 :: c2 :: c3 :: t) (Throw RuntimeError)
| r_cut1 c0 v0 : symbol c0 = Some v0 -> reads [c0] (UB OobIndex)
| r_cut2 c0 c1 v0 v1 : symbol c0 = Some v0 -> symbol c1 = Some v1 ->
    reads [c0; c1] (UB OobIndex)
| r_cut3 c0 c1 c2 v0 v1 v2 : symbol c0 = Some v0 -> symbol c1 = Some v1 ->
    symbol c2 = Some v2 -> reads [c0; c1; c2] (UB OobIndex).

(** The text a list of sextets stands for. *)
Definition sextets_text (vs : list Z) : list byte :=
  bytes_of_bits (flat_map (bits_of 6) vs).

Definition CRLF : list byte := [x0d; x0a].

(** [text] is [body] cut into lines of exactly [n] characters joined by CR LF; the last line
    is not empty and at most [n] characters long; no trailing separator. *)
Definition in_lines (n : nat) (body text : list byte) : Prop :=
  exists ls last, text = flat_map (fun l => l ++ CRLF) ls ++ last /\
    body = concat ls ++ last /\ Forall (fun l => length l = n) ls /\
    (0 < length last <= n)%nat.

(** Without line-break characters. *)
Definition no_breaks (t : list byte) : list byte :=
  filter (fun c => negb (beqb c x0d || beqb c x0a)) t.
