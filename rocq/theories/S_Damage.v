(** Specification: a library of bitmaps whose files have been damaged, and a program that looks for the best match. *)
From Verif Require Import Prelude P_Prelude M_Double M_Vector2D M_BitMatrix M_Ratio S_Crc32 S_Flips S_Hash M_Hash S_Library.
Local Open Scope nat_scope.

(** What can have happened to the text h of a file: only the first k characters are left; the text does not begin with the BEGIN
    line or does not end with the END line (say, blocks full of zeros, or something was appended); at most four characters in
    a row were changed; one or two bits were flipped anywhere. *)
Inductive damaged (h : list byte) : list byte -> Prop :=
| cut_off k : k < length h -> damaged h (firstn k h)
| bad_begin t : (forall rest, t <> hash_begin ++ rest) -> damaged h t
| bad_end t : (forall rest, t <> rest ++ hash_end) -> damaged h t
| some_characters t : (Z.of_nat (length h) < 2 ^ 32)%Z -> burst 4 h t -> damaged h t
| some_bits k t : 1 <= k <= 2 -> (Z.of_nat (length h) <= 131072)%Z -> flips k h t -> damaged h t.

(** The file f of the disk d: on d' it is intact, gone, or damaged. *)
Definition intact (d d' : disk) (f : list byte) : Prop := d' f = d f.
Definition hit (d d' : disk) (f : list byte) : Prop :=
  d' f = None \/ exists h t, d f = Some h /\ d' f = Some t /\ damaged h t.

(** ReadFile returns false or throws, whatever the object, and leaves the object as it was. *)
Definition refused (al : allocator) (d : disk) (f : list byte) : Prop :=
  forall self, exists r, ReadFile X86 al d self f = (self, r) /\ (r = Ok false \/ exists e, r = Throw e).

(** The program:
      best = nothing;
      for each f of names:
        try { if (object.ReadFile(f)) { s = query.Compare(object); if (best is nothing or s > best's score) best = (f, s); } }
        catch (std::exception&) {}
    It ends with the object and the best match, unless there is undefined behaviour on the way. *)
Fixpoint search (al al2 : allocator) (d : disk) (query object : bm) (names : list (list byte))
  (best : option (list byte * double)) : res (bm * option (list byte * double)) :=
  match names with
  | [] => Ok (object, best)
  | f :: rest =>
      match ReadFile X86 al d object f with
      | (o, Ok true) =>
          match Compare al2 query o with
          | Ok s => search al al2 d query o rest
                      (match best with None => Some (f, s) | Some (_, b) => if dgt s b then Some (f, s) else best end)
          | Throw _ => search al al2 d query o rest best
          | UB u => UB u
          end
      | (o, Ok false) | (o, Throw _) => search al al2 d query o rest best
      | (_, UB u) => UB u
      end
  end.
