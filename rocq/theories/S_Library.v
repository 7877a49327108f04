(** Specification: a library of reference bitmaps, kept in one file each. *)
From Verif Require Import Prelude P_Prelude M_Vector2D M_BitMatrix S_Matrix M_Hash S_Hash S_Generator.
Local Open Scope nat_scope.

(** A program calls FlushFile for one (name, bitmap) after another, on the disk d, and every call
    returns true.  The list of disks: every state the disk goes through, in order. *)
Inductive stores (al : allocator) (can_write : list byte -> bool) (accepted : nat) :
  disk -> list (list byte * bm) -> list disk -> Prop :=
| stores_nothing d : stores al can_write accepted d [] []
| stores_first d f m states rest more : FlushFile al can_write accepted d m f = (states, Ok true) ->
    stores al can_write accepted (last states d) rest more ->
    stores al can_write accepted d ((f, m) :: rest) (states ++ more).

(** A bitmap FlushFile can write and ReadFile can read again: it has cells, there is memory for
    it, its sizes survive the size field of the hash, and the disk has room for the hash. *)
Definition storable (al : allocator) (accepted : nat) (m : bm) : Prop :=
  exists A h, shows m A /\ nonempty A /\ memory_ok al (arows A) (acols A) /\
    (Z.of_nat (arows A) < 2 ^ 32)%Z /\ (Z.of_nat (acols A) < 2 ^ 32)%Z /\
    size_survives (Z.of_nat (arows A)) (Z.of_nat (acols A)) /\
    EncodeHash al m = Ok h /\ length h <= accepted.

(** A file a program can store m in. *)
Definition entry (al : allocator) (can_write : list byte -> bool) (accepted : nat) (e : list byte * bm) : Prop :=
  fst e <> [] /\ can_write (fst e) = true /\ storable al accepted (snd e).

(** m is the last bitmap that was stored as f. *)
Definition latest (l : list (list byte * bm)) (f : list byte) (m : bm) : Prop :=
  exists before after, l = before ++ (f, m) :: after /\ ~ In f (map fst after).

(** ReadFile gives, in any object, a bitmap with the cells of m. *)
Definition reads_as (al : allocator) (d : disk) (f : list byte) (m : bm) : Prop :=
  forall self, exists n, ReadFile X86 al d self f = (n, Ok true) /\ same_matrix m n.

(** ReadFile throws and leaves the object as it was. *)
Definition rejected (al : allocator) (d : disk) (f : list byte) : Prop :=
  forall self, ReadFile X86 al d self f = (self, Throw InvalidArgument).
