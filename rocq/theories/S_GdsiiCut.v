(** Specification: GDSII files of which only the beginning is there. *)
From Verif Require Import Prelude M_LayoutData S_Gdsii M_Gdsii S_GdsiiFile.
Local Open Scope Z_scope.

(** Where a text ends: after whole records, or inside the first four bytes of a record (None), or inside
    the data of a record of the given type, of which n bytes were announced. *)
Inductive stops : list byte -> option Z -> Prop :=
| stops_between t : (length t < 4)%nat -> stops t None
| stops_inside ty dt n d : 0 <= ty < 128 -> Z.of_nat (length d) < n <= 65531 ->
    stops (word (4 + n) ++ [z2b ty; z2b dt] ++ d) (Some ty)
| stops_later ty dt data t w : 0 <= ty < 128 -> Z.of_nat (length data) <= 65531 -> stops t w ->
    stops (record ty dt data ++ t) w.

(** The records whose numbers are read into variables without a value: the dates of BGNLIB and BGNSTR,
    TEXTTYPE, PRESENTATION, STRANS, PATHTYPE. *)
Definition needed : list Z := [1; 5; 22; 23; 26; 33].
(** The records of four-byte numbers: WIDTH and XY. *)
Definition four_byte : list Z := [15; 16].

(** The library without its structures from number n on. *)
Definition first_structures (n : nat) (b : library) : library :=
  mklibrary (lb_version b) (lb_dates b) (lb_name b) (lb_options b) (lb_user b) (lb_physical b) (firstn n (lb_structures b)).
(** The number of structures that are there completely in the first k bytes. *)
Definition whole_structures (b : library) (k n : nat) : Prop :=
  (n <= length (lb_structures b))%nat /\ (length (open_library (first_structures n b)) <= k)%nat /\
  (n = length (lb_structures b) \/ (k < length (open_library (first_structures (S n) b)))%nat).

(** What the layout holds after the first k bytes of the library b, and the result of Read. *)
Definition left_over (b : library) (k : nat) (libs : list glib) (ok : bool) : Prop :=
  ((k < 10)%nat /\ libs = [] /\ ok = true) \/
  ((34 <= k < length (library_head b))%nat /\ ok = true /\
     exists g, libs = [g] /\ b_name g = firstn (k - 38) (lb_name b) /\ b_elements g = [] /\ b_layers g = []) \/
  ((length (library_head b) <= k)%nat /\
     exists n g, whole_structures b k n /\ libs = [g] /\ (ok = true <-> resolvable (firstn n (lb_structures b))) /\
       (ok = true -> shows_library 0 (first_structures n b) g)).
