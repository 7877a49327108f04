(** C30-C33: run-length encoding; C14 (LayoutMatrix copies and moves).
    Specification: S_Rle ([expand] reads the run-length format, [filled] is the row-major array)
    and S_Matrix ([shows m A]: the object shows exactly the array A to its callers). *)
From Verif Require Import Prelude P_Prelude M_ByteHandler M_Vector2D M_BitMatrix S_Matrix
  P_BitMatrix P_Cells P_Serial M_LayoutCore M_Rle S_Rle P_Rle.
Local Ltac Zify.zify_post_hook ::= Z.to_euclidean_division_equations.

(** ** C14 for LayoutMatrix *)
Theorem C14_layout_copies : forall al m A self, shows m A -> memory_ok al (arows A) (acols A) ->
  shows (LM_of_BM_copy al m) A /\ shows (fst (LM_move m)) A /\ shows (snd (LM_move m)) A /\
  shows (LM_assign self m) A /\ shows (fst (LM_move_assign self m)) A /\
  (forall left, shows (fst (LM_move_assign_BM left self m)) A).
Proof.
  intros al m A self S M.
  unfold LM_of_BM_copy, LM_move, LM_assign, LM_move_assign, LM_move_assign_BM, V_move, V_copy.
  rewrite (BM_copy_same al m A S M). cbn [fst snd].
  assert (mkbm (Bitmap m) (Isize m) (Jsize m) = m) as -> by now destruct m.
  auto 10.
Qed.

(** The constructor from a BitMatrix rvalue forgets the number of columns, so no cell of the
    new object can be read, and it is not a healthy object unless the source was empty. *)
Theorem C14_layout_from_rvalue_loses_columns : forall m A, shows m A ->
  GetRowCount (fst (LM_of_BM_move m)) = arows A /\ GetColumnCount (fst (LM_of_BM_move m)) = 0 /\
  (forall i j, Get (fst (LM_of_BM_move m)) i j = Throw RuntimeError) /\
  (nonempty A -> ~ healthy (fst (LM_of_BM_move m))).
Proof.
  intros m A ((L & F) & Hr & Hc & G).
  unfold LM_of_BM_move, GetRowCount, GetColumnCount in *. cbn [fst Isize Jsize Bitmap].
  split; [exact Hr|]. split; [reflexivity|]. split.
  - intros i j. apply Get_throw. right. cbn [Jsize]. lia.
  - intros (N1 & N2) (_ & F'). cbn [Bitmap Jsize] in F'.
    destruct (Bitmap m) as [|row rest] eqn:E; [cbn [length] in L; lia|].
    inversion F as [|x y P _]. inversion F' as [|x' y' P' _]. subst.
    rewrite P' in P. unfold cdiv8 in P. rewrite Hc in P.
    assert (Q : (0 + 7) / 8 = 0) by reflexivity. rewrite Q in P.
    symmetry in P. apply Nat.div_small_iff in P; lia.
Qed.

(** After an assignment from a LayoutMatrix rvalue the source keeps its sizes but has lost its
    rows: it is broken unless it had no rows. *)
Theorem C14_layout_moved_from_broken : forall self m A, shows m A -> 0 < arows A ->
  GetRowCount (snd (LM_move_assign self m)) = arows A /\ GetColumnCount (snd (LM_move_assign self m)) = acols A /\
  ~ healthy (snd (LM_move_assign self m)).
Proof.
  intros self m A (H & Hr & Hc & G) N. unfold LM_move_assign, V_move, GetRowCount, GetColumnCount in *. cbn [snd Isize Jsize].
  split; [exact Hr|]. split; [exact Hc|]. intros (L & _). cbn [Bitmap Isize length] in L. lia.
Qed.

(** Assigning a LayoutMatrix to itself through an rvalue reference empties it: unlike the assignments from an lvalue,
    these two do not test for that. *)
Theorem C14_layout_self_move_empties : forall m,
  shows (LM_self_move_assign m) (azero 0 0) /\ GetRowCount (LM_self_move_assign m) = 0 /\ GetColumnCount (LM_self_move_assign m) = 0.
Proof.
  intros m. unfold LM_self_move_assign, BM_Reset. cbn [Bitmap Isize Jsize V_move fst].
  assert (V_Reset (Bitmap m) = []) as -> by (destruct (Bitmap m); reflexivity).
  split; [|split; reflexivity]. exact (shows_new 0 0).
Qed.

(** ** C30 *)
Theorem C30_faithful_and_bounded : forall al m A, shows m A -> nonempty A ->
  memory_ok al (arows A) (acols A) ->
  exists s, Rle_Encode al m = Ok s /\ expand s = abits A /\
    (arows A * acols A + 126) / 127 <= length s <= arows A * acols A.
Proof.
  intros al m A S N M. destruct (Rle_Encode_ok al m A S N M) as (s & E & X & L & B).
  exists s. split; [exact E|]. split; [exact X|]. split; [|lia].
  apply Nat.lt_succ_r. apply Nat.div_lt_upper_bound; lia.
Qed.

Theorem C30_empty : forall al m A, shows m A -> ~ nonempty A -> memory_ok al (arows A) (acols A) ->
  Rle_Encode al m = Ok [].
Proof.
  intros al m A S N M. unfold Rle_Encode. rewrite (LM_not_ok al m A S M).
  unfold nonempty in N. destruct (arows A =? 0) eqn:E1; [reflexivity|].
  destruct (acols A =? 0) eqn:E2; [reflexivity|].
  apply Nat.eqb_neq in E1, E2. lia.
Qed.

(** The bounds are attained: all cells equal, and alternating cells. *)
Example C30_example : exists m0 m1 m2 m3 s t, 
  Ones (BM_ctor infinite_memory 30 30) = Ok m0 /\ Rle_Encode infinite_memory m0 = Ok s /\ length s = 8 /\
  s = repeat xff 7 ++ [x8b] /\
  Set_ (BM_ctor infinite_memory 1 5) 0 0 true = Ok m1 /\ Set_ m1 0 2 true = Ok m2 /\ Set_ m2 0 4 true = Ok m3 /\
  Rle_Encode infinite_memory m3 = Ok t /\ t = [x81; x01; x81; x01; x81].
Proof. run_example. Qed.

(** ** C31 *)
Theorem C31_total : forall al s r c, s <> [] -> memory_ok al r c ->
  exists m, Rle_DecodeMatrix al s r c = Ok m /\ shows m (filled r c (expand s)).
Proof. exact DecodeMatrix_ok. Qed.

Theorem C31_no_memory : forall al s r c, s <> [] -> out_of_memory al r c ->
  Rle_DecodeMatrix al s r c = Ok bm_empty.
Proof. exact DecodeMatrix_oom. Qed.

Theorem C31_empty_text : forall al r c, Rle_DecodeMatrix al [] r c = Ok bm_empty.
Proof. reflexivity. Qed.

(** Whatever follows the r*c-th bit is ignored. *)
Theorem C31_surplus_ignored : forall al s t r c, s <> [] -> r * c <= length (expand s) -> memory_ok al r c ->
  exists m m', Rle_DecodeMatrix al s r c = Ok m /\ Rle_DecodeMatrix al (s ++ t) r c = Ok m' /\
    forall A, shows m A <-> shows m' A.
Proof.
  intros al s t r c N L M.
  destruct (DecodeMatrix_ok al s r c N M) as (m & E & S).
  destruct (DecodeMatrix_ok al (s ++ t) r c ltac:(now destruct s) M) as (m' & E' & S').
  exists m, m'. split; [exact E|]. split; [exact E'|].
  rewrite expand_app in S'.
  assert (Q : asame (filled r c (expand s)) (filled r c (expand s ++ expand t))).
  { split; [reflexivity|]. split; [reflexivity|]. cbn [filled arows acols acell].
    intros i j Hi Hj. rewrite app_nth1; [reflexivity|]. nia. }
  assert (W : forall B1 B2 (x y : bm), shows x B1 -> shows y B2 -> asame B1 B2 ->
     forall A, shows x A -> shows y A).
  { intros B1 B2 x y Sx Sy (Q1 & Q2 & Q3) A Sa.
    destruct Sx as (_ & X1 & X2 & X3). pose proof Sa as (_ & A1 & A2 & A3).
    eapply shows_asame; [exact Sy|]. split; [congruence|]. split; [congruence|].
    intros i j Hi Hj. rewrite <- Q3 by congruence.
    pose proof (X3 i j ltac:(congruence) ltac:(congruence)) as T1.
    pose proof (A3 i j ltac:(congruence) ltac:(congruence)) as T2. congruence. }
  intros A. split; [apply (W _ _ m m' S S' Q)|].
  apply (W _ _ m' m S' S). destruct Q as (Q1 & Q2 & Q3). split; [easy|]. split; [easy|].
  intros i j Hi Hj. symmetry. now apply Q3.
Qed.

Example C31_example : exists m, Rle_DecodeMatrix infinite_memory [x83; x00; x02; xff] 2 3 = Ok m /\
  map (fun p => Get m (fst p) (snd p)) [(0, 0); (0, 1); (0, 2); (1, 0); (1, 1); (1, 2)]
  = [Ok true; Ok true; Ok true; Ok false; Ok false; Ok true].
Proof. run_example. Qed.

(** ** C32 *)
Theorem C32_round_trip : forall al m A, shows m A -> nonempty A -> memory_ok al (arows A) (acols A) ->
  exists s m', Rle_Encode al m = Ok s /\
    Rle_DecodeMatrix al s (GetRowCount m) (GetColumnCount m) = Ok m' /\ shows m' A.
Proof.
  intros al m A S N M. destruct (Rle_Encode_ok al m A S N M) as (s & E & X & L & _).
  pose proof S as (_ & Hr & Hc & _). rewrite Hr, Hc.
  destruct (DecodeMatrix_ok al s (arows A) (acols A)) as (m' & E' & S').
  - intros ->. cbn in L. lia.
  - exact M.
  - exists s, m'. split; [exact E|]. split; [exact E'|]. rewrite X in S'.
    eapply shows_asame; [exact S'|]. apply filled_abits.
Qed.

Example C32_example : exists m s m', Set_ (BM_ctor infinite_memory 3 11) 1 9 true = Ok m /\
  Rle_Encode infinite_memory m = Ok s /\ s = [x14; x81; x0c] /\
  Rle_DecodeMatrix infinite_memory s 3 11 = Ok m' /\ Get m' 1 9 = Ok true /\ Get m' 1 8 = Ok false.
Proof. run_example. Qed.

(** ** C33 *)
Theorem C33_byte_encode_faithful : forall s, s <> [] ->
  exists e, Rle_ByteEncode s = Ok e /\ expand e = string_bits s /\ 0 < length e <= 8 * length s.
Proof. exact ByteEncode_ok. Qed.

Theorem C33_byte_encode_empty : Rle_ByteEncode [] = UB OobIndex.
Proof. reflexivity. Qed.

Theorem C33_byte_decode_is_a_stub : forall s, Rle_ByteDecode s = Ok [].
Proof. exact ByteDecode_empty. Qed.

(** The natural round trip fails for every non-empty string. *)
Theorem C33_byte_round_trip_refuted : forall s e, s <> [] -> Rle_ByteEncode s = Ok e ->
  Rle_ByteDecode e <> Ok s.
Proof. intros s e N _. rewrite ByteDecode_empty. congruence. Qed.

Theorem C33_string_functions_are_stubs : forall s, Rle_EncodeStr s = [] /\ Rle_DecodeStr s = [].
Proof. intros s. split; reflexivity. Qed.

Example C33_example : Rle_ByteEncode [xf0; x0f] = Ok [x84; x08; x84].
Proof. run_example. Qed.

Print Assumptions C14_layout_copies.
Print Assumptions C14_layout_from_rvalue_loses_columns.
Print Assumptions C14_layout_moved_from_broken.
Print Assumptions C14_layout_self_move_empties.
Print Assumptions C30_faithful_and_bounded.
Print Assumptions C30_empty.
Print Assumptions C31_total.
Print Assumptions C31_no_memory.
Print Assumptions C31_empty_text.
Print Assumptions C31_surplus_ignored.
Print Assumptions C32_round_trip.
Print Assumptions C33_byte_encode_faithful.
Print Assumptions C33_byte_encode_empty.
Print Assumptions C33_byte_decode_is_a_stub.
Print Assumptions C33_byte_round_trip_refuted.
Print Assumptions C33_string_functions_are_stubs.
