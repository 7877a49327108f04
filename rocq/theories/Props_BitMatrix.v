(** C04-C10, C14-C19: BitMatrix and Vector2D.  [shows m A] (S_Matrix.v): the object m is in
    its class invariant, reports A's sizes and returns A's cells from Get. *)
From Verif Require Import Prelude P_Prelude M_ByteHandler M_Vector2D M_BitMatrix S_Matrix
  P_BitMatrix P_Cells P_Serial S_History P_History P_Vector2D.

(** ** C04 *)
Theorem C04_constructor_zero : forall al r c, memory_ok al r c ->
  shows (BM_ctor al r c) (azero r c).
Proof.
  intros al r c H. apply memory_ok_alloc in H.
  destruct (BM_ctor_cases al r c) as [(E & _)|(_ & F)]; [|contradiction].
  rewrite E. apply shows_new.
Qed.

Theorem C04_constructor_no_memory : forall al r c, out_of_memory al r c ->
  BM_ctor al r c = bm_empty.
Proof.
  intros al r c H. apply oom_alloc in H.
  destruct (BM_ctor_cases al r c) as [(_ & F)|(E & _)]; [contradiction|exact E].
Qed.

Theorem C04_resize_zero : forall al m r c, 0 < r -> 0 < c -> memory_ok al r c ->
  exists m', Resize al m r c = (m', Ok tt) /\ shows m' (azero r c).
Proof. intros. apply Resize_ok; try assumption. apply memory_ok_alloc. assumption. Qed.

Theorem C04_resize_bad_arguments : forall al m r c, r = 0 \/ c = 0 ->
  Resize al m r c = (m, Throw RuntimeError).
Proof. exact Resize_zero. Qed.

(** A Resize that runs out of memory throws but leaves the new sizes behind with missing
    rows: an in-range Get is then undefined behaviour. *)
Theorem C04_resize_no_memory_breaks_object : forall al m r c, 0 < r -> 0 < c ->
  al r (cdiv8 c) = AllocFailOuter ->
  exists m', Resize al m r c = (m', Throw BadAlloc) /\
    GetRowCount m' = r /\ GetColumnCount m' = c /\ Get m' 0 0 = UB OobIndex.
Proof.
  intros al m r c Hr Hc H. unfold Resize.
  assert ((r =? 0) || (c =? 0) = false) as -> by lia.
  rewrite colBytes_cdiv8. unfold V_Resize. rewrite H. eexists. split; [reflexivity|].
  repeat split. unfold Get. cbn [Isize Jsize].
  assert ((r <=? 0) || (c <=? 0) = false) as -> by lia. reflexivity.
Qed.

Example C04_example : shows (BM_ctor infinite_memory 3 10) (azero 3 10) /\
  Get (BM_ctor infinite_memory 3 10) 2 9 = Ok false /\
  Get (BM_ctor infinite_memory 3 10) 2 10 = Throw RuntimeError.
Proof. split; [apply C04_constructor_zero; reflexivity|split; reflexivity]. Qed.

(** ** C05 *)
Theorem C05_set : forall m A i j v, shows m A -> i < arows A -> j < acols A ->
  exists m', Set_ m i j v = Ok m' /\ shows m' (aset A i j v).
Proof. exact shows_Set. Qed.

Theorem C05_set_get : forall m A i j v, shows m A -> i < arows A -> j < acols A ->
  exists m', Set_ m i j v = Ok m' /\ Get m' i j = Ok v /\
    GetRowCount m' = GetRowCount m /\ GetColumnCount m' = GetColumnCount m /\
    forall i' j', (i', j') <> (i, j) -> Get m' i' j' = Get m i' j'.
Proof.
  intros m A i j v H Hi Hj. destruct (shows_Set m A i j v H Hi Hj) as (m' & E & S).
  exists m'. split; [exact E|]. destruct S as (_ & S1 & S2 & G). cbn in S1, S2, G.
  destruct H as (_ & H1 & H2 & G0).
  split; [rewrite G by assumption; rewrite !Nat.eqb_refl; reflexivity|].
  split; [congruence|]. split; [congruence|].
  intros i' j' Hne.
  destruct (le_lt_dec (arows A) i') as [L|L]; [rewrite !Get_throw; auto; left; unfold GetRowCount in *; lia|].
  destruct (le_lt_dec (acols A) j') as [L2|L2]; [rewrite !Get_throw; auto; right; unfold GetColumnCount in *; lia|].
  rewrite G, G0 by assumption. destruct ((i' =? i) && (j' =? j)) eqn:Eb; [|reflexivity].
  exfalso. apply Hne. f_equal; lia.
Qed.

Theorem C05_out_of_range : forall m i j v, GetRowCount m <= i \/ GetColumnCount m <= j ->
  Get m i j = Throw RuntimeError /\ Set_ m i j v = Throw RuntimeError.
Proof. intros. split; [apply Get_throw | apply Set_throw]; assumption. Qed.

Example C05_example : exists m', Set_ (BM_ctor infinite_memory 3 10) 1 9 true = Ok m' /\
  Get m' 1 9 = Ok true /\ Get m' 1 8 = Ok false /\ Get m' 2 9 = Ok false.
Proof. run_example. Qed.

(** ** C06 *)
Theorem C06_histories_refine : forall ops, Forall size_ok ops ->
  match arun [] ops with
  | Some (objects, outputs) =>
      exists st, crun [] ops = Ok (st, outputs) /\ Forall2 shows st objects
  | None => exists u, crun [] ops = UB u
  end.
Proof. exact run_shows. Qed.

Example C06_example :
  let ops := [New 3 10; OSetRange 0 0 2 1 9 true; Copy 0; OSet 1 0 2 false; XorAssign 0 0 1;
              OGet 0 0 2; OGet 0 0 3; OGet 0 3 0; OSetByte 1 2 1 xff; OGet 1 2 9; OOnes 0; OGet 0 2 9] in
  exists objs, arun [] ops = Some (objs,
    [Done; Done; Done; Done; Done; Bool true; Bool false; Exn RuntimeError; Done; Bool true; Done; Bool true])
  /\ Forall size_ok ops.
Proof.
  eexists. split; [reflexivity|].
  repeat constructor; vm_compute; reflexivity.
Qed.

(** ** C07 *)
Theorem C07_range_filled : forall m A i0 j0 i1 j1 v, shows m A ->
  i0 <= i1 -> i1 < arows A -> j0 <= j1 -> j1 < acols A ->
  exists m', SetRange m (Z.of_nat i0) (Z.of_nat j0) (Z.of_nat i1) (Z.of_nat j1) v = Ok m' /\
             shows m' (aset_range A i0 j0 i1 j1 v).
Proof. exact shows_SetRange. Qed.

Theorem C07_rejected : forall m i0 j0 i1 j1 v,
  (i1 < i0 \/ Z.of_nat (GetRowCount m) < i1 \/ j1 < j0 \/ Z.of_nat (GetColumnCount m) < j1)%Z ->
  SetRange m i0 j0 i1 j1 v = Throw RuntimeError.
Proof. exact SetRange_throw. Qed.

Theorem C07_last_row_check_off_by_one : forall m A i0 j0 j1 v, shows m A ->
  i0 <= arows A -> j0 <= j1 -> j1 <= acols A ->
  SetRange m (Z.of_nat i0) (Z.of_nat j0) (Z.of_nat (arows A)) (Z.of_nat j1) v = UB OobIndex.
Proof.
  intros m A i0 j0 j1 v H Hi Hj Hj1. apply shows_elim in H as (H & Hr & Hc & _).
  rewrite <- Hr in *. apply SetRange_row_ub; try assumption; lia.
Qed.

Theorem C07_last_column_multiple_of_8 : forall m A i0 j0 i1 v, shows m A ->
  i0 <= i1 -> i1 < arows A -> j0 <= acols A -> acols A mod 8 = 0 ->
  SetRange m (Z.of_nat i0) (Z.of_nat j0) (Z.of_nat i1) (Z.of_nat (acols A)) v = UB OobIndex.
Proof.
  intros m A i0 j0 i1 v H Hi Hi1 Hj H8. apply shows_elim in H as (H & Hr & Hc & _).
  rewrite <- Hc in *. apply SetRange_col_ub; try assumption; lia.
Qed.

Theorem C07_last_column_otherwise : forall m A i0 j0 i1 v, shows m A ->
  i0 <= i1 -> i1 < arows A -> j0 <= acols A -> acols A mod 8 <> 0 ->
  exists m', SetRange m (Z.of_nat i0) (Z.of_nat j0) (Z.of_nat i1) (Z.of_nat (acols A)) v = Ok m' /\
             shows m' (aset_range A i0 j0 i1 (acols A - 1) v).
Proof. exact shows_SetRange_pad. Qed.

(** "SetRange is safe on every argument it accepts" is false. *)
Theorem C07_range_check_is_sound_refuted :
  exists m, shows m (azero 2 8) /\ SetRange m 0 0 2 7 true = UB OobIndex
            /\ SetRange m 0 0 1 8 true = UB OobIndex.
Proof.
  exists (BM_ctor infinite_memory 2 8).
  split; [apply C04_constructor_zero; reflexivity|]. split; reflexivity.
Qed.

Example C07_example : exists m', SetRange (BM_ctor infinite_memory 3 10) 1 7 2 9 true = Ok m' /\
  Get m' 1 6 = Ok false /\ Get m' 1 7 = Ok true /\ Get m' 2 9 = Ok true /\ Get m' 0 9 = Ok false.
Proof. run_example. Qed.

(** ** C08 *)
Theorem C08_byte_written : forall m A i jb x, shows m A -> i < arows A -> jb < cdiv8 (acols A) ->
  exists m', SetByte m i jb x = Ok m' /\ shows m' (aset_byte A i jb x).
Proof. exact shows_SetByte. Qed.

Theorem C08_rejected : forall m A i jb x, shows m A -> arows A <= i \/ cdiv8 (acols A) < jb ->
  SetByte m i jb x = Throw InvalidArgument.
Proof.
  intros m A i jb x H Ho. apply shows_elim in H as (H & Hr & Hc & _).
  apply SetByte_throw; [exact H|]. rewrite Hr, Hc. exact Ho.
Qed.

Theorem C08_column_check_off_by_one : forall m A i x, shows m A -> i < arows A ->
  SetByte m i (cdiv8 (acols A)) x = UB OobIndex.
Proof.
  intros m A i x H Hi. apply shows_elim in H as (H & Hr & <- & _). apply SetByte_ub; [exact H|lia].
Qed.

(** UnsafeSetByte (for derived classes) fills the eight columns with one value; nothing is checked. *)
Theorem C08_unsafe_set_byte : forall m A i jb v, shows m A ->
  (i < arows A -> jb < cdiv8 (acols A) ->
   exists m', UnsafeSetByte m i jb v = Ok m' /\
     shows m' (mkamat (arows A) (acols A) (fun i' j' => if (i' =? i) && (j' / 8 =? jb) then v else acell A i' j'))) /\
  (arows A <= i \/ cdiv8 (acols A) <= jb -> UnsafeSetByte m i jb v = UB OobIndex).
Proof.
  intros m A i jb v H. pose proof H as H'. apply shows_elim in H' as (Hh & Hr & Hc & _). split.
  - intros Hi Hj. destruct (shows_SetByte m A i jb (if v then xff else x00) H Hi Hj) as (m' & E & S). exists m'. split.
    + rewrite <- E. symmetry. apply SetByte_put; [assumption|rewrite Hr; exact Hi|rewrite Hc; lia].
    + eapply shows_same; [exact S|reflexivity|reflexivity|]. cbn [arows acols acell aset_byte]. intros a b Ha Hb.
      destruct ((a =? i) && (b / 8 =? jb)); [|reflexivity]. pose proof (Nat.mod_upper_bound b 8 ltac:(lia)) as U.
      destruct v; [|apply Z.testbit_0_l]. change (b2z xff) with (Z.ones 8). apply Z.ones_spec_low. lia.
  - intros Ho. unfold UnsafeSetByte, put_cell_. destruct Hh as (HL & HF).
    destruct (Nat.lt_ge_cases i (length (Bitmap m))) as [Hi|Hi]; [|rewrite at_ge by exact Hi; reflexivity].
    destruct (at_lt (Bitmap m) i Hi) as (row & Er & Ir). rewrite Er. cbn [bind].
    rewrite Forall_forall in HF. rewrite put_ge; [reflexivity|]. rewrite (HF row Ir). rewrite Hc. destruct Ho; [lia|assumption].
Qed.

Example C08_example : exists m', SetByte (BM_ctor infinite_memory 3 10) 1 1 x80 = Ok m' /\
  Get m' 1 8 = Ok true /\ Get m' 1 9 = Ok false /\
  SetByte m' 1 2 x80 = UB OobIndex /\ SetByte m' 1 3 x80 = Throw InvalidArgument.
Proof. run_example. Qed.

(** ** C09 *)
Theorem C09_ones : forall m A, shows m A -> nonempty A ->
  (Z.of_nat (arows A) < 2 ^ 64)%Z -> (Z.of_nat (acols A) < 2 ^ 64)%Z ->
  exists m', Ones m = Ok m' /\ shows m' (afill A true).
Proof. exact shows_Ones. Qed.

Theorem C09_zeros : forall m A, shows m A -> exists m', Zeros m = Ok m' /\ shows m' (afill A false).
Proof. exact shows_Zeros. Qed.

Theorem C09_empty : forall m, shows m (azero 0 0) ->
  Ones m = Throw RuntimeError /\ Zeros m = Ok m.
Proof.
  intros m H. apply shows_elim in H as (H & H1 & H2 & _). cbn in H1, H2. split.
  - apply Ones_empty; assumption.
  - unfold Zeros, V_RowCount. destruct H as (HL & _). rewrite HL, H1. reflexivity.
Qed.

(** Randm draws one number per cell, in row-major order, and keeps whether it is even. *)
Theorem C112_random_fill : forall engine m A, shows m A ->
  exists m', Randm engine m = Ok m' /\
    shows m' (mkamat (arows A) (acols A) (fun i j => Z.even (engine (i * acols A + j)))).
Proof. exact shows_Randm. Qed.

Example C112_example : exists m', Randm (fun n => (Z.of_nat n / 3)%Z) (BM_ctor infinite_memory 2 5) = Ok m' /\
  Get m' 0 2 = Ok true /\ Get m' 0 3 = Ok false /\ Get m' 1 0 = Ok false /\ Get m' 1 1 = Ok true.
Proof. run_example. Qed.

Example C09_example : exists m', Ones (BM_ctor infinite_memory 2 9) = Ok m' /\ Get m' 1 8 = Ok true /\
  exists m'', Zeros m' = Ok m'' /\ Get m'' 1 8 = Ok false.
Proof.
  eexists. split; [vm_compute; reflexivity|]. split; [vm_compute; reflexivity|].
  eexists. split; vm_compute; reflexivity.
Qed.

(** ** C10 *)
Theorem C10_xor : forall al a b A B, shows a A -> shows b B ->
  arows A = arows B -> acols A = acols B -> nonempty A -> memory_ok al (arows A) (acols A) ->
  exists m', bm_xor al a b = Ok m' /\ shows m' (axor A B).
Proof. intros. apply shows_xor; try assumption. apply memory_ok_alloc. assumption. Qed.

Theorem C10_sizes_differ : forall al a b,
  GetRowCount a <> GetRowCount b \/ GetColumnCount a <> GetColumnCount b ->
  bm_xor al a b = Throw InvalidArgument.
Proof. exact xor_mismatch. Qed.

Theorem C10_no_result : forall al a b,
  GetRowCount a = GetRowCount b -> GetColumnCount a = GetColumnCount b ->
  GetRowCount a = 0 \/ GetColumnCount a = 0 \/ out_of_memory al (GetRowCount a) (GetColumnCount a) ->
  bm_xor al a b = Throw RuntimeError.
Proof.
  intros al a b E1 E2 H. apply xor_noresult; [exact E1|exact E2|].
  destruct H as [H|[H|H]]; [left|right; left|right; right]; try exact H. apply oom_alloc, H.
Qed.

Example C10_example : exists a b x, 
  Set_ (BM_ctor infinite_memory 2 9) 1 8 true = Ok a /\ Set_ a 0 3 true = Ok b /\
  bm_xor infinite_memory a b = Ok x /\ Get x 1 8 = Ok false /\ Get x 0 3 = Ok true.
Proof. run_example. Qed.

(** ** C14 (LayoutMatrix part: Props_LayoutMatrix.v) *)
Theorem C14_copies : forall al m A, shows m A ->
  (al (arows A) (cdiv8 (acols A)) = AllocOk -> shows (BM_copy al m) A) /\
  (forall self, shows (BM_assign self m) A) /\
  (al (arows A) (cdiv8 (acols A)) <> AllocOk -> BM_copy al m = bm_empty).
Proof.
  intros al m A H. pose proof H as H'. apply shows_elim in H' as ((HL & _) & Hr & Hc & _).
  assert (al (length (Bitmap m)) (colBytes (Jsize m)) = al (arows A) (cdiv8 (acols A))) as M
    by (rewrite HL, colBytes_cdiv8, Hr, Hc; reflexivity).
  unfold BM_copy. rewrite M. split; [|split].
  - intros ->. destruct m. exact H.
  - intro. destruct m. exact H.
  - destruct (al (arows A) (cdiv8 (acols A))); congruence.
Qed.

(** Independence: objects of a history are only changed by calls that name them, so no
    later history that does not write object n (the copy, or the original) changes it.
    [writes o] is the object the call o is invoked on, if it is a mutating call. *)
Theorem C14_copies_independent : forall ops st st' outs n, crun st ops = Ok (st', outs) ->
  n < length st -> Forall (fun o => writes o <> Some n) ops -> nth_error st' n = nth_error st n.
Proof. intros ops st st' outs n H Hn HF. eapply crun_other; eassumption. Qed.

Theorem C14_moved_from_broken : forall m A i j v, shows m A -> i < arows A -> j < acols A ->
  let src := snd (BM_move m) in
  shows (fst (BM_move m)) A /\
  GetRowCount src = arows A /\ GetColumnCount src = acols A /\
  Get src i j = UB OobIndex /\ Set_ src i j v = UB OobIndex.
Proof.
  intros m A i j v H Hi Hj. pose proof H as (_ & E1 & E2 & _).
  pose proof H as H'. apply shows_elim in H' as (Hm & Hr & Hc & _).
  destruct (moved_from_broken m i j v Hm ltac:(lia) ltac:(lia)) as (M1 & M2 & M3 & M4).
  cbv zeta. split; [destruct m; exact H|]. rewrite M1, M2. repeat split; assumption.
Qed.

(** The same for assignment from an rvalue: the target takes over everything, whatever it held before. *)
Theorem C14_move_assignment : forall self m A i j v, shows m A -> i < arows A -> j < acols A ->
  let src := snd (BM_move_assign self m) in
  shows (fst (BM_move_assign self m)) A /\
  GetRowCount src = arows A /\ GetColumnCount src = acols A /\
  Get src i j = UB OobIndex /\ Set_ src i j v = UB OobIndex.
Proof. intros self m A i j v H Hi Hj. exact (C14_moved_from_broken m A i j v H Hi Hj). Qed.

(** Moving an object onto itself leaves its sizes, and (when the library clears a vector moved onto itself) no data. *)
Theorem C14_self_move : forall m A i j, shows m A -> i < arows A -> j < acols A ->
  GetRowCount (BM_self_move_assign [] m) = arows A /\ GetColumnCount (BM_self_move_assign [] m) = acols A /\
  Get (BM_self_move_assign [] m) i j = UB OobIndex.
Proof.
  intros m A i j H Hi Hj. destruct (C14_moved_from_broken m A i j true H Hi Hj) as (_ & E1 & E2 & E3 & _). auto.
Qed.

Example C14_example : exists a st outs,
  Set_ (BM_ctor infinite_memory 2 9) 1 8 true = Ok a /\
  Get (snd (BM_move a)) 1 8 = UB OobIndex /\ Get (fst (BM_move a)) 1 8 = Ok true /\
  crun [] [New 2 9; OSet 0 1 8 true; Copy 0; OZeros 0; OGet 1 1 8; OGet 0 1 8] = Ok (st, outs) /\
  outs = [Done; Done; Done; Done; Bool true; Bool false].
Proof. run_example. Qed.

(** ** C15 *)
Theorem C15_serialize_layout : forall m A, shows m A -> nonempty A ->
  exists payload,
    Serialize m = Ok (x08 :: le_bytes 8 (Z.of_nat (arows A)) ++
                      x08 :: le_bytes 8 (Z.of_nat (acols A)) ++ payload) /\
    length payload = arows A * acols A / 8 /\
    forall k t, k < length payload -> t < 8 ->
      Z.testbit (b2z (nth k payload x00)) (Z.of_nat t) = nth (8 * k + t) (abits A) false.
Proof. exact Serialize_ok. Qed.

Theorem C15_serialize_length : forall m A s, shows m A -> nonempty A -> Serialize m = Ok s ->
  length s = 18 + arows A * acols A / 8.
Proof.
  intros m A s H N E. destruct (Serialize_ok m A H N) as (out & E' & L & _).
  rewrite E in E'. apply (f_equal (fun r => match r with Ok x => length x | _ => 0 end)) in E'.
  rewrite E'. cbn [length].
  rewrite app_length, le_bytes_length. cbn [length]. rewrite app_length, le_bytes_length. lia.
Qed.

Theorem C15_empty_throws : forall m A, shows m A -> ~ nonempty A -> Serialize m = Throw RuntimeError.
Proof.
  intros m A H N. apply Serialize_empty. rewrite (shows_not m A H). unfold nonempty in N. lia.
Qed.

(** Two different matrices of the same size with the same serialisation: the last partial
    byte is lost. *)
Theorem C15_serialize_injective_refuted : exists a b,
  shows a (azero 1 9) /\ Get b 0 8 = Ok true /\ GetRowCount b = 1 /\ GetColumnCount b = 9 /\
  exists s, Serialize a = Ok s /\ Serialize b = Ok s.
Proof.
  exists (BM_ctor infinite_memory 1 9).
  destruct (Set_ (BM_ctor infinite_memory 1 9) 0 8 true) as [b| |] eqn:E; try discriminate.
  exists b. vm_compute in E. injection E as <-.
  split; [apply C04_constructor_zero; reflexivity|]. repeat split.
  eexists. split; reflexivity.
Qed.

Example C15_example : exists m, Set_ (BM_ctor infinite_memory 2 6) 0 1 true = Ok m /\
  Serialize m = Ok [x08; x02; x00; x00; x00; x00; x00; x00; x00;
                    x08; x06; x00; x00; x00; x00; x00; x00; x00; x02].
Proof. run_example. Qed.

(** ** C16 *)
Theorem C16_round_trip : forall al m A s, shows m A -> nonempty A ->
  (Z.of_nat (arows A) < 2 ^ 64)%Z -> (Z.of_nat (acols A) < 2 ^ 64)%Z ->
  Serialize m = Ok s -> memory_ok al (arows A) (acols A) ->
  (arows A * acols A) mod 8 = 0 ->
  exists m', DeserializeMatrix al s = Ok m' /\ shows m' A.
Proof.
  intros al m A s H N Br Bc Hs Ha H8.
  exact (roundtrip_ok m A s H N Br Bc Hs al H8 (memory_ok_alloc _ _ _ Ha)).
Qed.

Theorem C16_round_trip_ub : forall al m A s, shows m A -> nonempty A ->
  (Z.of_nat (arows A) < 2 ^ 64)%Z -> (Z.of_nat (acols A) < 2 ^ 64)%Z ->
  Serialize m = Ok s -> memory_ok al (arows A) (acols A) ->
  (arows A * acols A) mod 8 <> 0 ->
  exists u, DeserializeMatrix al s = UB u.
Proof.
  intros al m A s H N Br Bc Hs Ha H8.
  exact (roundtrip_ub m A s H N Br Bc Hs al H8 (memory_ok_alloc _ _ _ Ha)).
Qed.

Example C16_example : exists m s m', Set_ (BM_ctor infinite_memory 2 12) 0 11 true = Ok m /\
  Serialize m = Ok s /\ DeserializeMatrix infinite_memory s = Ok m' /\ m' = m.
Proof. run_example. Qed.

(** ** C17.  For a byte vector s: [hdr_k s] is its first byte, [hdr_rows s] the little-endian
    value of the hdr_k bytes after it, [hdr_cols s] that of the hdr_k bytes after the
    (ignored) column-width byte; the payload starts at 2 + 2*hdr_k s.  [payload_bit p n] is
    bit n of p, least significant first. *)
Theorem C17_empty : forall al, DeserializeMatrix al [] = Throw InvalidArgument.
Proof. reflexivity. Qed.

Theorem C17_bad_header_ub : forall al s, s <> [] ->
  8 < hdr_k s \/ length s < 2 + 2 * hdr_k s -> exists u, DeserializeMatrix al s = UB u.
Proof. exact Des_bad_header. Qed.

Theorem C17_short_payload_ub : forall al s, s <> [] -> hdr_k s <= 8 -> 2 + 2 * hdr_k s <= length s ->
  memory_ok al (hdr_rows s) (hdr_cols s) ->
  8 * (length s - (2 + 2 * hdr_k s)) < hdr_rows s * hdr_cols s ->
  exists u, DeserializeMatrix al s = UB u.
Proof. intros. apply Des_short; try assumption. apply memory_ok_alloc. assumption. Qed.

Theorem C17_accepted : forall al s, s <> [] -> hdr_k s <= 8 -> 2 + 2 * hdr_k s <= length s ->
  memory_ok al (hdr_rows s) (hdr_cols s) ->
  hdr_rows s * hdr_cols s <= 8 * (length s - (2 + 2 * hdr_k s)) ->
  exists m, DeserializeMatrix al s = Ok m /\
    shows m (mkamat (hdr_rows s) (hdr_cols s)
               (fun i j => payload_bit (skipn (2 + 2 * hdr_k s) s) (i * hdr_cols s + j))).
Proof. intros. apply Des_ok; try assumption. apply memory_ok_alloc. assumption. Qed.

Theorem C17_no_memory : forall al s, s <> [] -> hdr_k s <= 8 -> 2 + 2 * hdr_k s < length s ->
  0 < hdr_rows s * hdr_cols s -> out_of_memory al (hdr_rows s) (hdr_cols s) ->
  DeserializeMatrix al s = Throw RuntimeError.
Proof. intros. apply Des_noalloc; try assumption. apply oom_alloc. assumption. Qed.

Example C17_example :
  (* announces 1-byte sizes 2 x 4, column-width byte 7 ignored, payload 0xA5 *)
  (exists m, DeserializeMatrix infinite_memory [x01; x02; x07; x04; xa5] = Ok m /\
     Get m 0 0 = Ok true /\ Get m 0 1 = Ok false /\ Get m 1 3 = Ok true) /\
  hdr_rows [x01; x02; x07; x04; xa5] = 2 /\ hdr_cols [x01; x02; x07; x04; xa5] = 4 /\
  DeserializeMatrix infinite_memory [x01; x02; x07; x05; xa5] = UB OobIndex /\
  DeserializeMatrix infinite_memory (x09 :: repeat x00 30) = UB BufferOverflow.
Proof. run_example. Qed.

(** ** C18 *)
Theorem C18_length_check : forall al s r c,
  (Z.of_nat (length s) <> (Z.of_nat r * Z.of_nat c) mod 2 ^ 32)%Z ->
  FromString al s r c = Throw InvalidArgument.
Proof. exact FromString_len. Qed.

Theorem C18_no_wrap : forall al s r c, (Z.of_nat r * Z.of_nat c < 2 ^ 32)%Z ->
  Z.of_nat (length s) = (Z.of_nat r * Z.of_nat c)%Z -> memory_ok al r c ->
  exists m, FromString al s r c = Ok m /\
    shows m (mkamat r c (fun i j =>
      if i <? cdiv8 r
      then Z.testbit (b2z (nth (i * cdiv8 c + j / 8) s x00)) (7 - Z.of_nat (j mod 8)) else false)).
Proof.
  intros al s r c H HL Ha. apply FromString_ok.
  - rewrite Z.mod_small by lia. exact HL.
  - pose proof (cdiv8_le r). pose proof (cdiv8_le c). assert (length s = r * c) as -> by lia. nia.
  - apply memory_ok_alloc, Ha.
Qed.

Theorem C18_wrap : forall al s r c,
  (Z.of_nat (length s) = (Z.of_nat r * Z.of_nat c) mod 2 ^ 32)%Z ->
  length s < cdiv8 r * cdiv8 c -> memory_ok al r c -> exists u, FromString al s r c = UB u.
Proof. intros. apply FromString_ub; try assumption. apply memory_ok_alloc. assumption. Qed.

(** Also when r*c wraps: if the text is long enough for the bytes that are read, all is well. *)
Theorem C18_long_enough : forall al s r c,
  (Z.of_nat (length s) = (Z.of_nat r * Z.of_nat c) mod 2 ^ 32)%Z ->
  cdiv8 r * cdiv8 c <= length s -> memory_ok al r c ->
  exists m, FromString al s r c = Ok m /\
    shows m (mkamat r c (fun i j =>
      if i <? cdiv8 r
      then Z.testbit (b2z (nth (i * cdiv8 c + j / 8) s x00)) (7 - Z.of_nat (j mod 8)) else false)).
Proof. intros. apply FromString_ok; try assumption. apply memory_ok_alloc. assumption. Qed.

Theorem C18_wrap_instance : forall al r, r = Z.to_nat 65536 -> memory_ok al r r ->
  exists u, FromString al [] r r = UB u.
Proof.
  intros al r Er Ha. apply C18_wrap; [|pose proof (cdiv8_spec r)|exact Ha].
  - rewrite Er, Z2Nat.id by lia. reflexivity.
  - cbn [length]. assert (0 < r) by lia. nia.
Qed.

Example C18_example : exists m, FromString infinite_memory (repeat x81 20) 2 10 = Ok m /\
  Get m 0 0 = Ok true /\ Get m 0 7 = Ok true /\ Get m 0 8 = Ok true /\ Get m 1 0 = Ok false.
Proof. run_example. Qed.

(** ** C19: Vector2D over any element type with default d. [rect v r c]: r rows of c elements. *)
Theorem C19_constructor : forall T (d : T) al r c,
  1 <= r <= 5000 -> 1 <= c <= 5000 -> al r c = AllocOk ->
  exists v, V_ctor d al r c = Ok v /\ rect v r c /\
    forall i j, i < r -> j < c -> V_At v i j = Ok d.
Proof. intros T d. exact (V_ctor_ok d). Qed.

Theorem C19_constructor_out_of_limits : forall T (d : T) al r c,
  ~ (1 <= r <= 5000 /\ 1 <= c <= 5000) -> V_ctor d al r c = Ok [].
Proof. intros T d. exact (V_ctor_empty d). Qed.

Theorem C19_resize : forall T (d : T) al r c, al r c = AllocOk ->
  exists v, V_Resize d al r c = (v, Ok tt) /\ rect v r c /\
    forall i j, i < r -> j < c -> V_At v i j = Ok d.
Proof. intros T d. exact (V_Resize_at d). Qed.

Theorem C19_at : forall T (v : list (list T)) i j,
  (forall row x, nth_error v i = Some row -> nth_error row j = Some x -> V_At v i j = Ok x) /\
  (length v <= i \/ (exists row, nth_error v i = Some row /\ length row <= j) ->
     V_At v i j = Throw InvalidArgument).
Proof.
  intros T v i j. split; [intros row x; apply V_At_ok|apply V_At_throw].
Qed.

(** Assigning through the reference At returns: in range only that element changes (and no length);
    out of range the exception leaves the contents as they were. *)
Theorem C19_at_assignment : forall T (v : list (list T)) r c i j x, rect v r c ->
  (i < r -> j < c -> exists v', V_AtPut v i j x = Ok v' /\ rect v' r c /\ V_At v' i j = Ok x /\
     forall a b, (a, b) <> (i, j) -> V_At v' a b = V_At v a b) /\
  (r <= i \/ c <= j -> V_AtPut v i j x = Throw InvalidArgument).
Proof. exact @V_AtPut_spec. Qed.

Theorem C19_not : forall T (v : list (list T)),
  V_not v = false <-> exists r c, 0 < r /\ 0 < c /\ rect v r c.
Proof. intros T. exact V_not_spec. Qed.

Theorem C19_colcount : forall T (v : list (list T)),
  (v = [] -> V_ColCount v = UB OobIndex) /\
  (forall row rest, v = row :: rest -> V_ColCount v = Ok (length row)).
Proof. intros T v. split; [intros ->; reflexivity|intros row rest ->; reflexivity]. Qed.

Example C19_example : exists v, V_ctor 7 infinite_memory 2 3 = Ok v /\ V_At v 1 2 = Ok 7 /\
  V_At v 2 0 = Throw InvalidArgument /\ V_not v = false /\ V_ColCount v = Ok 3 /\
  V_ctor 7 infinite_memory 0 3 = Ok [] /\
  (exists w, V_AtPut v 1 2 9 = Ok w /\ V_At w 1 2 = Ok 9 /\ V_At w 1 1 = Ok 7 /\ V_At w 0 2 = Ok 7).
Proof. run_example. Qed.

Print Assumptions C04_constructor_zero.
Print Assumptions C04_constructor_no_memory.
Print Assumptions C04_resize_zero.
Print Assumptions C04_resize_bad_arguments.
Print Assumptions C04_resize_no_memory_breaks_object.
Print Assumptions C05_set.
Print Assumptions C05_set_get.
Print Assumptions C05_out_of_range.
Print Assumptions C06_histories_refine.
Print Assumptions C07_range_filled.
Print Assumptions C07_rejected.
Print Assumptions C07_last_row_check_off_by_one.
Print Assumptions C07_last_column_multiple_of_8.
Print Assumptions C07_last_column_otherwise.
Print Assumptions C07_range_check_is_sound_refuted.
Print Assumptions C08_byte_written.
Print Assumptions C08_rejected.
Print Assumptions C08_unsafe_set_byte.
Print Assumptions C08_column_check_off_by_one.
Print Assumptions C09_ones.
Print Assumptions C09_zeros.
Print Assumptions C09_empty.
Print Assumptions C10_xor.
Print Assumptions C10_sizes_differ.
Print Assumptions C10_no_result.
Print Assumptions C14_copies.
Print Assumptions C14_copies_independent.
Print Assumptions C14_moved_from_broken.
Print Assumptions C14_move_assignment.
Print Assumptions C14_self_move.
Print Assumptions C15_serialize_layout.
Print Assumptions C15_serialize_length.
Print Assumptions C15_empty_throws.
Print Assumptions C15_serialize_injective_refuted.
Print Assumptions C16_round_trip.
Print Assumptions C16_round_trip_ub.
Print Assumptions C17_empty.
Print Assumptions C17_bad_header_ub.
Print Assumptions C17_short_payload_ub.
Print Assumptions C17_accepted.
Print Assumptions C17_no_memory.
Print Assumptions C18_length_check.
Print Assumptions C18_no_wrap.
Print Assumptions C18_wrap.
Print Assumptions C18_long_enough.
Print Assumptions C18_wrap_instance.
Print Assumptions C19_constructor.
Print Assumptions C19_constructor_out_of_limits.
Print Assumptions C19_resize.
Print Assumptions C19_at.
Print Assumptions C19_at_assignment.
Print Assumptions C112_random_fill.
Print Assumptions C19_not.
Print Assumptions C19_colcount.
