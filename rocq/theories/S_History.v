(** Histories of public BitMatrix calls on any number of objects (memory available):
    the abstract machine they are specified by ([astep], over abstract arrays only) and the
    dispatch of the same calls to the model ([cstep]). *)
From Verif Require Import Prelude M_Vector2D M_BitMatrix S_Matrix.

(** A call; objects are numbered in order of construction. *)
Inductive op :=
| New (r c : nat)                       (* BitMatrix x(r,c) *)
| Copy (k : nat)                        (* BitMatrix x(obj_k) *)
| Assign (k l : nat)                    (* obj_k = obj_l *)
| XorAssign (k a b : nat)               (* obj_k = obj_a ^ obj_b *)
| OSet (k i j : nat) (v : bool)
| OGet (k i j : nat)
| OSetRange (k i0 j0 i1 j1 : nat) (v : bool)
| OSetByte (k i jb : nat) (x : byte)
| OOnes (k : nat)
| OZeros (k : nat)
| OResize (k r c : nat)
| ORows (k : nat)
| OCols (k : nat)
| ONot (k : nat).                       (* !obj_k *)

(** What the caller sees. *)
Inductive out := Done | Bool (b : bool) | Num (n : nat) | Exn (e : exn).

(** Sizes are size_t values. *)
Definition size_ok (o : op) : Prop :=
  match o with
  | New r c | OResize _ r c => (Z.of_nat r < 2 ^ 64)%Z /\ (Z.of_nat c < 2 ^ 64)%Z
  | _ => True
  end.

(** ** The abstract machine.  [None]: the call is undefined behaviour (or names no object). *)
Definition anon_empty (A : amat) : bool := (arows A =? 0) || (acols A =? 0).

Definition on (st : list amat) (k : nat) (f : amat -> option (amat * out)) : option (list amat * out) :=
  match nth_error st k with
  | None => None
  | Some A => match f A with
              | None => None
              | Some (A', o) => Some (upd st k A', o)
              end
  end.

Definition astep (st : list amat) (o : op) : option (list amat * out) :=
  match o with
  | New r c => Some (st ++ [azero r c], Done)
  | Copy k => match nth_error st k with Some A => Some (st ++ [A], Done) | None => None end
  | Assign k l =>
      match nth_error st l with
      | None => None
      | Some B => on st k (fun _ => Some (B, Done))
      end
  | XorAssign k a b =>
      match nth_error st a, nth_error st b with
      | Some A, Some B =>
          on st k (fun K =>
            if negb ((arows A =? arows B) && (acols A =? acols B)) then Some (K, Exn InvalidArgument)
            else if anon_empty A then Some (K, Exn RuntimeError)
            else Some (axor A B, Done))
      | _, _ => None
      end
  | OSet k i j v =>
      on st k (fun A => if (i <? arows A) && (j <? acols A) then Some (aset A i j v, Done)
                        else Some (A, Exn RuntimeError))
  | OGet k i j =>
      on st k (fun A => if (i <? arows A) && (j <? acols A) then Some (A, Bool (acell A i j))
                        else Some (A, Exn RuntimeError))
  | OSetRange k i0 j0 i1 j1 v =>
      on st k (fun A =>
        if (i1 <? i0) || (arows A <? i1) || (j1 <? j0) || (acols A <? j1) then Some (A, Exn RuntimeError)
        else if i1 =? arows A then None
        else if j1 =? acols A
             then if acols A mod 8 =? 0 then None
                  else Some (aset_range A i0 j0 i1 (acols A - 1) v, Done)
             else Some (aset_range A i0 j0 i1 j1 v, Done))
  | OSetByte k i jb x =>
      on st k (fun A =>
        if (arows A <=? i) || (cdiv8 (acols A) <? jb) then Some (A, Exn InvalidArgument)
        else if jb =? cdiv8 (acols A) then None
        else Some (aset_byte A i jb x, Done))
  | OOnes k => on st k (fun A => if anon_empty A then Some (A, Exn RuntimeError)
                                 else Some (afill A true, Done))
  | OZeros k => on st k (fun A => Some (afill A false, Done))
  | OResize k r c => on st k (fun A => if (r =? 0) || (c =? 0) then Some (A, Exn RuntimeError)
                                       else Some (azero r c, Done))
  | ORows k => on st k (fun A => Some (A, Num (arows A)))
  | OCols k => on st k (fun A => Some (A, Num (acols A)))
  | ONot k => on st k (fun A => Some (A, Bool (anon_empty A)))
  end.

Fixpoint arun (st : list amat) (ops : list op) : option (list amat * list out) :=
  match ops with
  | [] => Some (st, [])
  | o :: ops' =>
      match astep st o with
      | None => None
      | Some (st', x) => match arun st' ops' with
                         | None => None
                         | Some (st'', xs) => Some (st'', x :: xs)
                         end
      end
  end.

(** ** The same calls on the model.  A C++ exception is an output of the history. *)
Definition upd_obj (st : list bm) (k : nat) (f : bm -> res bm) : res (list bm * out) :=
  let* m := at_ st k in
  match f m with
  | Ok m' => Ok (upd st k m', Done)
  | Throw e => Ok (st, Exn e)
  | UB u => UB u
  end.

Definition cstep (st : list bm) (o : op) : res (list bm * out) :=
  match o with
  | New r c => Ok (st ++ [BM_ctor infinite_memory r c], Done)
  | Copy k => let* m := at_ st k in Ok (st ++ [BM_copy infinite_memory m], Done)
  | Assign k l => let* m := at_ st l in upd_obj st k (fun self => Ok (BM_assign self m))
  | XorAssign k a b =>
      let* x := at_ st a in
      let* y := at_ st b in
      upd_obj st k (fun self => let* z := bm_xor infinite_memory x y in Ok (fst (BM_move_assign self z)))
  | OSet k i j v => upd_obj st k (fun m => Set_ m i j v)
  | OGet k i j =>
      let* m := at_ st k in
      match Get m i j with
      | Ok b => Ok (st, Bool b)
      | Throw e => Ok (st, Exn e)
      | UB u => UB u
      end
  | OSetRange k i0 j0 i1 j1 v =>
      upd_obj st k (fun m => SetRange m (Z.of_nat i0) (Z.of_nat j0) (Z.of_nat i1) (Z.of_nat j1) v)
  | OSetByte k i jb x => upd_obj st k (fun m => SetByte m i jb x)
  | OOnes k => upd_obj st k Ones
  | OZeros k => upd_obj st k Zeros
  | OResize k r c =>
      let* m := at_ st k in
      match Resize infinite_memory m r c with
      | (m', Ok _) => Ok (upd st k m', Done)
      | (m', Throw e) => Ok (upd st k m', Exn e)
      | (_, UB u) => UB u
      end
  | ORows k => let* m := at_ st k in Ok (st, Num (GetRowCount m))
  | OCols k => let* m := at_ st k in Ok (st, Num (GetColumnCount m))
  | ONot k => let* m := at_ st k in Ok (st, Bool (BM_not m))
  end.

Fixpoint crun (st : list bm) (ops : list op) : res (list bm * list out) :=
  match ops with
  | [] => Ok (st, [])
  | o :: ops' =>
      let* r := cstep st o in
      let '(st', x) := r in
      let* r' := crun st' ops' in
      let '(st'', xs) := r' in
      Ok (st'', x :: xs)
  end.
