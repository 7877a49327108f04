(** C136: running out of memory while a matrix is copied. *)
From Coq Require Import Lia.
From Verif Require Import Prelude P_Prelude M_Vector2D M_ByteHandler M_BitMatrix M_LayoutCore S_Matrix P_ByteHandler P_BitMatrix P_Rle P_Serial P_History M_Copying S_Copying.
Local Open Scope nat_scope.

Lemma firstn_at (l : list (list byte)) k i : i < k -> nth_error (firstn k l) i = nth_error l i.
Proof.
  revert k i. induction l as [|x l IH]; intros k i H; [rewrite firstn_nil; reflexivity|].
  destruct k as [|k]; [lia|]. destruct i as [|i]; [reflexivity|]. cbn [firstn nth_error]. apply IH. lia.
Qed.
Lemma at_mixed k (old new : list (list byte)) i : k <= length new ->
  at_ (firstn k new ++ skipn k old) i = if i <? k then at_ new i else at_ old i.
Proof.
  intros K. unfold at_. assert (L : length (firstn k new) = k) by (rewrite firstn_length; lia).
  destruct (Nat.ltb_spec i k) as [H|H].
  - rewrite nth_error_app1 by lia. rewrite firstn_at by assumption. reflexivity.
  - rewrite nth_error_app2 by lia. rewrite L, nth_error_skipn. replace (k + (i - k)) with i by lia. reflexivity.
Qed.
Lemma Get_rows m m' i j : at_ (Bitmap m) i = at_ (Bitmap m') i -> i < Isize m -> j < Jsize m -> i < Isize m' -> j < Jsize m' ->
  Get m i j = Get m' i j.
Proof.
  intros E H1 H2 H3 H4. unfold Get, cell_. rewrite E.
  assert (T : forall x, i < Isize x -> j < Jsize x -> (Isize x <=? i) || (Jsize x <=? j) = false)
    by (intros x a b; apply orb_false_iff; split; apply Nat.leb_gt; assumption).
  rewrite !T by assumption. reflexivity.
Qed.

(** A matrix that was being assigned to: bad_alloc reaches the caller; the object reports the sizes it had; the rows that were
    reached have the other matrix's cells as far as that matrix had bytes, beyond them reading is undefined behaviour. *)
Theorem C136_assignment_interrupted : forall self Rhs A B k,
  shows self A -> shows Rhs B -> possible (RefusesAfter k) (Bitmap self) (Bitmap Rhs) ->
  exists m, BM_assign_in (RefusesAfter k) self Rhs = (m, Throw BadAlloc) /\ k <= arows A /\ k < arows B /\
    GetRowCount m = arows A /\ GetColumnCount m = acols A /\
    forall i j, i < arows A -> j < acols A ->
      (k <= i -> Get m i j = Ok (acell A i j)) /\
      (i < k -> j < acols B -> Get m i j = Ok (acell B i j)) /\
      (i < k -> 8 * cdiv8 (acols B) <= j -> Get m i j = UB OobIndex).
Proof.
  intros self Rhs A B k SA SB (K1 & K2).
  pose proof SA as (HA & ra & ca & GA). pose proof SB as (HB & rb & cb & GB).
  destruct HA as (LA & FA). destruct HB as (LB & FB). unfold GetRowCount, GetColumnCount in *.
  unfold BM_assign_in, V_assign_in. eexists. split; [reflexivity|]. split; [lia|]. split; [lia|].
  split; [exact ra|]. split; [exact ca|]. intros i j Hi Hj.
  pose proof (at_mixed k (Bitmap self) (Bitmap Rhs) i ltac:(lia)) as M.
  split; [|split].
  - intros Ki. rewrite <- GA by assumption. apply Get_rows; cbn [Bitmap Isize Jsize]; try lia.
    rewrite M. destruct (Nat.ltb_spec i k); [lia|reflexivity].
  - intros Ki Jb. rewrite <- GB by lia. apply Get_rows; cbn [Bitmap Isize Jsize]; try lia.
    rewrite M. destruct (Nat.ltb_spec i k); [reflexivity|lia].
  - intros Ki Jb. unfold Get, cell_. cbn [Bitmap Isize Jsize]. rewrite M.
    assert ((Isize self <=? i) || (Jsize self <=? j) = false) as -> by (apply orb_false_iff; split; apply Nat.leb_gt; lia).
    destruct (Nat.ltb_spec i k); [|lia]. destruct (at_lt (Bitmap Rhs) i ltac:(lia)) as (row & Er & Ir). rewrite Er. cbn [bind].
    rewrite Forall_forall in FB. rewrite at_ge; [reflexivity|]. rewrite (FB row Ir). change bitsInByte with 8. rewrite cb.
    apply Nat.div_le_lower_bound; lia.
Qed.

(** When the rows of the two matrices are equally long in bytes, the object is a matrix, made of both. *)
Theorem C136_a_mixture : forall self Rhs A B k,
  shows self A -> shows Rhs B -> possible (RefusesAfter k) (Bitmap self) (Bitmap Rhs) ->
  cdiv8 (acols A) = cdiv8 (acols B) -> acols A <= acols B ->
  exists m, BM_assign_in (RefusesAfter k) self Rhs = (m, Throw BadAlloc) /\ shows m (rows_from k B A).
Proof.
  intros self Rhs A B k SA SB P W L.
  destruct (C136_assignment_interrupted self Rhs A B k SA SB P) as (m & E & Ka & Kb & R & C & G). exists m. split; [exact E|].
  split; [|split; [exact R|split; [exact C|]]].
  - destruct P as (P1 & P2). pose proof SA as ((LA & FA) & ra & ca & _). pose proof SB as ((LB & FB) & rb & cb & _).
    unfold GetRowCount, GetColumnCount in *. unfold BM_assign_in, V_assign_in in E. injection E as <-. cbn [Bitmap Isize Jsize].
    split; cbn [Bitmap Isize Jsize].
    + rewrite app_length, firstn_length, skipn_length. lia.
    + rewrite ca in *. rewrite cb in FB. rewrite <- W in FB. apply Forall_app. split; apply Forall_forall; intros row I; rewrite Forall_forall in FA, FB.
      * apply FB. rewrite <- (firstn_skipn k (Bitmap Rhs)). apply in_or_app. left. exact I.
      * apply FA. rewrite <- (firstn_skipn k (Bitmap self)). apply in_or_app. right. exact I.
  - intros i j Hi Hj. cbn [rows_from arows acols acell] in *. destruct (G i j Hi Hj) as (G1 & G2 & _).
    destruct (Nat.ltb_spec i k); [apply G2; lia|apply G1; lia].
Qed.

(** In general every cell can be read if and only if no row was reached, there is no cell at all, or the other matrix's rows
    have as many bytes. *)
Theorem C136_when_it_can_be_read : forall self Rhs A B k,
  shows self A -> shows Rhs B -> possible (RefusesAfter k) (Bitmap self) (Bitmap Rhs) ->
  (readable (fst (BM_assign_in (RefusesAfter k) self Rhs)) <-> k = 0 \/ acols A <= 8 * cdiv8 (acols B)).
Proof.
  intros self Rhs A B k SA SB P.
  destruct (C136_assignment_interrupted self Rhs A B k SA SB P) as (m & E & Ka & Kb & R & C & G). rewrite E. cbn [fst].
  unfold readable. rewrite R, C. split.
  - intros Q. destruct k as [|k]; [left; reflexivity|]. right.
    destruct (Nat.le_gt_cases (acols A) (8 * cdiv8 (acols B))) as [L|L]; [exact L|].
    destruct (G 0 (8 * cdiv8 (acols B)) ltac:(lia) L) as (_ & _ & U). destruct (Q 0 (8 * cdiv8 (acols B)) ltac:(lia) L) as (v & V).
    rewrite U in V by lia. discriminate V.
  - intros D i j Hi Hj. destruct (G i j Hi Hj) as (G1 & _ & _). destruct (Nat.le_gt_cases k i) as [Ki|Ki]; [eexists; apply G1, Ki|].
    destruct D as [->|D]; [lia|].
    destruct P as (P1 & P2). pose proof SA as ((LA & FA) & ra & ca & _). pose proof SB as ((LB & FB) & rb & cb & _).
    unfold GetRowCount, GetColumnCount in *. unfold BM_assign_in, V_assign_in in E. injection E as <-.
    unfold Get, cell_. cbn [Bitmap Isize Jsize]. rewrite at_mixed by lia.
    assert ((Isize self <=? i) || (Jsize self <=? j) = false) as -> by (apply orb_false_iff; split; apply Nat.leb_gt; lia).
    destruct (Nat.ltb_spec i k); [|lia]. destruct (at_lt (Bitmap Rhs) i ltac:(lia)) as (row & Er & Ir). rewrite Er. cbn [bind].
    rewrite Forall_forall in FB. change bitsInByte with 8.
    destruct (at_lt row (j / 8)) as (b & Eb & _); [rewrite (FB row Ir), cb; apply Nat.div_lt_upper_bound; lia|]. rewrite Eb. cbn [bind].
    pose proof (mod8_lt j). eexists. apply GetBit_value. lia.
Qed.

(** A LayoutMatrix that was being assigned to: its own cells are gone; it reports the other matrix's sizes and has no rows. *)
Theorem C136_layout_matrix_assignment_interrupted : forall self Rhs B k,
  shows Rhs B -> possible (RefusesAfter k) (Bitmap (BM_Reset self)) (Bitmap Rhs) ->
  exists m, LM_assign_in (RefusesAfter k) self Rhs = (m, Throw BadAlloc) /\
    GetRowCount m = arows B /\ GetColumnCount m = acols B /\
    (forall i j, i < arows B -> j < acols B -> Get m i j = UB OobIndex) /\
    (forall i j v, i < arows B -> j < acols B -> Set_ m i j v = UB OobIndex) /\
    BM_not m = true /\ Serialize m = Throw RuntimeError.
Proof.
  intros self Rhs B k SB (P1 & P2). assert (R0 : Bitmap (BM_Reset self) = []) by (destruct self as [[|] ? ?]; reflexivity).
  unfold LM_assign_in, V_assign_in. rewrite R0 in *. assert (k = 0) by (cbn in P1; lia). subst k. cbn [firstn skipn app].
  pose proof SB as (_ & rb & cb & _). unfold GetRowCount, GetColumnCount in *.
  eexists. split; [reflexivity|]. cbn [Bitmap Isize Jsize]. split; [exact rb|]. split; [exact cb|].
  assert (T : forall i j, i < arows B -> j < acols B -> (Isize Rhs <=? i) || (Jsize Rhs <=? j) = false)
    by (intros i j a b; apply orb_false_iff; split; apply Nat.leb_gt; lia).
  split; [|split; [|split; reflexivity]].
  - intros i j Hi Hj. unfold Get, cell_. cbn [Bitmap Isize Jsize]. rewrite T by assumption. rewrite at_ge by (cbn; lia). reflexivity.
  - intros i j v Hi Hj. unfold Set_, cell_. cbn [Bitmap Isize Jsize]. rewrite T by assumption. rewrite at_ge by (cbn; lia). reflexivity.
Qed.

(** After either: the next assignment that succeeds repairs the object, whatever it holds; and the copied matrix was never
    touched.  A copy constructor gives an empty object instead of an exception.  The noexcept "moves" of LayoutMatrix copy: they give
    a full copy, or the program ends. *)
Theorem C136_repair_and_constructors :
  (forall broken Rhs B, shows Rhs B ->
     exists m, BM_assign_in Enough broken Rhs = (m, Ok tt) /\ shows m B) /\
  (forall broken Rhs B, shows Rhs B ->
     exists m, LM_assign_in Enough broken Rhs = (m, Ok tt) /\ shows m B) /\
  (forall Rhs B h, shows Rhs B -> possible h [] (Bitmap Rhs) ->
     (h = Enough /\ shows (BM_copy_in h Rhs) B) \/ (h <> Enough /\ shows (BM_copy_in h Rhs) (mkamat 0 0 (fun _ _ => false)))) /\
  (forall Rhs B h, shows Rhs B -> possible h [] (Bitmap Rhs) ->
     match LM_move_in h Rhs with Some (m, src) => h = Enough /\ shows m B /\ shows src B | None => h <> Enough end).
Proof.
  split; [|split; [|split]].
  - intros broken Rhs B S. eexists. split; [reflexivity|]. destruct Rhs. exact S.
  - intros broken Rhs B S. eexists. split; [reflexivity|]. destruct Rhs. exact S.
  - intros Rhs B [|k] S P.
    + left. split; [reflexivity|]. destruct Rhs. exact S.
    + right. split; [discriminate|]. unfold BM_copy_in, V_assign_in.
      split; [split; [reflexivity|constructor]|]. split; [reflexivity|]. split; [reflexivity|]. intros i j Hi. cbn in Hi. lia.
  - intros Rhs B [|k] S P; unfold LM_move_in, V_assign_in, or_terminates.
    + split; [reflexivity|]. split; [destruct Rhs; exact S|exact S].
    + discriminate.
Qed.

(** With enough memory these are the functions of M_BitMatrix and M_LayoutCore. *)
Theorem C136_with_enough_memory : forall self m left,
  BM_assign_in Enough self m = (BM_assign self m, Ok tt) /\ LM_assign_in Enough self m = (LM_assign self m, Ok tt) /\
  BM_copy_in Enough m = BM_copy infinite_memory m /\ LM_move_in Enough m = Some (LM_move m) /\
  LM_of_BM_move_in Enough m = Some (LM_of_BM_move m) /\ LM_move_assign_BM_in Enough left self m = Some (LM_move_assign_BM left self m).
Proof. intros self m left. repeat split. Qed.

(** The assigned-to matrix is not simply left as it was, ... *)
Theorem C136_left_as_it_was_refuted :
  ~ (forall self Rhs A B k m, shows self A -> shows Rhs B -> possible (RefusesAfter k) (Bitmap self) (Bitmap Rhs) ->
       BM_assign_in (RefusesAfter k) self Rhs = (m, Throw BadAlloc) -> shows m A).
Proof.
  intros H. pose (a := mkbm [[x00]; [x00]] 2 8). pose (b := mkbm [[xff]; [xff]] 2 8).
  assert (S : forall m, healthy m -> shows m (mkamat (Isize m) (Jsize m) (raw m))) by (intros m Hm; apply shows_self, Hm).
  assert (Ha : healthy a) by (split; [reflexivity|repeat constructor]). assert (Hb : healthy b) by (split; [reflexivity|repeat constructor]).
  pose proof (H a b _ _ 1 _ (S a Ha) (S b Hb) ltac:(cbn; lia) eq_refl) as (_ & _ & _ & G).
  specialize (G 0 0 ltac:(cbn; lia) ltac:(cbn; lia)). vm_compute in G. discriminate G.
Qed.

(** ... and what is left cannot always be read. *)
Theorem C136_always_readable_refuted :
  ~ (forall self Rhs A B k, shows self A -> shows Rhs B -> possible (RefusesAfter k) (Bitmap self) (Bitmap Rhs) ->
       readable (fst (BM_assign_in (RefusesAfter k) self Rhs))).
Proof.
  intros H. pose (a := mkbm [[x00; x00]; [x00; x00]] 2 16). pose (b := mkbm [[xff]; [xff]] 2 8).
  assert (Ha : healthy a) by (split; [reflexivity|repeat constructor]). assert (Hb : healthy b) by (split; [reflexivity|repeat constructor]).
  destruct (H a b _ _ 1 (shows_self a Ha) (shows_self b Hb) ltac:(cbn; lia) 0 8 ltac:(cbn; lia) ltac:(cbn; lia)) as (v & V).
  vm_compute in V. discriminate V.
Qed.

(** A concrete case: 3 x 10 cells assigned to 2 x 9 cells, given up after one row. *)
Example C136_hypotheses_met :
  let self := mkbm [[x00; x00]; [x00; x00]] 2 9 in let Rhs := mkbm [[xff; xc0]; [xff; xc0]; [xff; xc0]] 3 10 in
  healthy self /\ healthy Rhs /\ possible (RefusesAfter 1) (Bitmap self) (Bitmap Rhs) /\ cdiv8 (Jsize self) = cdiv8 (Jsize Rhs) /\
  exists m, BM_assign_in (RefusesAfter 1) self Rhs = (m, Throw BadAlloc) /\ Get m 0 8 = Ok true /\ Get m 1 8 = Ok false /\
  possible (RefusesAfter 0) (Bitmap (BM_Reset self)) (Bitmap Rhs).
Proof.
  cbv zeta. split; [split; [reflexivity|repeat constructor]|]. split; [split; [reflexivity|repeat constructor]|].
  split; [cbn; lia|]. split; [reflexivity|]. eexists. split; [reflexivity|]. split; [reflexivity|]. split; [reflexivity|cbn; lia].
Qed.

Print Assumptions C136_assignment_interrupted.
Print Assumptions C136_a_mixture.
Print Assumptions C136_when_it_can_be_read.
Print Assumptions C136_layout_matrix_assignment_interrupted.
Print Assumptions C136_repair_and_constructors.
Print Assumptions C136_with_enough_memory.
Print Assumptions C136_left_as_it_was_refuted.
Print Assumptions C136_always_readable_refuted.

(** The other two noexcept functions behave likewise: what they give with enough memory, or the program ends. *)
Theorem C136_noexcept_or_the_program_ends : forall h left self Rhs B, shows Rhs B ->
  match LM_of_BM_move_in h Rhs with
  | Some (m, src) => h = Enough /\ shows src B /\ GetRowCount m = arows B /\ GetColumnCount m = 0
  | None => h <> Enough
  end /\
  match LM_move_assign_BM_in h left self Rhs with
  | Some (m, src) => h = Enough /\ shows m B /\ GetRowCount src = arows B /\ GetColumnCount src = acols B
  | None => h <> Enough
  end.
Proof.
  intros h left self Rhs B S. pose proof S as (_ & r & c & _).
  destruct h as [|k]; unfold LM_of_BM_move_in, LM_move_assign_BM_in, V_assign_in, or_terminates.
  - split.
    + split; [reflexivity|]. split; [exact S|]. split; [exact r|reflexivity].
    + split; [reflexivity|]. split; [destruct Rhs; exact S|]. split; [exact r|exact c].
  - split; discriminate.
Qed.
Print Assumptions C136_noexcept_or_the_program_ends.
