From Verif Require Import Prelude P_Prelude M_ByteHandler P_ByteHandler M_Vector2D M_BitMatrix
  S_Matrix P_BitMatrix P_Cells P_Serial S_History.

Definition R (m : bm) (A : amat) : Prop :=
  shows m A /\ (Z.of_nat (arows A) < 2 ^ 64)%Z /\ (Z.of_nat (acols A) < 2 ^ 64)%Z.

Lemma R_at st ast k A : Forall2 R st ast -> nth_error ast k = Some A ->
  exists m, at_ st k = Ok m /\ nth_error st k = Some m /\ R m A.
Proof.
  intro H. revert k. induction H as [|m B st ast HR H IH]; intros [|k] E; cbn in E; try discriminate.
  - injection E as ->. exists m. repeat split; apply HR.
  - destruct (IH k E) as (m' & E1 & E2 & HR'). exists m'.
    split; [|split; [exact E2|exact HR']]. apply at_ok. cbn. apply at_ok in E1. exact E1.
Qed.

Lemma Forall2_length {A B} (P : A -> B -> Prop) l l' : Forall2 P l l' -> length l = length l'.
Proof. induction 1; cbn; congruence. Qed.

Lemma R_none st ast k : Forall2 R st ast -> nth_error ast k = None -> at_ st k = UB OobIndex.
Proof.
  intros H E. apply at_ge. apply nth_error_None in E. apply Forall2_length in H. lia.
Qed.

Lemma R_upd st ast k m A : Forall2 R st ast -> R m A -> Forall2 R (upd st k m) (upd ast k A).
Proof.
  intros H HR. revert k. induction H; intros [|k]; cbn; constructor; auto.
Qed.

Lemma R_same st ast k m A : Forall2 R st ast -> nth_error ast k = Some A -> R m A ->
  Forall2 R (upd st k m) ast.
Proof.
  intros H E HR. rewrite <- (upd_same ast k A E). apply R_upd; assumption.
Qed.

Lemma upd_self {A} (l : list A) k x : nth_error l k = Some x -> upd l k x = l.
Proof. apply upd_same. Qed.

Lemma alloc_inf r c : ~ alloc_fails infinite_memory r c.
Proof. intros (e & E). discriminate. Qed.

Lemma shows_copy m A : shows m A -> shows (BM_copy infinite_memory m) A.
Proof. intro H. destruct m. exact H. Qed.

Lemma shows_assign s m A : shows m A -> shows (BM_assign s m) A.
Proof. intro H. destruct m. exact H. Qed.

Definition step_ok (st : list bm) (o : op) (r : option (list amat * out)) : Prop :=
  match r with
  | Some (ast', x) => exists st', cstep st o = Ok (st', x) /\ Forall2 R st' ast'
  | None => exists u, cstep st o = UB u
  end.

(** One object updated in place by [f]. *)
Lemma upd_obj_ok st ast k g f : Forall2 R st ast ->
  (forall m A, R m A ->
     match g A with
     | None => exists u, f m = UB u
     | Some (A', Done) => exists m', f m = Ok m' /\ R m' A'
     | Some (A', Exn e) => f m = Throw e /\ A' = A
     | Some (_, _) => False
     end) ->
  match on ast k g with
  | Some (ast', x) => exists st', upd_obj st k f = Ok (st', x) /\ Forall2 R st' ast'
  | None => exists u, upd_obj st k f = UB u
  end.
Proof.
  intros H Hf. unfold on, upd_obj. destruct (nth_error ast k) as [A|] eqn:E.
  - destruct (R_at _ _ _ _ H E) as (m & E1 & E2 & HR). rewrite E1. cbn [bind].
    specialize (Hf m A HR). destruct (g A) as [[A' [| | |e]]|]; try contradiction.
    + destruct Hf as (m' & -> & HR'). eexists. split; [reflexivity|]. apply R_upd; assumption.
    + destruct Hf as (-> & ->). eexists. split; [reflexivity|]. rewrite (upd_same ast k A E). exact H.
    + destruct Hf as (u & ->). eauto.
  - rewrite (R_none _ _ _ H E). cbn. eauto.
Qed.

Lemma step_sim st ast o : Forall2 R st ast -> size_ok o -> step_ok st o (astep ast o).
Proof.
  intros H Ho. unfold step_ok. destruct o; cbn [astep cstep] in *.
  - (* New *)
    eexists. split; [reflexivity|]. apply Forall2_app; [exact H|]. constructor; [|constructor].
    split; [rewrite BM_ctor_inf; apply shows_new|exact Ho].
  - (* Copy *)
    destruct (nth_error ast k) as [A|] eqn:E.
    + destruct (R_at _ _ _ _ H E) as (m & E1 & _ & HR). rewrite E1. cbn [bind].
      eexists. split; [reflexivity|]. apply Forall2_app; [exact H|]. constructor; [|constructor].
      split; [apply shows_copy; apply HR|apply HR].
    + rewrite (R_none _ _ _ H E). cbn. eauto.
  - (* Assign *)
    destruct (nth_error ast l) as [B|] eqn:E.
    + destruct (R_at _ _ _ _ H E) as (m & E1 & _ & HR). rewrite E1. cbn [bind].
      apply upd_obj_ok; [exact H|]. intros m0 A0 _. eexists. split; [reflexivity|].
      split; [apply shows_assign; apply HR|apply HR].
    + rewrite (R_none _ _ _ H E). cbn. eauto.
  - (* Xor *)
    destruct (nth_error ast a) as [A|] eqn:EA; [|rewrite (R_none _ _ _ H EA); cbn; eauto].
    destruct (R_at _ _ _ _ H EA) as (x & Ex & _ & (Rx & Bx)). rewrite Ex. cbn [bind].
    destruct (nth_error ast b) as [B|] eqn:EB; [|rewrite (R_none _ _ _ H EB); cbn; eauto].
    destruct (R_at _ _ _ _ H EB) as (y & Ey & _ & (Ry & By)). rewrite Ey. cbn [bind].
    apply upd_obj_ok; [exact H|]. intros m0 K HR0.
    pose proof (shows_elim _ _ Rx) as (_ & X1 & X2 & _).
    pose proof (shows_elim _ _ Ry) as (_ & Y1 & Y2 & _).
    destruct (negb ((arows A =? arows B) && (acols A =? acols B))) eqn:E1.
    + rewrite xor_mismatch by lia. split; reflexivity.
    + unfold anon_empty. destruct ((arows A =? 0) || (acols A =? 0)) eqn:E2.
      * rewrite xor_noresult by lia. split; reflexivity.
      * destruct (shows_xor infinite_memory x y A B Rx Ry) as (z & Ez & Hz); try lia.
        { split; lia. }
        { apply alloc_inf. }
        rewrite Ez. cbn [bind]. eexists. split; [reflexivity|].
        split; [destruct z; exact Hz|]. exact Bx.
  - (* Set *)
    apply upd_obj_ok; [exact H|]. intros m A (HS & HB).
    pose proof (shows_elim _ _ HS) as (_ & X1 & X2 & _).
    destruct ((i <? arows A) && (j <? acols A)) eqn:E.
    + destruct (shows_Set m A i j v HS ltac:(lia) ltac:(lia)) as (m' & Em & HS').
      exists m'. split; [exact Em|]. split; [exact HS'|exact HB].
    + rewrite Set_throw by lia. split; reflexivity.
  - (* Get *)
    unfold on. destruct (nth_error ast k) as [A|] eqn:EA; [|rewrite (R_none _ _ _ H EA); cbn; eauto].
    destruct (R_at _ _ _ _ H EA) as (m & Em & Em' & (HS & HB)). rewrite Em. cbn [bind].
    pose proof (shows_elim _ _ HS) as (_ & X1 & X2 & _).
    destruct ((i <? arows A) && (j <? acols A)) eqn:E.
    + destruct HS as (_ & _ & _ & G). rewrite G by lia. eexists. split; [reflexivity|].
      rewrite (upd_same ast k A EA). exact H.
    + rewrite Get_throw by lia. eexists. split; [reflexivity|].
      rewrite (upd_same ast k A EA). exact H.
  - (* SetRange *)
    apply upd_obj_ok; [exact H|]. intros m A (HS & HB).
    pose proof (shows_elim _ _ HS) as (Hm & X1 & X2 & _).
    destruct ((i1 <? i0) || (arows A <? i1) || (j1 <? j0) || (acols A <? j1)) eqn:E.
    + rewrite SetRange_throw by lia. split; reflexivity.
    + destruct (i1 =? arows A) eqn:E1.
      * apply Nat.eqb_eq in E1. subst i1. rewrite <- X1. rewrite SetRange_row_ub by (assumption || lia).
        eauto.
      * destruct (j1 =? acols A) eqn:E2.
        -- apply Nat.eqb_eq in E2. subst j1. destruct (acols A mod 8 =? 0) eqn:E3.
           ++ rewrite <- X2. rewrite SetRange_col_ub; eauto; try lia.
           ++ destruct (shows_SetRange_pad m A i0 j0 i1 v HS) as (m' & Em & HS'); try lia.
              exists m'. split; [exact Em|]. split; [exact HS'|exact HB].
        -- destruct (shows_SetRange m A i0 j0 i1 j1 v HS) as (m' & Em & HS'); try lia.
           exists m'. split; [exact Em|]. split; [exact HS'|exact HB].
  - (* SetByte *)
    apply upd_obj_ok; [exact H|]. intros m A (HS & HB).
    pose proof (shows_elim _ _ HS) as (Hm & X1 & X2 & _).
    destruct ((arows A <=? i) || (cdiv8 (acols A) <? jb)) eqn:E.
    + rewrite SetByte_throw; [split; reflexivity|exact Hm|]. rewrite X1, X2. lia.
    + destruct (jb =? cdiv8 (acols A)) eqn:E1.
      * apply Nat.eqb_eq in E1. subst jb. rewrite <- X2. rewrite SetByte_ub by (assumption || lia). eauto.
      * destruct (shows_SetByte m A i jb x HS ltac:(lia) ltac:(lia)) as (m' & Em & HS').
        exists m'. split; [exact Em|]. split; [exact HS'|exact HB].
  - (* Ones *)
    apply upd_obj_ok; [exact H|]. intros m A (HS & HB & HB2).
    pose proof (shows_elim _ _ HS) as (Hm & X1 & X2 & _).
    unfold anon_empty. destruct ((arows A =? 0) || (acols A =? 0)) eqn:E.
    + split; [|reflexivity]. unfold Ones. apply SetRange_throw. rewrite X1, X2.
      destruct (Nat.eq_dec (arows A) 0) as [E0|E0].
      * right. left. rewrite E0. cbn. lia.
      * assert (acols A = 0) as E1 by lia. right. right. right. rewrite E1. cbn. lia.
    + destruct (shows_Ones m A HS) as (m' & Em & HS'); try assumption; [split; lia|].
      exists m'. split; [exact Em|]. split; [exact HS'|split; assumption].
  - (* Zeros *)
    apply upd_obj_ok; [exact H|]. intros m A (HS & HB).
    destruct (shows_Zeros m A HS) as (m' & Em & HS').
    exists m'. split; [exact Em|]. split; [exact HS'|exact HB].
  - (* Resize *)
    unfold on. destruct (nth_error ast k) as [A|] eqn:EA; [|rewrite (R_none _ _ _ H EA); cbn; eauto].
    destruct (R_at _ _ _ _ H EA) as (m & Em & Em' & HR). rewrite Em. cbn [bind].
    destruct ((r =? 0) || (c =? 0)) eqn:E.
    + rewrite Resize_zero by lia. eexists. split; [reflexivity|]. apply R_upd; [exact H|exact HR].
    + destruct (Resize_ok infinite_memory m r c ltac:(lia) ltac:(lia) (alloc_inf r c)) as (m' & Em2 & HS).
      rewrite Em2. eexists. split; [reflexivity|]. apply R_upd; [exact H|]. split; [exact HS|exact Ho].
  - (* Rows *)
    unfold on. destruct (nth_error ast k) as [A|] eqn:EA; [|rewrite (R_none _ _ _ H EA); cbn; eauto].
    destruct (R_at _ _ _ _ H EA) as (m & Em & Em' & (HS & HB)). rewrite Em. cbn [bind].
    destruct HS as (_ & E1 & E2 & _). rewrite E1. eexists. split; [reflexivity|].
    rewrite (upd_same ast k A EA). exact H.
  - (* Cols *)
    unfold on. destruct (nth_error ast k) as [A|] eqn:EA; [|rewrite (R_none _ _ _ H EA); cbn; eauto].
    destruct (R_at _ _ _ _ H EA) as (m & Em & Em' & (HS & HB)). rewrite Em. cbn [bind].
    destruct HS as (_ & E1 & E2 & _). rewrite E2. eexists. split; [reflexivity|].
    rewrite (upd_same ast k A EA). exact H.
  - (* Not *)
    unfold on. destruct (nth_error ast k) as [A|] eqn:EA; [|rewrite (R_none _ _ _ H EA); cbn; eauto].
    destruct (R_at _ _ _ _ H EA) as (m & Em & Em' & (HS & HB)). rewrite Em. cbn [bind].
    rewrite (shows_not m A HS). eexists. split; [reflexivity|].
    rewrite (upd_same ast k A EA). exact H.
Qed.

Lemma run_sim ops st ast : Forall2 R st ast -> Forall size_ok ops ->
  match arun ast ops with
  | Some (ast', xs) => exists st', crun st ops = Ok (st', xs) /\ Forall2 R st' ast'
  | None => exists u, crun st ops = UB u
  end.
Proof.
  revert st ast. induction ops as [|o ops IH]; intros st ast H Ho; cbn [arun crun].
  - exists st. split; [reflexivity|exact H].
  - inversion Ho as [|? ? Ho1 Ho2]; subst.
    pose proof (step_sim st ast o H Ho1) as S. unfold step_ok in S.
    destruct (astep ast o) as [[ast' x]|].
    + destruct S as (st' & E & H'). rewrite E. cbn [bind].
      specialize (IH st' ast' H' Ho2).
      destruct (arun ast' ops) as [[ast'' xs]|].
      * destruct IH as (st'' & E' & H''). rewrite E'. cbn [bind]. eauto.
      * destruct IH as (u & E'). rewrite E'. cbn. eauto.
    + destruct S as (u & E). rewrite E. cbn. eauto.
Qed.

Lemma run_shows ops : Forall size_ok ops ->
  match arun [] ops with
  | Some (ast', xs) => exists st', crun [] ops = Ok (st', xs) /\ Forall2 shows st' ast'
  | None => exists u, crun [] ops = UB u
  end.
Proof.
  intro Ho. pose proof (run_sim ops [] [] (Forall2_nil _) Ho) as S.
  destruct (arun [] ops) as [[ast' xs]|]; [|exact S].
  destruct S as (st' & E & H). exists st'. split; [exact E|].
  clear E. induction H; constructor; auto. apply H.
Qed.

(** Moves *)
Lemma moved_from_broken m i j v : healthy m -> i < Isize m -> j < Jsize m ->
  let src := snd (BM_move m) in
  GetRowCount src = GetRowCount m /\ GetColumnCount src = GetColumnCount m /\
  Get src i j = UB OobIndex /\ Set_ src i j v = UB OobIndex.
Proof.
  intros H Hi Hj. cbn [BM_move snd V_move].
  assert ((Isize m <=? i) || (Jsize m <=? j) = false) as E by lia.
  unfold Get, Set_, GetRowCount, GetColumnCount, cell_. cbn [Bitmap Isize Jsize]. rewrite E.
  assert (at_ (@nil (list byte)) i = UB OobIndex) as -> by (apply at_ge; cbn; lia).
  cbn [bind]. repeat split.
Qed.

(** The object a call may change. *)
Definition writes (o : op) : option nat :=
  match o with
  | Assign k _ | XorAssign k _ _ | OSet k _ _ _ | OSetRange k _ _ _ _ _ | OSetByte k _ _ _
  | OOnes k | OZeros k | OResize k _ _ => Some k
  | _ => None
  end.

Lemma upd_obj_other st k f st' x n : upd_obj st k f = Ok (st', x) -> n <> k ->
  nth_error st' n = nth_error st n /\ length st' = length st.
Proof.
  unfold upd_obj. intros H Hn. destruct (at_ st k); cbn in H; try discriminate.
  destruct (f a); try discriminate; injection H as <- <-; [|auto].
  rewrite nth_error_upd, upd_length. apply Nat.eqb_neq in Hn. rewrite Hn. auto.
Qed.

Lemma cstep_other st o st' x n : cstep st o = Ok (st', x) -> writes o <> Some n -> n < length st ->
  nth_error st' n = nth_error st n /\ length st <= length st'.
Proof.
  intros H Hw Hn.
  assert (forall k f, Some k <> Some n -> upd_obj st k f = Ok (st', x) ->
    nth_error st' n = nth_error st n /\ length st <= length st') as U.
  { intros k f Hk E. destruct (upd_obj_other _ _ _ _ _ n E) as (A & B); [congruence|]. split; [exact A|lia]. }
  destruct o; cbn [cstep writes] in *.
  - injection H as <- <-. rewrite nth_error_app1, app_length by exact Hn. split; [reflexivity|lia].
  - destruct (at_ st k); cbn in H; try discriminate. injection H as <- <-.
    rewrite nth_error_app1, app_length by exact Hn. split; [reflexivity|lia].
  - destruct (at_ st l); cbn [bind] in H; try discriminate. eapply U; eassumption.
  - destruct (at_ st a); cbn [bind] in H; try discriminate.
    destruct (at_ st b); cbn [bind] in H; try discriminate. eapply U; eassumption.
  - eapply U; eassumption.
  - destruct (at_ st k); cbn [bind] in H; try discriminate.
    destruct (Get a i j); try discriminate; injection H as <- <-; auto.
  - eapply U; eassumption.
  - eapply U; eassumption.
  - eapply U; eassumption.
  - eapply U; eassumption.
  - destruct (at_ st k); cbn [bind] in H; try discriminate.
    destruct (Resize infinite_memory a r c) as [m' [|e|]]; try discriminate; injection H as <- <-;
      rewrite nth_error_upd, upd_length; (destruct (n =? k) eqn:E; [apply Nat.eqb_eq in E; congruence|]); auto.
  - destruct (at_ st k); cbn [bind] in H; try discriminate. injection H as <- <-; auto.
  - destruct (at_ st k); cbn [bind] in H; try discriminate. injection H as <- <-; auto.
  - destruct (at_ st k); cbn [bind] in H; try discriminate. injection H as <- <-; auto.
Qed.

Lemma crun_other ops st st' xs n : crun st ops = Ok (st', xs) ->
  Forall (fun o => writes o <> Some n) ops -> n < length st -> nth_error st' n = nth_error st n.
Proof.
  revert st xs. induction ops as [|o ops IH]; intros st xs H HF Hn; cbn [crun] in H.
  - injection H as <- <-. reflexivity.
  - inversion HF as [|? ? H1 H2]; subst.
    destruct (cstep st o) as [[st1 x]| |] eqn:E; cbn [bind] in H; try discriminate.
    destruct (crun st1 ops) as [[st2 ys]| |] eqn:E2; cbn [bind] in H; try discriminate.
    injection H as <- <-.
    destruct (cstep_other _ _ _ _ n E H1 Hn) as (A & B).
    rewrite <- A. eapply IH; [exact E2|exact H2|lia].
Qed.
