(** C118: a moved-from matrix on the left of ^, Compare, == and !=.
    Specifications: S_Matrix ([shows], [azero], [memory_ok]), S_Double ([real]), S_Ratio. *)
From Coq Require Import Reals Lra.
From Flocq Require Import Core IEEE754.BinarySingleNaN.
From Verif Require Import Prelude P_Prelude M_Double S_Double P_Double M_ByteHandler M_Vector2D M_BitMatrix S_Matrix
  P_BitMatrix P_Cells P_Serial P_Vector2D M_LayoutCore M_Rle S_Rle P_Rle S_Ratio M_Ratio P_Ratio P_Rank M_Hash
  Props_BitMatrix Props_Ratio.
Local Open Scope nat_scope.

(** ** C118 *)
Lemma moved_xor al m A b B : shows m A -> shows b B -> arows A = arows B -> acols A = acols B ->
  nonempty A -> memory_ok al (arows A) (acols A) ->
  bm_xor al (snd (BM_move m)) b = Ok (BM_ctor al (arows A) (acols A)).
Proof.
  intros Sm Sb E1 E2 (N1 & N2) M.
  apply shows_elim in Sm as (_ & A1 & A2 & _). apply shows_elim in Sb as (_ & B1 & B2 & _).
  pose proof (C04_constructor_zero al _ _ M) as S0. apply shows_elim in S0 as (H0 & Z1 & Z2 & _).
  cbn in Z1, Z2. unfold bm_xor. cbn [BM_move V_move snd Isize Jsize Bitmap].
  rewrite A1, A2, B1, B2, E1, E2, !Nat.eqb_refl. cbn [negb orb].
  replace (BM_not (BM_ctor al (arows B) (acols B))) with false; [reflexivity|].
  rewrite <- E1, <- E2. symmetry. rewrite (BM_not_healthy _ H0), Z1, Z2.
  replace (arows A =? 0) with false by (symmetry; apply Nat.eqb_neq; lia).
  replace (acols A =? 0) with false by (symmetry; apply Nat.eqb_neq; lia). reflexivity.
Qed.

(** The left operand of ^ is a moved-from matrix: the result is all zeros, whatever the right operand shows. *)
Theorem C118_xor : forall al m A b B, shows m A -> shows b B -> arows A = arows B -> acols A = acols B ->
  nonempty A -> memory_ok al (arows A) (acols A) ->
  exists z, bm_xor al (snd (BM_move m)) b = Ok z /\ shows z (azero (arows A) (acols A)).
Proof.
  intros al m A b B Sm Sb E1 E2 N M. eexists. split; [exact (moved_xor al m A b B Sm Sb E1 E2 N M)|].
  apply C04_constructor_zero. exact M.
Qed.

Lemma moved_compare al m A b B : shows m A -> shows b B -> arows A = arows B -> acols A = acols B ->
  nonempty A -> memory_ok al (arows A) (acols A) ->
  Compare al (snd (BM_move m)) b = Compare al (BM_ctor al (arows A) (acols A)) (BM_ctor al (arows A) (acols A)).
Proof.
  intros Sm Sb E1 E2 N M. unfold Compare. rewrite (moved_xor al m A b B Sm Sb E1 E2 N M). cbn [bind].
  pose proof (C04_constructor_zero al _ _ M) as S0. set (z := BM_ctor al (arows A) (acols A)) in *.
  destruct (shows_xor al z z _ _ S0 S0 eq_refl eq_refl N (memory_ok_alloc _ _ _ M)) as (z' & E & S').
  rewrite E. cbn [bind]. unfold OneRatio. rewrite (CalcRatio_bits z z' _ _ true S0 S'); [reflexivity|].
  repeat split. 
Qed.

(** Compare, == and != with a moved-from matrix on the left: a perfect match with any matrix of the old size. *)
Theorem C118_matches_everything : forall al m A b B, shows m A -> shows b B -> arows A = arows B -> acols A = acols B ->
  nonempty A -> memory_ok al (arows A) (acols A) -> (Z.of_nat (cell_number A) <= 2 ^ 38)%Z ->
  (exists x, Compare al (snd (BM_move m)) b = Ok x /\ real x 1) /\
  bm_eq al (snd (BM_move m)) b = Ok true /\ bm_ne al (snd (BM_move m)) b = Ok false.
Proof.
  intros al m A b B Sm Sb E1 E2 N M H.
  pose proof (moved_compare al m A b B Sm Sb E1 E2 N M) as E.
  pose proof (C04_constructor_zero al _ _ M) as S0. set (z := BM_ctor al (arows A) (acols A)) in *.
  assert (M' : ~ out_of_memory al (arows A) (acols A)).
  { intros F. apply oom_alloc in F. exact (memory_ok_alloc _ _ _ M F). }
  assert (Hn : (0 < Z.of_nat (cell_number A))%Z) by (unfold nonempty in N; unfold cell_number; nia).
  destruct (C11_equality al z z _ _ S0 S0 eq_refl eq_refl N M' H) as (e & n & Q1 & Q2 & Q3 & Q4).
  rewrite differences_self in Q3, Q4. change (cell_number (azero (arows A) (acols A))) with (cell_number A) in *.
  assert (e = true) as -> by (apply Q3; lia).
  assert (n = false) as ->. { destruct n; [|reflexivity]. exfalso. pose proof (proj1 Q4 eq_refl). lia. }
  split; [|unfold bm_eq, bm_ne in *; rewrite E; split; assumption].
  destruct (Compare_ok al z z _ _ S0 S0 eq_refl eq_refl N M' ltac:(change (cell_number (azero (arows A) (acols A))) with (cell_number A); lia)) as (x & Ex & Rx).
  exists x. rewrite E. split; [exact Ex|]. rewrite differences_self in Rx. change (Z.of_nat 0) with 0%Z in Rx.
  assert (Z1 : score 0 (Z.of_nat (cell_number A)) = 1%R).
  { unfold score. replace (0 / IZR (Z.of_nat (cell_number A)))%R with 0%R by (unfold Rdiv; ring).
    rewrite rnd_0. replace (1 - 0)%R with 1%R by ring. apply rnd_1. }
  rewrite <- Z1. exact Rx.
Qed.

Lemma at_nil {T} i : at_ (@nil T) i = UB OobIndex.
Proof. destruct i; reflexivity. Qed.

(** On the right it is undefined behaviour. *)
Theorem C118_right_operand : forall al m A b B, shows m A -> shows b B -> arows A = arows B -> acols A = acols B ->
  nonempty A -> memory_ok al (arows A) (acols A) ->
  bm_xor al b (snd (BM_move m)) = UB OobIndex /\ Compare al b (snd (BM_move m)) = UB OobIndex /\
  bm_eq al b (snd (BM_move m)) = UB OobIndex /\ bm_ne al b (snd (BM_move m)) = UB OobIndex.
Proof.
  intros al m A b B Sm Sb E1 E2 (N1 & N2) M.
  assert (X : bm_xor al b (snd (BM_move m)) = UB OobIndex).
  { apply shows_elim in Sm as (_ & A1 & A2 & _). apply shows_elim in Sb as ((HL & HF) & B1 & B2 & _).
    pose proof (C04_constructor_zero al _ _ M) as S0. apply shows_elim in S0 as (H0 & Z1 & Z2 & _).
    cbn in Z1, Z2. unfold bm_xor. cbn [BM_move V_move snd Isize Jsize].
    rewrite A1, A2, B1, B2, <- E1, <- E2, !Nat.eqb_refl. cbn [negb orb].
    rewrite (BM_not_healthy _ H0), Z1, Z2.
    replace (arows A =? 0) with false by (symmetry; apply Nat.eqb_neq; lia).
    replace (acols A =? 0) with false by (symmetry; apply Nat.eqb_neq; lia). cbn [orb].
    destruct (Bitmap b) as [|r0 rs] eqn:Eb; [cbn [length] in HL; lia|].
    unfold V_RowCount. cbn [length]. unfold upto. rewrite Nat.sub_0_r. cbn [seq for_each].
    unfold V_ColCount. cbn [at_ nth_error bind].
    inversion HF as [|? ? L0 _]; subst. destruct r0 as [|x0 r0].
    { exfalso. cbn [length] in L0. rewrite B2, <- E2 in L0. unfold cdiv8 in L0.
      assert (1 <= (acols A + 7) / 8) by (apply Nat.div_le_lower_bound; lia). lia. }
    cbn [length]. rewrite Nat.sub_0_r. cbn [seq for_each]. unfold cell_ at 1. rewrite ?Eb. cbn [at_ nth_error bind].
    reflexivity. }
  unfold bm_eq, bm_ne, Compare. rewrite X. repeat split; reflexivity.
Qed.

(** The rest of the interface: some calls reject the matrix as empty, some do nothing, some are undefined. *)
Theorem C118_other_calls : forall al m A, shows m A -> nonempty A ->
  BM_not (snd (BM_move m)) = true /\ Serialize (snd (BM_move m)) = Throw RuntimeError /\
  GetHash al (snd (BM_move m)) = Throw InvalidArgument /\ Zeros (snd (BM_move m)) = Ok (snd (BM_move m)) /\
  OneRatio (snd (BM_move m)) = UB OobIndex /\ ZeroRatio (snd (BM_move m)) = UB OobIndex.
Proof.
  intros al m A Sm (N1 & N2). apply shows_elim in Sm as (_ & A1 & A2 & _).
  assert (X : forall v, CalcRatio (snd (BM_move m)) v = UB OobIndex).
  { intros v. unfold CalcRatio. cbn [BM_move V_move snd Isize Jsize]. rewrite A1, A2.
    destruct (arows A) as [|r]; [lia|]. destruct (acols A) as [|c]; [lia|].
    unfold upto. rewrite !Nat.sub_0_r. cbn [seq for_each]. unfold UnsafeGet, cell_. cbn [Bitmap]. rewrite at_nil. reflexivity. }
  repeat split; try reflexivity; [|exact (X true)|exact (X false)].
  unfold GetHash, EncodeHash, LM_not, BM_copy. cbn [BM_move V_move snd Bitmap].
  destruct (al _ _); reflexivity.
Qed.

(** It can be used again after Resize or assignment. *)
Theorem C118_revived : forall al m b B r c, shows b B -> 0 < r -> 0 < c -> memory_ok al r c ->
  shows (BM_assign (snd (BM_move m)) b) B /\
  exists m', Resize al (snd (BM_move m)) r c = (m', Ok tt) /\ shows m' (azero r c).
Proof.
  intros al m b B r c Sb Hr Hc M. split; [|apply C04_resize_zero; assumption].
  destruct b. exact Sb.
Qed.

Example C118_example : exists a b, Set_ (BM_ctor infinite_memory 2 9) 1 8 true = Ok a /\ Ones (BM_ctor infinite_memory 2 9) = Ok b /\
  bm_eq infinite_memory (snd (BM_move a)) b = Ok true /\ bm_ne infinite_memory (snd (BM_move a)) b = Ok false /\
  bm_eq infinite_memory a b = Ok false /\ bm_eq infinite_memory b (snd (BM_move a)) = UB OobIndex.
Proof.
  do 2 eexists. split; [vm_compute; reflexivity|]. split; [vm_compute; reflexivity|].
  repeat split; vm_compute; reflexivity.
Qed.

Print Assumptions C118_xor.
Print Assumptions C118_matches_everything.
Print Assumptions C118_right_operand.
Print Assumptions C118_other_calls.
Print Assumptions C118_revived.
