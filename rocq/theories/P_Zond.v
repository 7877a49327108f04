(** Lemmas about zonding: loops. *)
From Coq Require Import Reals Lra.
From Flocq Require Import Core IEEE754.BinarySingleNaN.
From Verif Require Import Prelude P_Prelude M_Double S_Double P_Double M_LayoutData M_Loop P_Loop M_Vector2D M_BitMatrix S_Matrix P_BitMatrix
  M_Zond S_Zond.
Local Open Scope Z_scope.

Lemma to_int32_small z : int32 z -> to_int32 z = z.
Proof. unfold int32, to_int32. intros H. rewrite Z.mod_small; lia. Qed.

Lemma to_int32_range z : int32 (to_int32 z).
Proof. unfold int32, to_int32. pose proof (Z.mod_pos_bound (z + 2 ^ 31) (2 ^ 32) eq_refl). lia. Qed.

Lemma to_size_small z : 0 <= z < 2 ^ 64 -> to_size z = z.
Proof. intros H. unfold to_size. now rewrite Z.mod_small. Qed.

Lemma to_size_range z : 0 <= to_size z < 2 ^ 64.
Proof. apply Z.mod_pos_bound. reflexivity. Qed.

Lemma sub32_ok a b : int32 (a - b) -> sub32 a b = Ok (a - b).
Proof. unfold int32, sub32, chk32. intros H. replace (_ && _) with true by lia. reflexivity. Qed.

Lemma sub32_cases a b : sub32 a b = Ok (a - b) \/ sub32 a b = UB SignedOverflow.
Proof. unfold sub32, chk32. destruct (_ && _); tauto. Qed.

(** total correctness of a counting loop that ends at hi *)
Lemma for32_total (I : Z -> bm -> Prop) start cond body m hi :
  0 <= start < 2 ^ 31 -> start <= hi <= 2 ^ 31 - 1 ->
  (forall i, start <= i < hi -> cond i = true) -> cond hi = false ->
  I start m ->
  (forall i m, start <= i < hi -> I i m -> exists m', body m i = (m', Ok tt) /\ I (i + 1) m') ->
  exists m', for32 start cond body m = (m', Ok tt) /\ I hi m'.
Proof.
  intros Hs Hh Hc Hn H0 Hb. unfold for32. rewrite to_int32_small by (unfold int32; lia).
  match goal with |- context [loop ?g _ _] => set (f := g) end.
  assert (G : forall n i m, start <= i -> i + Z.of_nat n = hi -> I i m ->
            exists m', iter_nat (S n) f (i, m) = Stop (m', Ok tt) /\ I hi m').
  { induction n as [|n IH]; intros i m1 H1 H2 HI.
    - assert (i = hi) by lia. subst i. exists m1. split; [|exact HI]. cbn [iter_nat]. unfold f at 1.
      now rewrite Hn.
    - assert (Hi : start <= i < hi) by lia.
      destruct (Hb i m1 Hi HI) as (m2 & E & HI2).
      destruct (IH (i + 1) m2 ltac:(lia) ltac:(lia) HI2) as (m3 & E3 & I3).
      exists m3. split; [|exact I3]. cbn [iter_nat]. unfold f at 1. rewrite (Hc i Hi), E.
      replace (i =? 2 ^ 31 - 1) with false by lia. exact E3. }
  destruct (G (Z.to_nat (hi - start)) start m ltac:(lia) ltac:(lia) H0) as (m' & E & HI).
  exists m'. split; [|exact HI]. eapply loop_stops; [|exact E]. lia.
Qed.

(** partial correctness: no exception escapes if none escapes the body *)
Definition no_throw (o : res unit) : Prop := match o with Throw _ => False | _ => True end.

Lemma for32_safe (J : bm -> Prop) start cond body m :
  J m ->
  (forall i m, to_int32 start <= i -> i < 2 ^ 31 -> cond i = true -> J m -> J (fst (body m i)) /\ no_throw (snd (body m i))) ->
  J (fst (for32 start cond body m)) /\ no_throw (snd (for32 start cond body m)).
Proof.
  intros HJ Hb. unfold for32.
  apply (loop_safe (fun st => to_int32 start <= fst st < 2 ^ 31 /\ J (snd st)) (fun r => J (fst r) /\ no_throw (snd r))).
  - split; [|exact HJ]. cbn [fst]. pose proof (to_int32_range start). unfold int32 in *. lia.
  - intros [i m1] ((H1 & H2) & HJ1). cbn [fst snd] in *. destruct (cond i) eqn:C.
    + destruct (Hb i m1 H1 H2 C HJ1) as (A & B). destruct (body m1 i) as [m2 [u|e|u]]; cbn [fst snd] in *.
      * destruct (i =? 2 ^ 31 - 1) eqn:L; cbn [fst snd]; [split; [exact A|exact Logic.I]|]. split; [lia|exact A].
      * destruct B.
      * split; [exact A|exact Logic.I].
    + cbn [fst snd]. split; [exact HJ1|exact Logic.I].
  - intros [i m1] (_ & HJ1). cbn [fst snd] in *. split; [exact HJ1|exact Logic.I].
Qed.

(** drawing one cell *)
Definition one (i j : Z) (a b : Z) : bool := (a =? i) && (b =? j).

Lemma shows_ext m A B : shows m A -> asame A B -> shows m B.
Proof.
  intros (H & H1 & H2 & H3) (E1 & E2 & E3). repeat split; try (apply H); try congruence.
  intros i j Hi Hj. rewrite H3 by lia. rewrite E3 by lia. reflexivity.
Qed.

Lemma try_set_ok m A i j : shows m A ->
  exists m', try_set m i j = (m', Ok tt) /\ shows m' (adraw A (one (to_size i) (to_size j))).
Proof.
  intros S. unfold try_set.
  destruct (Nat.lt_ge_cases (Z.to_nat (to_size i)) (arows A)) as [Hi|Hi].
  - destruct (Nat.lt_ge_cases (Z.to_nat (to_size j)) (acols A)) as [Hj|Hj].
    + destruct (shows_Set m A _ _ true S Hi Hj) as (m' & E & S').
      rewrite E. exists m'. split; [reflexivity|].
      eapply shows_ext; [exact S'|]. repeat split. cbn [arows acols acell aset adraw]. intros a b Ha Hb. unfold one.
      pose proof (to_size_range i). pose proof (to_size_range j).
      destruct ((a =? Z.to_nat (to_size i))%nat && (b =? Z.to_nat (to_size j))%nat) eqn:Q.
      * replace ((Z.of_nat a =? _) && _) with true by lia. now rewrite orb_true_r.
      * replace ((Z.of_nat a =? _) && _) with false by lia. now rewrite orb_false_r.
    + pose proof S as S'. apply shows_elim in S' as (_ & _ & E2 & _).
      rewrite Set_throw by (right; rewrite E2; exact Hj). exists m. split; [reflexivity|].
      eapply shows_ext; [exact S|]. repeat split. cbn [arows acols acell adraw]. intros a b Ha Hb. unfold one.
      pose proof (to_size_range j). replace ((Z.of_nat a =? _) && _) with false by lia. now rewrite orb_false_r.
  - pose proof S as S'. apply shows_elim in S' as (_ & E1 & _).
    rewrite Set_throw by (left; rewrite E1; exact Hi). exists m. split; [reflexivity|].
    eapply shows_ext; [exact S|]. repeat split. cbn [arows acols acell adraw]. intros a b Ha Hb. unfold one.
    pose proof (to_size_range i). replace ((Z.of_nat a =? _) && _) with false by lia. now rewrite orb_false_r.
Qed.

(** the inclusive block of cells i0..i1 x j0..j1 *)
Definition block (i0 i1 j0 j1 : Z) (a b : Z) : bool :=
  (i0 <=? a) && (a <=? i1) && (j0 <=? b) && (b <=? j1).

(** Two nested counting loops with ends i1, j1 draw a block. *)
Lemma for32_block A i0 i1 j0 j1 ci cj m :
  0 <= i0 < 2 ^ 31 -> 0 <= j0 < 2 ^ 31 -> i0 <= i1 + 1 <= 2 ^ 31 - 1 -> j0 <= j1 + 1 <= 2 ^ 31 - 1 ->
  (forall i, i0 <= i <= i1 -> ci i = true) -> ci (i1 + 1) = false ->
  (forall j, j0 <= j <= j1 -> cj j = true) -> cj (j1 + 1) = false ->
  shows m A ->
  exists m', for32 i0 ci (fun m i => for32 j0 cj (fun m j => try_set m i j) m) m = (m', Ok tt) /\
    shows m' (adraw A (block i0 i1 j0 j1)).
Proof.
  intros Hi Hj Li Lj C1 C2 C3 C4 S.
  destruct (for32_total (fun i m => shows m (adraw A (block i0 (i - 1) j0 j1))) i0 ci
    (fun m i => for32 j0 cj (fun m j => try_set m i j) m) m (i1 + 1)) as (m' & E & I'); try assumption.
  - intros i Hi'. apply C1. lia.
  - eapply shows_ext; [exact S|]. repeat split. cbn [arows acols acell adraw]. intros a b Ha Hb. unfold block.
    replace (_ && _) with false by lia. now rewrite orb_false_r.
  - intros i m1 Hi' S1.
    destruct (for32_total (fun j m => shows m (adraw (adraw A (block i0 (i - 1) j0 j1)) (block i i j0 (j - 1)))) j0 cj
      (fun m j => try_set m i j) m1 (j1 + 1)) as (m2 & E2 & I2); try assumption.
    + intros j Hj'. apply C3. lia.
    + eapply shows_ext; [exact S1|]. repeat split. cbn [arows acols acell adraw]. intros a b Ha Hb. unfold block.
      replace ((i <=? Z.of_nat a) && (Z.of_nat a <=? i) && (j0 <=? Z.of_nat b) && (Z.of_nat b <=? j0 - 1)) with false by lia.
      now rewrite orb_false_r.
    + intros j m2 Hj' S2. destruct (try_set_ok m2 _ i j S2) as (m3 & E3 & S3).
      exists m3. split; [exact E3|]. eapply shows_ext; [exact S3|].
      repeat split. cbn [arows acols acell adraw]. intros a b Ha Hb.
      rewrite !to_size_small by lia. unfold block, one.
      rewrite <- !orb_assoc. f_equal. f_equal.
      lia.
    + exists m2. split; [exact E2|]. eapply shows_ext; [exact I2|].
      repeat split. cbn [arows acols acell adraw]. intros a b Ha Hb. unfold block.
      rewrite <- !orb_assoc. f_equal. lia.
  - exists m'. split; [exact E|]. eapply shows_ext; [exact I'|].
    repeat split. cbn [arows acols acell adraw]. intros a b Ha Hb. unfold block. f_equal. lia.
Qed.

(** ** Only bits inside the bounds are added *)
Lemma only_adds_refl b A : only_adds b A A.
Proof. repeat split; auto; intros; congruence. Qed.

Lemma only_adds_one b A B i j : within b i j -> only_adds b A B -> only_adds b A (adraw B (one i j)).
Proof.
  intros W (E1 & E2 & E3). split; [exact E1|]. split; [exact E2|]. cbn [arows acols acell adraw].
  intros a c Ha Hc. destruct (E3 a c Ha Hc) as (F1 & F2). split.
  - intros Q. rewrite (F1 Q). reflexivity.
  - unfold one. destruct ((Z.of_nat a =? i) && (Z.of_nat c =? j)) eqn:Q.
    + intros _. replace (Z.of_nat a) with i by lia. replace (Z.of_nat c) with j by lia. exact W.
    + rewrite orb_false_r. exact F2.
Qed.

Lemma for32_adds b A si sj ci cj m :
  shows m A ->
  (forall i, to_int32 si <= i -> i < 2 ^ 31 -> ci i = true -> iBegin b <= to_size i <= iEnd b) ->
  (forall j, to_int32 sj <= j -> j < 2 ^ 31 -> cj j = true -> jBegin b <= to_size j <= jEnd b) ->
  forall r, for32 si ci (fun m i => for32 sj cj (fun m j => try_set m i j) m) m = r ->
  (exists B, shows (fst r) B /\ only_adds b A B) /\ no_throw (snd r).
Proof.
  intros S Ci Cj r <-.
  apply (for32_safe (fun m => exists B, shows m B /\ only_adds b A B)).
  - exists A. split; [exact S|apply only_adds_refl].
  - intros i m1 Hi1 Hi2 Hci J1.
    apply (for32_safe (fun m => exists B, shows m B /\ only_adds b A B)); [exact J1|].
    intros j m2 Hj1 Hj2 Hcj (B & SB & OB).
    destruct (try_set_ok m2 B i j SB) as (m3 & E3 & S3). rewrite E3. cbn [fst snd]. split; [|exact Logic.I].
    eexists. split; [exact S3|]. apply only_adds_one; [|exact OB].
    split; [now apply Ci|now apply Cj].
Qed.

Lemma rect_adds z g m A : shows m A -> 0 <= iBegin (boundIndicies z) < 2 ^ 31 -> 0 <= jBegin (boundIndicies z) < 2 ^ 31 ->
  forall r, ZondRectangle z g m = r ->
  (exists B, shows (fst r) B /\ only_adds (boundIndicies z) A B) /\
  (forall e, snd r = Throw e -> fst r = m).
Proof.
  intros S Hi Hj r E. unfold ZondRectangle in E.
  assert (T : forall u, (exists B, shows (fst (m, u : res unit)) B /\ only_adds (boundIndicies z) A B) /\
                        (forall e, snd (m, u) = Throw e -> fst (m, u) = m)).
  { intros u. split; [exists A; split; [exact S|apply only_adds_refl]|]. reflexivity. }
  destruct (at_ (g_coords g) 0) as [lt| |]; [|subst r; apply T|subst r; apply T].
  destruct (at_ (g_coords g) 2) as [rb| |]; [|subst r; apply T|subst r; apply T].
  destruct (covers_test z lt rb).
  - eapply (for32_adds (boundIndicies z)) in E; [|exact S| |].
    + destruct E as (E1 & E2). split; [exact E1|]. intros e He. rewrite He in E2. destruct E2.
    + rewrite to_int32_small by (unfold int32; lia). intros i H1 H2 H3. rewrite to_size_small in * by lia. lia.
    + rewrite to_int32_small by (unfold int32; lia). intros i H1 H2 H3. rewrite to_size_small in * by lia. lia.
  - destruct (rect_indices z lt rb) as [n| |]; [|subst r; apply T|subst r; apply T].
    eapply (for32_adds (boundIndicies z)) in E; [|exact S| |].
    + destruct E as (E1 & E2). split; [exact E1|]. intros e He. rewrite He in E2. destruct E2.
    + intros i _ _ H3. lia.
    + intros j _ _ H3. lia.
Qed.
