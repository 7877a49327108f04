(** Zonding does the same whatever the matrix holds: it adds a set of cells that depends on the
    zond and the geometry only, and ends the same way. *)
From Coq Require Import Permutation.
From Verif Require Import Prelude P_Prelude M_Double M_LayoutData M_Loop P_Loop M_Vector2D M_BitMatrix S_Matrix P_BitMatrix
  M_Zond S_Zond P_Zond M_Generator.
Local Open Scope Z_scope.

(** an action on a matrix that adds the cells [sel] and ends with [o] *)
Definition adds (act : bm -> bm * res unit) (sel : Z -> Z -> bool) (o : res unit) : Prop :=
  forall m A, shows m A -> exists m', act m = (m', o) /\ shows m' (adraw A sel).

Definition uniform (act : bm -> bm * res unit) : Prop := exists sel o, adds act sel o.

Lemma adraw_none A : asame A (adraw A (fun _ _ => false)).
Proof. repeat split. cbn. intros. now rewrite orb_false_r. Qed.

Lemma adraw_two A s t : asame (adraw (adraw A s) t) (adraw A (fun i j => s i j || t i j)).
Proof. repeat split. cbn. intros. now rewrite orb_assoc. Qed.

Lemma adds_skip o : adds (fun m => (m, o)) (fun _ _ => false) o.
Proof. intros m A S. exists m. split; [reflexivity|]. eapply shows_ext; [exact S|apply adraw_none]. Qed.

Lemma adds_ext act act' sel o : (forall m, act m = act' m) -> adds act sel o -> adds act' sel o.
Proof. intros E H m A S. rewrite <- E. apply H, S. Qed.

Lemma adds_ub u : adds (fun m => (m, UB u)) (fun _ _ => false) (UB u).
Proof. apply adds_skip. Qed.

Lemma for32_uniform start cond body :
  (forall i, uniform (fun m => body m i)) -> uniform (for32 start cond body).
Proof.
  intros Hb. unfold for32. generalize (to_int32 start). intros i0.
  match goal with |- context [loop ?g _ _] => set (f := g) end.
  assert (G : forall n i,
    (exists sel i', forall m A, shows m A -> exists m', iter_nat n f (i, m) = Next (i', m') /\ shows m' (adraw A sel)) \/
    (exists sel o, forall m A, shows m A -> exists m', iter_nat n f (i, m) = Stop (m', o) /\ shows m' (adraw A sel))).
  { induction n as [|n IH]; intros i.
    - left. exists (fun _ _ => false), i. intros m A S. exists m. split; [reflexivity|].
      eapply shows_ext; [exact S|apply adraw_none].
    - cbn [iter_nat]. unfold f at 1 3. destruct (cond i).
      2:{ right. exists (fun _ _ => false), (Ok tt). intros m A S. exists m. split; [reflexivity|].
          eapply shows_ext; [exact S|apply adraw_none]. }
      destruct (Hb i) as (s1 & o1 & H1).
      destruct o1 as [u|e|u].
      + destruct (i =? 2 ^ 31 - 1) eqn:L.
        * right. exists s1, (UB SignedOverflow). intros m A S. destruct (H1 m A S) as (m' & E & S').
          exists m'. rewrite E. split; [reflexivity|exact S'].
        * destruct (IH (i + 1)) as [(s2 & i' & H2)|(s2 & o & H2)]; [left|right];
            [exists (fun a b => s1 a b || s2 a b), i'|exists (fun a b => s1 a b || s2 a b), o];
            intros m A S; destruct (H1 m A S) as (m' & E & S'); rewrite E;
            destruct (H2 m' _ S') as (m2 & E2 & S2); exists m2;
            (split; [exact E2|eapply shows_ext; [exact S2|apply adraw_two]]).
      + right. exists s1, (Throw e). intros m A S. destruct (H1 m A S) as (m' & E & S').
        exists m'. rewrite E. split; [reflexivity|exact S'].
      + right. exists s1, (UB u). intros m A S. destruct (H1 m A S) as (m' & E & S').
        exists m'. rewrite E. split; [reflexivity|exact S']. }
  unfold loop. destruct (G (Pos.to_nat loop_bound) i0) as [(sel & i' & H)|(sel & o & H)].
  - exists sel, (UB Diverges). intros m A S. destruct (H m A S) as (m' & E & S').
    exists m'. rewrite iter_pos_nat, E. split; [reflexivity|exact S'].
  - exists sel, o. intros m A S. destruct (H m A S) as (m' & E & S').
    exists m'. rewrite iter_pos_nat, E. split; [reflexivity|exact S'].
Qed.

Lemma try_set_uniform i j : uniform (fun m => try_set m i j).
Proof.
  exists (one (to_size i) (to_size j)), (Ok tt). intros m A S. apply try_set_ok. exact S.
Qed.

Lemma ZondGeometry_uniform z g : uniform (ZondGeometry z g).
Proof.
  unfold ZondGeometry. destruct g as [g|]; [|eexists _, _; apply adds_skip].
  destruct (g_type g); try (eexists _, _; apply adds_skip).
  unfold ZondRectangle. destruct (at_ (g_coords g) 0) as [lt| |]; try (eexists _, _; apply adds_skip).
  destruct (at_ (g_coords g) 2) as [rb| |]; try (eexists _, _; apply adds_skip).
  destruct (covers_test z lt rb).
  - apply for32_uniform. intros i. apply for32_uniform. intros j. apply try_set_uniform.
  - destruct (rect_indices z lt rb); try (eexists _, _; apply adds_skip).
    apply for32_uniform. intros i. apply for32_uniform. intros j. apply try_set_uniform.
Qed.

(** A list of geometries: the outcome is Ok if and only if each one's is; the cells are the
    union. *)
Inductive all_add (z : zond) : list geom -> list (Z -> Z -> bool) -> Prop :=
| all_add_nil : all_add z [] []
| all_add_cons g t s ss : adds (ZondGeometry z (Some g)) s (Ok tt) -> all_add z t ss -> all_add z (g :: t) (s :: ss).

Definition union (ss : list (Z -> Z -> bool)) : Z -> Z -> bool := fun i j => existsb (fun s => s i j) ss.

Lemma zond_all_ok z gs ss : all_add z gs ss -> forall m A, shows m A ->
  exists m', zond_all z gs m = (m', Ok tt) /\ shows m' (adraw A (union ss)).
Proof.
  induction 1 as [|g t s ss Hs Ht IH]; intros m A S; cbn [zond_all].
  - exists m. split; [reflexivity|]. eapply shows_ext; [exact S|apply adraw_none].
  - destruct (Hs m A S) as (m1 & E1 & S1). rewrite E1.
    destruct (IH m1 _ S1) as (m2 & E2 & S2). exists m2. split; [exact E2|].
    eapply shows_ext; [exact S2|apply adraw_two].
Qed.

(** either all are fine, or the outcome is the same failure for every matrix *)
Lemma zond_all_cases z gs :
  (exists ss, all_add z gs ss) \/
  (exists g sel o, In g gs /\ adds (ZondGeometry z (Some g)) sel o /\ o <> Ok tt /\
     exists sel', adds (zond_all z gs) sel' o).
Proof.
  induction gs as [|g t IH]; [left; exists []; constructor|].
  destruct (ZondGeometry_uniform z (Some g)) as (s & o & H).
  destruct o as [[]|e|u].
  - destruct IH as [(ss & Hss)|(g' & sel & o & Hin & Ha & Ho & sel' & Hz)].
    + left. exists (s :: ss). constructor; assumption.
    + right. exists g', sel, o. split; [right; exact Hin|]. split; [exact Ha|]. split; [exact Ho|].
      exists (fun i j => s i j || sel' i j). intros m A S. cbn [zond_all].
      destruct (H m A S) as (m1 & E1 & S1). rewrite E1. destruct (Hz m1 _ S1) as (m2 & E2 & S2).
      exists m2. split; [exact E2|]. eapply shows_ext; [exact S2|apply adraw_two].
  - right. exists g, s, (Throw e). split; [left; reflexivity|]. split; [exact H|]. split; [discriminate|].
    exists s. intros m A S. cbn [zond_all]. destruct (H m A S) as (m1 & E1 & S1). rewrite E1. eauto.
  - right. exists g, s, (UB u). split; [left; reflexivity|]. split; [exact H|]. split; [discriminate|].
    exists s. intros m A S. cbn [zond_all]. destruct (H m A S) as (m1 & E1 & S1). rewrite E1. eauto.
Qed.

Lemma all_add_perm z gs gs' ss : Permutation gs gs' -> all_add z gs ss ->
  exists ss', all_add z gs' ss' /\ Permutation ss ss'.
Proof.
  intros P. revert ss. induction P as [|g t t' P IH|g h t|a b c P1 IH1 P2 IH2]; intros ss H.
  - inversion H; subst. exists []. split; constructor.
  - inversion H as [|? ? s ss1 Hs Ht]; subst. destruct (IH ss1 Ht) as (ss' & H' & P').
    exists (s :: ss'). split; constructor; assumption.
  - inversion H as [|? ? s ss1 Hs Ht]; subst. inversion Ht as [|? ? s2 ss2 Hs2 Ht2]; subst.
    exists (s2 :: s :: ss2). split; [repeat constructor; assumption|apply perm_swap].
  - destruct (IH1 ss H) as (s1 & H1 & Q1). destruct (IH2 s1 H1) as (s2 & H2 & Q2).
    exists s2. split; [exact H2|eapply perm_trans; eassumption].
Qed.

Lemma union_perm ss ss' i j : Permutation ss ss' -> union ss i j = union ss' i j.
Proof.
  intros P. unfold union. apply eq_true_iff_eq. rewrite !existsb_exists.
  split; intros (x & Hx & E); exists x; (split; [|exact E]);
    [apply (Permutation_in _ P Hx) | apply (Permutation_in _ (Permutation_sym P) Hx)].
Qed.

Lemma all_add_in z gs ss : all_add z gs ss -> forall i j,
  union ss i j = true <-> exists g s, In g gs /\ adds (ZondGeometry z (Some g)) s (Ok tt) /\ s i j = true /\ In s ss.
Proof.
  intros H i j. unfold union. rewrite existsb_exists. split.
  - intros (s & Hs & E). revert Hs. induction H as [|g t s' ss' Ha Ht IH]; intros Hs; [destruct Hs|].
    destruct Hs as [->|Hs].
    + exists g, s. cbn; auto 6.
    + destruct (IH Hs) as (g' & s2 & P1 & P2 & P3 & P4). exists g', s2. cbn; auto 6.
  - intros (g & s & _ & _ & E & Hin). exists s. auto.
Qed.
