(** Proofs about BitMatrix::Print. *)
From Coq Require Import Lia.
From Verif Require Import Prelude P_Prelude M_BitMatrix S_Matrix P_BitMatrix P_Cells P_Zond M_Print S_Print.

Definition row_chars (A : amat) (i : nat) : list byte := map (fun j => bit_char (acell A i j)) (seq 0 (acols A)).
Definition text_of (A : amat) : list byte := concat (map (fun i => row_chars A i ++ [line_feed]) (seq 0 (arows A))) ++ [line_feed].

Lemma for_each_append {A B} (f : A -> list B) l : forall acc,
  for_each l acc (fun out x => Ok (out ++ f x)) = Ok (acc ++ concat (map f l)).
Proof.
  induction l as [|x t IH]; intros acc; cbn [for_each map concat]; [now rewrite app_nil_r|].
  rewrite IH, app_assoc. reflexivity.
Qed.

Lemma concat_singles {A B} (f : A -> B) l : concat (map (fun x => [f x]) l) = map f l.
Proof. induction l; cbn; congruence. Qed.

Lemma Print_shown m A : shows m A -> Print m = Ok (text_of A).
Proof.
  intros S. destruct (shows_elim _ _ S) as (H & R & C & X). unfold Print.
  change (Isize m) with (GetRowCount m). change (Jsize m) with (GetColumnCount m).
  assert (R' : GetRowCount m = arows A) by exact R. assert (C' : GetColumnCount m = acols A) by exact C.
  assert (E : forall out, for_each (upto 0 (GetRowCount m)) out (fun out i =>
      let* out := for_each (upto 0 (GetColumnCount m)) out (fun out j => let* b := UnsafeGet m i j in Ok (out ++ [digit b])) in
      Ok (out ++ [newline])) =
    for_each (seq 0 (arows A)) out (fun out i => Ok (out ++ (row_chars A i ++ [line_feed])))).
  { intros out. rewrite R'. unfold upto at 1. rewrite Nat.sub_0_r. apply for_each_ext. intros s i Hi. apply in_seq in Hi.
    rewrite C'. unfold upto. rewrite Nat.sub_0_r.
    rewrite (for_each_ext _ s _ (fun out j => Ok (out ++ [bit_char (acell A i j)]))).
    - rewrite for_each_append. cbn [bind]. rewrite concat_singles, <- app_assoc. reflexivity.
    - intros s' j Hj. apply in_seq in Hj. rewrite UnsafeGet_raw; [|exact H|lia|pose proof (cdiv8_spec (Jsize m)); lia].
      cbn [bind]. rewrite X by lia. reflexivity. }
  rewrite E, for_each_append. reflexivity.
Qed.

Lemma nth_seq n i : i < n -> nth_error (seq 0 n) i = Some i.
Proof.
  intros H. rewrite (nth_error_nth' _ 0) by (rewrite seq_length; exact H). rewrite seq_nth by exact H. reflexivity.
Qed.

Lemma text_pictures A : picture_text A (text_of A).
Proof.
  exists (map (fun i => row_chars A i ++ [line_feed]) (seq 0 (arows A))). split; [reflexivity|].
  split; [rewrite map_length; apply seq_length|]. intros i Hi. eexists. split; [apply map_nth_error, nth_seq, Hi|].
  exists (row_chars A i). split; [reflexivity|]. unfold row_chars. split; [rewrite map_length; apply seq_length|].
  intros j Hj. rewrite (map_nth_error _ _ _ (nth_seq _ _ Hj)). reflexivity.
Qed.

Lemma bit_char_inj a b : bit_char a = bit_char b -> a = b.
Proof. destruct a, b; cbn; congruence. Qed.
Lemma bit_char_lf b : bit_char b <> line_feed.
Proof. destruct b; discriminate. Qed.

Lemma line_unique (x y s t : list byte) : ~ In line_feed x -> ~ In line_feed y ->
  x ++ line_feed :: s = y ++ line_feed :: t -> x = y /\ s = t.
Proof.
  revert y. induction x as [|a x IH]; intros [|b y] Hx Hy; cbn [app]; intros E.
  - injection E as E. auto.
  - injection E as Q E. exfalso. apply Hy. left. symmetry. exact Q.
  - injection E as Q E. exfalso. apply Hx. left. exact Q.
  - injection E as -> E. destruct (IH y) as (-> & ->); [intros Q; apply Hx; right; exact Q|intros Q; apply Hy; right; exact Q|exact E|auto].
Qed.

Definition is_line (l : list byte) : Prop := exists x, l = x ++ [line_feed] /\ ~ In line_feed x /\ x <> [].

Lemma lines_unique ls : forall ls', Forall is_line ls -> Forall is_line ls' ->
  concat ls ++ [line_feed] = concat ls' ++ [line_feed] -> ls = ls'.
Proof.
  induction ls as [|l ls IH]; intros [|l' ls'] F F'; cbn [concat app]; intros E.
  - reflexivity.
  - inversion F' as [|? ? (y & -> & Hy & Ny) F2]; subst. destruct y as [|b y]; [congruence|].
    cbn [app] in E. injection E as Q _. exfalso. apply Hy. left. symmetry. exact Q.
  - inversion F as [|? ? (x & -> & Hx & Nx) F2]; subst. destruct x as [|b x]; [congruence|].
    cbn [app] in E. injection E as Q _. exfalso. apply Hx. left. exact Q.
  - inversion F as [|? ? (x & -> & Hx & Nx) F1]; subst. inversion F' as [|? ? (y & -> & Hy & Ny) F2]; subst.
    rewrite <- !app_assoc in E. cbn [app] in E. apply line_unique in E; [|exact Hx|exact Hy]. destruct E as (-> & E).
    rewrite (IH ls' F1 F2 E). reflexivity.
Qed.

Lemma text_determines A B t : nonempty A -> nonempty B -> picture_text A t -> picture_text B t -> asame A B.
Proof.
  intros (Ra & Ca) (Rb & Cb) (ls & -> & La & Ha) (ls' & E & Lb & Hb).
  assert (K : forall X xs, 0 < acols X -> length xs = arows X ->
    (forall i, i < arows X -> exists l, nth_error xs i = Some l /\ row_line X i l) -> Forall is_line xs).
  { intros X xs C L H. apply Forall_forall. intros l Hl. apply In_nth_error in Hl. destruct Hl as (i & Hi).
    assert (Li : i < arows X) by (rewrite <- L; apply nth_error_Some; congruence).
    destruct (H i Li) as (l' & H1 & cs & -> & Lc & Hc). rewrite H1 in Hi. injection Hi as <-.
    exists cs. split; [reflexivity|]. split.
    - intros Q. apply In_nth_error in Q. destruct Q as (j & Q). assert (j < acols X) by (rewrite <- Lc; apply nth_error_Some; congruence).
      rewrite Hc in Q by assumption. injection Q as Q. exact (bit_char_lf _ Q).
    - intros ->. cbn in Lc. lia. }
  apply lines_unique in E; [|exact (K A ls Ca La Ha)|exact (K B ls' Cb Lb Hb)]. subst ls'.
  assert (R : arows A = arows B) by congruence.
  assert (G : forall i, i < arows A -> acols A = acols B /\ forall j, j < acols A -> acell A i j = acell B i j).
  { intros i Hi. destruct (Ha i Hi) as (l & N & cs & -> & Lc & Hc). destruct (Hb i ltac:(lia)) as (l' & N' & cs' & -> & Lc' & Hc').
    rewrite N in N'. injection N' as N'. apply app_inj_tail in N'. destruct N' as (<- & _). split; [congruence|].
    intros j Hj. specialize (Hc j Hj). specialize (Hc' j ltac:(congruence)). rewrite Hc in Hc'. injection Hc' as Q. exact (bit_char_inj _ _ Q). }
  split; [exact R|]. split; [exact (proj1 (G 0 Ra))|]. intros i j Hi Hj. apply G; assumption.
Qed.
