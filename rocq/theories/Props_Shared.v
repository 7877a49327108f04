(** C113-C117: several generators in one program, and what is shared between them. *)
From Verif Require Import Prelude P_Prelude M_Double M_LayoutData M_Vector2D P_Vector2D M_BitMatrix S_Matrix M_Ratio S_Ratio P_Ratio
  S_Double M_Zond M_Generator S_Generator P_Generator M_Shared S_Shared P_Shared.
From Verif Require Import Props_Ratio Props_Generator.
From Coq Require Import Reals.

(** ** C113: a generator of its own behaves as if it and its bitmap were values, whatever the rest of
    the program does. *)
Theorem C113_value_semantics : forall M ops w ops' w', run M start ops = Some w -> run M w (ONew :: ops') = Some w' ->
  let k := length (w_generators w) in let a := length (w_matrices w) in
  Forall (leaves_alone k a) ops' ->
  exists g, history M gen_new (calls_of (w_layouts w') k ops') = Some g /\ value w' k g /\ handle w' k a /\ shown w' a = Some (GetMatrix g).
Proof.
  intros M ops w ops' w' R R' k a F. pose proof (run_sound M ops _ _ sound_start R) as S. cbn [run] in R'.
  destruct (ostep M w ONew) as [w1|] eqn:E1; [|discriminate]. pose proof (step_sound M w ONew w1 S E1) as S1. cbn [ostep] in E1. injection E1 as <-.
  destruct (run_value M ops' _ w' k (mkgobject None a gen_new) a S1 R' F) as (o' & N & A & _ & V).
  - cbn [w_generators]. rewrite nth_app. unfold k. rewrite Nat.eqb_refl. reflexivity.
  - reflexivity.
  - intros k' o' N. cbn [w_generators]. rewrite nth_app. destruct (Nat.eqb_spec k' (length (w_generators w))) as [->|]; [contradiction|].
    intros E. pose proof (S k' o' E) as (B & _). unfold a. lia.
  - exists (load w' o'). specialize (V (w_layouts w') ltac:(intros p d; auto)). unfold k, a in V. rewrite load_new in V. split; [exact V|].
    split; [exists o'; auto|]. split; [exists o'; auto|]. unfold shown. cbn [load GetMatrix gen_bitmap]. rewrite A.
    apply nth_error_nth'. pose proof (run_sound M ops' _ w' S1 R' k o' N) as (B & _). lia.
Qed.

(** ** C114: a generator has one bitmap for its whole life. *)
Theorem C114_one_bitmap : forall M ops w k a ops' w', run M start ops = Some w -> handle w k a ->
  run M w ops' = Some w' -> Forall (keeps_variable k) ops' -> handle w' k a.
Proof. intros M ops w k a ops' w' R H R' F. eapply run_handle; [exact (run_sound M ops _ _ sound_start R)|exact R'|exact F|exact H]. Qed.

(** Pointers that GetMatrix of one generator returned at different times show the same bitmap, so
    they compare as identical whatever was drawn in between. *)
Theorem C114_kept_pointers_compare_equal : forall M ops w k a ops' w' b al m A, run M start ops = Some w -> handle w k a ->
  run M w ops' = Some w' -> Forall (keeps_variable k) ops' -> handle w' k b -> shown w' b = Some m -> shows m A -> nonempty A ->
  ~ out_of_memory al (arows A) (acols A) -> (Z.of_nat (cell_number A) <= 2 ^ 53)%Z ->
  shown w' a = Some m /\ exists x, Compare al m m = Ok x /\ real x 1.
Proof.
  intros M ops w k a ops' w' b al m A R H R' F H' Sm SA NE OM CN. pose proof (C114_one_bitmap M ops w k a ops' w' R H R' F) as H2.
  rewrite (handle_fun w' k a b H2 H'). split; [exact Sm|].
  destruct (C12_score al m m A A SA SA eq_refl eq_refl NE OM CN) as (x & r & E & Rx & _ & _ & Q). exists x. split; [exact E|].
  rewrite <- (Q (conj eq_refl (conj eq_refl (fun _ _ _ _ => eq_refl)))). exact Rx.
Qed.

(** The two ways to keep a pointer's bitmap: nobody touches it, or (C14) copying the matrix. *)
(** ** C115: steps on other generators and bitmaps do not change what a pointer shows. *)
Theorem C115_bitmaps_apart : forall M ops w a m ops' w', run M start ops = Some w -> shown w a = Some m ->
  run M w ops' = Some w' -> Forall (elsewhere w a) ops' -> shown w' a = Some m.
Proof.
  intros M ops w a m ops' w' R Sa R' F. rewrite <- Sa. eapply run_elsewhere; [exact R'|exact F| |auto].
  apply nth_error_Some. unfold shown in Sa. congruence.
Qed.

(** ** C116: copies of a generator draw into the same bitmap. *)
Theorem C116_copies_share : forall M ops w k a g r c, run M start ops = Some w -> handle w k a -> value w k g ->
  let k' := length (w_generators w) in
  (forall w', run M w [OCopy k] = Some w' -> value w' k' g /\ value w' k g /\ handle w' k' a /\ handle w' k a) /\
  (forall j w', j = k \/ j = k' -> run M w [OCopy k; OProcess j r c] = Some w' ->
     handle w' k a /\ handle w' k' a /\
     shown w' a = Some (GetMatrix (fst (Process (m_stray M) (m_heap M) (m_stack M) g r c)))).
Proof.
  intros M ops w k a g r c R H V k'. pose proof (run_sound M ops _ _ sound_start R) as S.
  destruct H as (o & E & A). destruct V as (o1 & E1 & V). rewrite E in E1. injection E1 as <-.
  assert (KL : k < length (w_generators w)) by (apply nth_error_Some; congruence).
  set (w1 := mkworld (w_layouts w) (w_matrices w) (w_generators w ++ [o])).
  assert (ST : ostep M w (OCopy k) = Some w1) by (cbn [ostep]; rewrite E; reflexivity).
  assert (Ek : nth_error (w_generators w1) k = Some o) by (cbn [w1 w_generators]; rewrite nth_app; destruct (Nat.eqb_spec k (length (w_generators w))); [lia|exact E]).
  assert (Ek' : nth_error (w_generators w1) k' = Some o) by (cbn [w1 w_generators]; rewrite nth_app; unfold k'; rewrite Nat.eqb_refl; reflexivity).
  split.
  - intros w' Q. cbn [run] in Q. rewrite ST in Q. injection Q as <-. repeat split; exists o; split; assumption.
  - intros j w' J Q. cbn [run] in Q. rewrite ST in Q. destruct (ostep M w1 (OProcess j r c)) as [w2|] eqn:P; [|discriminate]. injection Q as <-.
    pose proof (step_sound M w _ w1 S ST) as S1.
    assert (K1 : handle w2 k a) by (apply (step_handle M w1 (OProcess j r c) w2 k a S1 P I); exists o; auto).
    assert (K2 : handle w2 k' a) by (apply (step_handle M w1 (OProcess j r c) w2 k' a S1 P I); exists o; auto).
    split; [exact K1|]. split; [exact K2|]. assert (Ej : nth_error (w_generators w1) j = Some o) by (destruct J; subst j; assumption).
    pose proof (process_shown M w1 j r c w2 o S1 Ej P) as Q. rewrite A in Q. change (load w1 o) with (load w o) in Q. rewrite V in Q. exact Q.
Qed.

(** Assignment drops the old bitmap: pointers kept from before keep it. *)
Theorem C116_assignment_shares : forall M ops w k from a b m w', run M start ops = Some w ->
  handle w k a -> handle w from b -> a <> b -> shown w a = Some m -> run M w [OAssign k from] = Some w' ->
  handle w' k b /\ handle w' from b /\ shown w' a = Some m.
Proof.
  intros M ops w k from a b m w' R (o & E & A) (o1 & E1 & B) N Sa Q. cbn [run ostep] in Q. rewrite E, E1 in Q. injection Q as <-.
  assert (KL : k < length (w_generators w)) by (apply nth_error_Some; congruence).
  split; [exists o1; split; [cbn [set_gen w_generators]; apply nth_upd_same, KL|exact B]|].
  split; [|exact Sa]. exists o1. split; [|exact B]. cbn [set_gen w_generators]. rewrite nth_upd. destruct (_ && _); [reflexivity|exact E1].
Qed.

(** ** C117: the layout is read by Process, not by Init. *)
Theorem C117_layout_read_by_process : forall M ops w p d L mn mx changes r c w', run M start ops = Some w ->
  let k := length (w_generators w) in let a := length (w_matrices w) in
  Forall layout_step changes ->
  run M w (ONew :: OInit k (Some p) L mn mx :: changes ++ [OProcess k r c]) = Some w' ->
  nth_error (w_layouts w') p = Some d ->
  handle w' k a /\
  shown w' a = Some (GetMatrix (fst (Process (m_stray M) (m_heap M) (m_stack M) (fst (Init gen_new (Some d) L mn mx)) r c))).
Proof.
  intros M ops w p d L mn mx changes r c w' R k a F Q D. pose proof (run_sound M ops _ _ sound_start R) as S.
  apply run_cons in Q as (w1 & E1 & Q). apply run_cons in Q as (w2 & E2 & Q). apply run_snoc in Q as (w3 & E3 & Q).
  apply run_cons in Q as (w4 & E4 & Q). cbn [run] in Q. injection Q as <-.
  pose proof (step_sound M w _ w1 S E1) as S1. pose proof (step_sound M w1 _ w2 S1 E2) as S2. pose proof (run_sound M changes _ _ S2 E3) as S3.
  destruct (run_layouts M changes w2 w3 E3 F) as (EM & EG). cbn [ostep] in E1. injection E1 as E1.
  assert (N1 : nth_error (w_generators w1) k = Some (mkgobject None a gen_new)) by (rewrite <- E1; cbn [w_generators]; rewrite nth_app; unfold k; rewrite Nat.eqb_refl; reflexivity).
  destruct (init_step M w1 k p L mn mx w2 _ E2 N1) as (d1 & D1 & E2'). cbn [go_data go_bitmap] in E2'.
  assert (L1 : load w1 (mkgobject None a gen_new) = gen_new) by (rewrite <- E1; apply load_new). rewrite L1 in E2'.
  assert (KL : k < length (w_generators w1)) by (apply nth_error_Some; congruence).
  set (o2 := mkgobject (init_data None gen_new (Some p) (Some d1) L mn mx) a (fst (Init gen_new (Some d1) L mn mx))) in E2'.
  assert (N3 : nth_error (w_generators w3) k = Some o2) by (rewrite EG, E2'; cbn [set_gen w_generators]; apply nth_upd_same, KL).
  assert (B3 : nth a (w_matrices w3) bm_empty = bm_empty).
  { rewrite EM, E2', <- E1. cbn [set_gen w_matrices]. unfold a. rewrite app_nth2, Nat.sub_diag by lia. reflexivity. }
  split; [apply (step_handle M w3 (OProcess k r c) w4 k a S3 E4 I); exists o2; auto|].
  pose proof (process_shown M w3 k r c w4 o2 S3 N3 E4) as P.
  assert (DL : nth_error (w_layouts w3) p = Some d).
  { destruct (process_step M w3 k r c o2 w4 N3 E4) as (g & res & _ & _ & Ew). rewrite Ew in D. exact D. }
  unfold o2 in P. rewrite (init_load w3 p d d1 L mn mx a DL B3) in P. exact P.
Qed.

(** ** Concrete cases *)
Definition ex_layer5 (x0 y0 x1 y1 : Z) : layout :=
  mklayout [] [mklibrary [] [] [mklayer 5 0 [] [Some (ex_gen_rect 5 x0 y0 x1 y1)]] (mkcoord 0 0) (mkcoord 0 0)].
Definition ex_left : layout := ex_layer5 0 0 30 100.
Definition ex_right : layout := ex_layer5 60 0 90 100.
(** One generator, one layout drawn. *)
Definition ex_one : list operation :=
  [OLayout ex_left; OLayout ex_right; ONew; OInit 0 (Some 0) [5%Z] (mkcoord 0 0) (mkcoord 100 100); OProcess 0 2 2].
(** The layout is exchanged and drawn by the same generator. *)
Definition ex_again : list operation := [OChangeLayout 0 ex_right; OProcess 0 2 2].
(** A second generator draws the other layout. *)
Definition ex_second : list operation := [ONew; OInit 1 (Some 1) [5%Z] (mkcoord 0 0) (mkcoord 100 100); OProcess 1 2 2].
(** A copy of the first generator is used after the exchange. *)
Definition ex_by_copy : list operation := [OCopy 0; OChangeLayout 0 ex_right; OProcess 1 2 2].

(** What the program sees in cell (i,j) of the bitmap a. *)
Definition ex_look (ops : list operation) (a i j : nat) : option (res bool) :=
  match run ex_machine start ops with
  | Some w => match shown w a with Some m => Some (Get m i j) | None => None end
  | None => None
  end.
Definition ex_handle (ops : list operation) (k : nat) : option nat :=
  match run ex_machine start ops with
  | Some w => match nth_error (w_generators w) k with Some o => Some (go_bitmap o) | None => None end
  | None => None
  end.

Example C113_example :
  ex_look ex_one 0 0 0 = Some (Ok true) /\ ex_look ex_one 0 0 1 = Some (Ok false) /\
  (* drawn again after the exchange: the same pointer shows the new drawing *)
  ex_look (ex_one ++ ex_again) 0 0 0 = Some (Ok false) /\ ex_look (ex_one ++ ex_again) 0 0 1 = Some (Ok true) /\
  ex_handle ex_one 0 = Some 0 /\ ex_handle (ex_one ++ ex_again) 0 = Some 0 /\
  (* two generators: both drawings are there *)
  ex_look (ex_one ++ ex_second) 0 0 0 = Some (Ok true) /\ ex_look (ex_one ++ ex_second) 1 0 0 = Some (Ok false) /\
  ex_look (ex_one ++ ex_second) 1 0 1 = Some (Ok true) /\ ex_handle (ex_one ++ ex_second) 1 = Some 1 /\
  (* a copy draws over the original's bitmap *)
  ex_handle (ex_one ++ ex_by_copy) 1 = Some 0 /\ ex_look (ex_one ++ ex_by_copy) 0 0 0 = Some (Ok false).
Proof. vm_compute. repeat split. Qed.

(** The layout is exchanged between Init and Process: the new one is drawn. *)
Example C117_example :
  ex_look [OLayout ex_left; ONew; OInit 0 (Some 0) [5%Z] (mkcoord 0 0) (mkcoord 100 100); OChangeLayout 0 ex_right; OProcess 0 2 2] 0 0 0
    = Some (Ok false) /\
  ex_look [OLayout ex_left; ONew; OInit 0 (Some 0) [5%Z] (mkcoord 0 0) (mkcoord 100 100); OChangeLayout 0 ex_right; OProcess 0 2 2] 0 0 1
    = Some (Ok true).
Proof. vm_compute. repeat split. Qed.

Lemma ex_look_run ops a i j v : ex_look ops a i j = Some v ->
  exists w m, run ex_machine start ops = Some w /\ shown w a = Some m /\ Get m i j = v.
Proof.
  unfold ex_look. destruct (run ex_machine start ops) as [w|]; [|discriminate]. destruct (shown w a) as [m|] eqn:E; [|discriminate].
  intros H. injection H as H. exists w, m. auto.
Qed.

(** The natural expectation, that what GetMatrix returned stays what it was, fails. *)
Theorem C114_pointer_keeps_its_bitmap_refuted :
  ~ (forall M ops w k a m r c w' d p, run M start ops = Some w -> handle w k a -> shown w a = Some m ->
     run M w [OChangeLayout p d; OProcess k r c] = Some w' -> shown w' a = Some m).
Proof.
  intros C. destruct (ex_look_run (ex_one ++ ex_again) 0 0 0 (Ok false) ltac:(vm_compute; reflexivity)) as (w' & m' & R' & S' & G').
  apply run_snoc in R' as (w & R & R'). destruct (ex_look_run ex_one 0 0 0 (Ok true) ltac:(vm_compute; reflexivity)) as (w1 & m & R1 & S1 & G1).
  rewrite R in R1. injection R1 as <-. assert (H : handle w 0 0).
  { assert (Q : ex_handle ex_one 0 = Some 0) by (vm_compute; reflexivity). unfold ex_handle in Q. rewrite R in Q. unfold handle.
    destruct (nth_error (w_generators w) 0) as [o|]; [|discriminate]. exists o. injection Q as Q. auto. }
  pose proof (C ex_machine ex_one w 0 0 m 2 2 w' ex_right 0 R H S1 R') as Q. rewrite S' in Q. injection Q as Q. rewrite Q, G1 in G'. discriminate.
Qed.

(** The hypotheses of C113 to C117 hold in these programs. *)
Example C113_hypotheses_met : exists w w', run ex_machine start ex_one = Some w /\ run ex_machine w ex_second = Some w' /\
  length (w_generators w) = 1 /\ length (w_matrices w) = 1 /\ Forall (leaves_alone 1 1) (tl ex_second) /\
  Forall (keeps_variable 0) ex_second /\ Forall (elsewhere w 0) ex_second /\ handle w 0 0 /\ handle w' 0 0 /\
  calls_of (w_layouts w') 1 (tl ex_second) = [CInit (Some ex_right) [5%Z] (mkcoord 0 0) (mkcoord 100 100); CProcess 2 2].
Proof.
  destruct (ex_look_run (ex_one ++ ex_second) 0 0 0 (Ok true) ltac:(vm_compute; reflexivity)) as (w' & m' & R' & S' & G').
  apply run_snoc in R' as (w & R & R'). exists w, w'.
  assert (L1 : match run ex_machine start ex_one with Some w => (length (w_generators w), length (w_matrices w)) | None => (0, 0) end = (1, 1)) by (vm_compute; reflexivity).
  rewrite R in L1. injection L1 as L1 L2.
  assert (Q : ex_handle ex_one 0 = Some 0) by (vm_compute; reflexivity).
  assert (H : handle w 0 0).
  { unfold ex_handle in Q. rewrite R in Q. unfold handle. destruct (nth_error (w_generators w) 0) as [o|]; [|discriminate]. exists o. injection Q as Q. auto. }
  assert (N : ~ handle w 1 0).
  { intros (o & E & _). assert (nth_error (w_generators w) 1 = None) as X by (apply nth_error_None; lia). congruence. }
  assert (K : Forall (keeps_variable 0) ex_second) by (repeat constructor).
  split; [exact R|]. split; [exact R'|]. split; [exact L1|]. split; [exact L2|]. split; [repeat constructor|]. split; [exact K|].
  split; [apply Forall_forall; intros op [<-|[<-|[<-|[]]]]; cbn [elsewhere]; auto|]. split; [exact H|].
  split; [exact (C114_one_bitmap ex_machine ex_one w 0 0 ex_second w' R H R' K)|].
  assert (D : match run ex_machine start (ex_one ++ ex_second) with Some w => w_layouts w | None => [] end = [ex_left; ex_right]) by (vm_compute; reflexivity).
  rewrite run_app, R, R' in D. rewrite D. reflexivity.
Qed.

Print Assumptions C113_value_semantics.
Print Assumptions C114_one_bitmap.
Print Assumptions C114_kept_pointers_compare_equal.
Print Assumptions C114_pointer_keeps_its_bitmap_refuted.
Print Assumptions C115_bitmaps_apart.
Print Assumptions C116_copies_share.
Print Assumptions C116_assignment_shares.
Print Assumptions C117_layout_read_by_process.
