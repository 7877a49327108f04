(** Proofs about programs with several generators. *)
From Verif Require Import Prelude P_Prelude M_Double M_LayoutData M_Vector2D P_Vector2D M_BitMatrix M_Zond M_Generator S_Generator P_Generator M_Shared S_Shared.

Lemma nth_upd_same {A} (l : list A) i x : i < length l -> nth_error (upd l i x) i = Some x.
Proof. intros H. apply at_ok, at_upd_same, H. Qed.
Lemma nth_upd_other {A} (l : list A) i x k : k <> i -> nth_error (upd l i x) k = nth_error l k.
Proof.
  revert i k. induction l as [|y l IH]; intros [|i] [|k] H; cbn [upd nth_error]; try reflexivity; try lia. apply IH. lia.
Qed.
Lemma nth_upd {A} (l : list A) i x k : nth_error (upd l i x) k = if (k =? i) && (i <? length l) then Some x else nth_error l k.
Proof.
  destruct (Nat.eqb_spec k i) as [->|N]; [|apply nth_upd_other, N]. destruct (Nat.ltb_spec i (length l)); [apply nth_upd_same; assumption|].
  etransitivity; [apply nth_error_None; rewrite upd_length; assumption|symmetry; apply nth_error_None; assumption].
Qed.
Lemma nth_app {A} (l : list A) x k : nth_error (l ++ [x]) k = if k =? length l then Some x else nth_error l k.
Proof.
  destruct (Nat.eqb_spec k (length l)) as [->|N]; [rewrite nth_error_app2, Nat.sub_diag by lia; reflexivity|].
  destruct (Nat.lt_ge_cases k (length l)); [apply nth_error_app1; assumption|].
  etransitivity; [apply nth_error_None; rewrite app_length; cbn [length]; lia|symmetry; apply nth_error_None; lia].
Qed.

Lemma init_bitmap g d L mn mx : gen_bitmap (fst (Init g d L mn mx)) = gen_bitmap g.
Proof.
  unfold Init. destruct d as [d|]; [|reflexivity]. destruct (_ || _); [reflexivity|].
  destruct (SetAngleCoords _ _ _) as (w & [|]); reflexivity.
Qed.

Lemma process_data v al st g r c : gen_data (fst (Process v al st g r c)) = gen_data g.
Proof.
  unfold Process. cbv zeta. repeat match goal with |- context [match ?x with _ => _ end] => destruct x; try reflexivity end.
Qed.

(** Every pointer to a bitmap points to one. *)
Definition sound (w : world) : Prop := forall k o, nth_error (w_generators w) k = Some o ->
  go_bitmap o < length (w_matrices w) /\ (forall p, go_data o = Some p -> p < length (w_layouts w)).

Lemma sound_start : sound start.
Proof. intros [|k] o H; discriminate H. Qed.

Lemma follow_lt ds p d : follow ds p = Some d -> forall a, p = Some a -> a < length ds.
Proof.
  intros F a ->. cbn [follow] in F. destruct (nth_error ds a) eqn:E; [|discriminate]. apply nth_error_Some. congruence.
Qed.

Lemma init_data_cases old g p d L mn mx : init_data old g p d L mn mx = old \/ init_data old g p d L mn mx = p \/ init_data old g p d L mn mx = None.
Proof. unfold init_data. destruct d; [|tauto]. destruct (_ || _); [tauto|]. destruct (snd _); tauto. Qed.

(** What one step does to the tables. *)
Lemma step_sound M w op w' : sound w -> ostep M w op = Some w' -> sound w'.
Proof.
  intros S H. destruct op; cbn [ostep] in H.
  - injection H as <-. intros k o E. cbn [w_generators w_matrices w_layouts] in *. rewrite app_length. cbn [length]. rewrite nth_app in E.
    destruct (k =? _); [injection E as <-; cbn; split; [lia|intros p; discriminate]|]. destruct (S k o E). split; [lia|assumption].
  - destruct (nth_error (w_generators w) k) as [o|] eqn:Eo; [|discriminate]. injection H as <-. intros k' o' E.
    cbn [w_generators w_matrices w_layouts] in *. rewrite nth_app in E. destruct (k' =? _); [injection E as <-|]; eapply S; eassumption.
  - destruct (nth_error (w_generators w) k) as [o1|] eqn:Eo1; [|discriminate].
    destruct (nth_error (w_generators w) from) as [o|] eqn:Eo; [|discriminate]. injection H as <-. intros k' o' E.
    cbn [set_gen w_generators w_matrices w_layouts] in *. rewrite nth_upd in E. destruct (_ && _); [injection E as <-|]; eapply S; eassumption.
  - destruct (nth_error (w_generators w) k) as [o|] eqn:Eo; [|discriminate].
    destruct (follow (w_layouts w) p) as [d|] eqn:F; [|discriminate]. injection H as <-. intros k' o' E.
    cbn [set_gen w_generators w_matrices w_layouts] in *. rewrite nth_upd in E. destruct (_ && _); [injection E as <-|eapply S; eassumption].
    cbn [go_bitmap go_data]. destruct (S k o Eo) as (S1 & S2). split; [exact S1|]. intros q.
    destruct (init_data_cases (go_data o) (load w o) p d L mn mx) as [-> | [-> | ->]]; [apply S2|eapply follow_lt; eassumption|discriminate].
  - destruct (nth_error (w_generators w) k) as [o|] eqn:Eo; [|discriminate]. injection H as <-. intros k' o' E.
    cbn [set_gen w_generators w_matrices w_layouts] in *. rewrite nth_upd in E. destruct (_ && _); [injection E as <-; cbn [go_bitmap go_data]|]; eapply S; eassumption.
  - destruct (nth_error (w_generators w) k) as [o|] eqn:Eo; [|discriminate].
    assert (w' = mkworld (w_layouts w) (upd (w_matrices w) (go_bitmap o) (gen_bitmap (fst (Process (m_stray M) (m_heap M) (m_stack M) (load w o) r c))))
       (upd (w_generators w) k (mkgobject (go_data o) (go_bitmap o) (fst (Process (m_stray M) (m_heap M) (m_stack M) (load w o) r c))))) as ->.
    { destruct (Process _ _ _ _ _ _) as (g & [b|e|u]); [| |discriminate]; injection H as <-; reflexivity. }
    clear H. intros k' o' E. cbn [w_generators w_matrices w_layouts] in *. rewrite upd_length. rewrite nth_upd in E.
    destruct (_ && _); [injection E as <-; cbn [go_bitmap go_data]|]; eapply S; eassumption.
  - injection H as <-. intros k o E. cbn [w_generators w_matrices w_layouts] in *. rewrite app_length. cbn [length].
    destruct (S k o E) as (S1 & S2). split; [exact S1|]. intros p Hp. specialize (S2 p Hp). lia.
  - injection H as <-. intros k o E. cbn [w_generators w_matrices w_layouts] in *. rewrite upd_length. eapply S; eassumption.
  - injection H as <-. intros k o E. cbn [w_generators w_matrices w_layouts] in *. rewrite upd_length. eapply S; eassumption.
Qed.

Lemma run_sound M ops : forall w w', sound w -> run M w ops = Some w' -> sound w'.
Proof.
  induction ops as [|op ops IH]; cbn [run]; intros w w' S H; [injection H as <-; exact S|].
  destruct (ostep M w op) as [w1|] eqn:E; [|discriminate]. eapply IH; [|exact H]. eapply step_sound; eassumption.
Qed.

Lemma run_app M a : forall w b, run M w (a ++ b) = match run M w a with Some w' => run M w' b | None => None end.
Proof. induction a as [|op a IH]; cbn [run app]; intros w b; [reflexivity|]. destruct (ostep M w op); [apply IH|reflexivity]. Qed.

(** What a processing step leaves. *)
Lemma process_step M w k r c o w' : nth_error (w_generators w) k = Some o -> ostep M w (OProcess k r c) = Some w' ->
  exists g res, Process (m_stray M) (m_heap M) (m_stack M) (load w o) r c = (g, res) /\ (forall u, res <> UB u) /\
    w' = mkworld (w_layouts w) (upd (w_matrices w) (go_bitmap o) (gen_bitmap g)) (upd (w_generators w) k (mkgobject (go_data o) (go_bitmap o) g)).
Proof.
  intros E H. cbn [ostep] in H. rewrite E in H. destruct (Process _ _ _ _ _ _) as (g & res) eqn:P. exists g, res. split; [reflexivity|].
  destruct res as [b|e|u]; [| |discriminate]; injection H as <-; (split; [discriminate|reflexivity]).
Qed.

(** The pointer of a variable changes by assignment only. *)
Lemma step_handle M w op w' k a : sound w -> ostep M w op = Some w' -> keeps_variable k op -> handle w k a -> handle w' k a.
Proof.
  intros S H K (o & E & A). destruct op; cbn [keeps_variable] in K.
  - cbn [ostep] in H. injection H as <-. exists o. split; [|exact A]. cbn [w_generators]. rewrite nth_error_app1; [exact E|]. apply nth_error_Some. congruence.
  - cbn [ostep] in H. destruct (nth_error (w_generators w) k0) as [o1|] eqn:E1; [|discriminate]. injection H as <-. exists o. split; [|exact A].
    cbn [w_generators]. rewrite nth_error_app1; [exact E|]. apply nth_error_Some. congruence.
  - cbn [ostep] in H. destruct (nth_error (w_generators w) k0) as [o1|] eqn:E1; [|discriminate].
    destruct (nth_error (w_generators w) from) as [o2|] eqn:E2; [|discriminate]. injection H as <-. exists o. split; [|exact A].
    cbn [set_gen w_generators]. rewrite nth_upd_other by congruence. exact E.
  - cbn [ostep] in H. destruct (nth_error (w_generators w) k0) as [o1|] eqn:E1; [|discriminate].
    destruct (follow (w_layouts w) p) as [d|] eqn:F; [|discriminate]. injection H as <-. destruct (Nat.eq_dec k k0) as [->|N].
    + rewrite E in E1. injection E1 as <-. eexists. split; [cbn [set_gen w_generators]; apply nth_upd_same, nth_error_Some; congruence|exact A].
    + exists o. split; [|exact A]. cbn [set_gen w_generators]. rewrite nth_upd_other by congruence. exact E.
  - cbn [ostep] in H. destruct (nth_error (w_generators w) k0) as [o1|] eqn:E1; [|discriminate]. injection H as <-. destruct (Nat.eq_dec k k0) as [->|N].
    + rewrite E in E1. injection E1 as <-. eexists. split; [cbn [set_gen w_generators]; apply nth_upd_same, nth_error_Some; congruence|exact A].
    + exists o. split; [|exact A]. cbn [set_gen w_generators]. rewrite nth_upd_other by congruence. exact E.
  - destruct (nth_error (w_generators w) k0) as [o1|] eqn:E1; [|cbn [ostep] in H; rewrite E1 in H; discriminate].
    destruct (process_step M w k0 r c o1 w' E1 H) as (g & res & _ & _ & ->). destruct (Nat.eq_dec k k0) as [->|N].
    + rewrite E in E1. injection E1 as <-. eexists. split; [cbn [w_generators]; apply nth_upd_same, nth_error_Some; congruence|exact A].
    + exists o. split; [|exact A]. cbn [w_generators]. rewrite nth_upd_other by congruence. exact E.
  - cbn [ostep] in H. injection H as <-. exists o. split; assumption.
  - cbn [ostep] in H. injection H as <-. exists o. split; assumption.
  - cbn [ostep] in H. injection H as <-. exists o. split; assumption.
Qed.

Lemma run_handle M ops : forall w w' k a, sound w -> run M w ops = Some w' -> Forall (keeps_variable k) ops -> handle w k a -> handle w' k a.
Proof.
  induction ops as [|op ops IH]; cbn [run]; intros w w' k a S H F A; [injection H as <-; exact A|].
  destruct (ostep M w op) as [w1|] eqn:E; [|discriminate]. inversion F; subst. eapply IH; [eapply step_sound; eassumption|eassumption|assumption|].
  eapply step_handle; eassumption.
Qed.

Lemma handle_fun w k a b : handle w k a -> handle w k b -> a = b.
Proof. intros (o & E & <-) (o' & E' & <-). congruence. Qed.

(** A variable nothing else shares its bitmap with. *)
Definition unshared (w : world) (k a : nat) : Prop :=
  forall k' o', k' <> k -> nth_error (w_generators w) k' = Some o' -> go_bitmap o' <> a.

Definition extends (ds ds' : list layout) : Prop := forall p d, nth_error ds p = Some d -> nth_error ds' p = Some d.

Lemma follow_extends ds ds' p d : extends ds ds' -> follow ds p = Some d ->
  match p with None => None | Some a => nth_error ds' a end = d.
Proof.
  intros X F. destruct p as [a|]; cbn [follow] in F; [|congruence]. destruct (nth_error ds a) as [x|] eqn:E; [|discriminate].
  rewrite (X a x E). congruence.
Qed.

Lemma load_same w w' o : (forall p, go_data o = Some p -> nth_error (w_layouts w') p = nth_error (w_layouts w) p) ->
  nth (go_bitmap o) (w_matrices w') bm_empty = nth (go_bitmap o) (w_matrices w) bm_empty -> load w' o = load w o.
Proof.
  intros D B. unfold load. rewrite B. destruct (go_data o) as [p|]; [rewrite (D p eq_refl)|]; reflexivity.
Qed.

Lemma nth_of_error {A} (l : list A) i d x : nth_error l i = Some x -> nth i l d = x.
Proof. apply nth_error_nth. Qed.

Lemma nth_upd_nth {A} (l : list A) i x k d : k <> i -> nth k (upd l i x) d = nth k l d.
Proof.
  intros N. destruct (nth_error l k) as [y|] eqn:E.
  - rewrite (nth_of_error l k d y E). apply nth_of_error. rewrite nth_upd_other by exact N. exact E.
  - rewrite !nth_overflow; [reflexivity| |]; rewrite ?upd_length; apply nth_error_None; exact E.
Qed.

Lemma step_value M w op w' k o a ds : sound w -> ostep M w op = Some w' -> leaves_alone k a op ->
  nth_error (w_generators w) k = Some o -> go_bitmap o = a -> unshared w k a -> extends (w_layouts w') ds ->
  exists o', nth_error (w_generators w') k = Some o' /\ go_bitmap o' = a /\ unshared w' k a /\
    extends (w_layouts w) (w_layouts w') /\ history M (load w o) (call_of ds k op) = Some (load w' o').
Proof.
  intros S H LA E A U X. pose proof (S k o E) as (SB & SD). assert (KL : k < length (w_generators w)) by (apply nth_error_Some; congruence).
  assert (XR : extends (w_layouts w) (w_layouts w)) by (intros p d; auto). destruct op; cbn [leaves_alone] in LA.
  - cbn [ostep] in H. injection H as <-. exists o. cbn [w_generators w_matrices w_layouts call_of history] in *.
    split; [rewrite nth_app; destruct (Nat.eqb_spec k (length (w_generators w))); [lia|exact E]|]. split; [exact A|]. split; [|split; [exact XR|]].
    + intros k' o' N. cbn [set_gen w_generators]. rewrite nth_app. destruct (k' =? _); [|apply U, N]. intros Q. injection Q as <-. cbn [go_bitmap]. lia.
    + f_equal. symmetry. apply load_same; [reflexivity|]. cbn [w_matrices]. rewrite app_nth1 by exact SB. reflexivity.
  - cbn [ostep] in H. destruct (nth_error (w_generators w) k0) as [o1|] eqn:E1; [|discriminate]. injection H as <-. exists o.
    cbn [w_generators w_matrices w_layouts call_of history] in *.
    split; [rewrite nth_app; destruct (Nat.eqb_spec k (length (w_generators w))); [lia|exact E]|]. split; [exact A|]. split; [|split; [exact XR|reflexivity]].
    intros k' o' N. cbn [set_gen w_generators]. rewrite nth_app. destruct (k' =? _); [|apply U, N]. intros Q. injection Q as <-. exact (U k0 o1 LA E1).
  - destruct LA as (L1 & L2). cbn [ostep] in H. destruct (nth_error (w_generators w) k0) as [o1|] eqn:E1; [|discriminate].
    destruct (nth_error (w_generators w) from) as [o2|] eqn:E2; [|discriminate]. injection H as <-. exists o.
    cbn [set_gen w_generators w_matrices w_layouts call_of history] in *.
    split; [rewrite nth_upd_other by congruence; exact E|]. split; [exact A|]. split; [|split; [exact XR|reflexivity]].
    intros k' o' N. cbn [set_gen w_generators]. rewrite nth_upd. destruct (_ && _); [|apply U, N]. intros Q. injection Q as <-. exact (U from o2 L2 E2).
  - cbn [ostep] in H. destruct (nth_error (w_generators w) k0) as [o1|] eqn:E1; [|discriminate].
    destruct (follow (w_layouts w) p) as [d|] eqn:F; [|discriminate]. injection H as <-.
    cbn [set_gen w_generators w_matrices w_layouts call_of] in *. destruct (Nat.eqb_spec k0 k) as [->|N].
    + rewrite E in E1. injection E1 as <-. eexists. split; [apply nth_upd_same; exact KL|]. split; [exact A|]. split; [|split; [exact XR|]].
      * intros k' o' N'. cbn [set_gen w_generators]. rewrite nth_upd_other by exact N'. apply U, N'.
      * cbn [history]. rewrite (follow_extends _ _ p d X F). f_equal. unfold load at 2. cbn [set_gen go_rest go_data go_bitmap w_layouts w_matrices].
        assert (B : nth (go_bitmap o) (w_matrices w) bm_empty = gen_bitmap (fst (Init (load w o) d L mn mx))) by (rewrite init_bitmap; reflexivity).
        rewrite B. pose proof (follow_extends _ _ p d XR F) as FD.
        assert (D : match init_data (go_data o) (load w o) p d L mn mx with Some p => nth_error (w_layouts w) p | None => None end
                    = gen_data (fst (Init (load w o) d L mn mx))).
        { unfold init_data, Init. destruct d as [d|]; [|reflexivity]. destruct (_ || _); [reflexivity|].
          destruct (SetAngleCoords _ _ _) as (ws & [|]); cbn [snd fst gen_data Reset]; [exact FD|reflexivity]. }
        rewrite D. destruct (fst (Init (load w o) d L mn mx)). reflexivity.
    + exists o. split; [rewrite nth_upd_other by congruence; exact E|]. split; [exact A|]. split; [|split; [exact XR|reflexivity]].
      intros k' o' N'. cbn [set_gen w_generators]. rewrite nth_upd. destruct (_ && _); [|apply U, N']. intros Q. injection Q as <-. cbn [go_bitmap]. exact (U k0 o1 N E1).
  - cbn [ostep] in H. destruct (nth_error (w_generators w) k0) as [o1|] eqn:E1; [|discriminate]. injection H as <-.
    cbn [set_gen w_generators w_matrices w_layouts call_of] in *. destruct (Nat.eqb_spec k0 k) as [->|N].
    + rewrite E in E1. injection E1 as <-. eexists. split; [apply nth_upd_same; exact KL|]. split; [exact A|]. split; [|split; [exact XR|reflexivity]].
      intros k' o' N'. cbn [set_gen w_generators]. rewrite nth_upd_other by exact N'. apply U, N'.
    + exists o. split; [rewrite nth_upd_other by congruence; exact E|]. split; [exact A|]. split; [|split; [exact XR|reflexivity]].
      intros k' o' N'. cbn [set_gen w_generators]. rewrite nth_upd. destruct (_ && _); [|apply U, N']. intros Q. injection Q as <-. cbn [go_bitmap]. exact (U k0 o1 N E1).
  - destruct (nth_error (w_generators w) k0) as [o1|] eqn:E1; [|cbn [ostep] in H; rewrite E1 in H; discriminate].
    destruct (process_step M w k0 r c o1 w' E1 H) as (g & res & P & NU & ->). cbn [w_generators w_matrices w_layouts call_of] in *.
    destruct (Nat.eqb_spec k0 k) as [->|N].
    + rewrite E in E1. injection E1 as <-. eexists. split; [apply nth_upd_same; exact KL|]. split; [exact A|]. split; [|split; [exact XR|]].
      * intros k' o' N'. cbn [set_gen w_generators]. rewrite nth_upd_other by exact N'. apply U, N'.
      * cbn [history]. rewrite P. assert (GD : gen_data g = gen_data (load w o)).
        { pose proof (process_data (m_stray M) (m_heap M) (m_stack M) (load w o) r c) as Q. rewrite P in Q. exact Q. }
        assert (load {| w_layouts := w_layouts w; w_matrices := upd (w_matrices w) (go_bitmap o) (gen_bitmap g);
                        w_generators := upd (w_generators w) k {| go_data := go_data o; go_bitmap := go_bitmap o; go_rest := g |} |}
                     {| go_data := go_data o; go_bitmap := go_bitmap o; go_rest := g |} = g) as ->.
        { unfold load in *. cbn [go_data go_bitmap go_rest w_layouts w_matrices gen_data] in *. rewrite <- GD.
          rewrite (nth_of_error _ _ bm_empty (gen_bitmap g) (nth_upd_same _ _ _ SB)). destruct g. reflexivity. }
        destruct res as [b|e|u]; [reflexivity|reflexivity|destruct (NU u eq_refl)].
    + exists o. split; [rewrite nth_upd_other by congruence; exact E|]. split; [exact A|]. split; [|split; [exact XR|]].
      * intros k' o' N'. cbn [set_gen w_generators]. rewrite nth_upd. destruct (_ && _); [|apply U, N']. intros Q. injection Q as <-. cbn [go_bitmap]. exact (U k0 o1 N E1).
      * cbn [history]. f_equal. symmetry. apply load_same; [reflexivity|]. cbn [w_matrices]. apply nth_upd_nth. rewrite A. intros Q. exact (U k0 o1 N E1 (eq_sym Q)).
  - cbn [ostep] in H. injection H as <-. exists o. cbn [w_generators w_matrices w_layouts call_of history] in *.
    split; [exact E|]. split; [exact A|]. split; [exact U|]. split.
    + intros p d' Hp. rewrite nth_error_app1; [exact Hp|]. apply nth_error_Some. congruence.
    + f_equal. symmetry. apply load_same; [|reflexivity]. intros p Hp. cbn [w_layouts]. apply nth_error_app1, SD, Hp.
  - destruct LA.
  - cbn [ostep] in H. injection H as <-. exists o. cbn [w_generators w_matrices w_layouts call_of history] in *.
    split; [exact E|]. split; [exact A|]. split; [exact U|]. split; [exact XR|]. f_equal. symmetry. apply load_same; [reflexivity|].
    cbn [w_matrices]. apply nth_upd_nth. congruence.
Qed.

Lemma history_app M a : forall g b, history M g (a ++ b) = match history M g a with Some g' => history M g' b | None => None end.
Proof.
  induction a as [|[d L mn mx|L|r c] a IH]; cbn [history app]; intros g b; try reflexivity; try apply IH.
  destruct (Process _ _ _ _ _ _) as (g' & [x|e|u]); [apply IH|apply IH|reflexivity].
Qed.

Lemma run_value M ops : forall w w' k o a, sound w -> run M w ops = Some w' -> Forall (leaves_alone k a) ops ->
  nth_error (w_generators w) k = Some o -> go_bitmap o = a -> unshared w k a ->
  exists o', nth_error (w_generators w') k = Some o' /\ go_bitmap o' = a /\ extends (w_layouts w) (w_layouts w') /\
    forall ds, extends (w_layouts w') ds -> history M (load w o) (calls_of ds k ops) = Some (load w' o').
Proof.
  induction ops as [|op ops IH]; cbn [run]; intros w w' k o a S H F E A U.
  - injection H as <-. exists o. repeat split; try assumption. intros p d; auto.
  - destruct (ostep M w op) as [w1|] eqn:E1; [|discriminate]. apply Forall_cons_iff in F as (F1 & F2).
    destruct (step_value M w op w1 k o a (w_layouts w1) S E1 F1 E A U ltac:(intros p d; auto)) as (o1 & N1 & A1 & U1 & X1 & _).
    destruct (IH w1 w' k o1 a (step_sound M w op w1 S E1) H F2 N1 A1 U1) as (o' & N' & A' & X' & V).
    exists o'. split; [exact N'|]. split; [exact A'|]. split; [intros p d P; apply X', X1, P|].
    intros ds X. destruct (step_value M w op w1 k o a ds S E1 F1 E A U ltac:(intros p d P; apply X, X', P)) as (o2 & N2 & _ & _ & _ & V2).
    rewrite N1 in N2. injection N2 as <-. unfold calls_of. cbn [flat_map]. rewrite history_app, V2. apply V, X.
Qed.

Lemma step_elsewhere M w0 w op w' a : ostep M w op = Some w' -> elsewhere w0 a op -> a < length (w_matrices w) ->
  (forall k, handle w k a -> handle w0 k a) ->
  shown w' a = shown w a /\ a < length (w_matrices w') /\ (forall k, handle w' k a -> handle w0 k a).
Proof.
  intros H EW AL HS. unfold shown.
  assert (KEEP : forall k1 o1 o2, nth_error (w_generators w) k1 = Some o1 -> go_bitmap o2 = go_bitmap o1 -> forall k,
     (exists o, nth_error (upd (w_generators w) k1 o2) k = Some o /\ go_bitmap o = a) -> handle w k a).
  { intros k1 o1 o2 E1 B k (o & E & A). rewrite nth_upd in E. destruct (Nat.eqb_spec k k1) as [->|N]; cbn [andb] in E.
    - destruct (k1 <? length (w_generators w)); [injection E as <-; exists o1; split; [exact E1|congruence]|exists o; split; assumption].
    - exists o. split; assumption. }
  destruct op; cbn [elsewhere] in EW.
  - cbn [ostep] in H. injection H as <-. cbn [w_matrices]. rewrite app_length. cbn [length]. split; [apply nth_error_app1, AL|]. split; [lia|].
    intros k (o & E & A). cbn [w_generators] in E. rewrite nth_app in E. destruct (k =? _); [injection E as <-; cbn [go_bitmap] in A; lia|]. apply HS. exists o. split; assumption.
  - cbn [ostep] in H. destruct (nth_error (w_generators w) k) as [o1|] eqn:E1; [|discriminate]. injection H as <-. cbn [w_matrices]. split; [reflexivity|]. split; [exact AL|].
    intros k' (o & E & A). cbn [w_generators] in E. rewrite nth_app in E. destruct (k' =? _); [injection E as <-|apply HS; exists o; split; assumption].
    destruct EW. apply HS. exists o1. split; assumption.
  - cbn [ostep] in H. destruct (nth_error (w_generators w) k) as [o1|] eqn:E1; [|discriminate].
    destruct (nth_error (w_generators w) from) as [o2|] eqn:E2; [|discriminate]. injection H as <-. cbn [set_gen w_matrices]. split; [reflexivity|]. split; [exact AL|].
    intros k' (o & E & A). cbn [set_gen w_generators] in E. rewrite nth_upd in E. destruct (_ && _); [injection E as <-|apply HS; exists o; split; assumption].
    destruct EW. apply HS. exists o2. split; assumption.
  - cbn [ostep] in H. destruct (nth_error (w_generators w) k) as [o1|] eqn:E1; [|discriminate].
    destruct (follow (w_layouts w) p) as [d|] eqn:F; [|discriminate]. injection H as <-. cbn [set_gen w_matrices]. split; [reflexivity|]. split; [exact AL|].
    intros k' Hk. apply HS. eapply KEEP; [exact E1| |exact Hk]. reflexivity.
  - cbn [ostep] in H. destruct (nth_error (w_generators w) k) as [o1|] eqn:E1; [|discriminate]. injection H as <-. cbn [set_gen w_matrices]. split; [reflexivity|]. split; [exact AL|].
    intros k' Hk. apply HS. eapply KEEP; [exact E1| |exact Hk]. reflexivity.
  - destruct (nth_error (w_generators w) k) as [o1|] eqn:E1; [|cbn [ostep] in H; rewrite E1 in H; discriminate].
    destruct (process_step M w k r c o1 w' E1 H) as (g & res & _ & _ & ->). cbn [w_matrices]. rewrite upd_length. split; [|split; [exact AL|]].
    + apply nth_upd_other. intros Q. apply EW, HS. exists o1. split; [exact E1|congruence].
    + intros k' Hk. apply HS. eapply KEEP; [exact E1| |exact Hk]. reflexivity.
  - cbn [ostep] in H. injection H as <-. cbn [w_matrices]. split; [reflexivity|]. split; [exact AL|]. exact HS.
  - cbn [ostep] in H. injection H as <-. cbn [w_matrices]. split; [reflexivity|]. split; [exact AL|]. exact HS.
  - cbn [ostep] in H. injection H as <-. cbn [w_matrices]. rewrite upd_length. split; [apply nth_upd_other; congruence|]. split; [exact AL|]. exact HS.
Qed.

Lemma run_elsewhere M ops : forall w0 w w' a, run M w ops = Some w' -> Forall (elsewhere w0 a) ops -> a < length (w_matrices w) ->
  (forall k, handle w k a -> handle w0 k a) -> shown w' a = shown w a.
Proof.
  induction ops as [|op ops IH]; cbn [run]; intros w0 w w' a H F AL HS; [injection H as <-; reflexivity|].
  destruct (ostep M w op) as [w1|] eqn:E; [|discriminate]. apply Forall_cons_iff in F as (F1 & F2).
  destruct (step_elsewhere M w0 w op w1 a E F1 AL HS) as (S1 & A1 & H1). rewrite <- S1. eapply IH; eassumption.
Qed.

(** After Process every pointer to the bitmap shows the new one. *)
Lemma process_shown M w k r c w' o : sound w -> nth_error (w_generators w) k = Some o -> ostep M w (OProcess k r c) = Some w' ->
  shown w' (go_bitmap o) = Some (GetMatrix (fst (Process (m_stray M) (m_heap M) (m_stack M) (load w o) r c))).
Proof.
  intros S E H. destruct (process_step M w k r c o w' E H) as (g & res & P & _ & ->). rewrite P. unfold shown. cbn [w_matrices fst GetMatrix].
  apply nth_upd_same. exact (proj1 (S k o E)).
Qed.

Lemma load_new w : load (mkworld (w_layouts w) (w_matrices w ++ [bm_empty]) (w_generators w ++ [mkgobject None (length (w_matrices w)) gen_new]))
  (mkgobject None (length (w_matrices w)) gen_new) = gen_new.
Proof. unfold load. cbn [go_data go_bitmap go_rest w_matrices]. rewrite app_nth2, Nat.sub_diag by lia. reflexivity. Qed.

Lemma run_layouts M ops : forall w w', run M w ops = Some w' -> Forall layout_step ops ->
  w_matrices w' = w_matrices w /\ w_generators w' = w_generators w.
Proof.
  induction ops as [|op ops IH]; cbn [run]; intros w w' H F; [injection H as <-; auto|]. apply Forall_cons_iff in F as (F1 & F2).
  destruct op; cbn [layout_step] in F1; try contradiction; cbn [ostep] in H; apply (IH _ _ H F2).
Qed.

Lemma run_cons M w op t w' : run M w (op :: t) = Some w' -> exists w1, ostep M w op = Some w1 /\ run M w1 t = Some w'.
Proof. cbn [run]. destruct (ostep M w op) as [w1|]; [|discriminate]. intros H. exists w1. auto. Qed.
Lemma run_snoc M w ops t w' : run M w (ops ++ t) = Some w' -> exists w1, run M w ops = Some w1 /\ run M w1 t = Some w'.
Proof. rewrite run_app. destruct (run M w ops) as [w1|]; [|discriminate]. intros H. exists w1. auto. Qed.
Lemma init_step M w k p L mn mx w' o : ostep M w (OInit k (Some p) L mn mx) = Some w' -> nth_error (w_generators w) k = Some o ->
  exists d, nth_error (w_layouts w) p = Some d /\
    w' = set_gen w k (mkgobject (init_data (go_data o) (load w o) (Some p) (Some d) L mn mx) (go_bitmap o) (fst (Init (load w o) (Some d) L mn mx))).
Proof.
  intros H E. cbn [ostep] in H. rewrite E in H. cbn [follow] in H. destruct (nth_error (w_layouts w) p) as [d|]; [|discriminate].
  injection H as <-. exists d. auto.
Qed.
Lemma init_load w p d d1 L mn mx a : nth_error (w_layouts w) p = Some d -> nth a (w_matrices w) bm_empty = bm_empty ->
  load w (mkgobject (init_data None gen_new (Some p) (Some d1) L mn mx) a (fst (Init gen_new (Some d1) L mn mx))) =
  fst (Init gen_new (Some d) L mn mx).
Proof.
  intros D B. unfold load. cbn [go_data go_bitmap go_rest]. rewrite B. unfold init_data, Init.
  destruct (match L with [] => true | _ => false end || V_not (gen_fragments gen_new)); [reflexivity|].
  destruct (SetAngleCoords _ _ _) as (ws & [|]); cbn [snd fst]; [rewrite D|]; reflexivity.
Qed.
