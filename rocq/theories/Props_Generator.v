(** C48-C52: the bitmap generator. *)
From Coq Require Import Permutation.
From Verif Require Import Prelude P_Prelude M_Double M_LayoutData M_Converter S_Converter M_Vector2D M_BitMatrix S_Matrix
  P_BitMatrix M_Zond S_Zond M_Generator P_Uniform S_Generator P_Generator.
Local Open Scope Z_scope.

(** * C48  Initialisation is one-shot *)

(** Up to the first Init with data and layers, an Init with data and layers succeeds exactly when
    its box is not inverted. *)
Theorem C48_first_init : forall M calls g d l L mn mx,
  history M gen_new calls = Some g -> Forall (fun c => ~ usable_init c) calls ->
  (ordered_box mn mx -> snd (Init g (Some d) (l :: L) mn mx) = Ok tt) /\
  (~ ordered_box mn mx -> snd (Init g (Some d) (l :: L) mn mx) = Throw InvalidArgument).
Proof.
  intros M calls g d l L mn mx H F. destruct (in_force_total calls) as (s & Hs).
  assert (s = Fresh). { apply (in_force_fresh calls s Hs). intros E. apply Exists_exists in E. destruct E as (c & Hc & U).
    rewrite Forall_forall in F. exact (F c Hc U). }
  subst s. destruct (in_force_agrees M calls Fresh g Hs H) as (_ & _ & _ & f & A).
  pose proof (Init_first g f d l L mn mx A) as I. cbv zeta in I. destruct I as (_ & _ & I1 & I2).
  split; intros O; [apply I1, O|apply I2, O].
Qed.

(** After it - whether it succeeded or not - every Init throws and changes nothing. *)
Theorem C48_later_init_throws : forall M calls g d L mn mx,
  history M gen_new calls = Some g -> Exists usable_init calls ->
  Init g d L mn mx = (g, Throw InvalidArgument).
Proof.
  intros M calls g d L mn mx H E. destruct (in_force_total calls) as (s & Hs).
  assert (N : s <> Fresh) by (intros Z; apply (in_force_fresh calls s Hs) in Z; contradiction).
  pose proof (in_force_agrees M calls s g Hs H) as (_ & A).
  apply Init_again. destruct s; [congruence|apply A|apply A].
Qed.

(** An Init without data or without layers changes nothing, whatever happened before. *)
Theorem C48_rejected_arguments_change_nothing : forall g d L mn mx,
  d = None \/ L = [] -> Init g d L mn mx = (g, Throw InvalidArgument).
Proof.
  intros g d L mn mx H. apply Init_unusable. destruct H as [-> | ->]; [intros []|destruct d; intros []].
Qed.

(** After an Init with an inverted box the object is of no use: Process is undefined behaviour
    for ever after. *)
Theorem C48_inverted_box_is_final : forall M calls1 d l L mn mx calls2 g stray al stack r c,
  Forall (fun c => ~ usable_init c) calls1 -> ~ ordered_box mn mx ->
  history M gen_new (calls1 ++ CInit (Some d) (l :: L) mn mx :: calls2) = Some g ->
  (0 < r)%nat -> (0 < c)%nat -> memory_ok al r c ->
  exists u, snd (Process stray al stack g r c) = UB u.
Proof.
  intros M calls1 d l L mn mx calls2 g stray al stack r c F O H Hr Hc Hm.
  assert (G : in_force (calls1 ++ CInit (Some d) (l :: L) mn mx :: calls2) Dead).
  { clear H. induction calls2 as [|x t IH] using rev_ind.
    - destruct (in_force_total calls1) as (s & Hs).
      assert (s = Fresh). { apply (in_force_fresh calls1 s Hs). intros E. apply Exists_exists in E. destruct E as (y & Hy & U).
        rewrite Forall_forall in F. exact (F y Hy U). }
      subst s. eapply in_force_next; [exact Hs|]. apply next_bad_box; [discriminate|exact O].
    - rewrite app_comm_cons, app_assoc. eapply in_force_next; [exact IH|].
      destruct x as [d' L' mn' mx'|L'|r' c']; [apply next_again; discriminate|apply next_early; auto|apply next_process]. }
  pose proof (in_force_agrees M _ _ g G H) as A. destruct stray as [v|].
  - exists NullDeref. exact (no_data_process v al stack g r c Dead (or_intror eq_refl) A Hr Hc Hm).
  - exists OobIndex. apply strict_process; auto. apply A.
Qed.

Definition ex_gen_rect (lay x0 y0 x1 y1 : Z) : geom :=
  mkgeom GTrectangle lay [mkcoord x0 y1; mkcoord x1 y1; mkcoord x1 y0; mkcoord x0 y0; mkcoord x0 y1]
    (mkcoord x0 y0) (mkcoord x1 y1) (CRectangle 0).
Definition ex_layout : layout :=
  mklayout [] [mklibrary [] [] [mklayer 4 0 [] [Some (ex_gen_rect 4 0 0 40 40)];
                                mklayer 5 0 [] [Some (ex_gen_rect 5 60 60 80 80); None; Some (ex_gen_rect 5 200 200 300 300)];
                                mklayer 6 0 [] [Some (ex_gen_rect 6 0 0 80 20)]] (mkcoord 0 0) (mkcoord 0 0)].
Definition ex_machine : machine := mkmachine (Some 77) infinite_memory 10.
Definition ex_calls : list call :=
  [CInit None [5] (mkcoord 0 0) (mkcoord 100 100); CProcess 0 7;
   CInit (Some ex_layout) [6; 5] (mkcoord 0 0) (mkcoord 100 100); CProcess 5 5;
   CInit (Some ex_layout) [4] (mkcoord 0 0) (mkcoord 50 50)].

Lemma observe {A B} (f : A -> B) (o : option A) (x : B) : option_map f o = Some x -> exists g, o = Some g /\ f g = x.
Proof. destruct o as [g|]; [|discriminate]. intros [= <-]. exists g. auto. Qed.

Example C48_hypotheses_met : exists g,
  history ex_machine gen_new ex_calls = Some g /\ Exists usable_init ex_calls /\
  gen_layers g = [6; 5] /\
  snd (Init g (Some ex_layout) [4] (mkcoord 0 0) (mkcoord 50 50)) = Throw InvalidArgument /\
  snd (Init gen_new (Some ex_layout) [4] (mkcoord 0 0) (mkcoord 50 50)) = Ok tt /\
  snd (Init gen_new (Some ex_layout) [4] (mkcoord 60 0) (mkcoord 50 50)) = Throw InvalidArgument.
Proof.
  assert (E : option_map (fun g => (gen_layers g, snd (Init g (Some ex_layout) [4] (mkcoord 0 0) (mkcoord 50 50))))
                (history ex_machine gen_new ex_calls) = Some ([6; 5], Throw InvalidArgument)) by (vm_compute; reflexivity).
  apply observe in E. destruct E as (g & H & E). injection E as E1 E2. exists g.
  split; [exact H|]. split; [do 2 apply Exists_cons_tl; apply Exists_cons_hd; exact I|].
  split; [exact E1|]. split; [exact E2|]. vm_compute. split; reflexivity.
Qed.

Print Assumptions C48_first_init.
Print Assumptions C48_later_init_throws.
Print Assumptions C48_rejected_arguments_change_nothing.
Print Assumptions C48_inverted_box_is_final.

(** * C49  Process after Init reads an element that is not there *)

Theorem C49_process_after_init_is_undefined : forall M calls g al stack r c,
  history M gen_new calls = Some g -> Exists usable_init calls ->
  (0 < r)%nat -> (0 < c)%nat -> memory_ok al r c ->
  snd (Process None al stack g r c) = UB OobIndex.
Proof.
  intros M calls g al stack r c H E Hr Hc Hm. destruct (in_force_total calls) as (s & Hs).
  assert (N : s <> Fresh) by (intros Z; apply (in_force_fresh calls s Hs) in Z; contradiction).
  pose proof (in_force_agrees M calls s g Hs H) as (_ & A).
  apply strict_process; auto. destruct s; [congruence|apply A|apply A].
Qed.

(** Without such an Init there is no layout: a null pointer is read, stray read or not. *)
Theorem C49_process_before_init_is_undefined : forall M calls g v al stack r c,
  history M gen_new calls = Some g -> Forall (fun c => ~ usable_init c) calls ->
  (0 < r)%nat -> (0 < c)%nat -> memory_ok al r c ->
  snd (Process (Some v) al stack g r c) = UB NullDeref.
Proof.
  intros M calls g v al stack r c H F Hr Hc Hm. destruct (in_force_total calls) as (s & Hs).
  assert (s = Fresh). { apply (in_force_fresh calls s Hs). intros E. apply Exists_exists in E. destruct E as (x & Hx & U).
    rewrite Forall_forall in F. exact (F x Hx U). }
  subst s. exact (no_data_process v al stack g r c Fresh (or_introl eq_refl) (in_force_agrees M calls Fresh g Hs H) Hr Hc Hm).
Qed.

(** So on a machine that traps the read no history leads to a finished bitmap. *)
Theorem C49_no_bitmap_under_strict_rules : forall al stack calls g r c b,
  history (mkmachine None al stack) gen_new calls = Some g ->
  memory_ok al r c -> snd (Process None al stack g r c) <> Ok b.
Proof.
  intros al stack calls g r c b H Hm E.
  destruct r as [|r]; [discriminate|]. destruct c as [|c]; [discriminate|].
  destruct (in_force_total calls) as (s & Hs). pose proof (in_force_agrees _ calls s g Hs H) as A.
  assert (D : gen_fragments g = [] -> False).
  { intros Z. rewrite (strict_process al stack g (S r) (S c) Z ltac:(lia) ltac:(lia) Hm) in E. discriminate. }
  destruct s; [|apply D, A|apply D, A].
  destruct A as (_ & A1 & A2 & f & A3).
  pose proof (Process_core None al stack g (S r) (S c) ltac:(lia) ltac:(lia) Hm (or_intror (ex_intro _ f A3))
                ltac:(intros Z; rewrite A3 in Z; discriminate)) as P.
  cbv zeta in P. rewrite A1, A2, no_data_core in P. injection P as _ P. rewrite P in E. discriminate.
Qed.

(** If the read yields a value, the value makes no difference to the matrix or the outcome. *)
Theorem C49_the_value_read_is_irrelevant : forall M calls g v v' al stack r c,
  history M gen_new calls = Some g -> memory_ok al r c ->
  result (Process (Some v) al stack g r c) = result (Process (Some v') al stack g r c).
Proof.
  intros M calls g v v' al stack r c H Hm.
  destruct r as [|r]; [reflexivity|]. destruct c as [|c]; [reflexivity|].
  destruct (in_force_total calls) as (s & Hs). pose proof (agrees_frags _ _ (in_force_agrees M calls s g Hs H)) as F.
  unfold result.
  rewrite (Process_core (Some v) al stack g (S r) (S c)), (Process_core (Some v') al stack g (S r) (S c));
    try lia; try assumption; try (intros _; eauto). reflexivity.
Qed.

Example C49_hypotheses_met : exists g,
  history ex_machine gen_new ex_calls = Some g /\
  snd (Process None infinite_memory 10 g 5 5) = UB OobIndex /\
  snd (Process (Some 12) infinite_memory 10 g 5 5) = Ok true /\
  snd (Process (Some 12) infinite_memory 10 gen_new 5 5) = UB NullDeref.
Proof.
  assert (E : option_map (fun g => (snd (Process None infinite_memory 10 g 5 5), snd (Process (Some 12) infinite_memory 10 g 5 5)))
                (history ex_machine gen_new ex_calls) = Some (UB OobIndex, Ok true)) by (vm_compute; reflexivity).
  apply observe in E. destruct E as (g & H & E). injection E as E1 E2. exists g.
  split; [exact H|]. split; [exact E1|]. split; [exact E2|]. vm_compute. reflexivity.
Qed.

Print Assumptions C49_process_after_init_is_undefined.
Print Assumptions C49_process_before_init_is_undefined.
Print Assumptions C49_no_bitmap_under_strict_rules.
Print Assumptions C49_the_value_read_is_irrelevant.

(** * C50  Process depends only on its inputs *)

(** Every history puts some setting in force. *)
Theorem C50_settings_exist : forall calls, exists s, in_force calls s.
Proof. exact in_force_total. Qed.

(** Two generators, whatever was called on them before and on whatever machine, with the same
    layout, the same set of layers and the same box in force: Process gives the same matrix and
    the same outcome. *)
Theorem C50_process_depends_only_on_its_inputs :
  forall M M' calls calls' g g' heap libs L L' mn mx v v' al al' stack r c,
  history M gen_new calls = Some g -> history M' gen_new calls' = Some g' ->
  in_force calls (Live (mklayout heap libs) L mn mx) -> in_force calls' (Live (mklayout heap libs) L' mn mx) ->
  same_set L L' -> memory_ok al r c -> memory_ok al' r c -> (0 < r)%nat -> (0 < c)%nat ->
  result (Process (Some v) al stack g r c) = result (Process (Some v') al' stack g' r c).
Proof.
  intros M M' calls calls' g g' heap libs L L' mn mx v v' al al' stack r c H H' F F' HL Hm Hm' Hr Hc.
  rewrite (live_process v al stack g r c _ _ _ _ (in_force_agrees _ _ _ _ F H) Hr Hc Hm).
  rewrite (live_process v' al' stack g' r c _ _ _ _ (in_force_agrees _ _ _ _ F' H') Hr Hc Hm').
  apply core_items, items_same, HL.
Qed.

(** In particular a call can be repeated, with other calls of Process and failing calls of Init
    in between. *)
Theorem C50_repeating_a_call : forall M calls g calls2 g2 d L mn mx v al stack r c,
  history M gen_new calls = Some g -> in_force calls (Live d L mn mx) ->
  Forall (fun x => match x with CSetLayerArray _ => False | _ => True end) calls2 ->
  history M g calls2 = Some g2 ->
  memory_ok al r c -> (0 < r)%nat -> (0 < c)%nat ->
  result (Process (Some v) al stack g2 r c) = result (Process (Some v) al stack g r c).
Proof.
  intros M calls g calls2 g2 d L mn mx v al stack r c H F N H2 Hm Hr Hc.
  assert (F2 : in_force (calls ++ calls2) (Live d L mn mx)).
  { clear H2. induction calls2 as [|x t IH] using rev_ind; [rewrite app_nil_r; exact F|].
    apply Forall_app in N. destruct N as (N1 & N2). rewrite app_assoc. eapply in_force_next; [apply IH, N1|].
    inversion N2 as [|? ? Hx _]; subst. destruct x; [apply next_again; discriminate|destruct Hx|apply next_process]. }
  assert (H3 : history M gen_new (calls ++ calls2) = Some g2) by (rewrite history_app, H; exact H2).
  destruct d as [heap libs].
  eapply C50_process_depends_only_on_its_inputs; [exact H3|exact H|exact F2|exact F|intros n; tauto|exact Hm|exact Hm|exact Hr|exact Hc].
Qed.

Lemma ex_in_force : in_force ex_calls (Live ex_layout [6; 5] (mkcoord 0 0) (mkcoord 100 100)).
Proof.
  assert (F1 : in_force [CInit None [5] (mkcoord 0 0) (mkcoord 100 100)] Fresh)
    by (apply (in_force_next [] Fresh _ Fresh in_force_start); apply next_unusable; intros []).
  assert (F2 : in_force [CInit None [5] (mkcoord 0 0) (mkcoord 100 100); CProcess 0 7] Fresh)
    by (apply (in_force_next _ Fresh (CProcess 0 7) Fresh F1); constructor).
  assert (F3 : in_force ([CInit None [5] (mkcoord 0 0) (mkcoord 100 100); CProcess 0 7] ++
                         [CInit (Some ex_layout) [6; 5] (mkcoord 0 0) (mkcoord 100 100)])
                 (Live ex_layout [6; 5] (mkcoord 0 0) (mkcoord 100 100))).
  { apply (in_force_next _ Fresh _ _ F2). constructor; [discriminate|]. unfold ordered_box. cbn. lia. }
  pose proof (in_force_next _ _ _ _ F3 (next_process _ 5%nat 5%nat)) as F4.
  refine (in_force_next _ _ (CInit (Some ex_layout) [4] (mkcoord 0 0) (mkcoord 50 50)) _ F4 _).
  apply next_again. discriminate.
Qed.

(** the matrix of the example *)
Definition ex_m56 : bm := Eval vm_compute in
  match history ex_machine gen_new ex_calls with
  | Some g => fst (result (Process (Some 1) infinite_memory 10 g 10 10))
  | None => bm_empty
  end.

Example C50_hypotheses_met : exists g g',
  history ex_machine gen_new ex_calls = Some g /\
  history ex_machine gen_new [CInit (Some ex_layout) [4] (mkcoord 0 0) (mkcoord 100 100); CSetLayerArray [5; 6]] = Some g' /\
  (exists m, result (Process (Some 1) infinite_memory 10 g 10 10) = (m, Ok true) /\
     result (Process (Some 2) infinite_memory 20 g' 10 10) = (m, Ok true) /\
     Get m 2 6 = Ok true /\ Get m 0 0 = Ok false).
Proof.
  assert (X1 : option_map (fun g => result (Process (Some 1) infinite_memory 10 g 10 10))
    (history ex_machine gen_new ex_calls) = Some (ex_m56, Ok true)) by (vm_compute; reflexivity).
  apply observe in X1. destruct X1 as (g & H & E).
  assert (X2 : option_map (fun g => result (Process (Some 2) infinite_memory 20 g 10 10))
    (history ex_machine gen_new
       [CInit (Some ex_layout) [4] (mkcoord 0 0) (mkcoord 100 100); CSetLayerArray [5; 6]]) = Some (ex_m56, Ok true)) by (vm_compute; reflexivity).
  apply observe in X2. destruct X2 as (g' & H' & E').
  exists g, g'. split; [exact H|]. split; [exact H'|]. exists ex_m56. split; [exact E|]. split; [exact E'|].
  vm_compute. split; reflexivity.
Qed.

Print Assumptions C50_settings_exist.
Print Assumptions C50_process_depends_only_on_its_inputs.
Print Assumptions C50_repeating_a_call.

(** * C51  Only the first selected layer of each library is drawn *)

Theorem C51_only_the_first_selected_layer_counts :
  forall M M' calls calls' g g' heap libs libs' L mn mx v v' al al' stack r c,
  history M gen_new calls = Some g -> history M' gen_new calls' = Some g' ->
  in_force calls (Live (mklayout heap libs) L mn mx) -> in_force calls' (Live (mklayout heap libs') L mn mx) ->
  Forall2 (same_first L) libs libs' -> memory_ok al r c -> memory_ok al' r c -> (0 < r)%nat -> (0 < c)%nat ->
  result (Process (Some v) al stack g r c) = result (Process (Some v') al' stack g' r c).
Proof.
  intros M M' calls calls' g g' heap libs libs' L mn mx v v' al al' stack r c H H' F F' HL Hm Hm' Hr Hc.
  rewrite (live_process v al stack g r c _ _ _ _ (in_force_agrees _ _ _ _ F H) Hr Hc Hm).
  rewrite (live_process v' al' stack g' r c _ _ _ _ (in_force_agrees _ _ _ _ F' H') Hr Hc Hm').
  apply core_items, items_first, HL.
Qed.

Definition ex_m6 : bm := Eval vm_compute in
  match history ex_machine gen_new (ex_calls ++ [CSetLayerArray [6]]) with
  | Some g => fst (result (Process (Some 1) infinite_memory 10 g 10 10))
  | None => bm_empty
  end.

(** The natural claim - all selected layers are drawn - fails: of layers 5 and 6, both selected,
    only 5 is; selecting 6 alone draws the missing part. *)
Theorem C51_all_selected_layers_are_drawn_refuted : exists g g' m m',
  history ex_machine gen_new ex_calls = Some g /\ gen_layers g = [6; 5] /\
  history ex_machine gen_new (ex_calls ++ [CSetLayerArray [6]]) = Some g' /\
  result (Process (Some 1) infinite_memory 10 g 10 10) = (m, Ok true) /\
  result (Process (Some 1) infinite_memory 10 g' 10 10) = (m', Ok true) /\
  Get m 9 0 = Ok false /\ Get m' 9 0 = Ok true.
Proof.
  assert (X3 : option_map (fun g => (gen_layers g, result (Process (Some 1) infinite_memory 10 g 10 10)))
    (history ex_machine gen_new ex_calls) = Some ([6; 5], (ex_m56, Ok true))) by (vm_compute; reflexivity).
  apply observe in X3. destruct X3 as (g & H & E).
  assert (X4 : option_map (fun g => result (Process (Some 1) infinite_memory 10 g 10 10))
    (history ex_machine gen_new (ex_calls ++ [CSetLayerArray [6]])) = Some (ex_m6, Ok true)) by (vm_compute; reflexivity).
  apply observe in X4. destruct X4 as (g' & H' & E').
  pose proof (f_equal fst E) as E1. pose proof (f_equal snd E) as E2. cbn beta iota delta [fst snd] in E1, E2. exists g, g', ex_m56, ex_m6.
  split; [exact H|]. split; [exact E1|]. split; [exact H'|]. split; [exact E2|]. split; [exact E'|].
  vm_compute. split; reflexivity.
Qed.

Example C51_hypotheses_met :
  let lib := mklibrary [] [] [mklayer 5 0 [] [Some (ex_gen_rect 5 60 60 80 80); None; Some (ex_gen_rect 5 200 200 300 300)]]
               (mkcoord 0 0) (mkcoord 0 0) in
  in_force ex_calls (Live ex_layout [6; 5] (mkcoord 0 0) (mkcoord 100 100)) /\
  in_force [CInit (Some (mklayout [] [lib])) [6; 5] (mkcoord 0 0) (mkcoord 100 100)]
    (Live (mklayout [] [lib]) [6; 5] (mkcoord 0 0) (mkcoord 100 100)) /\
  Forall2 (same_first [6; 5]) (lay_libraries ex_layout) [lib].
Proof.
  intros lib. split; [exact ex_in_force|]. split.
  - apply (in_force_next [] Fresh _ _ in_force_start). constructor; [discriminate|]. unfold ordered_box. cbn. lia.
  - repeat constructor. eexists. split.
    + exists [mklayer 4 0 [] [Some (ex_gen_rect 4 0 0 40 40)]]. eexists. split; [reflexivity|].
      split; [cbn; auto|]. intros l' [<-|[]]. cbn. intros [E|[E|[]]]; discriminate.
    + exists []. eexists. split; [reflexivity|]. split; [cbn; auto|]. intros l' [].
Qed.

Print Assumptions C51_only_the_first_selected_layer_counts.
Print Assumptions C51_all_selected_layers_are_drawn_refuted.

(** * C52  The bitmap is the union of what its geometries set *)

Theorem C52_every_layout_has_its_candidates : forall L libs, exists items, candidates L libs items.
Proof. intros L libs. exists (items_of L libs). apply candidates_items. reflexivity. Qed.

(** When Process returns, the matrix is r x c; a cell is set exactly when a shape to be drawn
    sets it when drawn alone on a blank matrix. *)
Theorem C52_the_bitmap_is_the_union :
  forall M calls g heap libs L mn mx v al stack r c m items,
  history M gen_new calls = Some g -> in_force calls (Live (mklayout heap libs) L mn mx) ->
  memory_ok al r c -> (0 < r)%nat -> (0 < c)%nat -> candidates L libs items ->
  result (Process (Some v) al stack g r c) = (m, Ok true) ->
  exists z A, process_zond (box_workspace mn mx) r c z /\ shows m A /\ arows A = r /\ acols A = c /\
    forall i j, (i < r)%nat -> (j < c)%nat ->
      (Get m i j = Ok true <->
       exists item s, In (Some item) items /\ to_draw heap (box_workspace mn mx) item s /\ sets z r c s i j).
Proof.
  intros M calls g heap libs L mn mx v al stack r c m items H F Hm Hr Hc Hi P.
  rewrite (live_process v al stack g r c _ _ _ _ (in_force_agrees _ _ _ _ F H) Hr Hc Hm) in P.
  destruct (core_cells stack heap libs _ L r c m items Hi P) as (z & Hz & _ & sel & S & Hs).
  exists z, (adraw (azero r c) sel). split; [exact Hz|]. split; [exact S|]. split; [reflexivity|]. split; [reflexivity|].
  intros i j Hir Hjc. rewrite <- (Hs i j Hir Hjc).
  destruct (shows_elim _ _ S) as (Hh & H1 & H2 & H3). cbn in H1, H2.
  rewrite Get_raw by (try exact Hh; lia). rewrite H3 by (cbn; lia). cbn.
  split; [intros [= E]; exact E|intros ->; reflexivity].
Qed.

(** The order of the geometries does not matter: if the candidates of two layouts with the same
    structures are permutations of each other and Process returns for one, it returns for the
    other, with a matrix that looks the same. *)
Theorem C52_order_does_not_matter :
  forall M M' calls calls' g g' heap libs libs' L mn mx v v' al al' stack r c m items items',
  history M gen_new calls = Some g -> history M' gen_new calls' = Some g' ->
  in_force calls (Live (mklayout heap libs) L mn mx) -> in_force calls' (Live (mklayout heap libs') L mn mx) ->
  candidates L libs items -> candidates L libs' items' -> Permutation items items' ->
  memory_ok al r c -> memory_ok al' r c -> (0 < r)%nat -> (0 < c)%nat ->
  result (Process (Some v) al stack g r c) = (m, Ok true) ->
  exists m', result (Process (Some v') al' stack g' r c) = (m', Ok true) /\ same_matrix m m'.
Proof.
  intros M M' calls calls' g g' heap libs libs' L mn mx v v' al al' stack r c m items items' H H' F F' Hi Hi' P Hm Hm' Hr Hc R.
  rewrite (live_process v al stack g r c _ _ _ _ (in_force_agrees _ _ _ _ F H) Hr Hc Hm) in R.
  rewrite (live_process v' al' stack g' r c _ _ _ _ (in_force_agrees _ _ _ _ F' H') Hr Hc Hm').
  exact (core_perm stack heap libs libs' _ L _ r c m items items' Hi Hi' P R).
Qed.

(** Geometries whose box does not meet the workspace contribute nothing. *)
Theorem C52_outside_contributes_nothing : forall heap w item s,
  ~ overlaps w item \/ ~ overlaps w s -> ~ to_draw heap w item s.
Proof. intros heap w item s H (H1 & H2 & _). tauto. Qed.

Example C52_hypotheses_met : exists g m,
  history ex_machine gen_new ex_calls = Some g /\
  in_force ex_calls (Live ex_layout [6; 5] (mkcoord 0 0) (mkcoord 100 100)) /\
  candidates [6; 5] (lay_libraries ex_layout) [Some (ex_gen_rect 5 60 60 80 80); None; Some (ex_gen_rect 5 200 200 300 300)] /\
  result (Process (Some 1) infinite_memory 10 g 10 10) = (m, Ok true) /\
  Get m 2 6 = Ok true /\ Get m 5 5 = Ok false /\
  to_draw [] (box_workspace (mkcoord 0 0) (mkcoord 100 100)) (ex_gen_rect 5 60 60 80 80) (ex_gen_rect 5 60 60 80 80) /\
  ~ overlaps (box_workspace (mkcoord 0 0) (mkcoord 100 100)) (ex_gen_rect 5 200 200 300 300).
Proof.
  assert (X5 : option_map (fun g => result (Process (Some 1) infinite_memory 10 g 10 10))
    (history ex_machine gen_new ex_calls) = Some (ex_m56, Ok true)) by (vm_compute; reflexivity).
  apply observe in X5. destruct X5 as (g & H & E).
  exists g, ex_m56. split; [exact H|]. split; [exact ex_in_force|].
  split; [apply candidates_items; vm_compute; reflexivity|]. split; [exact E|].
  split; [vm_compute; reflexivity|]. split; [vm_compute; reflexivity|].
  unfold to_draw, overlaps. cbn. split; [|lia]. split; [lia|]. split; [lia|]. left. auto.
Qed.

Print Assumptions C52_every_layout_has_its_candidates.
Print Assumptions C52_the_bitmap_is_the_union.
Print Assumptions C52_order_does_not_matter.
Print Assumptions C52_outside_contributes_nothing.
