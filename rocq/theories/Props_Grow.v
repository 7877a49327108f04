(** C109: rectangles that grow. *)
From Coq Require Import Reals Lra Lia.
From Flocq Require Import Core.
From Verif Require Import Prelude P_Prelude M_Double S_Double M_LayoutData M_Converter S_Converter M_Vector2D M_BitMatrix S_Matrix
  P_BitMatrix P_Cells M_Zond S_Zond P_Zond Props_Zond M_Generator S_Generator P_Generator Props_Generator
  S_EndToEnd P_EndToEnd Props_EndToEnd S_Identify P_Identify S_Degrade P_Degrade Props_Degrade S_Exact P_Exact Props_Exact S_Grow.
Local Open Scope Z_scope.

Lemma floor_le x y : (x <= y)%R -> Zfloor x <= Zfloor y.
Proof. apply Zfloor_le. Qed.

Lemma marked_grows n from to from' to' k : (0 <= from)%R -> (from' <= from)%R -> (to <= to')%R -> marked n from to k ->
  marked n from' to' k \/ ~ first_half to /\ exists k', S k' = k /\ marked n from' to' k'.
Proof.
  intros P0 F T (B & [E|O]).
  - left. split; [lra|]. left. lra.
  - destruct O as (L & [(K & H)|(K & H)]).
    + right. split; [unfold first_half; lra|].
      assert (P : (IZR (Zfloor to) <= to)%R) by apply Zfloor_lb.
      assert (Q : (from < IZR (Zfloor to))%R).
      { pose proof (Zfloor_ub from) as U. apply Rlt_le_trans with (IZR (Zfloor from) + 1)%R; [exact U|]. rewrite <- plus_IZR. apply IZR_le. lia. }
      assert (0 < Zfloor to) by (apply lt_IZR; lra).
      exists (Z.to_nat (Zfloor to)). split; [lia|].
      unfold marked. rewrite INR_IZR_INZ, Z2Nat.id by lia. split; [lra|]. left. lra.
    + left. split; [lra|]. right. split.
      * apply Z.le_lt_trans with (Zfloor from); [now apply floor_le|]. apply Z.lt_le_trans with (Zfloor to); [exact L|now apply floor_le].
      * right. split; [exact K|lra].
Qed.

Lemma marks_grow mn mx r c lt rb lt' rb' i j : cx mn < cx mx -> cy mn < cy mx -> starts_inside mn mx lt -> lies_in lt rb lt' rb' ->
  marks mn mx r c lt rb i j ->
  exists i' j', (i' = i \/ S i' = i /\ ~ first_half (rows mn mx r (cy rb))) /\ (j' = j \/ S j' = j /\ ~ first_half (columns mn mx c (cx rb))) /\
    marks mn mx r c lt' rb' i' j'.
Proof.
  intros Hx Hy (S1 & S2) (L1 & L2 & L3 & L4) (Mi & Mj).
  pose proof (columns_mono mn mx c _ _ Hx S1) as C0. unfold columns in C0 at 1. rewrite Z.sub_diag in C0.
  pose proof (rows_mono mn mx r _ _ Hy S2) as R0. unfold rows in R0 at 1. rewrite Z.sub_diag in R0.
  assert (exists j', (j' = j \/ S j' = j /\ ~ first_half (columns mn mx c (cx rb))) /\
    marked c (columns mn mx c (cx lt')) (columns mn mx c (cx rb')) j') as (j' & J & Kj).
  { destruct (marked_grows c (columns mn mx c (cx lt)) (columns mn mx c (cx rb)) (columns mn mx c (cx lt')) (columns mn mx c (cx rb')) j ltac:(lra)
      (columns_mono _ _ _ _ _ Hx L1) (columns_mono _ _ _ _ _ Hx L2) Mj) as [Q|(N & k & E & Q)]; eauto. }
  assert (exists i', (i' = i \/ S i' = i /\ ~ first_half (rows mn mx r (cy rb))) /\
    marked r (rows mn mx r (cy lt')) (rows mn mx r (cy rb')) i') as (i' & I & Ki).
  { destruct (marked_grows r (rows mn mx r (cy lt)) (rows mn mx r (cy rb)) (rows mn mx r (cy lt')) (rows mn mx r (cy rb')) i ltac:(lra)
      (rows_mono _ _ _ _ _ Hy L3) (rows_mono _ _ _ _ _ Hy L4) Mi) as [Q|(N & k & E & Q)]; eauto. }
  exists i', j'. split; [exact I|]. split; [exact J|]. split; assumption.
Qed.

(** ** C109 *)
(** When rectangles grow, a cell that was set stays set, or the cell to the left of it, above it, or both, is set. *)
Theorem C109_growing_moves_at_most_one_cell :
  forall M M' calls calls' g g' heap heap' libs libs' L L' mn mx v v' al al' stack stack' r c items items',
  history M gen_new calls = Some g -> history M' gen_new calls' = Some g' ->
  in_force calls (Live (mklayout heap libs) L mn mx) -> in_force calls' (Live (mklayout heap' libs') L' mn mx) ->
  memory_ok al r c -> memory_ok al' r c -> candidates L libs items -> candidates L' libs' items' -> fine_box mn mx r c ->
  (forall item, In (Some item) items -> overlaps (box_workspace mn mx) item -> collectable heap stack item) ->
  (forall item, In (Some item) items' -> overlaps (box_workspace mn mx) item -> collectable heap' stack' item) ->
  tidy heap mn mx r c items -> tidy heap' mn mx r c items' ->
  grown (draws heap mn mx items) (draws heap' mn mx items') ->
  exists m m', result (Process (Some v) al stack g r c) = (m, Ok true) /\ result (Process (Some v') al' stack' g' r c) = (m', Ok true) /\
    forall i j, (i < r)%nat -> (j < c)%nat -> Get m i j = Ok true ->
      exists i' j', (i' = i \/ S i' = i) /\ (j' = j \/ S j' = j) /\ Get m' i' j' = Ok true.
Proof.
  intros M M' calls calls' g g' heap heap' libs libs' L L' mn mx v v' al al' stack stack' r c items items'
    H H' F F' Hm Hm' Hi Hi' FB HC HC' Ty Ty' G.
  destruct (C105_exactly_the_marked_cells M calls g heap libs L mn mx v al stack r c items H F Hm Hi FB HC Ty) as (m & P & Q).
  destruct (C105_exactly_the_marked_cells M' calls' g' heap' libs' L' mn mx v' al' stack' r c items' H' F' Hm' Hi' FB HC' Ty') as (m' & P' & Q').
  exists m, m'. split; [exact P|]. split; [exact P'|]. intros i j I J S. apply Q in S as (lt & rb & D & K); [|assumption|assumption].
  destruct (G lt rb D) as (lt' & rb' & D' & In').
  pose proof D as (item & s & I1 & T1 & T2 & T3). destruct (Ty item s I1 T1 T2) as (lt0 & rb0 & T4 & _ & SI & _).
  assert (lt0 = lt) as -> by (destruct T3, T4; congruence).
  pose proof FB as (_ & _ & Bx & By & _).
  destruct (marks_grow mn mx r c lt rb lt' rb' i j ltac:(lia) ltac:(lia) SI In' K) as (i' & j' & X & Y & Z).
  exists i', j'. split; [tauto|]. split; [tauto|]. apply Q'; [lia|lia|]. exists lt', rb'. auto.
Qed.

(** When the rectangles end in the first halves of cells (on cell borders, for example), no cell is lost. *)
Theorem C109_ends_in_first_halves :
  forall M M' calls calls' g g' heap heap' libs libs' L L' mn mx v v' al al' stack stack' r c items items',
  history M gen_new calls = Some g -> history M' gen_new calls' = Some g' ->
  in_force calls (Live (mklayout heap libs) L mn mx) -> in_force calls' (Live (mklayout heap' libs') L' mn mx) ->
  memory_ok al r c -> memory_ok al' r c -> candidates L libs items -> candidates L' libs' items' -> fine_box mn mx r c ->
  (forall item, In (Some item) items -> overlaps (box_workspace mn mx) item -> collectable heap stack item) ->
  (forall item, In (Some item) items' -> overlaps (box_workspace mn mx) item -> collectable heap' stack' item) ->
  tidy heap mn mx r c items -> tidy heap' mn mx r c items' ->
  grown (draws heap mn mx items) (draws heap' mn mx items') ->
  (forall lt rb, draws heap mn mx items lt rb -> first_half (rows mn mx r (cy rb)) /\ first_half (columns mn mx c (cx rb))) ->
  exists m m', result (Process (Some v) al stack g r c) = (m, Ok true) /\ result (Process (Some v') al' stack' g' r c) = (m', Ok true) /\
    forall i j, (i < r)%nat -> (j < c)%nat -> Get m i j = Ok true -> Get m' i j = Ok true.
Proof.
  intros M M' calls calls' g g' heap heap' libs libs' L L' mn mx v v' al al' stack stack' r c items items'
    H H' F F' Hm Hm' Hi Hi' FB HC HC' Ty Ty' G FH.
  destruct (C105_exactly_the_marked_cells M calls g heap libs L mn mx v al stack r c items H F Hm Hi FB HC Ty) as (m & P & Q).
  destruct (C105_exactly_the_marked_cells M' calls' g' heap' libs' L' mn mx v' al' stack' r c items' H' F' Hm' Hi' FB HC' Ty') as (m' & P' & Q').
  exists m, m'. split; [exact P|]. split; [exact P'|]. intros i j I J S. apply Q in S as (lt & rb & D & K); [|assumption|assumption].
  destruct (G lt rb D) as (lt' & rb' & D' & In'). destruct (FH lt rb D) as (F1 & F2).
  pose proof D as (item & s & I1 & T1 & T2 & T3). destruct (Ty item s I1 T1 T2) as (lt0 & rb0 & T4 & _ & SI & _).
  assert (lt0 = lt) as -> by (destruct T3, T4; congruence).
  pose proof FB as (_ & _ & Bx & By & _).
  destruct (marks_grow mn mx r c lt rb lt' rb' i j ltac:(lia) ltac:(lia) SI In' K) as (i' & j' & [->|(_ & X)] & [->|(_ & Y)] & Z); try contradiction.
  apply Q'; [lia|lia|]. exists lt', rb'. auto.
Qed.

(** ** Concrete cases *)
Lemma ex_draws x1 y1 x2 y2 lt rb : draws [] (mkcoord 0 0) (mkcoord 100 100) (ex_more x1 y1 x2 y2) lt rb -> lt = mkcoord x1 y2 /\ rb = mkcoord x2 y1.
Proof.
  intros (item & s & I & T & Ts & G). rewrite (ex_only_rect _ _ _ _ _ _ _ _ I T Ts) in G.
  destruct G as (G1 & G2). cbn in G1, G2. split; congruence.
Qed.

Lemma ex_drawn x1 y1 x2 y2 : 0 <= x1 -> x1 <= x2 -> x2 <= 100 -> 0 <= y1 -> y1 <= y2 -> y2 <= 100 ->
  draws [] (mkcoord 0 0) (mkcoord 100 100) (ex_more x1 y1 x2 y2) (mkcoord x1 y2) (mkcoord x2 y1).
Proof.
  intros X1 X2 X3 Y1 Y2 Y3.
  assert (O : overlaps (box_workspace (mkcoord 0 0) (mkcoord 100 100)) (ex_gen_rect 5 x1 y1 x2 y2)).
  { unfold overlaps. cbn [ex_gen_rect g_min g_max box_workspace leftTop rightBot cx cy]. lia. }
  exists (ex_gen_rect 5 x1 y1 x2 y2), (ex_gen_rect 5 x1 y1 x2 y2). split; [left; reflexivity|]. split; [|split; [reflexivity|split; reflexivity]].
  split; [exact O|]. split; [exact O|]. left. split; [left; reflexivity|reflexivity].
Qed.

(** A rectangle that ends at 7.8 cells sets column 8 (overshot); when it grows to 8.2 cells, column 8 is clear. *)
Theorem C109_growing_never_clears_a_cell_refuted :
  ~ (forall items items' m m' i j,
       option_map (fun g => result (Process (Some 1) infinite_memory 10 g 10 10)) (history ex_machine gen_new (ex_init items 100)) = Some (m, Ok true) ->
       option_map (fun g => result (Process (Some 1) infinite_memory 10 g 10 10)) (history ex_machine gen_new (ex_init items' 100)) = Some (m', Ok true) ->
       tidy [] (mkcoord 0 0) (mkcoord 100 100) 10 10 items -> tidy [] (mkcoord 0 0) (mkcoord 100 100) 10 10 items' ->
       grown (draws [] (mkcoord 0 0) (mkcoord 100 100) items) (draws [] (mkcoord 0 0) (mkcoord 100 100) items') ->
       Get m i j = Ok true -> Get m' i j = Ok true).
Proof.
  intros H.
  assert (X : exists m m', option_map (fun g => result (Process (Some 1) infinite_memory 10 g 10 10)) (history ex_machine gen_new (ex_init (ex_more 33 30 78 81) 100)) = Some (m, Ok true) /\
    option_map (fun g => result (Process (Some 1) infinite_memory 10 g 10 10)) (history ex_machine gen_new (ex_init (ex_more 33 30 82 81) 100)) = Some (m', Ok true) /\
    Get m 4 8 = Ok true /\ Get m' 4 8 = Ok false) by run_example.
  destruct X as (m & m' & E & E' & G & G').
  pose proof (H _ _ m m' 4%nat 8%nat E E' (ex_tidy_items 33 30 78 81 ltac:(lia) ltac:(lia) ltac:(lia) ltac:(lia) ltac:(lia) ltac:(lia))
    (ex_tidy_items 33 30 82 81 ltac:(lia) ltac:(lia) ltac:(lia) ltac:(lia) ltac:(lia) ltac:(lia))) as K.
  assert (GR : grown (draws [] (mkcoord 0 0) (mkcoord 100 100) (ex_more 33 30 78 81)) (draws [] (mkcoord 0 0) (mkcoord 100 100) (ex_more 33 30 82 81))).
  { intros lt rb D. apply ex_draws in D as (-> & ->). exists (mkcoord 33 81), (mkcoord 82 30). split; [apply ex_drawn; lia|].
    unfold lies_in. cbn [cx cy]. lia. }
  specialize (K GR G). rewrite G' in K. discriminate K.
Qed.

Example C109_hypotheses_met :
  let mn := mkcoord 0 0 in let mx := mkcoord 100 100 in
  fine_box mn mx 10 10 /\ tidy [] mn mx 10 10 (ex_more 33 30 72 81) /\ tidy [] mn mx 10 10 (ex_more 20 30 85 81) /\
  grown (draws [] mn mx (ex_more 33 30 72 81)) (draws [] mn mx (ex_more 20 30 85 81)) /\
  (forall lt rb, draws [] mn mx (ex_more 33 30 72 81) lt rb -> first_half (rows mn mx 10 (cy rb)) /\ first_half (columns mn mx 10 (cx rb))) /\
  in_force (ex_init (ex_more 33 30 72 81) 100) (Live (mklayout [] (ex_libs (ex_more 33 30 72 81))) [5] mn mx) /\
  candidates [5] (ex_libs (ex_more 33 30 72 81)) (ex_more 33 30 72 81) /\
  (forall item, In (Some item) (ex_more 33 30 72 81) -> overlaps (box_workspace mn mx) item -> collectable [] 10 item).
Proof.
  intros mn mx. split; [exact ex_fine|]. split; [apply ex_tidy_items; lia|]. split; [apply ex_tidy_items; lia|]. split; [|split; [|split; [|split]]].
  - intros lt rb D. apply ex_draws in D as (-> & ->). exists (mkcoord 20 81), (mkcoord 85 30). split; [apply ex_drawn; lia|].
    unfold lies_in. cbn [cx cy]. lia.
  - intros lt rb D. apply ex_draws in D as (-> & ->). unfold first_half, rows, columns. cbn [mn mx cx cy]. rewrite !INR_IZR_INZ.
    change (Z.of_nat 10) with 10. change (100 - 30) with 70. change (100 - 0) with 100. change (72 - 0) with 72.
    replace (70 * 10 / 100)%R with 7%R by field. replace (72 * 10 / 100)%R with (7 + 2 / 10)%R by field.
    assert (F1 : Zfloor 7 = 7) by (apply Zfloor_imp; change (7 + 1) with 8; lra).
    assert (F2 : Zfloor (7 + 2 / 10) = 7) by (apply Zfloor_imp; change (7 + 1) with 8; lra).
    rewrite F1, F2. lra.
  - now apply ex_init_force.
  - apply candidates_items. reflexivity.
  - intros item [[= <-]|[[= <-]|[]]] _; exact Logic.I.
Qed.

Print Assumptions C109_growing_moves_at_most_one_cell.
Print Assumptions C109_ends_in_first_halves.
Print Assumptions C109_growing_never_clears_a_cell_refuted.
