(** C111: turning a layout over. *)
From Coq Require Import Reals Lra Lia.
From Flocq Require Import Core.
From Verif Require Import Prelude P_Prelude M_Double S_Double M_LayoutData M_Converter S_Converter M_Vector2D M_BitMatrix S_Matrix
  P_BitMatrix P_Cells S_Ratio M_Ratio P_Ratio M_Zond S_Zond P_Zond Props_Zond M_Generator S_Generator P_Generator Props_Generator
  S_EndToEnd P_EndToEnd Props_EndToEnd S_Identify P_Identify Props_Identify S_Degrade P_Degrade Props_Degrade S_Turn P_Turn.
Local Open Scope Z_scope.

Lemma shows_transposed m m' A A' : shows m A -> shows m' A' -> arows A' = acols A -> acols A' = arows A ->
  (forall i j, (i < arows A)%nat -> (j < acols A)%nat -> acell A' j i = acell A i j) -> transposed m m'.
Proof.
  intros S S' E1 E2 H. pose proof S as (_ & R & C & G). pose proof S' as (_ & R' & C' & G').
  unfold transposed, GetRowCount, GetColumnCount in *. split; [congruence|]. split; [congruence|].
  intros i j Hi Hj. exists (acell A i j). rewrite (G i j) by lia. rewrite (G' j i) by lia.
  rewrite (H i j) by lia. split; reflexivity.
Qed.

(** ** C111 *)
(** A layout of rectangles and polygons and its box turned over, cut into c rows and r columns instead of r rows and
    c columns: when the first bitmap is made, so is the second, and it is the transposed one - for all rectangles, also
    those that end on a cell border or a centre.  (Turning twice changes nothing, so the converse is the same theorem.) *)
Theorem C111_turning_over : forall M M' calls calls' g g' heap heap' libs libs' L L' mn mx v v' al al' stack stack' r c items m,
  history M gen_new calls = Some g -> history M' gen_new calls' = Some g' ->
  in_force calls (Live (mklayout heap libs) L mn mx) -> in_force calls' (Live (mklayout heap' libs') L' (turned mx) (turned mn)) ->
  fine_box mn mx r c -> fine_box (turned mx) (turned mn) c r ->
  candidates L libs items -> candidates L' libs' (map turned_item items) -> Forall plain items ->
  (forall i, In (Some i) items -> overlaps (box_workspace mn mx) i -> turnable mn mx r c i) ->
  memory_ok al r c -> memory_ok al' c r ->
  result (Process (Some v) al stack g r c) = (m, Ok true) ->
  exists m', result (Process (Some v') al' stack' g' c r) = (m', Ok true) /\ transposed m m'.
Proof.
  intros M M' calls calls' g g' heap heap' libs libs' L L' mn mx v v' al al' stack stack' r c items m H H' F F' FB FB' Hi Hi' Pl TG Hm Hm' P.
  pose proof FB as (_ & _ & _ & _ & Hr & Hc).
  rewrite (live_process v al stack g r c _ _ _ _ (in_force_agrees _ _ _ _ F H) ltac:(lia) ltac:(lia) Hm) in P.
  rewrite (live_process v' al' stack' g' c r _ _ _ _ (in_force_agrees _ _ _ _ F' H') ltac:(lia) ltac:(lia) Hm').
  destruct (core_turned mn mx r c FB FB' stack stack' heap heap' libs libs' L L' items m Hi Hi' Pl TG P)
    as (m' & P' & A & A' & S & S' & R1 & R2 & R3 & R4 & E).
  exists m'. split; [exact P'|]. apply (shows_transposed m m' A A' S S'); [congruence|congruence|]. rewrite R1, R2. exact E.
Qed.

Theorem C111_turning_twice : forall p o, turned (turned p) = p /\ turned_item (turned_item o) = o.
Proof.
  assert (T : forall p, turned (turned p) = p) by (intros [x y]; unfold turned; cbn [cx cy]; now rewrite !Z.opp_involutive).
  intros p [g|]; (split; [apply T|]); [|reflexivity]. destruct g as [t l cs a b k]. cbn [turned_item option_map turned_geom g_type g_layer g_coords g_min g_max g_class].
  unfold turned_geom. cbn [g_type g_layer g_coords g_min g_max g_class]. rewrite map_map, !T, (map_ext _ _ T), map_id. reflexivity.
Qed.

(** Counting the cells of a rectangular array by rows or by columns. *)
Lemma count_app v l l' : count v (l ++ l') = (count v l + count v l')%nat.
Proof. unfold count. now rewrite filter_app, app_length. Qed.

Lemma count_rows_cols (f : nat -> nat -> bool) cs rs :
  count true (flat_map (fun i => map (fun j => f i j) cs) rs) = count true (flat_map (fun j => map (fun i => f i j) rs) cs).
Proof.
  revert cs. induction rs as [|i rs IH]; intros cs.
  - cbn [flat_map map]. induction cs as [|j cs IHc]; [reflexivity|]. cbn [flat_map app]. exact IHc.
  - cbn [flat_map]. rewrite count_app, IH. clear IH. induction cs as [|j cs IHc]; [reflexivity|].
    cbn [map flat_map]. rewrite !count_app. cbn [app]. rewrite !count_cons. cbn [map flat_map] in IHc. lia.
Qed.

Lemma flat_map_map_ext (f g : nat -> nat -> bool) cs rs : (forall i j, In i rs -> In j cs -> f i j = g i j) ->
  flat_map (fun i => map (fun j => f i j) cs) rs = flat_map (fun i => map (fun j => g i j) cs) rs.
Proof.
  induction rs as [|i rs IH]; intros H; [reflexivity|]. cbn [flat_map]. rewrite IH by (intros; apply H; [right|]; assumption). f_equal.
  apply map_ext_in. intros j Hj. apply H; [left; reflexivity|exact Hj].
Qed.

(** Transposing two matrices does not change their score: recognising turned layouts among turned references is the same
    as recognising the layouts among the references. *)
Theorem C111_scores_of_turned_bitmaps : forall al al' a b a' b' A B A' B',
  shows a A -> shows b B -> shows a' A' -> shows b' B' -> transposed a a' -> transposed b b' ->
  arows A = arows B -> acols A = acols B -> nonempty A ->
  ~ out_of_memory al (arows A) (acols A) -> ~ out_of_memory al' (acols A) (arows A) -> Z.of_nat (cell_number A) <= 2 ^ 53 ->
  exists x y s, Compare al a b = Ok x /\ Compare al' a' b' = Ok y /\ real x s /\ real y s.
Proof.
  intros al al' a b a' b' A B A' B' Sa Sb Sa' Sb' Ta Tb E1 E2 N O O' Z.
  pose proof Sa as (_ & RA & CA & GA). pose proof Sb as (_ & RB & CB & GB). pose proof Sa' as (_ & RA' & CA' & GA'). pose proof Sb' as (_ & RB' & CB' & GB').
  destruct Ta as (Ta1 & Ta2 & Ta3). destruct Tb as (Tb1 & Tb2 & Tb3). unfold GetRowCount, GetColumnCount in *.
  assert (QA : arows A' = acols A /\ acols A' = arows A) by lia. assert (QB : arows B' = acols B /\ acols B' = arows B) by lia.
  assert (K : cell_number A' = cell_number A) by (unfold cell_number; destruct QA as (-> & ->); apply Nat.mul_comm).
  destruct (Compare_ok al a b A B Sa Sb E1 E2 N O Z) as (x & Cx & Rx).
  destruct (Compare_ok al' a' b' A' B' Sa' Sb') as (y & Cy & Ry).
  - lia.
  - lia.
  - unfold nonempty in *. lia.
  - destruct QA as (-> & ->). exact O'.
  - rewrite K. exact Z.
  - exists x, y, (score (Z.of_nat (differences A B)) (Z.of_nat (cell_number A))). split; [exact Cx|]. split; [exact Cy|]. split; [exact Rx|].
    rewrite K in Ry. replace (differences A B) with (differences A' B'); [exact Ry|].
    unfold differences. destruct QA as (-> & ->). rewrite count_rows_cols. f_equal. apply flat_map_map_ext.
    intros i j Hi Hj. apply in_seq in Hi. apply in_seq in Hj.
    destruct (Ta3 i j ltac:(lia) ltac:(lia)) as (u & U1 & U2). destruct (Tb3 i j ltac:(lia) ltac:(lia)) as (u' & U3 & U4).
    rewrite (GA i j) in U1 by lia. rewrite (GA' j i) in U2 by lia.
    rewrite (GB i j) in U3 by lia. rewrite (GB' j i) in U4 by lia. congruence.
Qed.

(** ** Concrete cases *)
(** A rectangle of 4.5 x 1.5 cells (its edges on centres) in a box of 10 x 5 cells, and the same turned over. *)
Definition ex_turn : geom := ex_gen_rect 5 35 10 80 25.
Example C111_hypotheses_met :
  let mn := mkcoord 0 0 in let mx := mkcoord 100 50 in
  fine_box mn mx 5 10 /\ fine_box (turned mx) (turned mn) 10 5 /\ Forall plain [Some ex_turn] /\ turnable mn mx 5 10 ex_turn /\
  exists m m', ex_bitmap (ex_layer [Some ex_turn]) 5 mn mx 5 10 = Some (m, Ok true) /\
    ex_bitmap (ex_layer [turned_item (Some ex_turn)]) 5 (turned mx) (turned mn) 10 5 = Some (m', Ok true) /\
    Get m 3 4 = Ok true /\ Get m 1 4 = Ok false /\ Get m' 4 1 = Ok false /\ Get m' 4 3 = Ok true /\ Get m 2 7 = Ok true /\ Get m' 7 2 = Ok true.
Proof.
  intros mn mx. split; [unfold fine_box, coord32, int32; cbn; lia|]. split; [unfold fine_box, coord32, int32; cbn; lia|].
  split; [constructor; [split; discriminate|constructor]|]. split.
  - intros _. exists (mkcoord 35 25), (mkcoord 80 10). split; [split; reflexivity|]. split; [split; unfold int32; cbn; lia|]. split; [split; unfold int32; cbn; lia|].
    unfold manageable, coord32, differences_fit, int32, columns, rows. cbn [box_workspace leftTop rightBot cx cy mn mx].
    rewrite !INR_IZR_INZ. repeat split; try lia; change (Z.of_nat 10) with 10; change (Z.of_nat 5) with 5; cbn -[Rmult Rdiv Rle IZR]; try lra.
  - subst mn mx. run_example.
Qed.

(** The other reflection, left to right, is not respected: the rectangle that ends at 7.8 cells sets column 8, but its
    mirror image, that begins at 2.2 cells, does not set column 1. *)
Theorem C111_mirroring_respected_refuted :
  ~ (forall s mn mx m m', fine_box mn mx 10 10 -> turnable mn mx 10 10 s ->
       ex_bitmap (ex_layer [Some s]) 5 mn mx 10 10 = Some (m, Ok true) ->
       ex_bitmap (ex_layer [Some (mirrored_rectangle s)]) 5 (mkcoord (- cx mx) (cy mn)) (mkcoord (- cx mn) (cy mx)) 10 10 = Some (m', Ok true) ->
       forall i j, (i < 10)%nat -> (j < 10)%nat -> Get m i j = Get m' i (9 - j)).
Proof.
  intros H.
  assert (X : exists m m', ex_bitmap (ex_layer [Some (ex_gen_rect 5 33 30 78 80)]) 5 (mkcoord 0 0) (mkcoord 100 100) 10 10 = Some (m, Ok true) /\
    ex_bitmap (ex_layer [Some (mirrored_rectangle (ex_gen_rect 5 33 30 78 80))]) 5 (mkcoord (- cx (mkcoord 100 100)) (cy (mkcoord 0 0)))
      (mkcoord (- cx (mkcoord 0 0)) (cy (mkcoord 100 100))) 10 10 = Some (m', Ok true) /\
    Get m 4 8 = Ok true /\ Get m' 4 1 = Ok false) by run_example.
  destruct X as (m & m' & E & E' & G & G').
  assert (FB : fine_box (mkcoord 0 0) (mkcoord 100 100) 10 10) by (unfold fine_box, coord32, int32; cbn; lia).
  assert (TG : turnable (mkcoord 0 0) (mkcoord 100 100) 10 10 (ex_gen_rect 5 33 30 78 80)).
  { intros _. exists (mkcoord 33 80), (mkcoord 78 30). split; [split; reflexivity|]. split; [split; unfold int32; cbn; lia|]. split; [split; unfold int32; cbn; lia|].
    unfold manageable, coord32, differences_fit, int32, columns, rows. cbn [box_workspace leftTop rightBot cx cy].
    rewrite !INR_IZR_INZ. repeat split; try lia; change (Z.of_nat 10) with 10; cbn -[Rmult Rdiv Rle IZR]; try lra. }
  pose proof (H _ _ _ m m' FB TG E E' 4%nat 8%nat ltac:(lia) ltac:(lia)) as K. change (9 - 8)%nat with 1%nat in K. rewrite G, G' in K. discriminate K.
Qed.

Print Assumptions C111_turning_over.
Print Assumptions C111_turning_twice.
Print Assumptions C111_scores_of_turned_bitmaps.
Print Assumptions C111_mirroring_respected_refuted.
