(** C132: noise does not change which reference wins. *)
From Coq Require Import Reals Lra Lia.
From Flocq Require Import Core.
From Verif Require Import Prelude P_Prelude M_Double S_Double P_Double M_LayoutData M_Converter S_Converter M_Vector2D M_BitMatrix S_Matrix
  P_BitMatrix P_Cells M_Ratio S_Ratio P_Ratio Props_Ratio Props_BitMatrix P_Rank Props_Rank M_Hash S_Hash M_Zond S_Zond M_Generator S_Generator P_Generator Props_Generator
  S_EndToEnd P_EndToEnd Props_EndToEnd S_Identify P_Identify S_Degrade P_Degrade Props_Degrade S_Exact S_Wobble Props_Wobble S_Library Props_Library.
Local Open Scope Z_scope.

Lemma same_shown m A A' : shows m A -> shows m A' -> arows A = arows A' /\ acols A = acols A'.
Proof. intros S S'. destruct (shows_elim _ _ S) as (_ & a1 & a2 & _). destruct (shows_elim _ _ S') as (_ & b1 & b2 & _). split; congruence. Qed.

Lemma noise d M M' calls calls' g g' heap heap' libs libs' L L' mn mx mn' mx' v v' al al' stack stack' r c items items' pairs :
  history M gen_new calls = Some g -> history M' gen_new calls' = Some g' ->
  in_force calls (Live (mklayout heap libs) L mn mx) -> in_force calls' (Live (mklayout heap' libs') L' mn' mx') ->
  candidates L libs items -> candidates L' libs' items' -> memory_ok al r c -> memory_ok al' r c -> fine_box mn mx r c -> fine_box mn' mx' r c ->
  (forall item, In (Some item) items -> overlaps (box_workspace mn mx) item -> collectable heap stack item) ->
  (forall item, In (Some item) items' -> overlaps (box_workspace mn' mx') item -> collectable heap' stack' item) ->
  drawable heap mn mx r c items -> drawable heap' mn' mx' r c items' ->
  (0 <= d)%R -> drawn_alike d heap heap' mn mx mn' mx' r c items items' pairs ->
  exists m m' B, result (Process (Some v) al stack g r c) = (m, Ok true) /\ result (Process (Some v') al' stack' g' r c) = (m', Ok true) /\
    shows m' B /\ arows B = r /\ acols B = c /\ (exists A, shows m A) /\
    forall A, shows m A -> arows A = r /\ acols A = c /\ (INR (differences B A) <= total (map (fun p => seam d mn mx r c (fst p)) pairs))%R.
Proof.
  intros H H' F F' Hi Hi' Hm Hm' FB FB' HC HC' HD HD' D P.
  destruct (wobble d M M' calls calls' g g' heap heap' libs libs' L L' mn mx mn' mx' v v' al al' stack stack' r c items items' pairs
    H H' F F' Hi Hi' Hm Hm' FB FB' HC HC' HD HD' D P) as (m & m' & A & B & E & E' & SA & SB & Ar & Ac & Br & Bc & Q).
  destruct (C129_few_cells_differ d M M' calls calls' g g' heap heap' libs libs' L L' mn mx mn' mx' v v' al al' stack stack' r c items items' pairs
    H H' F F' Hi Hi' Hm Hm' FB FB' HC HC' HD HD' D P) as (m1 & m1' & E1 & E1' & W).
  rewrite E in E1. injection E1 as <-. rewrite E' in E1'. injection E1' as <-.
  exists m, m', B. split; [exact E|]. split; [exact E'|]. split; [exact SB|]. split; [exact Br|]. split; [exact Bc|]. split; [exists A; exact SA|].
  intros A' SA'. destruct (same_shown _ _ _ SA SA') as (K1 & K2). split; [congruence|]. split; [congruence|].
  rewrite (differences_sym B A') by congruence. apply W; assumption.
Qed.

(** The share of equal cells is close to one. *)
Theorem C132_the_score_under_noise :
  forall d M M' calls calls' g g' heap heap' libs libs' L L' mn mx mn' mx' v v' al al' al2 stack stack' r c items items' pairs,
  history M gen_new calls = Some g -> history M' gen_new calls' = Some g' ->
  in_force calls (Live (mklayout heap libs) L mn mx) -> in_force calls' (Live (mklayout heap' libs') L' mn' mx') ->
  candidates L libs items -> candidates L' libs' items' -> memory_ok al r c -> memory_ok al' r c -> memory_ok al2 r c -> fine_box mn mx r c -> fine_box mn' mx' r c ->
  Z.of_nat r * Z.of_nat c <= 2 ^ 53 ->
  (forall item, In (Some item) items -> overlaps (box_workspace mn mx) item -> collectable heap stack item) ->
  (forall item, In (Some item) items' -> overlaps (box_workspace mn' mx') item -> collectable heap' stack' item) ->
  drawable heap mn mx r c items -> drawable heap' mn' mx' r c items' ->
  (0 <= d)%R -> drawn_alike d heap heap' mn mx mn' mx' r c items items' pairs ->
  exists m m' x s, result (Process (Some v) al stack g r c) = (m, Ok true) /\ result (Process (Some v') al' stack' g' r c) = (m', Ok true) /\
    Compare al2 m' m = Ok x /\ real x s /\
    (1 - total (map (fun p => seam d mn mx r c (fst p)) pairs) / (INR r * INR c) - / IZR (2 ^ 52) <= s)%R.
Proof.
  intros d M M' calls calls' g g' heap heap' libs libs' L L' mn mx mn' mx' v v' al al' al2 stack stack' r c items items' pairs
    H H' F F' Hi Hi' Hm Hm' Hm2 FB FB' Sz HC HC' HD HD' D P.
  destruct (noise d M M' calls calls' g g' heap heap' libs libs' L L' mn mx mn' mx' v v' al al' stack stack' r c items items' pairs
    H H' F F' Hi Hi' Hm Hm' FB FB' HC HC' HD HD' D P) as (m & m' & B & E & E' & SB & Br & Bc & (A & SA) & W).
  destruct (W A SA) as (Ar & Ac & Q). pose proof FB as (_ & _ & _ & _ & Hr & Hc).
  assert (CN : cell_number B = (r * c)%nat) by (unfold cell_number; now rewrite Br, Bc).
  destruct (C107_score_is_the_share_of_equal_cells al2 m' m B A SB SA) as (x & s & Ex & Rx & K).
  - congruence.
  - congruence.
  - split; lia.
  - rewrite Br, Bc. now apply plenty.
  - rewrite CN. lia.
  - exists m, m', x, s. split; [exact E|]. split; [exact E'|]. split; [exact Ex|]. split; [exact Rx|].
    pose proof (differences_le B A) as Le. rewrite minus_INR in K by exact Le. rewrite CN, mult_INR in K.
    assert (0 < INR r)%R by (apply lt_0_INR; lia). assert (0 < INR c)%R by (apply lt_0_INR; lia).
    assert (N : (0 < INR r * INR c)%R) by nra. set (n := (INR r * INR c)%R) in *. apply Rabs_le_inv in K.
    replace ((n - INR (differences B A)) / n)%R with (1 - INR (differences B A) / n)%R in K by (field; lra).
    assert (T : (INR (differences B A) / n <= total (map (fun p => seam d mn mx r c (fst p)) pairs) / n)%R).
    { unfold Rdiv. apply Rmult_le_compat_r; [left; apply Rinv_0_lt_compat, N|exact Q]. }
    lra.
Qed.

(** Every other bitmap that is more than twice as far from the reference as the noise can take the drawing has a lower score. *)
Theorem C132_the_right_reference_wins :
  forall d M M' calls calls' g g' heap heap' libs libs' L L' mn mx mn' mx' v v' al al' al2 stack stack' r c items items' pairs,
  history M gen_new calls = Some g -> history M' gen_new calls' = Some g' ->
  in_force calls (Live (mklayout heap libs) L mn mx) -> in_force calls' (Live (mklayout heap' libs') L' mn' mx') ->
  candidates L libs items -> candidates L' libs' items' -> memory_ok al r c -> memory_ok al' r c -> memory_ok al2 r c -> fine_box mn mx r c -> fine_box mn' mx' r c ->
  Z.of_nat r * Z.of_nat c < 2 ^ 51 ->
  (forall item, In (Some item) items -> overlaps (box_workspace mn mx) item -> collectable heap stack item) ->
  (forall item, In (Some item) items' -> overlaps (box_workspace mn' mx') item -> collectable heap' stack' item) ->
  drawable heap mn mx r c items -> drawable heap' mn' mx' r c items' ->
  (0 <= d)%R -> drawn_alike d heap heap' mn mx mn' mx' r c items items' pairs ->
  exists m m', result (Process (Some v) al stack g r c) = (m, Ok true) /\ result (Process (Some v') al' stack' g' r c) = (m', Ok true) /\
    forall n A N, shows m A -> shows n N -> arows N = r -> acols N = c ->
      (2 * total (map (fun p => seam d mn mx r c (fst p)) pairs) < INR (differences A N))%R ->
      exists x y, Compare al2 m' m = Ok x /\ Compare al2 m' n = Ok y /\ dgt x y = true.
Proof.
  intros d M M' calls calls' g g' heap heap' libs libs' L L' mn mx mn' mx' v v' al al' al2 stack stack' r c items items' pairs
    H H' F F' Hi Hi' Hm Hm' Hm2 FB FB' Sz HC HC' HD HD' D P.
  destruct (noise d M M' calls calls' g g' heap heap' libs libs' L L' mn mx mn' mx' v v' al al' stack stack' r c items items' pairs
    H H' F F' Hi Hi' Hm Hm' FB FB' HC HC' HD HD' D P) as (m & m' & B & E & E' & SB & Br & Bc & _ & W).
  exists m, m'. split; [exact E|]. split; [exact E'|]. intros n A N SA SN Nr Nc Far. destruct (W A SA) as (Ar & Ac & Q).
  pose proof FB as (_ & _ & _ & _ & Hr & Hc).
  destruct (C107_greater_score_fewer_differences al2 m' m n B A N SB SA SN) as (x & y & Ex & Ey & K & _); try congruence.
  - split; lia.
  - rewrite Br, Bc. now apply plenty.
  - unfold cell_number. rewrite Br, Bc. lia.
  - exists x, y. split; [exact Ex|]. split; [exact Ey|]. apply K.
    pose proof (differences_triangle A B N ltac:(congruence) ltac:(congruence)) as T. rewrite (differences_sym A B) in T by congruence.
    apply le_INR in T. rewrite plus_INR in T. apply INR_lt. lra.
Qed.

(** The same with the references in a library of files: whoever reads all of them finds the right one. *)
Theorem C132_found_in_the_library :
  forall d M M' calls calls' g g' heap heap' libs libs' L L' mn mx mn' mx' v v' al al' al2 stack stack' r c items items' pairs,
  history M gen_new calls = Some g -> history M' gen_new calls' = Some g' ->
  in_force calls (Live (mklayout heap libs) L mn mx) -> in_force calls' (Live (mklayout heap' libs') L' mn' mx') ->
  candidates L libs items -> candidates L' libs' items' -> memory_ok al r c -> memory_ok al' r c -> memory_ok al2 r c -> fine_box mn mx r c -> fine_box mn' mx' r c ->
  Z.of_nat r * Z.of_nat c < 2 ^ 51 ->
  (forall item, In (Some item) items -> overlaps (box_workspace mn mx) item -> collectable heap stack item) ->
  (forall item, In (Some item) items' -> overlaps (box_workspace mn' mx') item -> collectable heap' stack' item) ->
  drawable heap mn mx r c items -> drawable heap' mn' mx' r c items' ->
  (0 <= d)%R -> drawn_alike d heap heap' mn mx mn' mx' r c items items' pairs ->
  exists m m', result (Process (Some v) al stack g r c) = (m, Ok true) /\ result (Process (Some v') al' stack' g' r c) = (m', Ok true) /\
    forall al3 can_write accepted l dsk f, Forall (entry al3 can_write accepted) l -> latest l f m ->
    (forall f' n A N, f' <> f -> latest l f' n -> shows m A -> shows n N ->
       arows N = r /\ acols N = c /\ (2 * total (map (fun p => seam d mn mx r c (fst p)) pairs) < INR (differences A N))%R) ->
    exists states, stores al3 can_write accepted dsk l states /\
      forall self f' n, f' <> f -> latest l f' n ->
      exists k k' x y, ReadFile X86 al3 (last states dsk) self f = (k, Ok true) /\ ReadFile X86 al3 (last states dsk) self f' = (k', Ok true) /\
        Compare al2 m' k = Ok x /\ Compare al2 m' k' = Ok y /\ dgt x y = true.
Proof.
  intros d M M' calls calls' g g' heap heap' libs libs' L L' mn mx mn' mx' v v' al al' al2 stack stack' r c items items' pairs
    H H' F F' Hi Hi' Hm Hm' Hm2 FB FB' Sz HC HC' HD HD' D P.
  destruct (noise d M M' calls calls' g g' heap heap' libs libs' L L' mn mx mn' mx' v v' al al' stack stack' r c items items' pairs
    H H' F F' Hi Hi' Hm Hm' FB FB' HC HC' HD HD' D P) as (m & m' & B & E & E' & SB & Br & Bc & (A & SA) & W).
  exists m, m'. split; [exact E|]. split; [exact E'|]. intros al3 cw acc l dsk f Fl Lf Far. destruct (W A SA) as (Ar & Ac & Q).
  destruct (C126_the_library_reads_back al3 cw acc l dsk Fl) as (states & St & R & _). exists states. split; [exact St|].
  intros self f' n Nf Lf'. destruct (R f m Lf self) as (k & Rk & X & Sx & Sk). destruct (R f' n Lf' self) as (k' & Rk' & Y & Sy & Sk').
  destruct (W X Sx) as (Xr & Xc & QX). destruct (Far f' n X Y Nf Lf' Sx Sy) as (Yr & Yc & FarY). pose proof FB as (_ & _ & _ & _ & Hr & Hc).
  destruct (C107_greater_score_fewer_differences al2 m' k k' B X Y SB Sk Sk') as (x & y & Ex & Ey & K & _); try congruence.
  - split; lia.
  - rewrite Br, Bc. now apply plenty.
  - unfold cell_number. rewrite Br, Bc. lia.
  - exists k, k', x, y. split; [exact Rk|]. split; [exact Rk'|]. split; [exact Ex|]. split; [exact Ey|]. apply K.
    pose proof (differences_triangle X B Y ltac:(congruence) ltac:(congruence)) as T. rewrite (differences_sym X B) in T by congruence.
    apply le_INR in T. rewrite plus_INR in T. apply INR_lt. lra.
Qed.

(** ** A concrete case: the drawing of C129 on 20 x 20 cells, and a second reference that is all ones. *)
Definition ex_ref_items : list (option geom) := ex_more 30 30 40 40.
Definition ex_noisy_items : list (option geom) := ex_more 325 325 400 400.
Lemma ex_noise_alike : drawn_alike (1 / 2) [] [] (mkcoord 0 0) (mkcoord 100 100) (mkcoord 0 0) (mkcoord 1000 1000) 20 20 ex_ref_items ex_noisy_items
  [((mkcoord 30 40, mkcoord 40 30), (mkcoord 325 400, mkcoord 400 325))].
Proof.
  split; [|split].
  - intros lt rb. unfold ex_ref_items. rewrite ex_draws by lia. split; [intros ->; eexists; left; reflexivity|]. intros (q' & [Q|[]]). congruence.
  - intros lt rb. unfold ex_noisy_items. rewrite ex_draws by lia. split; [intros ->; eexists; left; reflexivity|]. intros (q' & [Q|[]]). congruence.
  - intros q q' [[= <- <-]|[]]. unfold off_by, columns, rows. cbn [cx cy fst snd]. rewrite !INR_IZR_INZ.
    change (Z.of_nat 20) with 20. change (30 - 0) with 30. change (40 - 0) with 40. change (325 - 0) with 325. change (400 - 0) with 400.
    change (100 - 0) with 100. change (1000 - 0) with 1000. change (100 - 30) with 70. change (100 - 40) with 60. change (1000 - 400) with 600. change (1000 - 325) with 675.
    repeat split; apply Rabs_le; lra.
Qed.
Lemma ex_noise_drawable side x1 y1 x2 y2 : 0 < side <= 1000 -> 0 <= x1 -> x1 <= x2 -> x2 <= side -> 0 <= y1 -> y1 <= y2 -> y2 <= side ->
  drawable [] (mkcoord 0 0) (mkcoord side side) 20 20 (ex_more x1 y1 x2 y2).
Proof.
  intros Sd X1 X2 X3 Y1 Y2 Y3 item s I T Ts. rewrite (ex_only_rect _ _ _ _ _ _ _ _ I T Ts). exists (mkcoord x1 y2), (mkcoord x2 y1).
  split; [split; reflexivity|]. split; [apply ex_manageable; lia|]. unfold starts_inside. cbn [cx cy]. lia.
Qed.

(** The bitmaps differ, 2 T is less than 145 cells, the all-ones reference is more than 380 cells away - and loses. *)
Example C132_hypotheses_met :
  drawn_alike (1 / 2) [] [] (mkcoord 0 0) (mkcoord 100 100) (mkcoord 0 0) (mkcoord 1000 1000) 20 20 ex_ref_items ex_noisy_items
    [((mkcoord 30 40, mkcoord 40 30), (mkcoord 325 400, mkcoord 400 325))] /\
  drawable [] (mkcoord 0 0) (mkcoord 100 100) 20 20 ex_ref_items /\ drawable [] (mkcoord 0 0) (mkcoord 1000 1000) 20 20 ex_noisy_items /\
  (2 * total (map (fun p => seam (1 / 2) (mkcoord 0 0) (mkcoord 100 100) 20 20 (fst p)) [((mkcoord 30 40, mkcoord 40 30), (mkcoord 325 400, mkcoord 400 325))]) < 145)%R /\
  exists g g' m m' n, history ex_machine gen_new (ex_init ex_ref_items 100) = Some g /\ history ex_machine gen_new (ex_init ex_noisy_items 1000) = Some g' /\
    result (Process (Some 1) infinite_memory 10 g 20 20) = (m, Ok true) /\ result (Process (Some 1) infinite_memory 10 g' 20 20) = (m', Ok true) /\
    SetRange (BM_ctor infinite_memory 20 20) 0 0 19 19 true = Ok n /\ bm_eq infinite_memory m m' = Ok false /\
    (400 - 380 > Z.of_nat (length (filter (fun p => match Get m (fst p) (snd p) with Ok b => b | _ => true end) (list_prod (seq 0 20) (seq 0 20))))) /\
    match Compare infinite_memory m' m, Compare infinite_memory m' n with Ok x, Ok y => dgt x y | _, _ => false end = true.
Proof.
  split; [exact ex_noise_alike|]. split; [apply ex_noise_drawable; lia|]. split; [apply ex_noise_drawable; lia|]. split.
  - pose proof margin_small as MS. pose proof margin_pos as MP. cbn [total map fold_right]. unfold seam, width, height, columns, rows. cbn [cx cy fst snd].
    rewrite !INR_IZR_INZ. change (Z.of_nat 20) with 20. change (30 - 0) with 30. change (40 - 0) with 40.
    change (100 - 0) with 100. change (100 - 40) with 60. change (100 - 30) with 70.
    replace (40 * 20 / 100 - 30 * 20 / 100)%R with 2%R by field. replace (70 * 20 / 100 - 60 * 20 / 100)%R with 2%R by field. nra.
  - do 2 eexists. eexists ?[m], ?[m'], ?[n]. split; [reflexivity|]. split; [reflexivity|]. split; [vm_compute; reflexivity|]. split; [vm_compute; reflexivity|].
    split; [vm_compute; reflexivity|]. split; [vm_compute; reflexivity|]. split; vm_compute; reflexivity.
Qed.

Print Assumptions C132_the_score_under_noise.
Print Assumptions C132_the_right_reference_wins.
Print Assumptions C132_found_in_the_library.
