(** C128: one layout at two resolutions. *)
From Coq Require Import Reals Lra Lia.
From Flocq Require Import Core.
From Verif Require Import Prelude P_Prelude M_Double M_LayoutData M_Converter S_Converter M_Vector2D M_BitMatrix S_Matrix
  M_Zond S_Zond Props_Zond M_Generator S_Generator P_Generator Props_Generator
  S_EndToEnd P_EndToEnd Props_EndToEnd S_Identify P_Identify S_Degrade P_Degrade Props_Degrade S_Resolution.
Local Open Scope Z_scope.

Lemma margin_small : (0 < margin <= / 1000000)%R.
Proof. unfold margin. change (2 ^ 20) with 1048576. split; [apply Rinv_0_lt_compat; lra|apply Rinv_le; lra]. Qed.

(** One side: a segment from a to b, in cells of the first resolution. *)
Lemma one_side n n' k' a b : (1 <= n)%nat -> (1 <= n')%nat -> (k' < n')%nat -> (0 <= a)%R -> (a + (1 + 2 * margin) <= Rmin b (INR n))%R ->
  (a * (INR n' / INR n) - 1 - margin <= INR k' + 1 / 2 <= b * (INR n' / INR n) + 1 + margin)%R ->
  exists k, (k < n)%nat /\ (a + margin <= INR k + 1 / 2 <= b - margin)%R /\ (Rabs (centre n k - centre n' k') <= (1 + margin) * (/ INR n + / INR n'))%R.
Proof.
  intros Hn Hn' Hk A W (N1 & N2). pose proof margin_small as Mg. set (m := margin) in *. clearbody m.
  assert (Pn : (1 <= INR n)%R) by (change 1%R with (INR 1); apply le_INR, Hn). assert (Pn' : (1 <= INR n')%R) by (change 1%R with (INR 1); apply le_INR, Hn').
  assert (Pk : (INR k' + 1 <= INR n')%R) by (rewrite <- S_INR; apply le_INR; lia). pose proof (pos_INR k') as P0.
  set (t := (INR n / INR n')%R). assert (Pt : (0 < t)%R) by (apply Rdiv_lt_0_compat; lra).
  set (q := ((INR k' + 1 / 2) * t)%R).
  assert (T1 : (INR n' / INR n * t = 1)%R) by (unfold t; field; lra).
  assert (Q1 : (a - (1 + m) * t <= q)%R). { unfold q. replace a with (a * (INR n' / INR n) * t)%R by (rewrite Rmult_assoc, T1; ring). nra. }
  assert (Q2 : (q <= b + (1 + m) * t)%R). { unfold q. replace b with (b * (INR n' / INR n) * t)%R by (rewrite Rmult_assoc, T1; ring). nra. }
  assert (Q3 : (0 <= q <= INR n)%R). { unfold q. replace (INR n) with (INR n' * t)%R by (unfold t; field; lra). split; nra. }
  set (b' := Rmin b (INR n)) in *. assert (B1 : (b' <= b)%R) by apply Rmin_l. assert (B2 : (b' <= INR n)%R) by apply Rmin_r.
  assert (B3 : (q <= b' + (1 + m) * t)%R). { unfold b', Rmin. destruct (Rle_dec b (INR n)); [exact Q2|]. nra. }
  (* a point of the shortened segment, and a cell of it around the point *)
  assert (exists s, (a + m <= s /\ s + 1 <= b' - m /\ s - m - (1 + m) * t <= q <= s + 1 + m + (1 + m) * t)%R) as (s & S1 & S2 & S3 & S4).
  { destruct (Rle_dec q (a + m)); [exists (a + m)%R; repeat split; nra|].
    destruct (Rle_dec (b' - m) q); [exists (b' - m - 1)%R; repeat split; nra|].
    destruct (Rle_dec q (b' - m - 1)); [exists q; repeat split; nra|exists (b' - m - 1)%R; repeat split; nra]. }
  destruct (IZN (Zceil (s - 1 / 2))) as (k & Ek).
  { assert (-1 < Zceil (s - 1 / 2))%Z; [|lia]. apply lt_IZR. pose proof (Zceil_ub (s - 1 / 2)). lra. }
  assert (K : INR k = IZR (Zceil (s - 1 / 2))) by (rewrite Ek; apply INR_IZR_INZ).
  pose proof (Zceil_ub (s - 1 / 2)) as U. assert (L : (INR k < s - 1 / 2 + 1)%R).
  { rewrite K. unfold Zceil. rewrite opp_IZR. pose proof (Zfloor_ub (- (s - 1 / 2))). lra. }
  rewrite <- K in U. exists k. split; [apply INR_lt; lra|]. split; [lra|].
  replace (centre n k - centre n' k')%R with ((INR k + 1 / 2 - q) * / INR n)%R by (unfold centre, q, t; field; lra).
  rewrite Rabs_mult, (Rabs_pos_eq (/ INR n)) by (apply Rlt_le, Rinv_0_lt_compat; lra).
  replace ((1 + m) * (/ INR n + / INR n'))%R with ((1 + m + (1 + m) * t) * / INR n)%R by (unfold t; field; lra).
  apply Rmult_le_compat_r; [apply Rlt_le, Rinv_0_lt_compat; lra|]. apply Rabs_le. split; nra.
Qed.

Lemma columns_other mn mx c c' x : fine_box mn mx 1 1 -> (1 <= c)%nat -> columns mn mx c' x = (columns mn mx c x * (INR c' / INR c))%R.
Proof.
  intros FB H. unfold columns. assert (1 <= INR c)%R by (change 1%R with (INR 1); apply le_INR, H).
  assert (1 <= IZR (cx mx - cx mn))%R by (apply (IZR_le 1); destruct FB; lia). field. split; lra.
Qed.
Lemma rows_other mn mx c c' x : fine_box mn mx 1 1 -> (1 <= c)%nat -> rows mn mx c' x = (rows mn mx c x * (INR c' / INR c))%R.
Proof.
  intros FB H. unfold rows. assert (1 <= INR c)%R by (change 1%R with (INR 1); apply le_INR, H).
  assert (1 <= IZR (cy mx - cy mn))%R by (apply (IZR_le 1); destruct FB; lia). field. split; lra.
Qed.

(** Every cell that is set at one resolution has a neighbour that is set at the other, if no rectangle is smaller
    than a cell of the other. *)
Theorem C128_two_resolutions : forall M M' calls calls' g g' heap libs L mn mx v v' al al' stack stack' r c r' c' items,
  history M gen_new calls = Some g -> in_force calls (Live (mklayout heap libs) L mn mx) ->
  history M' gen_new calls' = Some g' -> in_force calls' (Live (mklayout heap libs) L mn mx) ->
  memory_ok al r c -> memory_ok al' r' c' -> candidates L libs items -> fine_box mn mx r c -> fine_box mn mx r' c' ->
  (forall item, In (Some item) items -> overlaps (box_workspace mn mx) item -> collectable heap stack item /\ collectable heap stack' item) ->
  (forall item s, In (Some item) items -> to_draw heap (box_workspace mn mx) item s -> g_type s = GTrectangle ->
     exists lt rb, corners s lt rb /\ manageable mn mx r c lt rb /\ manageable mn mx r' c' lt rb /\ starts_inside mn mx lt /\ a_cell_wide mn mx r c lt rb) ->
  exists m m', result (Process (Some v) al stack g r c) = (m, Ok true) /\ result (Process (Some v') al' stack' g' r' c') = (m', Ok true) /\
    forall i' j', (i' < r')%nat -> (j' < c')%nat -> Get m' i' j' = Ok true ->
      exists i j, (i < r)%nat /\ (j < c)%nat /\ Get m i j = Ok true /\ neighbours r c r' c' i j i' j'.
Proof.
  intros M M' calls calls' g g' heap libs L mn mx v v' al al' stack stack' r c r' c' items Hh Hf Hh' Hf' Hm Hm' Hi FB FB' HC HD.
  destruct (C68_covered_cells_are_set M calls g heap libs L mn mx v al stack r c items Hh Hf Hm Hi FB) as (m & E & P).
  { intros item I O. exact (proj1 (HC item I O)). }
  { intros item s I T Ts. destruct (HD item s I T Ts) as (lt & rb & A & B & _ & C & _). exists lt, rb. auto. }
  assert (HD' : forall item s, In (Some item) items -> to_draw heap (box_workspace mn mx) item s -> g_type s = GTrectangle ->
     exists lt rb, corners s lt rb /\ manageable mn mx r' c' lt rb /\ starts_inside mn mx lt).
  { intros item s I T Ts. destruct (HD item s I T Ts) as (lt & rb & A & _ & B & C & _). exists lt, rb. auto. }
  assert (HC' : forall item, In (Some item) items -> overlaps (box_workspace mn mx) item -> collectable heap stack' item) by (intros item I O; exact (proj2 (HC item I O))).
  destruct (C68_covered_cells_are_set M' calls' g' heap libs L mn mx v' al' stack' r' c' items Hh' Hf' Hm' Hi FB' HC' HD') as (m' & E' & _).
  exists m, m'. split; [exact E|]. split; [exact E'|]. intros i' j' Li Lj G.
  destruct (C69_set_cells_are_near_a_rectangle M' calls' g' heap libs L mn mx v' al' stack' r' c' items m' Hh' Hf' Hm' Hi FB' HC' HD' E' i' j' Li Lj G)
    as (item & s & lt & rb & I & T & Ts & Co & (Nc & Nr)).
  destruct (HD item s I T Ts) as (lt0 & rb0 & Co0 & _ & _ & St & (Wc & Wr)).
  assert (lt0 = lt /\ rb0 = rb) as (-> & ->). { destruct Co as (C1 & C2), Co0 as (D1 & D2). split; congruence. }
  pose proof FB as (A1 & A2 & A3 & A4 & A5 & A6). assert (F1 : fine_box mn mx 1 1) by (split; [exact A1|]; split; [exact A2|]; split; [exact A3|]; split; [exact A4|]; lia).
  assert (Lr : (1 <= r)%nat) by lia. assert (Lc : (1 <= c)%nat) by lia.
  rewrite !(columns_other mn mx c c') in Nc by assumption. rewrite !(rows_other mn mx r r') in Nr by assumption.
  assert (Sd : (0 < IZR (cx mx - cx mn))%R /\ (0 < IZR (cy mx - cy mn))%R) by (split; apply (IZR_lt 0); lia).
  destruct (one_side c c' j' (columns mn mx c (cx lt)) (columns mn mx c (cx rb)) Lc ltac:(lia) Lj) as (j & J1 & J2 & J3); [|exact Wc|exact Nc|].
  { unfold columns. apply Rmult_le_pos; [apply Rmult_le_pos; [apply (IZR_le 0); destruct St; lia|apply pos_INR]|apply Rlt_le, Rinv_0_lt_compat, Sd]. }
  destruct (one_side r r' i' (rows mn mx r (cy lt)) (rows mn mx r (cy rb)) Lr ltac:(lia) Li) as (i & I1 & I2 & I3); [|exact Wr|exact Nr|].
  { unfold rows. apply Rmult_le_pos; [apply Rmult_le_pos; [apply (IZR_le 0); destruct St; lia|apply pos_INR]|apply Rlt_le, Rinv_0_lt_compat, Sd]. }
  exists i, j. split; [exact I1|]. split; [exact J1|]. split; [|split; assumption].
  apply (P i j item s lt rb I1 J1 I T Ts Co). split; assumption.
Qed.
Print Assumptions C128_two_resolutions.

(** So a layout whose rectangles are large enough is blank at every resolution or at none. *)
Corollary C128_blank_at_one_blank_at_all : forall M M' calls calls' g g' heap libs L mn mx v v' al al' stack stack' r c r' c' items m m',
  history M gen_new calls = Some g -> in_force calls (Live (mklayout heap libs) L mn mx) ->
  history M' gen_new calls' = Some g' -> in_force calls' (Live (mklayout heap libs) L mn mx) ->
  memory_ok al r c -> memory_ok al' r' c' -> candidates L libs items -> fine_box mn mx r c -> fine_box mn mx r' c' ->
  (forall item, In (Some item) items -> overlaps (box_workspace mn mx) item -> collectable heap stack item /\ collectable heap stack' item) ->
  (forall item s, In (Some item) items -> to_draw heap (box_workspace mn mx) item s -> g_type s = GTrectangle ->
     exists lt rb, corners s lt rb /\ manageable mn mx r c lt rb /\ manageable mn mx r' c' lt rb /\ starts_inside mn mx lt /\ a_cell_wide mn mx r c lt rb) ->
  result (Process (Some v) al stack g r c) = (m, Ok true) -> result (Process (Some v') al' stack' g' r' c') = (m', Ok true) ->
  (forall i j, (i < r)%nat -> (j < c)%nat -> Get m i j <> Ok true) -> forall i j, (i < r')%nat -> (j < c')%nat -> Get m' i j <> Ok true.
Proof.
  intros M M' calls calls' g g' heap libs L mn mx v v' al al' stack stack' r c r' c' items m m' H1 H2 H3 H4 H5 H6 H7 H8 H9 H10 H11 E E' B i j Hi Hj G.
  destruct (C128_two_resolutions M M' calls calls' g g' heap libs L mn mx v v' al al' stack stack' r c r' c' items H1 H2 H3 H4 H5 H6 H7 H8 H9 H10 H11) as (m0 & m0' & Q & Q' & P).
  rewrite E in Q. rewrite E' in Q'. injection Q as <-. injection Q' as <-.
  destruct (P i j Hi Hj G) as (a & b & A1 & A2 & A3 & _). exact (B a b A1 A2 A3).
Qed.
Print Assumptions C128_blank_at_one_blank_at_all.

Lemma ex_wide n x1 y1 x2 y2 : (1 <= n)%nat -> 100 + 1 <= (x2 - x1) * Z.of_nat n -> 100 + 1 <= (y2 - y1) * Z.of_nat n -> x2 <= 100 -> 0 <= y1 ->
  a_cell_wide (mkcoord 0 0) (mkcoord 100 100) n n (mkcoord x1 y2) (mkcoord x2 y1).
Proof.
  intros Hn X Y X2 Y1. unfold a_cell_wide, columns, rows. cbn [cx cy]. rewrite INR_IZR_INZ, !Z.sub_0_r. pose proof margin_small as Mg.
  assert (N : (1 <= IZR (Z.of_nat n))%R) by (apply (IZR_le 1); lia).
  apply IZR_le in X, Y, X2, Y1. rewrite plus_IZR, mult_IZR, minus_IZR in X, Y.
  split; (apply Rmin_glb; rewrite ?minus_IZR; nra).
Qed.

Example C128_hypotheses_met :
  let mn := mkcoord 0 0 in let mx := mkcoord 100 100 in let items := ex_more 33 30 78 81 in
  fine_box mn mx 10 10 /\ fine_box mn mx 7 7 /\
  (forall item, In (Some item) items -> overlaps (box_workspace mn mx) item -> collectable [] 10 item /\ collectable [] 10 item) /\
  (forall item s, In (Some item) items -> to_draw [] (box_workspace mn mx) item s -> g_type s = GTrectangle ->
     exists lt rb, corners s lt rb /\ manageable mn mx 7 7 lt rb /\ manageable mn mx 10 10 lt rb /\ starts_inside mn mx lt /\ a_cell_wide mn mx 7 7 lt rb) /\
  exists m m', option_map (fun g => result (Process (Some 1) infinite_memory 10 g 7 7)) (history ex_machine gen_new (ex_init items 100)) = Some (m, Ok true) /\
    option_map (fun g => result (Process (Some 1) infinite_memory 10 g 10 10)) (history ex_machine gen_new (ex_init items 100)) = Some (m', Ok true) /\
    Get m' 4 4 = Ok true /\ Get m 3 3 = Ok true /\ neighbours 7 7 10 10 3 3 4 4.
Proof.
  intros mn mx items. split; [unfold fine_box, coord32, int32; cbn [mn mx cx cy]; lia|]. split; [unfold fine_box, coord32, int32; cbn [mn mx cx cy]; lia|].
  split; [intros item [[= <-]|[[= <-]|[]]] _; split; exact I|]. split.
  - intros item s Hi T Ts. rewrite (ex_only_rect _ _ _ _ _ _ _ _ Hi T Ts). exists (mkcoord 33 81), (mkcoord 78 30). split; [split; reflexivity|].
    split; [apply ex_manageable; lia|]. split; [apply ex_manageable; lia|]. split; [unfold starts_inside; cbn; lia|]. apply ex_wide; lia.
  - eexists _, _. split; [vm_compute; reflexivity|]. split; [vm_compute; reflexivity|]. split; [vm_compute; reflexivity|]. split; [vm_compute; reflexivity|].
    pose proof margin_small as Mg. assert (Q : (Rabs (centre 7 3 - centre 10 4) <= (1 + margin) * (/ INR 7 + / INR 10))%R); [|split; exact Q].
    unfold centre. rewrite !INR_IZR_INZ. cbn [Z.of_nat Pos.of_succ_nat Pos.succ]. apply Rabs_le. split; lra.
Qed.

(** A rectangle that is narrower than a cell can be lost: 2 units wide, at 2 by 2 cells of 50 units. *)
Theorem C128_small_rectangles_kept_refuted :
  ~ (forall items r c r' c' g g' m m', Forall plain items ->
       history ex_machine gen_new (ex_init items 100) = Some g -> history ex_machine gen_new (ex_init items 100) = Some g' ->
       fine_box (mkcoord 0 0) (mkcoord 100 100) r c -> fine_box (mkcoord 0 0) (mkcoord 100 100) r' c' ->
       result (Process (Some 1) infinite_memory 10 g r c) = (m, Ok true) -> result (Process (Some 1) infinite_memory 10 g' r' c') = (m', Ok true) ->
       (exists i j, (i < r')%nat /\ (j < c')%nat /\ Get m' i j = Ok true) -> exists i j, (i < r)%nat /\ (j < c)%nat /\ Get m i j = Ok true).
Proof.
  intros H. pose (items := [Some (ex_gen_rect 5 34 30 36 81)]).
  destruct (history ex_machine gen_new (ex_init items 100)) as [g|] eqn:Eg; [|exfalso; clear H; assert (Q : match history ex_machine gen_new (ex_init items 100) with None => false | Some _ => true end = true) by (vm_compute; reflexivity); rewrite Eg in Q; discriminate Q].
  assert (R1 : option_map (fun g => result (Process (Some 1) infinite_memory 10 g 2 2)) (history ex_machine gen_new (ex_init items 100)) = Some (mkbm [[x00]; [x00]] 2 2, Ok true)) by (vm_compute; reflexivity).
  assert (R2 : exists m', option_map (fun g => result (Process (Some 1) infinite_memory 10 g 10 10)) (history ex_machine gen_new (ex_init items 100)) = Some (m', Ok true) /\ Get m' 4 3 = Ok true)
    by (eexists; split; [vm_compute; reflexivity|vm_compute; reflexivity]).
  destruct R2 as (m' & R2 & G2). rewrite Eg in R1, R2. cbn [option_map] in R1, R2. apply (f_equal (fun o => match o with Some x => x | None => (m', Ok false) end)) in R1, R2. cbv beta iota in R1, R2.
  destruct (H items 2%nat 2%nat 10%nat 10%nat g g (mkbm [[x00]; [x00]] 2 2) m') as (i & j & Li & Lj & G); try assumption.
  - repeat constructor; discriminate.
  - unfold fine_box, coord32, int32. cbn [cx cy]. lia.
  - unfold fine_box, coord32, int32. cbn [cx cy]. lia.
  - exists 4%nat, 3%nat. split; [lia|]. split; [lia|exact G2].
  - clear - Li Lj G. destruct i as [|[|i]]; [| |lia]; (destruct j as [|[|j]]; [| |lia]); vm_compute in G; discriminate G.
Qed.
Print Assumptions C128_small_rectangles_kept_refuted.
