(** C101-C103: what happens to a bitmap when objects are added to the layout or taken away. *)
From Coq Require Import Reals Lra Lia.
From Verif Require Import Prelude P_Prelude M_Double S_Double M_LayoutData M_Converter S_Converter M_Vector2D M_BitMatrix S_Matrix
  P_BitMatrix P_Cells M_Ratio S_Ratio P_Ratio Props_Ratio M_Zond S_Zond P_Zond P_ZondCells Props_Zond M_Generator P_Uniform S_Generator P_Generator Props_Generator
  S_EndToEnd P_EndToEnd Props_EndToEnd S_Identify P_Identify S_Degrade P_Degrade.
Local Open Scope Z_scope.

(** ** C101 *)
(** Taking objects away never makes Process fail and never sets a cell. *)
Theorem C101_fewer_objects_fewer_cells :
  forall M M' calls calls' g g' heap libs libs' L L' mn mx v v' al al' stack r c items items' m',
  history M gen_new calls = Some g -> history M' gen_new calls' = Some g' ->
  in_force calls (Live (mklayout heap libs) L mn mx) -> in_force calls' (Live (mklayout heap libs') L' mn mx) ->
  candidates L libs items -> candidates L' libs' items' -> (forall o, In (Some o) items -> In (Some o) items') ->
  memory_ok al r c -> memory_ok al' r c -> (0 < r)%nat -> (0 < c)%nat ->
  result (Process (Some v') al' stack g' r c) = (m', Ok true) ->
  exists m, result (Process (Some v) al stack g r c) = (m, Ok true) /\
    forall i j, (i < r)%nat -> (j < c)%nat -> Get m i j = Ok true -> Get m' i j = Ok true.
Proof.
  intros M M' calls calls' g g' heap libs libs' L L' mn mx v v' al al' stack r c items items' m' H H' F F' Hi Hi' Sub Hm Hm' Hr Hc P'.
  pose proof P' as Q'. rewrite (live_process v' al' stack g' r c _ _ _ _ (in_force_agrees _ _ _ _ F' H') Hr Hc Hm') in Q'.
  destruct (core_subset stack heap libs' libs _ L' L r c m' items' items Hi' Hi Sub Q') as (m & Q). exists m.
  assert (P : result (Process (Some v) al stack g r c) = (m, Ok true))
    by (rewrite (live_process v al stack g r c _ _ _ _ (in_force_agrees _ _ _ _ F H) Hr Hc Hm); exact Q).
  split; [exact P|]. intros i j Hir Hjc G.
  destruct (C52_the_bitmap_is_the_union _ _ _ _ _ _ _ _ _ _ _ _ _ _ _ H F Hm Hr Hc Hi P) as (z & A & Hz & _ & _ & _ & U).
  destruct (C52_the_bitmap_is_the_union _ _ _ _ _ _ _ _ _ _ _ _ _ _ _ H' F' Hm' Hr Hc Hi' P') as (z' & A' & Hz' & _ & _ & _ & U').
  pose proof (process_zond_unique _ _ _ _ _ Hz Hz'). subst z'.
  apply (U' i j Hir Hjc). apply (U i j Hir Hjc) in G. destruct G as (item & s & I & T & X). exists item, s. auto.
Qed.

(** ** C102 *)
Lemma small_changes :
  forall M M' calls calls' g g' heap libs libs' L L' mn mx v v' al al' stack r c items items' rects m',
  history M gen_new calls = Some g -> history M' gen_new calls' = Some g' ->
  in_force calls (Live (mklayout heap libs) L mn mx) -> in_force calls' (Live (mklayout heap libs') L' mn mx) ->
  candidates L libs items -> candidates L' libs' items' ->
  memory_ok al r c -> memory_ok al' r c -> fine_box mn mx r c ->
  adds_rectangles heap mn mx r c items items' rects ->
  (forall q, In q rects -> manageable mn mx r c (fst q) (snd q)) ->
  result (Process (Some v') al' stack g' r c) = (m', Ok true) ->
  exists m A B, result (Process (Some v) al stack g r c) = (m, Ok true) /\ shows m A /\ shows m' B /\
    arows A = r /\ acols A = c /\ arows B = r /\ acols B = c /\
    (INR (differences A B) <= total (map (area_with_rim mn mx r c) rects))%R.
Proof.
  intros M M' calls calls' g g' heap libs libs' L L' mn mx v v' al al' stack r c items items' rects m'
    H H' F F' Hi Hi' Hm Hm' FB (Sub & Ex) Mg P'.
  pose proof FB as (_ & _ & Bx & By & Hr & Hc).
  destruct (C101_fewer_objects_fewer_cells M M' calls calls' g g' heap libs libs' L L' mn mx v v' al al' stack r c items items' m'
    H H' F F' Hi Hi' Sub Hm Hm' ltac:(lia) ltac:(lia) P') as (m & P & Mono).
  destruct (C52_the_bitmap_is_the_union M calls g heap libs L mn mx v al stack r c m items H F Hm ltac:(lia) ltac:(lia) Hi P) as (z & A & Hz & SA & Ar & Ac & U).
  destruct (C52_the_bitmap_is_the_union M' calls' g' heap libs' L' mn mx v' al' stack r c m' items' H' F' Hm' ltac:(lia) ltac:(lia) Hi' P') as (z' & B & Hz' & SB & Br & Bc & U').
  pose proof (process_zond_unique _ _ _ _ _ Hz Hz'). subst z'.
  exists m, A, B. split; [exact P|]. split; [exact SA|]. split; [exact SB|]. do 4 (split; [assumption|]).
  rewrite differences_cells.
  apply (union_length _ rects (near_cells mn mx r c) _ (diff_cells A B) (diff_cells_nodup A B)).
  - intros (i, j) I. apply diff_cells_in in I as (I1 & I2 & I3). rewrite Ar in I1. rewrite Ac in I2.
    assert (GA : acell A i j = false /\ acell B i j = true).
    { pose proof (get_shown m A i j SA ltac:(lia) ltac:(lia)) as QA. pose proof (get_shown m' B i j SB ltac:(lia) ltac:(lia)) as QB.
      specialize (Mono i j I1 I2). destruct (acell A i j), (acell B i j); try congruence; try tauto.
      exfalso. assert (false = true) by tauto. discriminate. }
    destruct GA as (GA & GB).
    apply (get_shown m' B i j SB) in GB; [|lia|lia]. apply (U' i j I1 I2) in GB. destruct GB as (item & s & Hin & Td & St).
    assert (Nin : ~ In (Some item) items).
    { intros X. assert (G : Get m i j = Ok true) by (apply (U i j I1 I2); exists item, s; auto).
      apply (get_shown m A i j SA) in G; [congruence|lia|lia]. }
    destruct (to_draw_types _ _ _ _ Td) as [Ts|Ts]; [|exfalso; exact (sets_other _ _ _ _ _ _ I1 I2 St Ts)].
    destruct (Ex item s Hin Nin Td Ts) as (lt & rb & G & Hq & Mq & SI). exists (lt, rb). split; [exact Hq|].
    apply near_cells_in. split; [exact I1|]. split; [exact I2|]. cbn [fst snd].
    exact (proj2 (sets_rect mn mx r c z s lt rb i j FB Hz Ts G Mq SI I1 I2) St).
  - intros (lt, rb) Hq. destruct (Mg _ Hq) as (_ & _ & Q1 & Q2 & _). cbn [fst snd] in *. apply near_count; lia.
Qed.

(** Adding rectangles changes at most as many cells as their areas with a rim of three half
    cells. *)
Theorem C102_few_cells_change :
  forall M M' calls calls' g g' heap libs libs' L L' mn mx v v' al al' stack r c items items' rects m',
  history M gen_new calls = Some g -> history M' gen_new calls' = Some g' ->
  in_force calls (Live (mklayout heap libs) L mn mx) -> in_force calls' (Live (mklayout heap libs') L' mn mx) ->
  candidates L libs items -> candidates L' libs' items' ->
  memory_ok al r c -> memory_ok al' r c -> fine_box mn mx r c ->
  adds_rectangles heap mn mx r c items items' rects ->
  (forall q, In q rects -> manageable mn mx r c (fst q) (snd q)) ->
  result (Process (Some v') al' stack g' r c) = (m', Ok true) ->
  exists m, result (Process (Some v) al stack g r c) = (m, Ok true) /\
    forall A B, shows m A -> shows m' B -> (INR (differences A B) <= total (map (area_with_rim mn mx r c) rects))%R.
Proof.
  intros M M' calls calls' g g' heap libs libs' L L' mn mx v v' al al' stack r c items items' rects m'
    H H' F F' Hi Hi' Hm Hm' FB Ad Mg P'.
  destruct (small_changes M M' calls calls' g g' heap libs libs' L L' mn mx v v' al al' stack r c items items' rects m'
    H H' F F' Hi Hi' Hm Hm' FB Ad Mg P') as (m & A & B & P & SA & SB & Ar & Ac & Br & Bc & D).
  exists m. split; [exact P|]. intros A' B' SA' SB'.
  replace (differences A' B') with (differences A B); [exact D|].
  destruct (shows_elim _ _ SA) as (_ & a1 & a2 & a3). destruct (shows_elim _ _ SA') as (_ & a4 & a5 & a6).
  destruct (shows_elim _ _ SB) as (_ & b1 & b2 & b3). destruct (shows_elim _ _ SB') as (_ & b4 & b5 & b6).
  unfold differences. rewrite <- a4, <- a5, a1, a2. f_equal. rewrite !flat_map_concat_map. f_equal.
  apply map_ext_in. intros i I. apply map_ext_in. intros j J. apply in_seq in I, J.
  rewrite <- a3, <- a6, <- b3, <- b6 by lia. reflexivity.
Qed.

Lemma plenty al r c : memory_ok al r c -> ~ out_of_memory al r c.
Proof. unfold memory_ok, out_of_memory. intros Hm [O|(i & _ & O)]; congruence. Qed.

(** Operator == calls the two bitmaps equal when those areas are at most a ten-thousandth of the
    bitmap. *)
Theorem C102_small_changes_go_unnoticed :
  forall M M' calls calls' g g' heap libs libs' L L' mn mx v v' al al' al2 stack r c items items' rects m',
  history M gen_new calls = Some g -> history M' gen_new calls' = Some g' ->
  in_force calls (Live (mklayout heap libs) L mn mx) -> in_force calls' (Live (mklayout heap libs') L' mn mx) ->
  candidates L libs items -> candidates L' libs' items' ->
  memory_ok al r c -> memory_ok al' r c -> memory_ok al2 r c -> fine_box mn mx r c -> Z.of_nat r * Z.of_nat c <= 2 ^ 38 ->
  adds_rectangles heap mn mx r c items items' rects ->
  (forall q, In q rects -> manageable mn mx r c (fst q) (snd q)) ->
  (10000 * total (map (area_with_rim mn mx r c) rects) <= INR r * INR c)%R ->
  result (Process (Some v') al' stack g' r c) = (m', Ok true) ->
  exists m, result (Process (Some v) al stack g r c) = (m, Ok true) /\ bm_eq al2 m m' = Ok true.
Proof.
  intros M M' calls calls' g g' heap libs libs' L L' mn mx v v' al al' al2 stack r c items items' rects m'
    H H' F F' Hi Hi' Hm Hm' Hm2 FB Sz Ad Mg Ar P'.
  destruct (small_changes M M' calls calls' g g' heap libs libs' L L' mn mx v v' al al' stack r c items items' rects m'
    H H' F F' Hi Hi' Hm Hm' FB Ad Mg P') as (m & A & B & P & SA & SB & Ar' & Ac & Br & Bc & D).
  exists m. split; [exact P|]. pose proof FB as (_ & _ & _ & _ & Hr & Hc).
  destruct (C11_equality al2 m m' A B SA SB) as (e & n & E & _ & T & _).
  - congruence.
  - congruence.
  - split; lia.
  - rewrite Ar', Ac. now apply plenty.
  - unfold cell_number. rewrite Ar', Ac. lia.
  - rewrite E. f_equal. apply T. unfold cell_number. rewrite Ar', Ac.
    apply le_IZR. rewrite mult_IZR, Nat2Z.inj_mul, mult_IZR, <- !INR_IZR_INZ. lra.
Qed.

(** ** C103 *)
Lemma large_change :
  forall M M' calls calls' g g' heap libs libs' L L' mn mx v v' al al' stack stack' r c items items' m m' item s lt rb,
  history M gen_new calls = Some g -> history M' gen_new calls' = Some g' ->
  in_force calls (Live (mklayout heap libs) L mn mx) -> in_force calls' (Live (mklayout heap libs') L' mn mx) ->
  candidates L libs items -> candidates L' libs' items' ->
  memory_ok al r c -> memory_ok al' r c -> fine_box mn mx r c ->
  result (Process (Some v) al stack g r c) = (m, Ok true) ->
  result (Process (Some v') al' stack' g' r c) = (m', Ok true) ->
  In (Some item) items' -> to_draw heap (box_workspace mn mx) item s -> g_type s = GTrectangle -> corners s lt rb ->
  manageable mn mx r c lt rb -> inside_box mn mx lt rb ->
  (1 + 2 * margin <= width mn mx c lt rb)%R -> (1 + 2 * margin <= height mn mx r lt rb)%R ->
  (forall i j, (i < r)%nat -> (j < c)%nat -> covers_centre mn mx r c lt rb i j -> Get m i j <> Ok true) ->
  exists A B, shows m A /\ shows m' B /\ arows A = r /\ acols A = c /\ arows B = r /\ acols B = c /\
    (area_without_rim mn mx r c (lt, rb) <= INR (differences A B))%R.
Proof.
  intros M M' calls calls' g g' heap libs libs' L L' mn mx v v' al al' stack stack' r c items items' m m' item s lt rb
    H H' F F' Hi Hi' Hm Hm' FB P P' I T Ts G Mg IB W Ht Cl.
  pose proof FB as (_ & _ & Bx & By & Hr & Hc).
  destruct (C52_the_bitmap_is_the_union M calls g heap libs L mn mx v al stack r c m items H F Hm ltac:(lia) ltac:(lia) Hi P) as (z & A & Hz & SA & Ar & Ac & U).
  destruct (C52_the_bitmap_is_the_union M' calls' g' heap libs' L' mn mx v' al' stack' r c m' items' H' F' Hm' ltac:(lia) ltac:(lia) Hi' P') as (z' & B & Hz' & SB & Br & Bc & U').
  exists A, B. split; [exact SA|]. split; [exact SB|]. do 4 (split; [assumption|]).
  eapply Rle_trans; [apply (covered_count mn mx r c lt rb); first [lia|assumption]|].
  apply le_INR. rewrite differences_cells. apply NoDup_incl_length.
  { apply nodup_prod; apply NoDup_filter, seq_NoDup. }
  intros (i, j) Q. apply covered_cells_in in Q. cbn [fst snd] in Q. destruct Q as (I1 & I2 & Cv).
  assert (SI : starts_inside mn mx lt) by (unfold inside_box in IB; unfold starts_inside; lia).
  pose proof (proj1 (sets_rect mn mx r c z' s lt rb i j FB Hz' Ts G Mg SI I1 I2) Cv) as St.
  assert (GB : Get m' i j = Ok true) by (apply (U' i j I1 I2); exists item, s; auto).
  apply (get_shown m' B i j SB) in GB; [|lia|lia]. specialize (Cl i j I1 I2 Cv).
  apply diff_cells_in. split; [lia|]. split; [lia|]. intros E. apply Cl.
  apply (get_shown m A i j SA); [lia|lia|congruence].
Qed.

(** A rectangle of the second layout on a free place of the first: operator == tells the bitmaps
    apart when its area without a rim of half a cell is more than a ten-thousandth of the
    bitmap. *)
Theorem C103_large_changes_are_noticed :
  forall M M' calls calls' g g' heap libs libs' L L' mn mx v v' al al' al2 stack stack' r c items items' m m' item s lt rb,
  history M gen_new calls = Some g -> history M' gen_new calls' = Some g' ->
  in_force calls (Live (mklayout heap libs) L mn mx) -> in_force calls' (Live (mklayout heap libs') L' mn mx) ->
  candidates L libs items -> candidates L' libs' items' ->
  memory_ok al r c -> memory_ok al' r c -> memory_ok al2 r c -> fine_box mn mx r c -> Z.of_nat r * Z.of_nat c <= 2 ^ 38 ->
  result (Process (Some v) al stack g r c) = (m, Ok true) ->
  result (Process (Some v') al' stack' g' r c) = (m', Ok true) ->
  In (Some item) items' -> to_draw heap (box_workspace mn mx) item s -> g_type s = GTrectangle -> corners s lt rb ->
  manageable mn mx r c lt rb -> inside_box mn mx lt rb ->
  (1 + 2 * margin <= width mn mx c lt rb)%R -> (1 + 2 * margin <= height mn mx r lt rb)%R ->
  (forall i j, (i < r)%nat -> (j < c)%nat -> covers_centre mn mx r c lt rb i j -> Get m i j <> Ok true) ->
  (INR r * INR c < 10000 * area_without_rim mn mx r c (lt, rb))%R ->
  bm_eq al2 m m' = Ok false /\ bm_ne al2 m m' = Ok true.
Proof.
  intros M M' calls calls' g g' heap libs libs' L L' mn mx v v' al al' al2 stack stack' r c items items' m m' item s lt rb
    H H' F F' Hi Hi' Hm Hm' Hm2 FB Sz P P' I T Ts G Mg IB W Ht Cl Big.
  destruct (large_change M M' calls calls' g g' heap libs libs' L L' mn mx v v' al al' stack stack' r c items items' m m' item s lt rb
    H H' F F' Hi Hi' Hm Hm' FB P P' I T Ts G Mg IB W Ht Cl) as (A & B & SA & SB & Ar & Ac & Br & Bc & D).
  pose proof FB as (_ & _ & _ & _ & Hr & Hc).
  destruct (C11_equality al2 m m' A B SA SB) as (e & n & E & En & T1 & T2).
  - congruence.
  - congruence.
  - split; lia.
  - rewrite Ar, Ac. now apply plenty.
  - unfold cell_number. rewrite Ar, Ac. lia.
  - assert (X : (Z.of_nat (cell_number A) < 10000 * Z.of_nat (differences A B))%Z).
    { apply lt_IZR. unfold cell_number. rewrite Ar, Ac, mult_IZR, Nat2Z.inj_mul, mult_IZR, <- !INR_IZR_INZ. lra. }
    rewrite E, En. split; f_equal.
    + destruct e; [|reflexivity]. assert (true = true) as Y by reflexivity. apply T1 in Y. lia.
    + apply T2. lia.
Qed.

(** ** Concrete cases *)
(** Two layouts in the same box: a polygon alone, and the polygon with a rectangle. *)
Definition ex_base : list (option geom) := [Some (mkgeom GTpolygon 5 [] (mkcoord 0 0) (mkcoord 100 100) (CPolygon 0))].
Definition ex_more (x1 y1 x2 y2 : Z) : list (option geom) := Some (ex_gen_rect 5 x1 y1 x2 y2) :: ex_base.
Definition ex_libs (items : list (option geom)) : list library :=
  [mklibrary [] [] [mklayer 5 0 [] items] (mkcoord 0 0) (mkcoord 0 0)].
Definition ex_init (items : list (option geom)) (side : Z) : list call :=
  [CInit (Some (mklayout [] (ex_libs items))) [5] (mkcoord 0 0) (mkcoord side side)].

Lemma ex_init_force items side : 0 < side -> in_force (ex_init items side) (Live (mklayout [] (ex_libs items)) [5] (mkcoord 0 0) (mkcoord side side)).
Proof. intros H. apply (in_force_next [] Fresh _ _ in_force_start). constructor; [discriminate|]. unfold ordered_box. cbn. lia. Qed.

Lemma ex_only_rect x1 y1 x2 y2 mn mx item s :
  In (Some item) (ex_more x1 y1 x2 y2) -> to_draw [] (box_workspace mn mx) item s -> g_type s = GTrectangle -> s = ex_gen_rect 5 x1 y1 x2 y2.
Proof.
  intros Hit Td Ts. destruct Td as (_ & _ & Td). destruct Hit as [[= <-]|[[= <-]|[]]].
  - destruct Td as [(_ & ->)|[(wd & (Q & _) & _)|(Q & _)]]; [reflexivity|discriminate|discriminate].
  - destruct Td as [(_ & ->)|[(wd & (Q & _) & _)|(Q & _)]]; [discriminate|discriminate|discriminate].
Qed.

Example C101_hypotheses_met :
  (forall o, In (Some o) ex_base -> In (Some o) (ex_more 30 30 80 80)) /\
  (exists g, history ex_machine gen_new (ex_init ex_base 100) = Some g) /\
  in_force (ex_init ex_base 100) (Live (mklayout [] (ex_libs ex_base)) [5] (mkcoord 0 0) (mkcoord 100 100)) /\
  candidates [5] (ex_libs ex_base) ex_base /\ candidates [5] (ex_libs (ex_more 30 30 80 80)) (ex_more 30 30 80 80) /\
  exists m m', 
  option_map (fun g => result (Process (Some 1) infinite_memory 10 g 10 10)) (history ex_machine gen_new (ex_init ex_base 100)) = Some (m, Ok true) /\
  option_map (fun g => result (Process (Some 1) infinite_memory 10 g 10 10)) (history ex_machine gen_new (ex_init (ex_more 30 30 80 80) 100)) = Some (m', Ok true) /\
  Get m 2 3 = Ok false /\ Get m' 2 3 = Ok true /\ bm_eq infinite_memory m m' = Ok false.
Proof.
  split; [intros o Q; right; exact Q|]. split; [eexists; reflexivity|]. split; [now apply ex_init_force|].
  split; [apply candidates_items; reflexivity|]. split; [apply candidates_items; reflexivity|].
  run_example.
Qed.

Lemma ex_manageable n side x1 y1 x2 y2 :
  (0 < n)%nat -> Z.of_nat n <= 1000 -> 0 < side <= 1000 -> 0 <= x1 -> x1 <= x2 -> x2 <= side -> 0 <= y1 -> y1 <= y2 -> y2 <= side ->
  manageable (mkcoord 0 0) (mkcoord side side) n n (mkcoord x1 y2) (mkcoord x2 y1).
Proof.
  intros N0 N1 Sd X1 X2 X3 Y1 Y2 Y3.
  unfold manageable, coord32, int32, differences_fit. cbn [box_workspace leftTop rightBot cx cy]. unfold int32.
  split; [lia|]. split; [lia|]. split; [lia|]. split; [lia|]. split; [lia|].
  unfold columns, rows. cbn [cx cy]. rewrite !INR_IZR_INZ, !Z.sub_0_r.
  assert (Q : forall a, 0 <= a <= side -> (IZR a * IZR (Z.of_nat n) / IZR side <= 1000)%R).
  { intros a (Ha1 & Ha2). apply IZR_le in Ha1, Ha2, N1. assert (0 < IZR side)%R by (apply (IZR_lt 0); lia).
    assert (0 <= IZR (Z.of_nat n))%R by (apply (IZR_le 0); lia).
    apply Rmult_le_reg_r with (IZR side); [assumption|]. unfold Rdiv. rewrite Rmult_assoc, Rinv_l by lra. nra. }
  assert (IZR (2 ^ 30) >= 1000)%R by (apply Rle_ge, (IZR_le 1000); lia).
  pose proof (Q x2 ltac:(lia)) as Q1. pose proof (Q (side - y1) ltac:(lia)) as Q2.
  split; [apply Rle_trans with 1000%R; [exact Q1|lra]|apply Rle_trans with 1000%R; [exact Q2|lra]].
Qed.

Example C102_hypotheses_met :
  let mn := mkcoord 0 0 in let mx := mkcoord 500 500 in let rects := [(mkcoord 30 31, mkcoord 31 30)] in
  fine_box mn mx 500 500 /\ adds_rectangles [] mn mx 500 500 ex_base (ex_more 30 30 31 31) rects /\
  (forall q, In q rects -> manageable mn mx 500 500 (fst q) (snd q)) /\
  (10000 * total (map (area_with_rim mn mx 500 500) rects) <= INR 500 * INR 500)%R /\
  in_force (ex_init ex_base 500) (Live (mklayout [] (ex_libs ex_base)) [5] mn mx) /\
  in_force (ex_init (ex_more 30 30 31 31) 500) (Live (mklayout [] (ex_libs (ex_more 30 30 31 31))) [5] mn mx) /\
  candidates [5] (ex_libs ex_base) ex_base /\ candidates [5] (ex_libs (ex_more 30 30 31 31)) (ex_more 30 30 31 31) /\
  exists g m, history ex_machine gen_new (ex_init (ex_more 30 30 31 31) 500) = Some g /\
    result (Process (Some 1) infinite_memory 10 g 500 500) = (m, Ok true).
Proof.
  intros mn mx rects. pose proof margin_small as MS.
  assert (Mg : manageable mn mx 500 500 (mkcoord 30 31) (mkcoord 31 30)) by (apply ex_manageable; lia).
  assert (FB : fine_box mn mx 500 500) by (unfold fine_box, coord32, int32; cbn [mn mx cx cy]; lia).
  assert (F : in_force (ex_init (ex_more 30 30 31 31) 500) (Live (mklayout [] (ex_libs (ex_more 30 30 31 31))) [5] mn mx))
    by (apply ex_init_force; lia).
  assert (Cd : candidates [5] (ex_libs (ex_more 30 30 31 31)) (ex_more 30 30 31 31)) by (apply candidates_items; reflexivity).
  split; [exact FB|]. split; [|split; [|split; [|split; [|split; [|split; [|split]]]]]].
  - split; [intros o Q; right; exact Q|]. intros item s Hit _ Td Ts.
    rewrite (ex_only_rect _ _ _ _ _ _ _ _ Hit Td Ts). exists (mkcoord 30 31), (mkcoord 31 30).
    split; [split; reflexivity|]. split; [left; reflexivity|]. split; [exact Mg|]. unfold starts_inside. cbn. lia.
  - intros q [<-|[]]. exact Mg.
  - cbn [total map fold_right rects]. unfold area_with_rim, width, height, columns, rows. cbn [cx cy mn mx fst snd].
    rewrite !INR_IZR_INZ. change (Z.of_nat 500) with 500. change (31 - 0) with 31. change (30 - 0) with 30.
    change (500 - 0) with 500. change (500 - 30) with 470. change (500 - 31) with 469.
    replace (31 * 500 / 500 - 30 * 500 / 500 + 3 + 2 * margin)%R with (4 + 2 * margin)%R by field.
    replace (470 * 500 / 500 - 469 * 500 / 500 + 3 + 2 * margin)%R with (4 + 2 * margin)%R by field.
    nra.
  - apply ex_init_force. lia.
  - exact F.
  - apply candidates_items. reflexivity.
  - exact Cd.
  - assert (Hg : exists g, history ex_machine gen_new (ex_init (ex_more 30 30 31 31) 500) = Some g) by (eexists; reflexivity).
    destruct Hg as (g & Hg). exists g.
    destruct (picture ex_machine (ex_init (ex_more 30 30 31 31) 500) g [] (ex_libs (ex_more 30 30 31 31)) [5] mn mx 1 infinite_memory 10
      500 500 (ex_more 30 30 31 31) Hg F ltac:(easy) Cd FB) as (m & E & _).
    + intros item [[= <-]|[[= <-]|[]]] _; exact I.
    + intros item s Hit Td Ts. rewrite (ex_only_rect _ _ _ _ _ _ _ _ Hit Td Ts). exists (mkcoord 30 31), (mkcoord 31 30).
      split; [split; reflexivity|]. split; [exact Mg|]. unfold starts_inside. cbn. lia.
    + exists m. split; [exact Hg|exact E].
Qed.

Example C103_hypotheses_met :
  let mn := mkcoord 0 0 in let mx := mkcoord 100 100 in let lt := mkcoord 30 80 in let rb := mkcoord 80 30 in
  let s := ex_gen_rect 5 30 30 80 80 in
  to_draw [] (box_workspace mn mx) s s /\ corners s lt rb /\ manageable mn mx 10 10 lt rb /\ inside_box mn mx lt rb /\
  (1 + 2 * margin <= width mn mx 10 lt rb)%R /\ (1 + 2 * margin <= height mn mx 10 lt rb)%R /\
  (INR 10 * INR 10 < 10000 * area_without_rim mn mx 10 10 (lt, rb))%R /\
  exists m,
  option_map (fun g => result (Process (Some 1) infinite_memory 10 g 10 10)) (history ex_machine gen_new (ex_init ex_base 100)) = Some (m, Ok true) /\
  forallb (fun i => forallb (fun j => match Get m i j with Ok b => negb b | _ => false end) (seq 0 10)) (seq 0 10) = true.
Proof.
  intros mn mx lt rb s. pose proof margin_small as MS.
  split; [|split; [split; reflexivity|split; [apply ex_manageable; lia|split; [unfold inside_box; cbn; lia|]]]].
  - split; [|split; [|left; split; [left; reflexivity|reflexivity]]]; vm_compute; intuition (try discriminate).
  - unfold area_without_rim, width, height, columns, rows. cbn [cx cy mn mx lt rb fst snd].
    rewrite !INR_IZR_INZ. change (Z.of_nat 10) with 10. change (80 - 0) with 80. change (30 - 0) with 30.
    change (100 - 0) with 100. change (100 - 30) with 70. change (100 - 80) with 20.
    replace (80 * 10 / 100 - 30 * 10 / 100)%R with 5%R by field. replace (70 * 10 / 100 - 20 * 10 / 100)%R with 5%R by field.
    split; [lra|]. split; [lra|]. split; [nra|]. run_example.
Qed.

Print Assumptions C101_fewer_objects_fewer_cells.
Print Assumptions C102_few_cells_change.
Print Assumptions C102_small_changes_go_unnoticed.
Print Assumptions C103_large_changes_are_noticed.
