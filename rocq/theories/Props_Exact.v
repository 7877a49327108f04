(** C105, C106: exactly which cells a bitmap has, and scaling. *)
From Coq Require Import Reals Lra Lia.
From Flocq Require Import Core.
From Verif Require Import Prelude P_Prelude M_Double S_Double M_LayoutData M_Converter S_Converter M_Vector2D M_BitMatrix S_Matrix
  P_BitMatrix P_Cells M_Zond S_Zond P_Zond P_ZondReal P_ZondCells Props_Zond M_Generator P_Uniform S_Generator P_Generator Props_Generator
  S_EndToEnd P_EndToEnd Props_EndToEnd S_Identify P_Identify S_Degrade P_Degrade Props_Degrade S_Exact P_Exact.
Local Open Scope Z_scope.

Lemma prepared_fine mn mx r c : fine_box mn mx r c ->
  exists z e, prepared (box_workspace mn mx) (dlit 1 (10 ^ 13)) r c = Ok z /\
    tuned z (rnd (IZR (cx mx - cx mn) / IZR (Z.of_nat c))) (rnd (IZR (cy mx - cy mn) / IZR (Z.of_nat r))) e /\ (0 <= e <= / IZR (2 ^ 43))%R /\
    boundIndicies z = full_bounds (Z.of_nat r) (Z.of_nat c) /\ angleCoords z = box_workspace mn mx.
Proof.
  intros FB. destruct (prepared_ok mn mx r c FB) as (z & e & Ez & T & HB & HA). exists z, e.
  split; [exact Ez|]. split; [exact T|]. split; [|auto].
  destruct (prepared_zond _ r c z Ez) as (_ & _ & _ & _ & E). destruct generator_eps as (e0 & R0 & B0).
  destruct T as (_ & _ & R & _). rewrite E in R. destruct R as (_ & R), R0 as (_ & R0). subst e e0. exact B0.
Qed.

(** ** C105 *)
(** The bitmap of a layout whose rectangles are tidy: exactly the cells they mark. *)
Theorem C105_exactly_the_marked_cells :
  forall M calls g heap libs L mn mx v al stack r c items,
  history M gen_new calls = Some g -> in_force calls (Live (mklayout heap libs) L mn mx) ->
  memory_ok al r c -> candidates L libs items -> fine_box mn mx r c ->
  (forall item, In (Some item) items -> overlaps (box_workspace mn mx) item -> collectable heap stack item) ->
  tidy heap mn mx r c items ->
  exists m, result (Process (Some v) al stack g r c) = (m, Ok true) /\
    forall i j, (i < r)%nat -> (j < c)%nat ->
      (Get m i j = Ok true <-> exists lt rb, draws heap mn mx items lt rb /\ marks mn mx r c lt rb i j).
Proof.
  intros M calls g heap libs L mn mx v al stack r c items Hh Hf Hm Hi FB HC HD.
  destruct (picture M calls g heap libs L mn mx v al stack r c items Hh Hf Hm Hi FB HC) as (m & P & _).
  { intros item s I T Ts. destruct (HD item s I T Ts) as (lt & rb & A & B & C & _). exists lt, rb. auto. }
  exists m. split; [exact P|]. intros i j Hir Hjc. pose proof FB as (_ & _ & _ & _ & Hr & Hc).
  destruct (C52_the_bitmap_is_the_union M calls g heap libs L mn mx v al stack r c m items Hh Hf Hm ltac:(lia) ltac:(lia) Hi P)
    as (z & A & Hz & _ & _ & _ & U).
  destruct (prepared_fine mn mx r c FB) as (z' & e & Ez & T & He & HB & HA).
  assert (z = z') by (apply (process_zond_unique _ r c z z' Hz); apply (prepared_zond _ r c z' Ez)). subst z'.
  assert (ONE : forall s lt rb, g_type s = GTrectangle -> corners s lt rb -> manageable mn mx r c lt rb -> starts_inside mn mx lt ->
    sharp_edges mn mx r c lt rb -> (sets z r c s i j <-> marks mn mx r c lt rb i j)).
  { intros s lt rb Ts G Mg SI SE.
    assert (DO : forall m1, shows m1 (azero r c) -> exists m2, ZondGeometry z (Some s) m1 = (m2, Ok tt) /\
      (Get m2 i j = Ok true <-> marks mn mx r c lt rb i j)).
    { intros m1 S1. destruct (rect_exact mn mx r c FB z s lt rb e m1 T He HB HA G Mg SI SE S1) as (m2 & B & E & SB & Br & Bc & Q).
      exists m2. split; [unfold ZondGeometry; rewrite Ts; exact E|]. rewrite <- (Q i j Hir Hjc). apply get_shown; [exact SB|lia|lia]. }
    split.
    - intros (m1 & m2 & S1 & E1 & G1). destruct (DO m1 S1) as (m3 & E3 & Q). rewrite E1 in E3. injection E3 as <-. apply Q, G1.
    - intros Q. destruct (DO (blank r c) (shows_new r c)) as (m2 & E2 & Q2). exists (blank r c), m2. split; [apply shows_new|]. split; [exact E2|]. apply Q2, Q. }
  rewrite (U i j Hir Hjc). split.
  - intros (item & s & I & Td & St). destruct (to_draw_types _ _ _ _ Td) as [Ts|Ts]; [|exfalso; exact (sets_other _ _ _ _ _ _ Hir Hjc St Ts)].
    destruct (HD item s I Td Ts) as (lt & rb & G & Mg & SI & SE). exists lt, rb. split; [exists item, s; auto|].
    apply (ONE s lt rb Ts G Mg SI SE), St.
  - intros (lt & rb & (item & s & I & Td & Ts & G) & Mk). exists item, s. split; [exact I|]. split; [exact Td|].
    destruct (HD item s I Td Ts) as (lt' & rb' & G' & Mg & SI & SE).
    assert (lt' = lt /\ rb' = rb) as (-> & ->) by (destruct G, G'; split; congruence).
    apply (ONE s lt rb Ts G Mg SI SE), Mk.
Qed.

(** So in a box that is cut into cells of whole units, whatever the edges. *)
Theorem C105_whole_cells :
  forall M calls g heap libs L mn mx v al stack r c items,
  history M gen_new calls = Some g -> in_force calls (Live (mklayout heap libs) L mn mx) ->
  memory_ok al r c -> candidates L libs items -> fine_box mn mx r c ->
  whole_cells (cx mx - cx mn) c -> whole_cells (cy mx - cy mn) r ->
  (forall item, In (Some item) items -> overlaps (box_workspace mn mx) item -> collectable heap stack item) ->
  (forall item s, In (Some item) items -> to_draw heap (box_workspace mn mx) item s -> g_type s = GTrectangle ->
     exists lt rb, corners s lt rb /\ manageable mn mx r c lt rb /\ starts_inside mn mx lt) ->
  exists m, result (Process (Some v) al stack g r c) = (m, Ok true) /\
    forall i j, (i < r)%nat -> (j < c)%nat ->
      (Get m i j = Ok true <-> exists lt rb, draws heap mn mx items lt rb /\ marks mn mx r c lt rb i j).
Proof.
  intros M calls g heap libs L mn mx v al stack r c items Hh Hf Hm Hi FB W1 W2 HC HD.
  apply (C105_exactly_the_marked_cells M calls g heap libs L mn mx v al stack r c items Hh Hf Hm Hi FB HC).
  intros item s I T Ts. destruct (HD item s I T Ts) as (lt & rb & A & B & C). exists lt, rb.
  split; [exact A|]. split; [exact B|]. split; [exact C|]. repeat split; left; assumption.
Qed.

(** ** C106 *)
(** Two layouts in two boxes whose rectangles lie, measured in cells, at the same places have
    the same bitmap. *)
Theorem C106_same_places_same_bitmap :
  forall M M' calls calls' g g' heap heap' libs libs' L L' mn mx mn' mx' v v' al al' stack stack' r c items items',
  history M gen_new calls = Some g -> history M' gen_new calls' = Some g' ->
  in_force calls (Live (mklayout heap libs) L mn mx) -> in_force calls' (Live (mklayout heap' libs') L' mn' mx') ->
  memory_ok al r c -> memory_ok al' r c -> candidates L libs items -> candidates L' libs' items' ->
  fine_box mn mx r c -> fine_box mn' mx' r c ->
  (forall item, In (Some item) items -> overlaps (box_workspace mn mx) item -> collectable heap stack item) ->
  (forall item, In (Some item) items' -> overlaps (box_workspace mn' mx') item -> collectable heap' stack' item) ->
  tidy heap mn mx r c items -> tidy heap' mn' mx' r c items' ->
  same_places r c mn mx (draws heap mn mx items) mn' mx' (draws heap' mn' mx' items') ->
  same_places r c mn' mx' (draws heap' mn' mx' items') mn mx (draws heap mn mx items) ->
  exists m m', result (Process (Some v) al stack g r c) = (m, Ok true) /\ result (Process (Some v') al' stack' g' r c) = (m', Ok true) /\
    same_matrix m m'.
Proof.
  intros M M' calls calls' g g' heap heap' libs libs' L L' mn mx mn' mx' v v' al al' stack stack' r c items items'
    H H' F F' Hm Hm' Hi Hi' FB FB' HC HC' Ty Ty' SP SP'.
  destruct (C105_exactly_the_marked_cells M calls g heap libs L mn mx v al stack r c items H F Hm Hi FB HC Ty) as (m & P & Q).
  destruct (C105_exactly_the_marked_cells M' calls' g' heap' libs' L' mn' mx' v' al' stack' r c items' H' F' Hm' Hi' FB' HC' Ty') as (m' & P' & Q').
  exists m, m'. split; [exact P|]. split; [exact P'|]. pose proof FB as (_ & _ & _ & _ & Hr & Hc).
  destruct (C52_the_bitmap_is_the_union M calls g heap libs L mn mx v al stack r c m items H F Hm ltac:(lia) ltac:(lia) Hi P) as (_ & A & _ & SA & Ar & Ac & _).
  destruct (C52_the_bitmap_is_the_union M' calls' g' heap' libs' L' mn' mx' v' al' stack' r c m' items' H' F' Hm' ltac:(lia) ltac:(lia) Hi' P') as (_ & B & _ & SB & Br & Bc & _).
  exists A. split; [exact SA|]. eapply shows_ext; [exact SB|]. split; [congruence|]. split; [congruence|]. intros i j I J.
  assert (E : acell B i j = true <-> acell A i j = true).
  { rewrite <- (get_shown m A i j SA) by lia. rewrite <- (get_shown m' B i j SB) by lia. rewrite Q, Q' by lia. split.
    - intros (lt & rb & D & (K1 & K2)). destruct (SP' lt rb D) as (lt' & rb' & D' & E1 & E2 & E3 & E4). exists lt', rb'. split; [exact D'|].
      unfold marks. rewrite <- E1, <- E2, <- E3, <- E4. split; assumption.
    - intros (lt & rb & D & (K1 & K2)). destruct (SP lt rb D) as (lt' & rb' & D' & E1 & E2 & E3 & E4). exists lt', rb'. split; [exact D'|].
      unfold marks. rewrite <- E1, <- E2, <- E3, <- E4. split; assumption. }
  destruct (acell A i j), (acell B i j); try reflexivity; exfalso; [assert (false = true) by tauto|assert (false = true) by tauto]; discriminate.
Qed.

Lemma plain_draws heap mn mx items : Forall plain items -> forall lt rb,
  draws heap mn mx items lt rb <-> exists item, In (Some item) items /\ overlaps (box_workspace mn mx) item /\ g_type item = GTrectangle /\ corners item lt rb.
Proof.
  intros Pl lt rb. split.
  - intros (item & s & I & (O & Os & Td) & Ts & G). exists item. split; [exact I|]. split; [exact O|].
    rewrite Forall_forall in Pl. destruct (Pl _ I) as (N1 & N2).
    destruct Td as [(_ & ->)|[(wd & (Q & _) & _)|(Q & _)]]; [split; assumption|congruence|congruence].
  - intros (item & I & O & Ts & G). exists item, item. split; [exact I|]. split; [|split; assumption]. split; [exact O|]. split; [exact O|]. left. auto.
Qed.

Lemma scaled_columns k mn mx c x : 0 < k -> cx mn < cx mx -> columns (scaled k mn) (scaled k mx) c (k * x) = columns mn mx c x.
Proof.
  intros K B. unfold columns, scaled. cbn [cx]. rewrite <- !Z.mul_sub_distr_l, !mult_IZR. field. split; apply not_0_IZR; lia.
Qed.
Lemma scaled_rows k mn mx r y : 0 < k -> cy mn < cy mx -> rows (scaled k mn) (scaled k mx) r (k * y) = rows mn mx r y.
Proof.
  intros K B. unfold rows, scaled. cbn [cy]. rewrite <- !Z.mul_sub_distr_l, !mult_IZR. field. split; apply not_0_IZR; lia.
Qed.

(** A layout of rectangles and polygons and its box, everything k times as large: the same
    bitmap. *)
Theorem C106_scaling :
  forall M M' calls calls' g g' heap heap' libs libs' L L' mn mx k v v' al al' stack stack' r c items,
  history M gen_new calls = Some g -> history M' gen_new calls' = Some g' ->
  in_force calls (Live (mklayout heap libs) L mn mx) -> in_force calls' (Live (mklayout heap' libs') L' (scaled k mn) (scaled k mx)) ->
  0 < k -> memory_ok al r c -> memory_ok al' r c -> candidates L libs items -> candidates L' libs' (map (scaled_item k) items) ->
  Forall plain items -> fine_box mn mx r c -> fine_box (scaled k mn) (scaled k mx) r c ->
  (forall item lt rb, In (Some item) items -> overlaps (box_workspace mn mx) item -> g_type item = GTrectangle -> corners item lt rb ->
     manageable mn mx r c lt rb /\ starts_inside mn mx lt /\ sharp_edges mn mx r c lt rb /\
     manageable (scaled k mn) (scaled k mx) r c (scaled k lt) (scaled k rb) /\
     sharp_edges (scaled k mn) (scaled k mx) r c (scaled k lt) (scaled k rb)) ->
  (forall item, In (Some item) items -> overlaps (box_workspace mn mx) item -> g_type item = GTrectangle -> exists lt rb, corners item lt rb) ->
  exists m m', result (Process (Some v) al stack g r c) = (m, Ok true) /\ result (Process (Some v') al' stack' g' r c) = (m', Ok true) /\
    same_matrix m m'.
Proof.
  intros M M' calls calls' g g' heap heap' libs libs' L L' mn mx k v v' al al' stack stack' r c items
    H H' F F' K Hm Hm' Hi Hi' Pl FB FB' HD HG. pose proof FB as (_ & _ & Bx & By & _).
  assert (Pl' : Forall plain (map (scaled_item k) items)).
  { rewrite Forall_forall in *. intros o O. apply in_map_iff in O as ([i|] & <- & O); [|exact I]. apply (Pl _ O). }
  assert (OV : forall i, overlaps (box_workspace (scaled k mn) (scaled k mx)) (scaled_geom k i) <-> overlaps (box_workspace mn mx) i).
  { intros i. unfold overlaps, box_workspace, scaled_geom, scaled. cbn [leftTop rightBot cx cy g_min g_max]. nia. }
  assert (CO : forall i lt rb, corners i lt rb -> corners (scaled_geom k i) (scaled k lt) (scaled k rb)).
  { intros i lt rb (G1 & G2). split; cbn [scaled_geom g_coords]; rewrite nth_error_map; [rewrite G1|rewrite G2]; reflexivity. }
  assert (COL : forall h st (it : list (option geom)) item, Forall plain it -> In (Some item) it -> collectable h st item).
  { intros h st it item P I. rewrite Forall_forall in P. destruct (P _ I) as (N1 & N2). unfold collectable.
    destruct (g_type item); first [exact Logic.I|congruence]. }
  apply (C106_same_places_same_bitmap M M' calls calls' g g' heap heap' libs libs' L L' mn mx (scaled k mn) (scaled k mx) v v' al al' stack stack' r c
    items (map (scaled_item k) items)); try assumption.
  - intros item I _. exact (COL heap stack items item Pl I).
  - intros item I _. exact (COL heap' stack' _ item Pl' I).
  - intros item s I Td Ts. rewrite Forall_forall in Pl. destruct (Pl _ I) as (N1 & N2).
    destruct Td as (O & _ & [(_ & ->)|[(wd & (Q & _) & _)|(Q & _)]]); [|congruence|congruence].
    destruct (HG item I O Ts) as (lt & rb & G). destruct (HD item lt rb I O Ts G) as (A1 & A2 & A3 & _). exists lt, rb. auto.
  - intros item s I Td Ts. rewrite Forall_forall in Pl'. destruct (Pl' _ I) as (N1 & N2).
    destruct Td as (O & _ & [(_ & ->)|[(wd & (Q & _) & _)|(Q & _)]]); [|congruence|congruence].
    apply in_map_iff in I as ([i|] & E & I); [|discriminate E]. injection E as <-. apply OV in O.
    destruct (HG i I O Ts) as (lt & rb & G). destruct (HD i lt rb I O Ts G) as (_ & (A1 & A2) & _ & A3 & A4).
    exists (scaled k lt), (scaled k rb). split; [apply CO, G|]. split; [exact A3|]. split; [|exact A4].
    unfold starts_inside, scaled. cbn [cx cy]. nia.
  - intros lt rb D. apply (plain_draws heap mn mx items Pl) in D. destruct D as (i & I & O & Ts & G).
    exists (scaled k lt), (scaled k rb). split.
    + apply (plain_draws heap' _ _ _ Pl'). exists (scaled_geom k i). split; [apply in_map_iff; exists (Some i); auto|].
      split; [apply OV, O|]. split; [exact Ts|apply CO, G].
    + cbn [scaled cx cy]. change (mkcoord (k * cx mn) (k * cy mn)) with (scaled k mn). change (mkcoord (k * cx mx) (k * cy mx)) with (scaled k mx).
      rewrite !scaled_columns, !scaled_rows by lia. auto.
  - intros lt rb D. apply (plain_draws heap' _ _ _ Pl') in D. destruct D as (i' & I & O & Ts & G).
    apply in_map_iff in I as ([i|] & E & I); [|discriminate E]. injection E as <-. apply OV in O.
    destruct (HG i I O Ts) as (lt0 & rb0 & G0). destruct (CO _ _ _ G0) as (C1 & C2). destruct G as (G1 & G2).
    assert (lt = scaled k lt0) by congruence. assert (rb = scaled k rb0) by congruence. subst lt rb. exists lt0, rb0. split.
    + apply (plain_draws heap _ _ _ Pl). exists i. auto.
    + cbn [scaled cx cy]. change (mkcoord (k * cx mn) (k * cy mn)) with (scaled k mn). change (mkcoord (k * cx mx) (k * cy mx)) with (scaled k mx).
      rewrite !scaled_columns, !scaled_rows by lia. auto.
Qed.

(** ** Concrete cases *)
(** A box of 100 x 100 units in 10 x 10 cells: whole cells.  The rectangle from 33 to 78 reaches
    from 3.3 to 7.8 cells; column 8 is overshot. *)
Lemma ex_whole : whole_cells (100 - 0) 10 /\ whole_cells (300 - 0) 10.
Proof. split; [exists 10|exists 30]; cbn; lia. Qed.

Lemma ex_tidy x1 y1 x2 y2 side : side = 100 \/ side = 300 -> 0 <= x1 -> x1 <= x2 -> x2 <= side -> 0 <= y1 -> y1 <= y2 -> y2 <= side ->
  manageable (mkcoord 0 0) (mkcoord side side) 10 10 (mkcoord x1 y2) (mkcoord x2 y1) /\
  starts_inside (mkcoord 0 0) (mkcoord side side) (mkcoord x1 y2) /\
  sharp_edges (mkcoord 0 0) (mkcoord side side) 10 10 (mkcoord x1 y2) (mkcoord x2 y1).
Proof.
  intros S X1 X2 X3 Y1 Y2 Y3. split; [apply ex_manageable; lia|]. split; [unfold starts_inside; cbn [cx cy]; lia|].
  assert (W : whole_cells (side - 0) 10) by (destruct S as [->| ->]; apply ex_whole).
  unfold sharp_edges. cbn [cx cy]. repeat split; left; exact W.
Qed.

Lemma ex_tidy_items x1 y1 x2 y2 : 0 <= x1 -> x1 <= x2 -> x2 <= 100 -> 0 <= y1 -> y1 <= y2 -> y2 <= 100 ->
  tidy [] (mkcoord 0 0) (mkcoord 100 100) 10 10 (ex_more x1 y1 x2 y2).
Proof.
  intros X1 X2 X3 Y1 Y2 Y3 item s I T Ts. rewrite (ex_only_rect _ _ _ _ _ _ _ _ I T Ts). exists (mkcoord x1 y2), (mkcoord x2 y1).
  split; [split; reflexivity|]. destruct (ex_tidy x1 y1 x2 y2 100) as (A & B & C); auto.
Qed.

Example C105_hypotheses_met :
  let mn := mkcoord 0 0 in let mx := mkcoord 100 100 in let items := ex_more 33 30 78 81 in
  fine_box mn mx 10 10 /\ whole_cells (cx mx - cx mn) 10 /\ tidy [] mn mx 10 10 items /\
  in_force (ex_init items 100) (Live (mklayout [] (ex_libs items)) [5] mn mx) /\ candidates [5] (ex_libs items) items /\
  (forall item, In (Some item) items -> overlaps (box_workspace mn mx) item -> collectable [] 10 item) /\
  marked 10 (33 / 10) (78 / 10) 8 /\ ~ marked 10 (33 / 10) (78 / 10) 2 /\
  exists m, option_map (fun g => result (Process (Some 1) infinite_memory 10 g 10 10)) (history ex_machine gen_new (ex_init items 100)) = Some (m, Ok true) /\
    Get m 4 8 = Ok true /\ Get m 4 9 = Ok false /\ Get m 4 2 = Ok false /\ Get m 4 3 = Ok true.
Proof.
  intros mn mx items. split; [exact ex_fine|]. split; [apply ex_whole|]. split; [apply ex_tidy_items; lia|].
  split; [now apply ex_init_force|]. split; [apply candidates_items; reflexivity|].
  split; [intros item [[= <-]|[[= <-]|[]]] _; exact Logic.I|].
  assert (F3 : Zfloor (33 / 10) = 3) by (apply Zfloor_imp; change (3 + 1) with 4; lra).
  assert (F7 : Zfloor (78 / 10) = 7) by (apply Zfloor_imp; change (7 + 1) with 8; lra).
  split; [|split].
  - unfold marked. rewrite INR_IZR_INZ. change (Z.of_nat 8) with 8. split; [lra|]. right. unfold overshot. rewrite F3, F7. split; [lia|]. left.
    split; [reflexivity|lra].
  - intros (Q & _). rewrite INR_IZR_INZ in Q. change (Z.of_nat 2) with 2 in Q. lra.
  - run_example.
Qed.

(** A box that is not cut into whole cells: 105 units, 10 cells; all edges are clear. *)
Example C105_clear_edges : ~ whole_cells 105 10 /\ clear_of_halves (33 * INR 10 / 105) /\ sharp 105 10 33 /\ sharp 105 10 78.
Proof.
  assert (C : forall d, (d * 20) mod 105 <> 0 -> clear_of_halves (IZR d * INR 10 / 105)).
  { intros d N k. rewrite INR_IZR_INZ. change (Z.of_nat 10) with 10. 
    replace (IZR d * 10 / 105 - IZR k / 2)%R with (IZR (d * 20 - k * 105) / 210)%R by (rewrite minus_IZR, !mult_IZR; field).
    unfold Rdiv. rewrite Rabs_mult, (Rabs_pos_eq (/ 210)) by lra. rewrite pow10, <- abs_IZR.
    assert (1 <= IZR (Z.abs (d * 20 - k * 105)))%R; [|lra]. apply (IZR_le 1).
    assert (d * 20 - k * 105 <> 0); [|lia]. intros E. apply N. replace (d * 20) with (k * 105) by lia. apply Z_mod_mult. }
  split; [intros (q & Q & _); cbn in Q; lia|]. split; [apply C; discriminate|].
  split; right; right; right; apply C; discriminate.
Qed.

Example C106_hypotheses_met :
  let mn := mkcoord 0 0 in let mx := mkcoord 100 100 in let items := ex_more 33 30 78 81 in
  Forall plain items /\ fine_box (scaled 3 mn) (scaled 3 mx) 10 10 /\
  (forall item lt rb, In (Some item) items -> overlaps (box_workspace mn mx) item -> g_type item = GTrectangle -> corners item lt rb ->
     manageable mn mx 10 10 lt rb /\ starts_inside mn mx lt /\ sharp_edges mn mx 10 10 lt rb /\
     manageable (scaled 3 mn) (scaled 3 mx) 10 10 (scaled 3 lt) (scaled 3 rb) /\
     sharp_edges (scaled 3 mn) (scaled 3 mx) 10 10 (scaled 3 lt) (scaled 3 rb)) /\
  in_force (ex_init (map (scaled_item 3) items) 300) (Live (mklayout [] (ex_libs (map (scaled_item 3) items))) [5] (scaled 3 mn) (scaled 3 mx)) /\
  candidates [5] (ex_libs (map (scaled_item 3) items)) (map (scaled_item 3) items) /\
  exists m, option_map (fun g => result (Process (Some 1) infinite_memory 10 g 10 10)) (history ex_machine gen_new (ex_init items 100)) = Some (m, Ok true) /\
    option_map (fun g => result (Process (Some 1) infinite_memory 10 g 10 10)) (history ex_machine gen_new (ex_init (map (scaled_item 3) items) 300)) = Some (m, Ok true).
Proof.
  intros mn mx items. split; [|split; [|split; [|split; [|split]]]].
  - repeat constructor; discriminate.
  - unfold fine_box, coord32, int32. cbn [scaled mn mx cx cy]. lia.
  - intros item lt rb [[= <-]|[[= <-]|[]]] _ T (G1 & G2); [|discriminate T]. cbn in G1, G2. injection G1 as <-. injection G2 as <-.
    destruct (ex_tidy 33 30 78 81 100) as (A & B & C); try lia. destruct (ex_tidy 99 90 234 243 300) as (A' & B' & C'); try lia.
    split; [exact A|]. split; [exact B|]. split; [exact C|]. split; [exact A'|exact C'].
  - now apply ex_init_force.
  - apply candidates_items. reflexivity.
  - eexists. split; vm_compute; reflexivity.
Qed.

(** Without sharp edges, a larger layout can have another bitmap: the tolerance at the centre of
    a cell is a number of cells that grows with the size of a cell in units. *)
Theorem C106_scaling_of_any_layout_refuted :
  ~ (forall k items side g g' m m', 0 < k -> Forall plain items ->
       Init gen_new (Some (mklayout [] (ex_libs items))) [5] (mkcoord 0 0) (mkcoord side side) = (g, Ok tt) ->
       Init gen_new (Some (mklayout [] (ex_libs (map (scaled_item k) items)))) [5] (mkcoord 0 0) (mkcoord (k * side) (k * side)) = (g', Ok tt) ->
       fine_box (mkcoord 0 0) (mkcoord side side) 1 1 -> fine_box (mkcoord 0 0) (mkcoord (k * side) (k * side)) 1 1 ->
       result (Process (Some 1) infinite_memory 10 g 1 1) = (m, Ok true) ->
       result (Process (Some 1) infinite_memory 10 g' 1 1) = (m', Ok true) -> same_matrix m m').
Proof.
  intros H.
  pose (items := [Some (ex_gen_rect 5 5001 0 10000 10000)]).
  pose (g := fst (Init gen_new (Some (mklayout [] (ex_libs items))) [5] (mkcoord 0 0) (mkcoord 10000 10000))).
  pose (g' := fst (Init gen_new (Some (mklayout [] (ex_libs (map (scaled_item 200000) items)))) [5] (mkcoord 0 0) (mkcoord (200000 * 10000) (200000 * 10000)))).
  specialize (H 200000 items 10000 g g' (mkbm [[x00]] 1 1) (mkbm [[x80]] 1 1)).
  destruct H as (A & S1 & S2).
  - lia.
  - repeat constructor; discriminate.
  - etransitivity; [apply surjective_pairing|]. apply (f_equal2 pair); [reflexivity|vm_compute; reflexivity].
  - etransitivity; [apply surjective_pairing|]. apply (f_equal2 pair); [reflexivity|vm_compute; reflexivity].
  - unfold fine_box, coord32, int32. cbn [cx cy]. lia.
  - unfold fine_box, coord32, int32. cbn [cx cy]. lia.
  - vm_compute. reflexivity.
  - vm_compute. reflexivity.
  - destruct (shows_elim _ _ S1) as (_ & a1 & a2 & a3). destruct (shows_elim _ _ S2) as (_ & b1 & b2 & b3).
    cbn in a1, a2, b1, b2. specialize (a3 0%nat 0%nat ltac:(lia) ltac:(lia)). specialize (b3 0%nat 0%nat ltac:(lia) ltac:(lia)).
    rewrite <- a3 in b3. vm_compute in b3. discriminate b3.
Qed.

Print Assumptions C105_exactly_the_marked_cells.
Print Assumptions C105_whole_cells.
Print Assumptions C106_same_places_same_bitmap.
Print Assumptions C106_scaling.
Print Assumptions C106_scaling_of_any_layout_refuted.
