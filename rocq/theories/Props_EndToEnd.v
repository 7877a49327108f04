(** C68-C70: what the bitmap shows of the layout, from Init to the cells. *)
From Coq Require Import Reals Lra Lia Permutation.
From Verif Require Import Prelude P_Prelude M_Double S_Double M_LayoutData M_Converter S_Converter M_Vector2D M_BitMatrix S_Matrix
  P_BitMatrix M_Zond S_Zond P_Zond P_ZondCells Props_Zond M_Generator P_Uniform S_Generator P_Generator Props_Generator S_EndToEnd P_EndToEnd.
Local Open Scope Z_scope.

(** ** C68, C69 *)
(** All rectangles to be drawn begin inside the box: Process returns true; every cell whose
    centre lies in a rectangle, a 2^20th of a cell away from its edges, is set (C68); every
    cell set has its centre within one cell of a rectangle (C69). *)
Lemma picture : forall M calls g heap libs L mn mx v al stack r c items,
  history M gen_new calls = Some g -> in_force calls (Live (mklayout heap libs) L mn mx) ->
  memory_ok al r c -> candidates L libs items -> fine_box mn mx r c ->
  (forall item, In (Some item) items -> overlaps (box_workspace mn mx) item -> collectable heap stack item) ->
  (forall item s, In (Some item) items -> to_draw heap (box_workspace mn mx) item s -> g_type s = GTrectangle ->
     exists lt rb, corners s lt rb /\ manageable mn mx r c lt rb /\ starts_inside mn mx lt) ->
  exists m, result (Process (Some v) al stack g r c) = (m, Ok true) /\
    forall i j, (i < r)%nat -> (j < c)%nat ->
      (forall item s lt rb, In (Some item) items -> to_draw heap (box_workspace mn mx) item s -> g_type s = GTrectangle ->
         corners s lt rb -> covers_centre mn mx r c lt rb i j -> Get m i j = Ok true) /\
      (Get m i j = Ok true ->
       exists item s lt rb, In (Some item) items /\ to_draw heap (box_workspace mn mx) item s /\ g_type s = GTrectangle /\
         corners s lt rb /\ near_centre mn mx r c lt rb i j).
Proof.
  intros M calls g heap libs L mn mx v al stack r c items Hh Hf Hm Hi FB HC HD.
  pose proof FB as (_ & _ & _ & _ & Hr & Hc).
  assert (P : exists m, core stack (Some (mklayout heap libs)) (box_workspace mn mx) L (dlit 1 (10 ^ 13)) r c = (m, Ok true)).
  { destruct (prepared_ok mn mx r c FB) as (z & e & Ez & T & HB & HA).
    destruct (gather_ok heap stack (box_workspace mn mx) items HC) as (l1 & l2 & Eg).
    pose proof (gather_draw _ _ _ _ _ _ Eg) as D.
    destruct (all_add_intro z (l1 ++ l2)) as (ss & Hss).
    { intros s Hs. apply D in Hs. destruct Hs as (item & Hit & Td).
      destruct (ZondGeometry_uniform z (Some s)) as (sel & o & Ha).
      assert (o = Ok tt); [|subst o; eauto].
      destruct (to_draw_types _ _ _ _ Td) as [Ts|Ts].
      - destruct (HD item s Hit Td Ts) as (lt & rb & G & Mg & SI).
        destruct (rect_inside mn mx r c FB z s lt rb e (blank r c) T HB HA G Mg SI (shows_new r c)) as (m' & B & E & _).
        assert (E' : ZondGeometry z (Some s) (blank r c) = (m', Ok tt)) by (unfold ZondGeometry; rewrite Ts; exact E).
        destruct (adds_outcome _ _ _ _ _ _ _ Ha (shows_new r c) E') as (Q & _). congruence.
      - destruct (C43_other_types z s (blank r c)) as (E & _). specialize (E Ts).
        destruct (adds_outcome _ _ _ _ _ _ _ Ha (shows_new r c) E) as (Q & _). congruence. }
    destruct (zond_all_ok z _ _ Hss _ _ (shows_new r c)) as (m & Em & _). fold (blank r c) in Em.
    exists m. apply core_true. exists z, l1, l2, ss. apply candidates_items in Hi.
    rewrite InitItems, <- Hi, PG_blank. auto. }
  destruct P as (m & P). exists m.
  split; [rewrite (live_process v al stack g r c _ _ _ _ (in_force_agrees _ _ _ _ Hf Hh)) by (first [lia|assumption]); exact P|].
  destruct (core_cells stack heap libs _ L r c m items Hi P) as (z & Hz & _ & sel & S & Hs).
  destruct (prepared_ok mn mx r c FB) as (z' & e & Ez & T & HB & HA).
  assert (z = z') by (apply (process_zond_unique _ r c z z' Hz); apply (prepared_zond _ r c z' Ez)). subst z.
  intros i j Hir Hjc.
  assert (GET : Get m i j = Ok true <-> sel (Z.of_nat i) (Z.of_nat j) = true).
  { destruct (shows_elim _ _ S) as (Hhm & H1 & H2 & H3). cbn in H1, H2.
    rewrite Get_raw by (try exact Hhm; lia). rewrite H3 by (cbn; lia). cbn.
    split; [intros [= E]; exact E|intros ->; reflexivity]. }
  split.
  - intros item s lt rb Hit Td Ts G Cv. apply GET, (Hs i j Hir Hjc). exists item, s. split; [exact Hit|]. split; [exact Td|].
    destruct (HD item s Hit Td Ts) as (lt' & rb' & G' & Mg & SI).
    assert (lt' = lt /\ rb' = rb) as (-> & ->) by (destruct G, G'; split; congruence).
    destruct (rect_inside mn mx r c FB z' s lt rb e (blank r c) T HB HA G Mg SI (shows_new r c)) as (m' & B & E & SB & HBc).
    exists (blank r c), m'. split; [apply shows_new|]. split; [unfold ZondGeometry; rewrite Ts; exact E|].
    destruct (HBc i j Hir Hjc) as (Q & _). specialize (Q Cv).
    assert (E' : ZondGeometry z' (Some s) (blank r c) = (m', Ok tt)) by (unfold ZondGeometry; rewrite Ts; exact E).
    destruct (ZondGeometry_uniform z' (Some s)) as (sl & o & Ha).
    destruct (adds_outcome _ _ _ _ _ _ _ Ha (shows_new r c) E') as (_ & SA).
    destruct (shows_elim _ _ SA) as (Hhm & H1 & H2 & _). cbn in H1, H2.
    destruct (shows_elim _ _ SB) as (_ & H4 & H5 & H3).
    rewrite Get_raw by (try exact Hhm; lia). rewrite H3, Q by lia. reflexivity.
  - intros Hg. apply GET in Hg. apply (Hs i j Hir Hjc) in Hg. destruct Hg as (item & s & Hit & Td & m1 & m2 & S1 & E1 & G1).
    destruct (to_draw_types _ _ _ _ Td) as [Ts|Ts].
    + destruct (HD item s Hit Td Ts) as (lt & rb & G & Mg & SI).
      exists item, s, lt, rb. split; [exact Hit|]. split; [exact Td|]. split; [exact Ts|]. split; [exact G|].
      destruct (rect_inside mn mx r c FB z' s lt rb e m1 T HB HA G Mg SI S1) as (m' & B & E & SB & HBc).
      unfold ZondGeometry in E1. rewrite Ts in E1. rewrite E1 in E. injection E as <-.
      apply (proj2 (HBc i j Hir Hjc)).
      destruct (ZondGeometry_uniform z' (Some s)) as (sl & o & Ha).
      assert (E' : ZondGeometry z' (Some s) m1 = (m2, Ok tt)) by (unfold ZondGeometry; rewrite Ts; exact E1).
      destruct (adds_outcome _ _ _ _ _ _ _ Ha S1 E') as (_ & SA).
      destruct (shows_elim _ _ SA) as (Hhm & H1 & H2 & _). cbn in H1, H2.
      destruct (shows_elim _ _ SB) as (_ & H4 & H5 & H3).
      rewrite Get_raw in G1 by (try exact Hhm; lia). rewrite H3 in G1 by lia. congruence.
    + exfalso. destruct (C43_other_types z' s m1) as (E & _). specialize (E Ts). rewrite E in E1. injection E1 as <-.
      destruct (shows_elim _ _ S1) as (Hhm & H1 & H2 & H3). cbn in H1, H2.
      rewrite Get_raw in G1 by (try exact Hhm; lia). rewrite H3 in G1 by (cbn; lia). cbn in G1. discriminate.
Qed.

Theorem C68_covered_cells_are_set : forall M calls g heap libs L mn mx v al stack r c items,
  history M gen_new calls = Some g -> in_force calls (Live (mklayout heap libs) L mn mx) ->
  memory_ok al r c -> candidates L libs items -> fine_box mn mx r c ->
  (forall item, In (Some item) items -> overlaps (box_workspace mn mx) item -> collectable heap stack item) ->
  (forall item s, In (Some item) items -> to_draw heap (box_workspace mn mx) item s -> g_type s = GTrectangle ->
     exists lt rb, corners s lt rb /\ manageable mn mx r c lt rb /\ starts_inside mn mx lt) ->
  exists m, result (Process (Some v) al stack g r c) = (m, Ok true) /\
    forall i j item s lt rb, (i < r)%nat -> (j < c)%nat ->
      In (Some item) items -> to_draw heap (box_workspace mn mx) item s -> g_type s = GTrectangle -> corners s lt rb ->
      covers_centre mn mx r c lt rb i j -> Get m i j = Ok true.
Proof.
  intros M calls g heap libs L mn mx v al stack r c items Hh Hf Hm Hi FB HC HD.
  destruct (picture M calls g heap libs L mn mx v al stack r c items Hh Hf Hm Hi FB HC HD) as (m & E & P).
  exists m. split; [exact E|]. intros i j item s lt rb Hi' Hj' Hit Td Ts G Cv.
  destruct (P i j Hi' Hj') as (Q & _). eapply Q; eassumption.
Qed.

Theorem C69_set_cells_are_near_a_rectangle : forall M calls g heap libs L mn mx v al stack r c items m,
  history M gen_new calls = Some g -> in_force calls (Live (mklayout heap libs) L mn mx) ->
  memory_ok al r c -> candidates L libs items -> fine_box mn mx r c ->
  (forall item, In (Some item) items -> overlaps (box_workspace mn mx) item -> collectable heap stack item) ->
  (forall item s, In (Some item) items -> to_draw heap (box_workspace mn mx) item s -> g_type s = GTrectangle ->
     exists lt rb, corners s lt rb /\ manageable mn mx r c lt rb /\ starts_inside mn mx lt) ->
  result (Process (Some v) al stack g r c) = (m, Ok true) ->
  forall i j, (i < r)%nat -> (j < c)%nat -> Get m i j = Ok true ->
    exists item s lt rb, In (Some item) items /\ to_draw heap (box_workspace mn mx) item s /\ g_type s = GTrectangle /\
      corners s lt rb /\ near_centre mn mx r c lt rb i j.
Proof.
  intros M calls g heap libs L mn mx v al stack r c items m Hh Hf Hm Hi FB HC HD E i j Hi' Hj' Hg.
  destruct (picture M calls g heap libs L mn mx v al stack r c items Hh Hf Hm Hi FB HC HD) as (m' & E' & P).
  rewrite E in E'. injection E' as <-. destruct (P i j Hi' Hj') as (_ & Q). apply Q, Hg.
Qed.

(** ** C70 *)
(** One rectangle that begins left of or above the box, and leaves a cell free at some edge, is
    enough: Process throws. *)
Theorem C70_one_rectangle_aborts_the_bitmap : forall M calls g heap libs L mn mx v al stack r c items item s lt rb,
  history M gen_new calls = Some g -> in_force calls (Live (mklayout heap libs) L mn mx) ->
  memory_ok al r c -> candidates L libs items -> fine_box mn mx r c ->
  (forall item, In (Some item) items -> overlaps (box_workspace mn mx) item -> collectable heap stack item) ->
  (forall item s, In (Some item) items -> to_draw heap (box_workspace mn mx) item s -> g_type s = GTrectangle ->
     exists lt rb, corners s lt rb /\ manageable mn mx r c lt rb) ->
  In (Some item) items -> to_draw heap (box_workspace mn mx) item s -> g_type s = GTrectangle -> corners s lt rb ->
  ~ starts_inside mn mx lt -> leaves_a_cell mn mx r c lt rb ->
  snd (Process (Some v) al stack g r c) = Throw InvalidArgument.
Proof.
  intros M calls g heap libs L mn mx v al stack r c items item s lt rb Hh Hf Hm Hi FB HC HD Hit Td Ts G NI LC.
  pose proof FB as (_ & _ & _ & _ & Hr & Hc).
  pose proof (live_process v al stack g r c _ _ _ _ (in_force_agrees _ _ _ _ Hf Hh) ltac:(lia) ltac:(lia) Hm) as LP.
  unfold result in LP. apply (f_equal snd) in LP. cbn [snd] in LP. rewrite LP. clear LP.
  destruct (prepared_ok mn mx r c FB) as (z & e & Ez & T & HB & HA).
  destruct (gather_ok heap stack (box_workspace mn mx) items HC) as (l1 & l2 & Eg).
  pose proof (gather_draw _ _ _ _ _ _ Eg) as D. apply candidates_items in Hi.
  unfold core. rewrite Ez, InitItems, <- Hi, PG_blank, Eg.
  assert (Hs : In s (l1 ++ l2)) by (apply D; eauto).
  assert (BAD : ZondGeometry z (Some s) (blank r c) = (blank r c, Throw InvalidArgument)).
  { unfold ZondGeometry. rewrite Ts. destruct (HD item s Hit Td Ts) as (lt' & rb' & G' & Mg).
    assert (lt' = lt /\ rb' = rb) as (-> & ->) by (destruct G, G'; split; congruence).
    apply (rect_outside mn mx r c FB z s lt rb e (blank r c) T HB HA G Mg NI).
    destruct T as (T1 & T2 & T3 & T4 & T5 & T6). pose proof Mg as (M1 & M2 & _).
    apply (short_test z lt rb _ _ e) with (4 := T1) (5 := T2); try assumption.
    - rewrite HA. exact (ws32_box mn mx r c FB).
    - rewrite HA. exact (leaves_short mn mx r c FB lt rb LC). }
  destruct (zond_all_cases z (l1 ++ l2)) as [(ss & Hss)|(s' & sel & o & Hin & Ha & Ho & sel' & Hz)].
  - exfalso. destruct (all_add_each z _ _ s Hss Hs) as (sl & Hsl & _).
    destruct (adds_outcome _ _ _ _ _ _ _ Hsl (shows_new r c) BAD) as (Q & _). discriminate.
  - destruct (Hz _ _ (shows_new r c)) as (m' & Em & _). fold (blank r c) in Em. rewrite Em.
    assert (o = Throw InvalidArgument); [|subst o; reflexivity].
    apply D in Hin. destruct Hin as (it & Hit' & Td').
    destruct (to_draw_types _ _ _ _ Td') as [Ts'|Ts'].
    + destruct (HD it s' Hit' Td' Ts') as (lt' & rb' & G' & Mg').
      destruct (rect_any mn mx r c FB z s' lt' rb' e (blank r c) T HB HA G' Mg' (shows_new r c)) as [(m2 & E2)|E2].
      * exfalso. assert (E3 : ZondGeometry z (Some s') (blank r c) = (m2, Ok tt)) by (unfold ZondGeometry; rewrite Ts'; exact E2).
        destruct (adds_outcome _ _ _ _ _ _ _ Ha (shows_new r c) E3) as (Q & _). congruence.
      * assert (E3 : ZondGeometry z (Some s') (blank r c) = (blank r c, Throw InvalidArgument)) by (unfold ZondGeometry; rewrite Ts'; exact E2).
        destruct (adds_outcome _ _ _ _ _ _ _ Ha (shows_new r c) E3) as (Q & _). congruence.
    + exfalso. destruct (C43_other_types z s' (blank r c)) as (E & _). specialize (E Ts').
      destruct (adds_outcome _ _ _ _ _ _ _ Ha (shows_new r c) E) as (Q & _). congruence.
Qed.

(** ** C71 *)
(** Whatever the layout, a cell that is set owes it to a rectangle: polygons leave no mark. *)
Theorem C71_polygons_leave_no_mark :
  forall M calls g heap libs L mn mx v al stack r c m items,
  history M gen_new calls = Some g -> in_force calls (Live (mklayout heap libs) L mn mx) ->
  memory_ok al r c -> (0 < r)%nat -> (0 < c)%nat -> candidates L libs items ->
  result (Process (Some v) al stack g r c) = (m, Ok true) ->
  forall i j, (i < r)%nat -> (j < c)%nat -> Get m i j = Ok true ->
    exists item s, In (Some item) items /\ to_draw heap (box_workspace mn mx) item s /\ g_type s = GTrectangle.
Proof.
  intros M calls g heap libs L mn mx v al stack r c m items Hh Hf Hm Hr Hc Hi R i j Hi' Hj' Hg.
  destruct (C52_the_bitmap_is_the_union M calls g heap libs L mn mx v al stack r c m items Hh Hf Hm Hr Hc Hi R)
    as (z & A & _ & _ & _ & _ & U).
  apply (U i j Hi' Hj') in Hg. destruct Hg as (item & s & Hit & Td & m1 & m2 & S1 & E1 & G1).
  exists item, s. split; [exact Hit|]. split; [exact Td|].
  destruct (to_draw_types _ _ _ _ Td) as [Ts|Ts]; [exact Ts|exfalso].
  destruct (C43_other_types z s m1) as (E & _). specialize (E Ts). rewrite E in E1. injection E1 as <-.
  destruct (shows_elim _ _ S1) as (Hhm & H1 & H2 & H3). cbn in H1, H2.
  rewrite Get_raw in G1 by (try exact Hhm; lia). rewrite H3 in G1 by (cbn; lia). cbn in G1. discriminate.
Qed.

(** ** Concrete cases *)
Definition ex_layout2 : layout :=
  mklayout [] [mklibrary [] [] [mklayer 5 0 [] [Some (ex_gen_rect 5 30 30 80 80);
    Some (mkgeom GTpolygon 5 [] (mkcoord 0 0) (mkcoord 100 100) (CPolygon 0))]] (mkcoord 0 0) (mkcoord 0 0)].
Definition ex_calls2 : list call := [CInit (Some ex_layout2) [5] (mkcoord 0 0) (mkcoord 100 100)].

Lemma ex_force2 : in_force ex_calls2 (Live ex_layout2 [5] (mkcoord 0 0) (mkcoord 100 100)).
Proof. apply (in_force_next [] Fresh _ _ in_force_start). constructor; [discriminate|]. unfold ordered_box. cbn. lia. Qed.

Lemma ex_fine : fine_box (mkcoord 0 0) (mkcoord 100 100) 10 10.
Proof. unfold fine_box, coord32, int32. cbn. lia. Qed.

Example C68_hypotheses_met :
  let mn := mkcoord 0 0 in let mx := mkcoord 100 100 in
  let items := [Some (ex_gen_rect 5 30 30 80 80); Some (mkgeom GTpolygon 5 [] (mkcoord 0 0) (mkcoord 100 100) (CPolygon 0))] in
  (exists g, history ex_machine gen_new ex_calls2 = Some g) /\
  in_force ex_calls2 (Live ex_layout2 [5] mn mx) /\ candidates [5] (lay_libraries ex_layout2) items /\ fine_box mn mx 10 10 /\
  (forall item, In (Some item) items -> overlaps (box_workspace mn mx) item -> collectable [] 10 item) /\
  (forall item s, In (Some item) items -> to_draw [] (box_workspace mn mx) item s -> g_type s = GTrectangle ->
     exists lt rb, corners s lt rb /\ manageable mn mx 10 10 lt rb /\ starts_inside mn mx lt) /\
  corners (ex_gen_rect 5 30 30 80 80) (mkcoord 30 80) (mkcoord 80 30) /\
  covers_centre mn mx 10 10 (mkcoord 30 80) (mkcoord 80 30) 2 3 /\ ~ near_centre mn mx 10 10 (mkcoord 30 80) (mkcoord 80 30) 2 0.
Proof.
  intros mn mx items. split; [eexists; reflexivity|]. split; [exact ex_force2|].
  split; [apply candidates_items; reflexivity|]. split; [exact ex_fine|].
  split; [intros item [[= <-]|[[= <-]|[]]] _; exact I|].
  pose proof margin_small as MS.
  split.
  - intros item s Hit Td Ts. exists (mkcoord 30 80), (mkcoord 80 30).
    assert (s = ex_gen_rect 5 30 30 80 80).
    { destruct Td as (_ & _ & Td). destruct Hit as [[= <-]|[[= <-]|[]]].
      - destruct Td as [(_ & ->)|[(wd & (Q & _) & _)|(Q & _)]]; [reflexivity|discriminate|discriminate].
      - destruct Td as [(_ & ->)|[(wd & (Q & _) & _)|(Q & _)]]; [discriminate|discriminate|discriminate]. }
    subst s. split; [split; reflexivity|]. split; [|unfold starts_inside; cbn; lia].
    unfold manageable, coord32, int32, differences_fit. cbn [box_workspace mn mx leftTop rightBot cx cy]. unfold int32.
    split; [lia|]. split; [lia|]. split; [lia|]. split; [lia|]. split; [lia|].
    unfold columns, rows. cbn [cx cy mn mx]. rewrite !INR_IZR_INZ. change (Z.of_nat 10) with 10.
    change (80 - 0) with 80. change (100 - 0) with 100. change (100 - 30) with 70.
    assert (IZR (2 ^ 30) >= 1000)%R by (apply Rle_ge, (IZR_le 1000); lia). lra.
  - split; [split; reflexivity|].
    unfold covers_centre, near_centre, columns, rows. cbn [cx cy mn mx]. rewrite !INR_IZR_INZ.
    change (80 - 0) with 80. change (30 - 0) with 30. change (100 - 0) with 100. change (100 - 30) with 70. change (100 - 80) with 20.
    change (Z.of_nat 10) with 10. change (Z.of_nat 3) with 3. change (Z.of_nat 2) with 2. change (Z.of_nat 0) with 0. split; [|intros Q]; lra.
Qed.

Example C69_hypotheses_met : exists m,
  option_map (fun g => result (Process (Some 1) infinite_memory 10 g 10 10)) (history ex_machine gen_new ex_calls2) = Some (m, Ok true) /\
  Get m 2 3 = Ok true /\ Get m 2 1 = Ok false.
Proof. run_example. Qed.

(** With the left edge of the rectangle moved to -5, the same bitmap cannot be made. *)
Example C70_hypotheses_met :
  let lay := mklayout [] [mklibrary [] [] [mklayer 5 0 [] [Some (ex_gen_rect 5 (-5) 30 80 80)]] (mkcoord 0 0) (mkcoord 0 0)] in
  let mn := mkcoord 0 0 in let mx := mkcoord 100 100 in
  ~ starts_inside mn mx (mkcoord (-5) 80) /\ leaves_a_cell mn mx 10 10 (mkcoord (-5) 80) (mkcoord 80 30) /\
  manageable mn mx 10 10 (mkcoord (-5) 80) (mkcoord 80 30) /\
  option_map (fun g => snd (Process (Some 1) infinite_memory 10 g 10 10))
    (history ex_machine gen_new [CInit (Some lay) [5] mn mx]) = Some (Throw InvalidArgument).
Proof.
  intros lay mn mx. pose proof margin_small as MS.
  split; [unfold starts_inside; cbn; lia|]. split; [|split].
  - right. left. unfold columns. cbn [cx cy mn mx]. rewrite !INR_IZR_INZ.
    change (80 - 0) with 80. change (100 - 0) with 100. change (Z.of_nat 10) with 10. lra.
  - unfold manageable, coord32, int32, differences_fit. cbn [box_workspace mn mx leftTop rightBot cx cy]. unfold int32.
    split; [lia|]. split; [lia|]. split; [lia|]. split; [lia|]. split; [lia|].
    unfold columns, rows. cbn [cx cy mn mx]. rewrite !INR_IZR_INZ. change (Z.of_nat 10) with 10.
    change (80 - 0) with 80. change (100 - 0) with 100. change (100 - 30) with 70.
    assert (IZR (2 ^ 30) >= 1000)%R by (apply Rle_ge, (IZR_le 1000); lia). lra.
  - vm_compute. reflexivity.
Qed.

(** C71: the polygon of ex_layout2 spans the box, yet cells off the rectangle stay clear. *)
Example C71_hypotheses_met : exists m,
  option_map (fun g => result (Process (Some 1) infinite_memory 10 g 10 10)) (history ex_machine gen_new ex_calls2) = Some (m, Ok true) /\
  Get m 9 9 = Ok false.
Proof. run_example. Qed.

Print Assumptions C68_covered_cells_are_set.
Print Assumptions C69_set_cells_are_near_a_rectangle.
Print Assumptions C70_one_rectangle_aborts_the_bitmap.
Print Assumptions C71_polygons_leave_no_mark.
