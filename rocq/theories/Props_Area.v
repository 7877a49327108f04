(** C110: the bitmap and the area that is covered. *)
From Coq Require Import Reals Lra Lia.
From Flocq Require Import Core.
From Verif Require Import Prelude P_Prelude M_Double S_Double M_LayoutData M_Converter S_Converter M_Vector2D M_BitMatrix S_Matrix
  P_BitMatrix P_Cells M_Hash Props_Hash M_Zond S_Zond P_Zond Props_Zond M_Generator S_Generator P_Generator Props_Generator
  S_EndToEnd P_EndToEnd Props_EndToEnd S_Identify P_Identify S_Degrade P_Degrade Props_Degrade S_Exact P_Exact Props_Exact S_Grow Props_Grow S_Area.
Local Open Scope Z_scope.

Lemma clean_marked n from to k : (k < n)%nat -> clean_end n to -> marked n from to k -> (from <= INR k + 1 / 2 <= to)%R.
Proof.
  intros Hk C (B & [E|(_ & [(K & H)|(K & H)])]); [lra| |].
  - destruct C as [C|(_ & C)]; [|unfold first_half in C; lra]. split; [exact B|].
    assert (INR k <= INR n - 1)%R. { apply le_INR in Hk. rewrite S_INR in Hk. lra. } lra.
  - rewrite minus_IZR, <- INR_IZR_INZ in H. destruct C as [C|(C & _)]; [|lra]. split; [exact B|].
    assert (INR k <= INR n - 1)%R. { apply le_INR in Hk. rewrite S_INR in Hk. lra. } lra.
Qed.

Lemma clean_marks mn mx r c lt rb i j : (i < r)%nat -> (j < c)%nat -> clean_end c (columns mn mx c (cx rb)) -> clean_end r (rows mn mx r (cy rb)) ->
  (marks mn mx r c lt rb i j <-> has_centre mn mx r c lt rb i j).
Proof.
  intros Hi Hj Cc Cr. split.
  - intros (Mi & Mj). split; [exact (clean_marked _ _ _ _ Hj Cc Mj)|exact (clean_marked _ _ _ _ Hi Cr Mi)].
  - intros ((A & B) & (C & D)). split; (split; [assumption|left; assumption]).
Qed.

(** ** C110 *)
(** Every cell whose centre is covered is set; when all ends are clean, no other cell is. *)
Theorem C110_the_bitmap_is_the_covered_area :
  forall M calls g heap libs L mn mx v al stack r c items,
  history M gen_new calls = Some g -> in_force calls (Live (mklayout heap libs) L mn mx) ->
  memory_ok al r c -> candidates L libs items -> fine_box mn mx r c ->
  (forall item, In (Some item) items -> overlaps (box_workspace mn mx) item -> collectable heap stack item) ->
  tidy heap mn mx r c items ->
  exists m, result (Process (Some v) al stack g r c) = (m, Ok true) /\
    (forall i j, (i < r)%nat -> (j < c)%nat -> covered mn mx r c (draws heap mn mx items) i j -> Get m i j = Ok true) /\
    (clean mn mx r c (draws heap mn mx items) ->
     forall i j, (i < r)%nat -> (j < c)%nat -> (Get m i j = Ok true <-> covered mn mx r c (draws heap mn mx items) i j)).
Proof.
  intros M calls g heap libs L mn mx v al stack r c items Hh Hf Hm Hi FB HC HD.
  destruct (C105_exactly_the_marked_cells M calls g heap libs L mn mx v al stack r c items Hh Hf Hm Hi FB HC HD) as (m & P & Q).
  exists m. split; [exact P|]. split.
  - intros i j I J (lt & rb & D & ((A1 & A2) & (A3 & A4))). apply Q; [assumption|assumption|]. exists lt, rb. split; [exact D|].
    split; (split; [assumption|left; assumption]).
  - intros CL i j I J. rewrite (Q i j I J). split; intros (lt & rb & D & K); exists lt, rb; (split; [exact D|]);
      destruct (CL lt rb D) as (C1 & C2); now apply (clean_marks mn mx r c lt rb i j I J C1 C2).
Qed.

(** Two layouts with clean ends that cover the same area (as far as the centres of the cells tell), however it is cut
    into rectangles: the same bitmap and the same hash; and only such layouts. *)
Theorem C110_same_area_same_bitmap :
  forall M M' calls calls' g g' heap heap' libs libs' L L' mn mx v v' al al' stack stack' r c items items',
  history M gen_new calls = Some g -> history M' gen_new calls' = Some g' ->
  in_force calls (Live (mklayout heap libs) L mn mx) -> in_force calls' (Live (mklayout heap' libs') L' mn mx) ->
  memory_ok al r c -> memory_ok al' r c -> candidates L libs items -> candidates L' libs' items' -> fine_box mn mx r c ->
  (forall item, In (Some item) items -> overlaps (box_workspace mn mx) item -> collectable heap stack item) ->
  (forall item, In (Some item) items' -> overlaps (box_workspace mn mx) item -> collectable heap' stack' item) ->
  tidy heap mn mx r c items -> tidy heap' mn mx r c items' ->
  clean mn mx r c (draws heap mn mx items) -> clean mn mx r c (draws heap' mn mx items') ->
  exists m m', result (Process (Some v) al stack g r c) = (m, Ok true) /\ result (Process (Some v') al' stack' g' r c) = (m', Ok true) /\
    ((forall i j, (i < r)%nat -> (j < c)%nat ->
        (covered mn mx r c (draws heap mn mx items) i j <-> covered mn mx r c (draws heap' mn mx items') i j)) <-> same_matrix m m') /\
    (same_matrix m m' -> forall al2, memory_ok al2 r c -> EncodeHash al2 m = EncodeHash al2 m').
Proof.
  intros M M' calls calls' g g' heap heap' libs libs' L L' mn mx v v' al al' stack stack' r c items items'
    H H' F F' Hm Hm' Hi Hi' FB HC HC' Ty Ty' CL CL'.
  destruct (C110_the_bitmap_is_the_covered_area M calls g heap libs L mn mx v al stack r c items H F Hm Hi FB HC Ty) as (m & P & _ & Q).
  destruct (C110_the_bitmap_is_the_covered_area M' calls' g' heap' libs' L' mn mx v' al' stack' r c items' H' F' Hm' Hi' FB HC' Ty') as (m' & P' & _ & Q').
  specialize (Q CL). specialize (Q' CL'). exists m, m'. split; [exact P|]. split; [exact P'|]. pose proof FB as (_ & _ & _ & _ & Hr & Hc).
  destruct (C52_the_bitmap_is_the_union M calls g heap libs L mn mx v al stack r c m items H F Hm ltac:(lia) ltac:(lia) Hi P) as (_ & A & _ & SA & Ar & Ac & _).
  destruct (C52_the_bitmap_is_the_union M' calls' g' heap' libs' L' mn mx v' al' stack' r c m' items' H' F' Hm' ltac:(lia) ltac:(lia) Hi' P') as (_ & B & _ & SB & Br & Bc & _).
  assert (SAME : forall i j, (i < r)%nat -> (j < c)%nat -> ((Get m i j = Ok true <-> Get m' i j = Ok true) <-> acell A i j = acell B i j)).
  { intros i j I J. rewrite (get_shown m A i j SA) by lia. rewrite (get_shown m' B i j SB) by lia.
    destruct (acell A i j), (acell B i j); split; intros W; try reflexivity; try discriminate W;
      try (destruct W as (W1 & W2); specialize (W1 eq_refl) || specialize (W2 eq_refl); congruence); split; intros; congruence. }
  split.
  - split.
    + intros E. exists A. split; [exact SA|]. eapply shows_ext; [exact SB|]. split; [congruence|]. split; [congruence|]. intros i j I J.
      symmetry. apply SAME; [lia|lia|]. rewrite (Q i j ltac:(lia) ltac:(lia)), (Q' i j ltac:(lia) ltac:(lia)). apply E; lia.
    + intros (A' & S1 & S2) i j I J. rewrite <- (Q i j I J), <- (Q' i j I J).
      pose proof S1 as (_ & R1 & C1 & G1). pose proof S2 as (_ & R2 & C2 & G2). pose proof SA as (_ & R3 & C3 & _).
      rewrite (G1 i j ltac:(lia) ltac:(lia)), (G2 i j ltac:(lia) ltac:(lia)). reflexivity.
  - intros (A' & S1 & S2) al2 Hm2. pose proof S1 as (_ & R1 & C1 & _). pose proof SA as (_ & R3 & C3 & _).
    apply (C37_hash_depends_on_visible_bits_only al2 m m' A' S1 S2); [split; lia|]. replace (arows A') with r by lia. replace (acols A') with c by lia. exact Hm2.
Qed.

(** ** Concrete cases *)
(** A rectangle of 5.5 x 5 cells, whole and cut in two. *)
Definition ex_cut (x1 y1 x2 y2 x3 : Z) : list (option geom) := Some (ex_gen_rect 5 x3 y1 x2 y2) :: ex_more x1 y1 x3 y2.

Lemma ex_cut_rect x1 y1 x2 y2 x3 item s :
  In (Some item) (ex_cut x1 y1 x2 y2 x3) -> to_draw [] (box_workspace (mkcoord 0 0) (mkcoord 100 100)) item s -> g_type s = GTrectangle ->
  s = ex_gen_rect 5 x1 y1 x3 y2 \/ s = ex_gen_rect 5 x3 y1 x2 y2.
Proof.
  intros [[= <-]|I] T Ts; [|left; exact (ex_only_rect _ _ _ _ _ _ _ _ I T Ts)]. right.
  destruct T as (_ & _ & [(_ & ->)|[(wd & (Q & _) & _)|(Q & _)]]); [reflexivity|discriminate|discriminate].
Qed.

Lemma ex_cut_draws x1 y1 x2 y2 x3 lt rb : draws [] (mkcoord 0 0) (mkcoord 100 100) (ex_cut x1 y1 x2 y2 x3) lt rb ->
  lt = mkcoord x1 y2 /\ rb = mkcoord x3 y1 \/ lt = mkcoord x3 y2 /\ rb = mkcoord x2 y1.
Proof.
  intros (item & s & I & T & Ts & G). destruct (ex_cut_rect _ _ _ _ _ _ _ I T Ts) as [-> | ->]; destruct G as (G1 & G2); cbn in G1, G2; [left|right]; split; congruence.
Qed.

Lemma ex_cut_drawn x1 y1 x2 y2 x3 : 0 <= x1 -> x1 <= x3 -> x3 <= x2 -> x2 <= 100 -> 0 <= y1 -> y1 <= y2 -> y2 <= 100 ->
  draws [] (mkcoord 0 0) (mkcoord 100 100) (ex_cut x1 y1 x2 y2 x3) (mkcoord x1 y2) (mkcoord x3 y1) /\
  draws [] (mkcoord 0 0) (mkcoord 100 100) (ex_cut x1 y1 x2 y2 x3) (mkcoord x3 y2) (mkcoord x2 y1).
Proof.
  intros X1 X2 X3 X4 Y1 Y2 Y3. split.
  - destruct (ex_drawn x1 y1 x3 y2) as (item & s & I & T & Ts & G); try lia. exists item, s. split; [right; exact I|]. split; [exact T|]. split; assumption.
  - destruct (ex_drawn x3 y1 x2 y2) as (item & s & I & T & Ts & G); try lia. pose proof (ex_only_rect _ _ _ _ _ _ _ _ I T Ts) as ->.
    exists (ex_gen_rect 5 x3 y1 x2 y2), (ex_gen_rect 5 x3 y1 x2 y2). split; [left; reflexivity|]. split; [|split; assumption].
    destruct T as (_ & O & _). split; [exact O|]. split; [exact O|]. left. split; [left; reflexivity|reflexivity].
Qed.

Lemma ex_cut_tidy x1 y1 x2 y2 x3 : 0 <= x1 -> x1 <= x3 -> x3 <= x2 -> x2 <= 100 -> 0 <= y1 -> y1 <= y2 -> y2 <= 100 ->
  tidy [] (mkcoord 0 0) (mkcoord 100 100) 10 10 (ex_cut x1 y1 x2 y2 x3).
Proof.
  intros X1 X2 X3 X4 Y1 Y2 Y3 item s I T Ts. destruct (ex_cut_rect _ _ _ _ _ _ _ I T Ts) as [-> | ->].
  - exists (mkcoord x1 y2), (mkcoord x3 y1). split; [split; reflexivity|]. destruct (ex_tidy x1 y1 x3 y2 100) as (A & B & C); auto; lia.
  - exists (mkcoord x3 y2), (mkcoord x2 y1). split; [split; reflexivity|]. destruct (ex_tidy x3 y1 x2 y2 100) as (A & B & C); auto; lia.
Qed.

(** Cutting a rectangle in two covers the same centres. *)
Lemma ex_cut_covers x1 y1 x2 y2 x3 i j : 0 <= x1 -> x1 <= x3 -> x3 <= x2 -> x2 <= 100 -> 0 <= y1 -> y1 <= y2 -> y2 <= 100 ->
  (covered (mkcoord 0 0) (mkcoord 100 100) 10 10 (draws [] (mkcoord 0 0) (mkcoord 100 100) (ex_more x1 y1 x2 y2)) i j <->
   covered (mkcoord 0 0) (mkcoord 100 100) 10 10 (draws [] (mkcoord 0 0) (mkcoord 100 100) (ex_cut x1 y1 x2 y2 x3)) i j).
Proof.
  intros X1 X2 X3 X4 Y1 Y2 Y3. destruct (ex_cut_drawn x1 y1 x2 y2 x3) as (D1 & D2); try lia.
  pose proof (columns_mono (mkcoord 0 0) (mkcoord 100 100) 10 x1 x3 eq_refl X2) as C1.
  pose proof (columns_mono (mkcoord 0 0) (mkcoord 100 100) 10 x3 x2 eq_refl X3) as C2.
  split.
  - intros (lt & rb & D & ((A1 & A2) & A3)). apply ex_draws in D as (-> & ->). cbn [cx cy] in *.
    destruct (Rle_lt_dec (INR j + 1 / 2) (columns (mkcoord 0 0) (mkcoord 100 100) 10 x3)) as [K|K].
    + exists (mkcoord x1 y2), (mkcoord x3 y1). split; [exact D1|]. split; [split; assumption|exact A3].
    + exists (mkcoord x3 y2), (mkcoord x2 y1). split; [exact D2|]. split; [split; [cbn [cx]; lra|assumption]|exact A3].
  - intros (lt & rb & D & ((A1 & A2) & A3)). exists (mkcoord x1 y2), (mkcoord x2 y1). split; [apply ex_drawn; lia|].
    apply ex_cut_draws in D as [(-> & ->)|(-> & ->)]; cbn [cx cy] in *; (split; [cbn [cx]; lra|exact A3]).
Qed.

Lemma ex_place x : columns (mkcoord 0 0) (mkcoord 100 100) 10 x = (IZR x / 10)%R.
Proof. unfold columns. cbn [cx]. rewrite INR_IZR_INZ, Z.sub_0_r. change (Z.of_nat 10) with 10. change (100 - 0) with 100. field. Qed.
Lemma ex_place' y : rows (mkcoord 0 0) (mkcoord 100 100) 10 y = (IZR (100 - y) / 10)%R.
Proof. unfold rows. cbn [cy]. rewrite INR_IZR_INZ. change (Z.of_nat 10) with 10. change (100 - 0) with 100. field. Qed.

Lemma ex_clean_end d : d mod 10 < 5 -> d < 90 -> clean_end 10 (IZR d / 10).
Proof.
  intros M L. right. rewrite INR_IZR_INZ. change (Z.of_nat 10) with 10. apply IZR_lt in L. split; [lra|].
  assert (E : (IZR d = 10 * IZR (d / 10) + IZR (d mod 10))%R) by (rewrite <- mult_IZR, <- plus_IZR; f_equal; apply Z_div_mod_eq_full).
  assert (B : (0 <= IZR (d mod 10) <= 4)%R) by (split; apply IZR_le; pose proof (Z.mod_pos_bound d 10); lia).
  assert (F : Zfloor (IZR d / 10) = d / 10) by (apply Zfloor_imp; rewrite plus_IZR; lra).
  unfold first_half. rewrite F. lra.
Qed.

Example C110_hypotheses_met :
  let mn := mkcoord 0 0 in let mx := mkcoord 100 100 in
  tidy [] mn mx 10 10 (ex_more 33 30 82 81) /\ tidy [] mn mx 10 10 (ex_cut 33 30 82 81 51) /\
  clean mn mx 10 10 (draws [] mn mx (ex_more 33 30 82 81)) /\ clean mn mx 10 10 (draws [] mn mx (ex_cut 33 30 82 81 51)) /\
  (forall i j, covered mn mx 10 10 (draws [] mn mx (ex_more 33 30 82 81)) i j <-> covered mn mx 10 10 (draws [] mn mx (ex_cut 33 30 82 81 51)) i j) /\
  covered mn mx 10 10 (draws [] mn mx (ex_more 33 30 82 81)) 4 4 /\
  in_force (ex_init (ex_cut 33 30 82 81 51) 100) (Live (mklayout [] (ex_libs (ex_cut 33 30 82 81 51))) [5] mn mx) /\
  candidates [5] (ex_libs (ex_cut 33 30 82 81 51)) (ex_cut 33 30 82 81 51).
Proof.
  intros mn mx. split; [apply ex_tidy_items; lia|]. split; [apply ex_cut_tidy; lia|]. split; [|split; [|split; [|split; [|split]]]].
  - intros lt rb D. apply ex_draws in D as (-> & ->). cbn [cx cy]. rewrite ex_place, ex_place'. split; apply ex_clean_end; reflexivity.
  - intros lt rb D. apply ex_cut_draws in D as [(-> & ->)|(-> & ->)]; cbn [cx cy]; rewrite ex_place, ex_place'; split; apply ex_clean_end; reflexivity.
  - intros i j. apply ex_cut_covers; lia.
  - exists (mkcoord 33 81), (mkcoord 82 30). split; [apply ex_drawn; lia|]. unfold has_centre. cbn [cx cy]. rewrite !ex_place, !ex_place', INR_IZR_INZ.
    change (Z.of_nat 4) with 4. change (100 - 81) with 19. change (100 - 30) with 70. lra.
  - now apply ex_init_force.
  - apply candidates_items. reflexivity.
Qed.

(** Without clean ends the cut can be seen: a rectangle from 3.3 to 7.8 cells sets column 8, cut at 7 cells it does not. *)
Theorem C110_cutting_a_rectangle_changes_nothing_refuted :
  ~ (forall x1 y1 x2 y2 x3 m m', 0 <= x1 -> x1 <= x3 -> x3 <= x2 -> x2 <= 100 -> 0 <= y1 -> y1 <= y2 -> y2 <= 100 ->
       option_map (fun g => result (Process (Some 1) infinite_memory 10 g 10 10)) (history ex_machine gen_new (ex_init (ex_more x1 y1 x2 y2) 100)) = Some (m, Ok true) ->
       option_map (fun g => result (Process (Some 1) infinite_memory 10 g 10 10)) (history ex_machine gen_new (ex_init (ex_cut x1 y1 x2 y2 x3) 100)) = Some (m', Ok true) ->
       forall i j, (i < 10)%nat -> (j < 10)%nat -> Get m i j = Get m' i j).
Proof.
  intros H.
  assert (X : exists m m', option_map (fun g => result (Process (Some 1) infinite_memory 10 g 10 10)) (history ex_machine gen_new (ex_init (ex_more 33 30 78 81) 100)) = Some (m, Ok true) /\
    option_map (fun g => result (Process (Some 1) infinite_memory 10 g 10 10)) (history ex_machine gen_new (ex_init (ex_cut 33 30 78 81 70) 100)) = Some (m', Ok true) /\
    Get m 4 8 = Ok true /\ Get m' 4 8 = Ok false) by run_example.
  destruct X as (m & m' & E & E' & G & G').
  pose proof (H 33 30 78 81 70 m m' ltac:(lia) ltac:(lia) ltac:(lia) ltac:(lia) ltac:(lia) ltac:(lia) ltac:(lia) E E' 4%nat 8%nat ltac:(lia) ltac:(lia)) as K.
  rewrite G, G' in K. discriminate K.
Qed.

Print Assumptions C110_the_bitmap_is_the_covered_area.
Print Assumptions C110_same_area_same_bitmap.
Print Assumptions C110_cutting_a_rectangle_changes_nothing_refuted.
