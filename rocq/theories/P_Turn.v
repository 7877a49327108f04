(** Turning everything over. *)
From Coq Require Import Reals Lra Lia.
From Flocq Require Import Core.
From Verif Require Import Prelude P_Prelude M_Double S_Double P_Double M_LayoutData M_Converter S_Converter M_Vector2D M_BitMatrix S_Matrix P_BitMatrix P_Cells
  M_Zond S_Zond P_Zond M_Generator S_Generator P_Uniform P_Generator S_EndToEnd P_Round P_ZondReal P_ZondCells P_EndToEnd S_Identify P_Identify S_Turn.
Local Open Scope Z_scope.

Lemma rnd_opp x : rnd (- x) = (- rnd x)%R.
Proof. apply round_NE_opp. Qed.

Lemma le_up_opp c a q p : le_up (- c) (- a) q p <-> ge_down c a q p.
Proof.
  unfold le_up, ge_down. replace (- a + rnd (q / 2))%R with (- (a - rnd (q / 2)))%R by ring. rewrite rnd_opp.
  replace (- rnd (a - rnd (q / 2)) - p)%R with (- (rnd (a - rnd (q / 2)) + p))%R by ring. rewrite rnd_opp. split; intros; lra.
Qed.
Lemma ge_down_opp c a q p : ge_down (- c) (- a) q p <-> le_up c a q p.
Proof. rewrite <- le_up_opp, !Ropp_involutive. reflexivity. Qed.

Lemma box_turned mn mx : box_workspace (turned mx) (turned mn) =
  mkws (turned (leftTop (box_workspace mn mx))) (turned (rightBot (box_workspace mn mx))).
Proof. reflexivity. Qed.

(** What a rectangle selects. *)
Definition pick (z : zond) (lt rb : coord) (qx qy e : R) (r c : Z) (i j : Z) : bool :=
  if covers_test z lt rb then block 0 (r - 1) 0 (c - 1) i j
  else axis (norm_spec (row_from lt (angleCoords z) qy) (row_to rb (angleCoords z) qy) (rnd (e * qy)) 0 (r - 1)) r i
       && axis (norm_spec (col_from lt (angleCoords z) qx) (col_to rb (angleCoords z) qx) (rnd (e * qx)) 0 (c - 1)) c j.

Section Two.
Variables (mn mx : coord) (r c : nat).
Hypothesis FB : fine_box mn mx r c.
Let w := box_workspace mn mx.
Let qx := rnd (IZR (cx mx - cx mn) / IZR (Z.of_nat c)).
Let qy := rnd (IZR (cy mx - cy mn) / IZR (Z.of_nat r)).

Lemma rect_pick z g lt rb e : tuned z qx qy e -> boundIndicies z = full_bounds (Z.of_nat r) (Z.of_nat c) -> angleCoords z = w ->
  corners g lt rb -> manageable mn mx r c lt rb -> covers_test z lt rb = true \/ starts_inside mn mx lt ->
  adds (ZondRectangle z g) (pick z lt rb qx qy e (Z.of_nat r) (Z.of_nat c)) (Ok tt).
Proof.
  intros T HB HA G M D m A S. pose proof FB as (_ & _ & _ & _ & Hr & Hc). unfold pick.
  destruct (covers_test z lt rb) eqn:CT.
  - destruct G as (G1 & G2). unfold ZondRectangle, at_. rewrite G1, G2, CT. cbv zeta. rewrite HB. cbn [iBegin iEnd jBegin jEnd full_bounds].
    destruct (for32_block A 0 (Z.of_nat r - 1) 0 (Z.of_nat c - 1)
      (fun i => to_size i <=? Z.of_nat r - 1)%Z (fun j => to_size j <=? Z.of_nat c - 1)%Z m) as (m' & E1 & E2); try lia;
      try (intros i Hii); try (rewrite to_size_small by lia; lia); [exact S|eauto].
  - destruct D as [D|(SI1 & SI2)]; [discriminate D|].
    pose proof (manageable_fits mn mx r c FB lt rb M) as (PF1 & PF2).
    destruct M as (L32 & R32 & OX & OY & DF & PC & PR).
    pose proof (ws32_box mn mx r c FB) as W32.
    apply (rect_cells z g m A lt rb qx qy e (Z.of_nat r) (Z.of_nat c)); try assumption; try lia; rewrite ?HA; try assumption;
      subst w; cbn [box_workspace leftTop rightBot cx cy]; lia.
Qed.

Lemma rect_reject z g lt rb e m : tuned z qx qy e -> boundIndicies z = full_bounds (Z.of_nat r) (Z.of_nat c) -> angleCoords z = w ->
  corners g lt rb -> manageable mn mx r c lt rb -> covers_test z lt rb = false -> ~ starts_inside mn mx lt ->
  ZondRectangle z g m = (m, Throw InvalidArgument).
Proof. intros T HB HA G M CT N. exact (rect_outside mn mx r c FB z g lt rb e m T HB HA G M N CT). Qed.

End Two.

Section Turned.
Variables (mn mx : coord) (r c : nat).
Hypothesis FB : fine_box mn mx r c.
Let w := box_workspace mn mx.
Let qx := rnd (IZR (cx mx - cx mn) / IZR (Z.of_nat c)).
Let qy := rnd (IZR (cy mx - cy mn) / IZR (Z.of_nat r)).
Hypothesis FB' : fine_box (turned mx) (turned mn) c r.
Let w' := box_workspace (turned mx) (turned mn).

Lemma turned_side_x : cx (turned mn) - cx (turned mx) = cy mx - cy mn.
Proof. unfold turned. cbn [cx cy]. lia. Qed.
Lemma turned_side_y : cy (turned mn) - cy (turned mx) = cx mx - cx mn.
Proof. unfold turned. cbn [cx cy]. lia. Qed.

Lemma turned_columns x : columns (turned mx) (turned mn) r (- x) = rows mn mx r x.
Proof. unfold columns, rows. rewrite turned_side_x. replace (- x - cx (turned mx)) with (cy mx - x) by (unfold turned; cbn [cx]; lia). reflexivity. Qed.
Lemma turned_rows y : rows (turned mx) (turned mn) c (- y) = columns mn mx c y.
Proof. unfold columns, rows. rewrite turned_side_y. replace (cy (turned mn) - - y) with (y - cx mn) by (unfold turned; cbn [cy]; lia). reflexivity. Qed.

Lemma manageable_turned lt rb : coord32 (turned lt) -> coord32 (turned rb) -> manageable mn mx r c lt rb ->
  manageable (turned mx) (turned mn) c r (turned lt) (turned rb).
Proof.
  intros L R (_ & _ & OX & OY & (D1 & D2 & D3 & D4) & PC & PR). split; [exact L|]. split; [exact R|].
  split; [unfold turned; cbn [cx cy]; lia|]. split; [unfold turned; cbn [cx cy]; lia|]. split; [|split].
  - unfold differences_fit, box_workspace, turned, int32 in *. cbn [leftTop rightBot cx cy] in *. lia.
  - replace (cx (turned rb)) with (- cy rb) by reflexivity. rewrite turned_columns. exact PR.
  - replace (cy (turned rb)) with (- cx rb) by reflexivity. rewrite turned_rows. exact PC.
Qed.

Lemma starts_turned lt : starts_inside (turned mx) (turned mn) (turned lt) <-> starts_inside mn mx lt.
Proof. unfold starts_inside, turned. cbn [cx cy]. lia. Qed.

Lemma covers_turned z z' lt rb e : tuned z qx qy e -> tuned z' qy qx e -> angleCoords z = w -> angleCoords z' = w' ->
  coord32 lt -> coord32 rb -> coord32 (turned lt) -> coord32 (turned rb) ->
  covers_test z' (turned lt) (turned rb) = covers_test z lt rb.
Proof.
  intros (X & Y & E & Ee & _) (X' & Y' & E' & _) HA HA' L R L' R'.
  pose proof (ws32_box mn mx r c FB) as W. pose proof (ws32_box _ _ _ _ FB') as W'.
  destruct (cell_size_pos _ _ X) as (RX & QX). destruct (cell_size_pos _ _ Y) as (RY & QY).
  destruct (cell_size_pos _ _ X') as (RX' & _). destruct (cell_size_pos _ _ Y') as (RY' & _).
  apply eq_true_iff_eq.
  rewrite (covers_test_ok z lt rb qx qy e) by (rewrite ?HA; try assumption; lra).
  rewrite (covers_test_ok z' (turned lt) (turned rb) qy qx e) by (rewrite ?HA'; try assumption; lra).
  rewrite HA, HA'. subst w w'. rewrite box_turned. cbn [leftTop rightBot]. unfold turned. cbn [cx cy]. rewrite !opp_IZR.
  rewrite !le_up_opp, !ge_down_opp. tauto.
Qed.

Lemma pick_turned z z' lt rb e i j : tuned z qx qy e -> tuned z' qy qx e -> angleCoords z = w -> angleCoords z' = w' ->
  coord32 lt -> coord32 rb -> coord32 (turned lt) -> coord32 (turned rb) ->
  pick z' (turned lt) (turned rb) qy qx e (Z.of_nat c) (Z.of_nat r) j i = pick z lt rb qx qy e (Z.of_nat r) (Z.of_nat c) i j.
Proof.
  intros T T' HA HA' L R L' R'. unfold pick. rewrite (covers_turned z z' lt rb e T T' HA HA' L R L' R').
  destruct (covers_test z lt rb); [unfold block; lia|]. rewrite HA, HA'. subst w w'. rewrite box_turned.
  unfold row_from, row_to, col_from, col_to. cbn [leftTop rightBot]. unfold turned. cbn [cx cy].
  rewrite andb_comm. cbn [box_workspace leftTop rightBot cx cy].
  replace (- cy lt - - cy mx) with (cy mx - cy lt) by lia. replace (- cy rb - - cy mx) with (cy mx - cy rb) by lia.
  replace (- cx mn - - cx lt) with (cx lt - cx mn) by lia. replace (- cx mn - - cx rb) with (cx rb - cx mn) by lia. reflexivity.
Qed.

Lemma turned_zonds : exists z z' e, prepared w (dlit 1 (10 ^ 13)) r c = Ok z /\ prepared w' (dlit 1 (10 ^ 13)) c r = Ok z' /\
  tuned z qx qy e /\ tuned z' qy qx e /\
  boundIndicies z = full_bounds (Z.of_nat r) (Z.of_nat c) /\ boundIndicies z' = full_bounds (Z.of_nat c) (Z.of_nat r) /\
  angleCoords z = w /\ angleCoords z' = w'.
Proof.
  destruct (prepared_ok mn mx r c FB) as (z & e & P & T & B & A). destruct (prepared_ok _ _ _ _ FB') as (z' & e' & P' & T' & B' & A').
  rewrite turned_side_x, turned_side_y in T'. fold qx qy in T, T'.
  pose proof (prepared_zond _ _ _ _ P) as (_ & _ & _ & _ & Z1). pose proof (prepared_zond _ _ _ _ P') as (_ & _ & _ & _ & Z2).
  assert (e' = e).
  { destruct T as (_ & _ & (_ & E) & _). destruct T' as (_ & _ & (_ & E') & _). rewrite Z1 in E. rewrite Z2 in E'. congruence. }
  subst e'. exists z, z', e. auto 10.
Qed.

Lemma corners_turned g lt rb : corners g lt rb -> corners (turned_geom g) (turned lt) (turned rb).
Proof. intros (A & B). split; cbn [turned_geom g_coords]; apply map_nth_some; assumption. Qed.

Definition swapped (s s' : Z -> Z -> bool) : Prop :=
  forall i j, 0 <= i < Z.of_nat r -> 0 <= j < Z.of_nat c -> s' j i = s i j.

Lemma adds_same_cells act s1 s2 : adds act s1 (Ok tt) -> adds act s2 (Ok tt) ->
  forall i j, 0 <= i < Z.of_nat r -> 0 <= j < Z.of_nat c -> s1 i j = s2 i j.
Proof.
  intros H1 H2 i j Hi Hj. destruct (H1 _ _ (shows_new r c)) as (m1 & E1 & S1). destruct (H2 _ _ (shows_new r c)) as (m2 & E2 & S2).
  rewrite E1 in E2. injection E2 as <-.
  destruct S1 as (_ & _ & _ & C1). destruct S2 as (_ & _ & _ & C2). cbn [adraw azero arows acols acell orb] in *.
  specialize (C1 (Z.to_nat i) (Z.to_nat j) ltac:(lia) ltac:(lia)). specialize (C2 (Z.to_nat i) (Z.to_nat j) ltac:(lia) ltac:(lia)).
  rewrite !Z2Nat.id in C1, C2 by lia. congruence.
Qed.

Lemma geom_turned z z' e g sel : tuned z qx qy e -> tuned z' qy qx e ->
  boundIndicies z = full_bounds (Z.of_nat r) (Z.of_nat c) -> boundIndicies z' = full_bounds (Z.of_nat c) (Z.of_nat r) ->
  angleCoords z = w -> angleCoords z' = w' -> turnable mn mx r c g -> adds (ZondGeometry z (Some g)) sel (Ok tt) ->
  exists sel', adds (ZondGeometry z' (Some (turned_geom g))) sel' (Ok tt) /\ swapped sel sel'.
Proof.
  intros T T' B B' A A' TG H. unfold turnable in TG. unfold ZondGeometry in *. cbn [turned_geom g_type] in *.
  destruct (g_type g) eqn:Tg;
    try (exfalso; destruct (H _ _ (shows_new r c)) as (m & E & _); discriminate E).
  - (* polygon *)
    assert (N : forall z g, adds (ZondPolygon z g) (fun _ _ => false) (Ok tt)).
    { intros z0 g0 m A0 S. exists m. split; [reflexivity|]. eapply shows_ext; [exact S|apply adraw_none]. }
    exists (fun _ _ => false). split; [apply N|]. intros i j Hi Hj. exact (adds_same_cells _ _ _ (N z g) H i j Hi Hj).
  - (* rectangle *)
    destruct (TG eq_refl) as (lt & rb & G & L' & R' & M). pose proof M as (L & R & _).
    assert (D : covers_test z lt rb = true \/ starts_inside mn mx lt).
    { destruct (covers_test z lt rb) eqn:CT; [left; reflexivity|right].
      destruct (Z.le_gt_cases (cx mn) (cx lt)) as [Q1|Q1]; [destruct (Z.le_gt_cases (cy lt) (cy mx)) as [Q2|Q2]; [split; assumption|]|];
        exfalso; destruct (H _ _ (shows_new r c)) as (m & E & _);
        rewrite (rect_reject mn mx r c FB z g lt rb e _ T B A G M CT) in E by (intros (K1 & K2); lia); discriminate E. }
    pose proof (rect_pick mn mx r c FB z g lt rb e T B A G M D) as H1.
    exists (pick z' (turned lt) (turned rb) qy qx e (Z.of_nat c) (Z.of_nat r)). split.
    + intros m A0 S. pose proof FB' as (_ & _ & _ & _ & Hr & Hc).
      assert (D' : covers_test z' (turned lt) (turned rb) = true \/ starts_inside (turned mx) (turned mn) (turned lt)).
      { rewrite (covers_turned z z' lt rb e T T' A A' L R L' R'), starts_turned. exact D. }
      pose proof (manageable_turned lt rb L' R' M) as M'.
      assert (Tx : tuned z' (rnd (IZR (cx (turned mn) - cx (turned mx)) / IZR (Z.of_nat r)))
                           (rnd (IZR (cy (turned mn) - cy (turned mx)) / IZR (Z.of_nat c))) e).
      { rewrite turned_side_x, turned_side_y. exact T'. }
      pose proof (rect_pick _ _ _ _ FB' z' (turned_geom g) _ _ e Tx B' A' (corners_turned _ _ _ G) M' D' m A0 S) as Q.
      rewrite turned_side_x, turned_side_y in Q. exact Q.
    + intros i j Hi Hj. rewrite (pick_turned z z' lt rb e i j T T' A A' L R L' R'). exact (adds_same_cells _ _ _ H1 H i j Hi Hj).
Qed.

Lemma all_turned z z' e l ss : tuned z qx qy e -> tuned z' qy qx e ->
  boundIndicies z = full_bounds (Z.of_nat r) (Z.of_nat c) -> boundIndicies z' = full_bounds (Z.of_nat c) (Z.of_nat r) ->
  angleCoords z = w -> angleCoords z' = w' -> all_add z l ss -> Forall (turnable mn mx r c) l ->
  exists ss', all_add z' (map turned_geom l) ss' /\ swapped (union ss) (union ss').
Proof.
  intros T T' B B' A A' H. induction H as [|g t s ss Hs Ht IH]; intros F.
  - exists []. split; [constructor|]. intros i j _ _. reflexivity.
  - inversion F as [|? ? F1 F2]; subst. destruct (IH F2) as (ss' & H1 & H2).
    destruct (geom_turned z z' e g s T T' B B' A A' F1 Hs) as (s' & H3 & H4).
    exists (s' :: ss'). split; [constructor; assumption|]. intros i j Hi Hj. unfold union. cbn [existsb].
    rewrite (H4 i j Hi Hj). f_equal. exact (H2 i j Hi Hj).
Qed.

Lemma Intersects_turned o : Intersects w' (turned_item o) = Intersects w o.
Proof.
  destruct o as [g|]; [|reflexivity]. cbn [turned_item option_map]. apply eq_true_iff_eq. rewrite !Intersects_overlaps.
  subst w w'. unfold overlaps, box_workspace, turned_geom, turned. cbn [leftTop rightBot cx cy g_min g_max]. lia.
Qed.

Lemma contrib_turned heap heap' stack stack' o : plain o ->
  exists l, contrib heap stack w o = Ok ([], l) /\ contrib heap' stack' w' (turned_item o) = Ok ([], map turned_geom l).
Proof.
  intros P. unfold contrib. rewrite Intersects_turned. destruct (Intersects w o); [|exists []; split; reflexivity].
  destruct o as [g|]; [|exists []; split; reflexivity]. destruct P as (P1 & P2).
  cbn [turned_item option_map]. cbn [turned_geom g_type].
  destruct (g_type g); try congruence; first [exists []; split; reflexivity | exists [g]; split; reflexivity].
Qed.

Lemma gather_turned heap heap' stack stack' items : Forall plain items ->
  exists l, gather heap stack w items = Ok ([], l) /\ gather heap' stack' w' (map turned_item items) = Ok ([], map turned_geom l).
Proof.
  induction 1 as [|o t P F (l & E & E')]; [exists []; split; reflexivity|].
  destruct (contrib_turned heap heap' stack stack' o P) as (l0 & C & C'). exists (l0 ++ l). cbn [map gather].
  rewrite C, C'. cbn [bind]. rewrite E, E'. cbn [bind fst snd app]. rewrite map_app. split; reflexivity.
Qed.

Lemma core_turned stack stack' heap heap' libs libs' L L' items m :
  candidates L libs items -> candidates L' libs' (map turned_item items) -> Forall plain items ->
  (forall g, In (Some g) items -> overlaps w g -> turnable mn mx r c g) ->
  core stack (Some (mklayout heap libs)) w L (dlit 1 (10 ^ 13)) r c = (m, Ok true) ->
  exists m', core stack' (Some (mklayout heap' libs')) w' L' (dlit 1 (10 ^ 13)) c r = (m', Ok true) /\
    exists A A', shows m A /\ shows m' A' /\ arows A = r /\ acols A = c /\ arows A' = c /\ acols A' = r /\
      forall i j, (i < r)%nat -> (j < c)%nat -> acell A' j i = acell A i j.
Proof.
  intros Hc Hc' Pl TG H. apply candidates_items in Hc. apply candidates_items in Hc'. apply core_true in H.
  destruct H as (z & l1 & l2 & ss & Hp & Hi & Ha & Hz). rewrite InitItems, <- Hc, PG_blank in Hi.
  destruct turned_zonds as (z0 & z' & e & P & P' & T & T' & B & B' & A & A').
  pose proof (eq_trans (eq_sym P) Hp) as Q. injection Q as ->.
  destruct (gather_turned heap heap' stack stack' items Pl) as (l & G & G').
  pose proof (eq_trans (eq_sym G) Hi) as Q. injection Q as <- <-. cbn [app] in *.
  destruct (all_turned z z' e l ss T T' B B' A A' Ha) as (ss' & Ha' & Sw).
  { apply Forall_forall. intros g Hg. assert (Hg' : In g ([] ++ l)) by exact Hg.
    apply (gather_draw _ _ _ _ _ _ G) in Hg'. destruct Hg' as (g0 & Hin & Ov & _ & D).
    assert (NP : plain (Some g0)) by (rewrite Forall_forall in Pl; apply Pl, Hin). destruct NP as (NP1 & NP2).
    destruct D as [(_ & ->)|[(wd & (Q & _) & _)|(Q & _)]]; [|contradiction|contradiction]. exact (TG g0 Hin Ov). }
  destruct (zond_all_ok z _ _ Ha _ _ (shows_new r c)) as (m1 & E1 & S1). fold (blank r c) in E1.
  pose proof (eq_trans (eq_sym E1) Hz) as Q. injection Q as ->.
  destruct (zond_all_ok z' _ _ Ha' _ _ (shows_new c r)) as (m2 & E2 & S2). fold (blank c r) in E2.
  exists m2. split.
  - apply core_true. exists z', [], (map turned_geom l), ss'. rewrite InitItems, <- Hc', PG_blank. cbn [app]. auto.
  - eexists _, _. split; [exact S1|]. split; [exact S2|]. cbn [adraw azero arows acols acell orb]. repeat (split; [reflexivity|]).
    intros i j I J. apply Sw; lia.
Qed.
End Turned.
