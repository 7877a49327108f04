(** Equal sets of objects give equal bitmaps. *)
From Coq Require Import Reals Lra Lia Permutation.
From Verif Require Import Prelude P_Prelude M_LayoutData M_Converter S_Converter M_Double M_Vector2D M_BitMatrix S_Matrix P_BitMatrix P_Cells
  M_Zond S_Zond P_Zond M_Generator S_Generator P_Uniform P_Generator S_EndToEnd P_Round P_ZondReal P_ZondCells P_EndToEnd S_Identify.
Local Open Scope Z_scope.

Lemma contrib_none heap stack w : contrib heap stack w None = Ok ([], []).
Proof. reflexivity. Qed.

Lemma gather_total heap stack w items :
  (forall g, In (Some g) items -> exists p, contrib heap stack w (Some g) = Ok p) ->
  exists l1 l2, gather heap stack w items = Ok (l1, l2).
Proof.
  induction items as [|i t IH]; intros H; [exists [], []; reflexivity|].
  destruct IH as (l1 & l2 & E); [intros g Hg; apply H; right; exact Hg|]. cbn [gather].
  destruct i as [g|].
  - destruct (H g (or_introl eq_refl)) as ((a & b) & ->). cbn [bind]. rewrite E. eexists _, _. reflexivity.
  - rewrite contrib_none. cbn [bind]. rewrite E. eexists _, _. reflexivity.
Qed.

Lemma gather_each heap stack w items : forall l, gather heap stack w items = Ok l ->
  forall i, In i items -> exists p, contrib heap stack w i = Ok p.
Proof.
  induction items as [|i t IH]; intros l E j Hj; [destruct Hj|]. cbn [gather] in E.
  destruct (contrib heap stack w i) as [p|e|u] eqn:Ei; cbn [bind] in E; [|discriminate E|discriminate E].
  destruct Hj as [->|Hj]; [eauto|].
  destruct (gather heap stack w t) as [p'|e|u] eqn:Et; cbn [bind] in E; [|discriminate E|discriminate E].
  exact (IH _ eq_refl j Hj).
Qed.

Lemma all_add_total z gs : (forall g, In g gs -> exists sel, adds (ZondGeometry z (Some g)) sel (Ok tt)) -> exists ss, all_add z gs ss.
Proof.
  induction gs as [|g t IH]; intros H; [exists []; constructor|].
  destruct (H g (or_introl eq_refl)) as (s & Hs). destruct IH as (ss & Hss); [intros x Hx; apply H; right; exact Hx|].
  exists (s :: ss). constructor; assumption.
Qed.

(** Two layouts with the same elements; every object of the second is one of the first. *)
Lemma core_subset stack heap libs libs' w L L' r c m items items' :
  candidates L libs items -> candidates L' libs' items' -> (forall g, In (Some g) items' -> In (Some g) items) ->
  core stack (Some (mklayout heap libs)) w L (dlit 1 (10 ^ 13)) r c = (m, Ok true) ->
  exists m', core stack (Some (mklayout heap libs')) w L' (dlit 1 (10 ^ 13)) r c = (m', Ok true).
Proof.
  intros Hc Hc' Sub H. apply candidates_items in Hc. apply candidates_items in Hc'. apply core_true in H.
  destruct H as (z & l1 & l2 & ss & Hp & Hi & Ha & Hz). rewrite InitItems, <- Hc, PG_blank in Hi.
  destruct (gather_total heap stack w items') as (k1 & k2 & Hg).
  { intros g Hg. exact (gather_each _ _ _ _ _ Hi _ (Sub g Hg)). }
  destruct (all_add_total z (k1 ++ k2)) as (ss' & Ha').
  { intros s Hs. apply (gather_draw _ _ _ _ _ _ Hg) in Hs. destruct Hs as (g & Hin & T).
    assert (Hs : In s (l1 ++ l2)) by (apply (gather_draw _ _ _ _ _ _ Hi); exists g; split; [apply Sub, Hin|exact T]).
    destruct (all_add_each z _ _ s Ha Hs) as (sel & Hsel & _). eauto. }
  destruct (zond_all_ok z _ _ Ha' _ _ (shows_new r c)) as (m2 & E2 & S2). fold (blank r c) in E2.
  exists m2. apply core_true. exists z, k1, k2, ss'. rewrite InitItems, <- Hc', PG_blank. auto.
Qed.

Lemma core_set stack heap libs libs' w L L' r c m items items' :
  candidates L libs items -> candidates L' libs' items' -> (forall g, In (Some g) items' <-> In (Some g) items) ->
  core stack (Some (mklayout heap libs)) w L (dlit 1 (10 ^ 13)) r c = (m, Ok true) ->
  exists m', core stack (Some (mklayout heap libs')) w L' (dlit 1 (10 ^ 13)) r c = (m', Ok true) /\
    exists A, shows m A /\ shows m' A /\ arows A = r /\ acols A = c.
Proof.
  intros Hc Hc' Eq H. destruct (core_subset stack heap libs libs' w L L' r c m items items' Hc Hc' (fun g => proj1 (Eq g)) H) as (m' & H').
  exists m'. split; [exact H'|].
  destruct (core_cells _ _ _ _ _ _ _ _ _ Hc H) as (z & Hz & _ & sel & S & Hs).
  destruct (core_cells _ _ _ _ _ _ _ _ _ Hc' H') as (z' & Hz' & _ & sel' & S' & Hs').
  pose proof (process_zond_unique _ _ _ _ _ Hz Hz'). subst z'.
  exists (adraw (azero r c) sel). split; [exact S|]. split; [|split; reflexivity]. eapply shows_ext; [exact S'|].
  repeat split. cbn [adraw azero arows acols acell orb]. intros i j Hi Hj. apply eq_true_iff_eq. rewrite (Hs i j Hi Hj), (Hs' i j Hi Hj).
  split; intros (item & s & A & B & C); exists item, s; (split; [apply Eq, A|split; assumption]).
Qed.

(** * Moving everything *)
Lemma moved_diff v a b : (cx (moved v a) - cx (moved v b) = cx a - cx b) /\ (cy (moved v a) - cy (moved v b) = cy a - cy b).
Proof. unfold moved. cbn [cx cy]. lia. Qed.

Lemma sub32_diff a b a' b' : a - b = a' - b' -> sub32 a b = sub32 a' b'.
Proof. unfold sub32. intros ->. reflexivity. Qed.

Lemma CalcDelta_diff a b a' b' n : b - a = b' - a' -> CalcDelta a b n = CalcDelta a' b' n.
Proof. unfold CalcDelta. intros E. rewrite (sub32_diff b a b' a' E). reflexivity. Qed.

Lemma Intersects_moved v mn mx o :
  Intersects (box_workspace (moved v mn) (moved v mx)) (moved_item v o) = Intersects (box_workspace mn mx) o.
Proof.
  destruct o as [g|]; [|reflexivity]. cbn [moved_item option_map]. apply eq_true_iff_eq. rewrite !Intersects_overlaps.
  unfold overlaps, box_workspace, moved_geom, moved. cbn [leftTop rightBot cx cy g_min g_max]. lia.
Qed.

Lemma contrib_moved v mn mx heap heap' stack stack' o : plain o ->
  exists l, contrib heap stack (box_workspace mn mx) o = Ok ([], l) /\
    contrib heap' stack' (box_workspace (moved v mn) (moved v mx)) (moved_item v o) = Ok ([], map (moved_geom v) l).
Proof.
  intros P. unfold contrib. rewrite Intersects_moved. destruct (Intersects (box_workspace mn mx) o); [|exists []; split; reflexivity].
  destruct o as [g|]; [|exists []; split; reflexivity]. destruct P as (P1 & P2).
  cbn [moved_item option_map]. cbn [moved_geom g_type].
  destruct (g_type g); try congruence; first [exists []; split; reflexivity | exists [g]; split; reflexivity].
Qed.

Lemma gather_moved v mn mx heap heap' stack stack' items : Forall plain items ->
  exists l, gather heap stack (box_workspace mn mx) items = Ok ([], l) /\
    gather heap' stack' (box_workspace (moved v mn) (moved v mx)) (map (moved_item v) items) = Ok ([], map (moved_geom v) l).
Proof.
  induction 1 as [|o t P F (l & E & E')]; [exists []; split; reflexivity|].
  destruct (contrib_moved v mn mx heap heap' stack stack' o P) as (l0 & C & C'). exists (l0 ++ l). cbn [map gather].
  rewrite C, C'. cbn [bind]. rewrite E, E'. cbn [bind fst snd app]. rewrite map_app. split; reflexivity.
Qed.

Lemma map_nth_some {A B} (f : A -> B) l n x : nth_error l n = Some x -> nth_error (map f l) n = Some (f x).
Proof. exact (map_nth_error f n l (d := x)). Qed.
Lemma map_nth_none {A B} (f : A -> B) l n : nth_error l n = None -> nth_error (map f l) n = None.
Proof. rewrite !nth_error_None, map_length. auto. Qed.

(** The same zond over the moved box. *)
Definition moved_zond (v : coord) (z : zond) : zond :=
  mkzond (boundIndicies z) (mkws (moved v (leftTop (angleCoords z))) (moved v (rightBot (angleCoords z)))) (dx z) (dy z) (eps z).

Lemma rect_indices_moved v z lt rb : rect_indices (moved_zond v z) (moved v lt) (moved v rb) = rect_indices z lt rb.
Proof.
  unfold rect_indices. cbn [moved_zond angleCoords leftTop dx dy]. cbv zeta.
  destruct (moved_diff v lt (leftTop (angleCoords z))) as (A & _). destruct (moved_diff v rb (leftTop (angleCoords z))) as (B & _).
  destruct (moved_diff v (leftTop (angleCoords z)) lt) as (_ & C). destruct (moved_diff v (leftTop (angleCoords z)) rb) as (_ & D).
  rewrite (sub32_diff _ _ _ _ A), (sub32_diff _ _ _ _ B), (sub32_diff _ _ _ _ C), (sub32_diff _ _ _ _ D). reflexivity.
Qed.

Lemma ZondGeometry_moved v z g m :
  (forall lt rb, g_type g = GTrectangle -> corners g lt rb -> covers_test (moved_zond v z) (moved v lt) (moved v rb) = covers_test z lt rb) ->
  ZondGeometry (moved_zond v z) (Some (moved_geom v g)) m = ZondGeometry z (Some g) m.
Proof.
  intros H. cbn [ZondGeometry]. cbn [moved_geom g_type].
  destruct (g_type g) eqn:T; try reflexivity.
  unfold ZondRectangle, at_. cbn [moved_geom g_coords].
  destruct (nth_error (g_coords g) 0) as [lt|] eqn:E0.
  2:{ rewrite (map_nth_none _ _ _ E0). reflexivity. }
  rewrite (map_nth_some _ _ _ _ E0).
  destruct (nth_error (g_coords g) 2) as [rb|] eqn:E2.
  2:{ rewrite (map_nth_none _ _ _ E2). reflexivity. }
  rewrite (map_nth_some _ _ _ _ E2). rewrite (H lt rb eq_refl (conj E0 E2)), rect_indices_moved. reflexivity.
Qed.

Lemma zond_all_moved v z l : forall m,
  (forall g lt rb, In g l -> g_type g = GTrectangle -> corners g lt rb ->
     covers_test (moved_zond v z) (moved v lt) (moved v rb) = covers_test z lt rb) ->
  zond_all (moved_zond v z) (map (moved_geom v) l) m = zond_all z l m.
Proof.
  induction l as [|g t IH]; intros m H; [reflexivity|]. cbn [map zond_all].
  rewrite ZondGeometry_moved by (intros lt rb; apply H; left; reflexivity).
  destruct (ZondGeometry z (Some g) m) as [m' [u|e|u]]; try reflexivity.
  apply IH. intros g' lt rb Hg. apply H. right. exact Hg.
Qed.

Lemma prepared_moved v mn mx ep r c z : prepared (box_workspace mn mx) ep r c = Ok z ->
  angleCoords z = box_workspace mn mx /\ prepared (box_workspace (moved v mn) (moved v mx)) ep r c = Ok (moved_zond v z).
Proof.
  unfold prepared. cbn [box_workspace leftTop rightBot cx cy moved].
  rewrite (CalcDelta_diff (cx mn + cx v) (cx mx + cx v) (cx mn) (cx mx)) by lia.
  rewrite (CalcDelta_diff (cy mx + cy v) (cy mn + cy v) (cy mx) (cy mn)) by lia.
  destruct (CalcDelta (cx mn) (cx mx) (Z.of_nat c)) as [x|e|u]; cbn [bind]; intros H; [|discriminate H|discriminate H].
  destruct (CalcDelta (cy mx) (cy mn) (Z.of_nat r)) as [y|e|u]; cbn [bind] in *; [|discriminate H|discriminate H].
  destruct (dgt (dz 0) y || dgt (dz 0) x); [discriminate H|]. injection H as <-. split; [reflexivity|].
  unfold moved_zond. cbn [boundIndicies angleCoords leftTop rightBot dx dy eps]. reflexivity.
Qed.

Lemma columns_moved v mn mx c x : columns (moved v mn) (moved v mx) c (x + cx v) = columns mn mx c x.
Proof.
  unfold columns, moved. cbn [cx]. replace (x + cx v - (cx mn + cx v)) with (x - cx mn) by lia.
  replace (cx mx + cx v - (cx mn + cx v)) with (cx mx - cx mn) by lia. reflexivity.
Qed.
Lemma rows_moved v mn mx r y : rows (moved v mn) (moved v mx) r (y + cy v) = rows mn mx r y.
Proof.
  unfold rows, moved. cbn [cy]. replace (cy mx + cy v - (y + cy v)) with (cy mx - y) by lia.
  replace (cy mx + cy v - (cy mn + cy v)) with (cy mx - cy mn) by lia. reflexivity.
Qed.

Lemma decided_moved v mn mx r c lt rb : decided mn mx r c lt rb -> decided (moved v mn) (moved v mx) r c (moved v lt) (moved v rb).
Proof.
  intros [C|L]; [left|right].
  - unfold contains_ws, box_workspace, moved in *. cbn [leftTop rightBot cx cy] in *. lia.
  - unfold leaves_a_cell in *. replace (cx (moved v lt)) with (cx lt + cx v) by reflexivity.
    replace (cx (moved v rb)) with (cx rb + cx v) by reflexivity. replace (cy (moved v lt)) with (cy lt + cy v) by reflexivity.
    replace (cy (moved v rb)) with (cy rb + cy v) by reflexivity. rewrite !columns_moved, !rows_moved. exact L.
Qed.

Lemma decided_test mn mx r c z lt rb : fine_box mn mx r c -> prepared (box_workspace mn mx) (dlit 1 (10 ^ 13)) r c = Ok z ->
  coord32 lt -> coord32 rb -> decided mn mx r c lt rb ->
  (contains_ws lt rb (box_workspace mn mx) -> covers_test z lt rb = true) /\
  (leaves_a_cell mn mx r c lt rb -> covers_test z lt rb = false).
Proof.
  intros FB P L R D. destruct (prepared_ok mn mx r c FB) as (z' & e & P' & (X & Y & Ee & Er & Ex & Ey) & _ & HA).
  pose proof (eq_trans (eq_sym P) P') as Q. injection Q as <-. pose proof (ws32_box mn mx r c FB) as W.
  assert (B : (0 <= e <= 1 / 8)%R) by exact Er.
  split; intros H.
  - eapply (contains_test z lt rb); try eassumption; rewrite HA; assumption.
  - eapply (short_test z lt rb); try eassumption; [rewrite HA; assumption|]. rewrite HA. exact (leaves_short mn mx r c FB lt rb H).
Qed.

Lemma core_moved v stack stack' heap heap' libs libs' L L' mn mx r c items :
  fine_box mn mx r c -> fine_box (moved v mn) (moved v mx) r c ->
  candidates L libs items -> candidates L' libs' (map (moved_item v) items) -> Forall plain items ->
  (forall g lt rb, In (Some g) items -> g_type g = GTrectangle -> overlaps (box_workspace mn mx) g -> corners g lt rb ->
     coord32 lt /\ coord32 rb /\ coord32 (moved v lt) /\ coord32 (moved v rb) /\ decided mn mx r c lt rb) ->
  core stack' (Some (mklayout heap' libs')) (box_workspace (moved v mn) (moved v mx)) L' (dlit 1 (10 ^ 13)) r c =
  core stack (Some (mklayout heap libs)) (box_workspace mn mx) L (dlit 1 (10 ^ 13)) r c.
Proof.
  intros FB FB' Hc Hc' Pl H. apply candidates_items in Hc. apply candidates_items in Hc'.
  destruct (prepared_ok mn mx r c FB) as (z & e & P & _). destruct (prepared_moved v mn mx _ r c z P) as (HA & P').
  destruct (gather_moved v mn mx heap heap' stack stack' items Pl) as (l & G & G').
  unfold core. rewrite P, P', !InitItems, <- Hc, <- Hc', !PG_blank, G, G'. cbn [app].
  rewrite zond_all_moved; [reflexivity|]. intros g lt rb Hg T Co.
  assert (Hg' : In g ([] ++ l)) by exact Hg. apply (gather_draw _ _ _ _ _ _ G) in Hg'. destruct Hg' as (g0 & Hin & Ov & _ & D).
  assert (NP : plain (Some g0)) by (rewrite Forall_forall in Pl; apply Pl, Hin). destruct NP as (NP1 & NP2).
  destruct D as [(_ & ->)|[(wd & (Q & _) & _)|(Q & _)]]; [|contradiction|contradiction].
  destruct (H g0 lt rb Hin T Ov Co) as (A1 & A2 & A3 & A4 & D).
  destruct (decided_test mn mx r c z lt rb FB P A1 A2 D) as (T1 & T2).
  destruct (decided_test _ _ r c _ _ _ FB' P' A3 A4 (decided_moved v mn mx r c lt rb D)) as (T3 & T4).
  destruct D as [D|D].
  - rewrite (T1 D). apply T3. unfold contains_ws, box_workspace, moved in *. cbn [leftTop rightBot cx cy] in *. lia.
  - rewrite (T2 D). apply T4. destruct (decided_moved v mn mx r c lt rb (or_intror D)) as [Q|Q]; [|exact Q].
    exfalso. assert (C : contains_ws lt rb (box_workspace mn mx)) by (unfold contains_ws, box_workspace, moved in *; cbn [leftTop rightBot cx cy] in *; lia).
    pose proof (T1 C) as E1. pose proof (T2 D) as E2. rewrite E1 in E2. discriminate E2.
Qed.
