(** How many cells a rectangle can set, and must set. *)
From Coq Require Import Reals Lra Lia.
From Flocq Require Import Core.
From Verif Require Import Prelude P_Prelude M_Double S_Double M_LayoutData M_Converter S_Converter M_Vector2D M_BitMatrix S_Matrix
  P_BitMatrix P_Cells M_Ratio S_Ratio P_Ratio M_Zond S_Zond P_Zond P_ZondCells Props_Zond M_Generator P_Uniform S_Generator P_Generator Props_Generator
  S_EndToEnd P_EndToEnd Props_EndToEnd S_Degrade.

(** ** Counting half-integers in an interval *)
Definition between (a b : R) (i : nat) : bool :=
  (if Rle_dec a (INR i + 1 / 2) then true else false) && (if Rle_dec (INR i + 1 / 2) b then true else false).

Lemma between_spec a b i : between a b i = true <-> (a <= INR i + 1 / 2 <= b)%R.
Proof.
  unfold between. destruct (Rle_dec a (INR i + 1 / 2)), (Rle_dec (INR i + 1 / 2) b); cbn [andb]; split; try discriminate; tauto.
Qed.

Lemma length_in_range (l : list nat) lo hi : NoDup l -> (forall x, In x l -> (lo <= Z.of_nat x <= hi)%Z) ->
  (Z.of_nat (length l) <= Z.max 0 (hi - lo + 1))%Z.
Proof.
  intros N H.
  assert (I : incl (map Z.of_nat l) (map (fun k => (lo + Z.of_nat k)%Z) (seq 0 (Z.to_nat (hi - lo + 1))))).
  { intros z Hz. apply in_map_iff in Hz as (x & <- & Hx). specialize (H x Hx). apply in_map_iff.
    exists (Z.to_nat (Z.of_nat x - lo)). split; [lia|]. apply in_seq. lia. }
  apply NoDup_incl_length in I; [|apply FinFun.Injective_map_NoDup; [intros u v E; lia|exact N]].
  rewrite !map_length, seq_length in I. lia.
Qed.

Lemma count_above a b n : (0 <= b - a + 1)%R -> (INR (length (filter (between a b) (seq 0 n))) <= b - a + 1)%R.
Proof.
  intros P. rewrite INR_IZR_INZ.
  pose proof (length_in_range (filter (between a b) (seq 0 n)) (Zceil (a - 1 / 2)) (Zfloor (b - 1 / 2))
    (NoDup_filter _ (seq_NoDup _ _))) as L.
  assert (H : forall x, In x (filter (between a b) (seq 0 n)) -> (Zceil (a - 1 / 2) <= Z.of_nat x <= Zfloor (b - 1 / 2))%Z).
  { intros x Hx. apply filter_In in Hx as (_ & Hx). apply between_spec in Hx. rewrite INR_IZR_INZ in Hx. split.
    - apply Zceil_glb. lra.
    - apply Zfloor_lub. lra. }
  specialize (L H). apply IZR_le in L.
  pose proof (Zceil_ub (a - 1 / 2)). pose proof (Zfloor_lb (b - 1 / 2)).
  destruct (Z.max_spec 0 (Zfloor (b - 1 / 2) - Zceil (a - 1 / 2) + 1)) as [(M & E)|(M & E)]; rewrite E in L.
  - rewrite plus_IZR, minus_IZR in L. lra.
  - lra.
Qed.

Lemma count_below a b n : (0 <= a)%R -> (b <= INR n)%R -> (b - a - 1 <= INR (length (filter (between a b) (seq 0 n))))%R.
Proof.
  intros Ha Hb. rewrite INR_IZR_INZ.
  set (lo := Zceil (a - 1 / 2)). set (hi := Zfloor (b - 1 / 2)).
  pose proof (Zceil_ub (a - 1 / 2)) as C1. pose proof (Zceil_lb (a - 1 / 2)) as C2.
  pose proof (Zfloor_lb (b - 1 / 2)) as F1. pose proof (Zfloor_ub (b - 1 / 2)) as F2.
  fold lo in C1, C2. fold hi in F1, F2.
  assert (Lo : (0 <= lo)%Z).
  { assert (-1 < lo)%Z; [|lia]. apply lt_IZR. lra. }
  assert (Hi : (hi < Z.of_nat n)%Z).
  { apply lt_IZR. rewrite <- INR_IZR_INZ. lra. }
  assert (L : (hi - lo + 1 <= Z.of_nat (length (filter (between a b) (seq 0 n))))%Z).
  { assert (I : incl (map (fun k => Z.to_nat (lo + Z.of_nat k)) (seq 0 (Z.to_nat (hi - lo + 1)))) (filter (between a b) (seq 0 n))).
    { intros x Hx. apply in_map_iff in Hx as (k & <- & Hk). apply in_seq in Hk. apply filter_In. split; [apply in_seq; lia|].
      apply between_spec. rewrite INR_IZR_INZ, Z2Nat.id by lia. split.
      - assert (IZR lo <= IZR (lo + Z.of_nat k))%R by (apply IZR_le; lia). lra.
      - assert (IZR (lo + Z.of_nat k) <= IZR hi)%R by (apply IZR_le; lia). lra. }
    apply NoDup_incl_length in I.
    - rewrite map_length, seq_length in I. lia.
    - clear - Lo. generalize (seq_NoDup (Z.to_nat (hi - lo + 1)) 0). generalize (seq 0 (Z.to_nat (hi - lo + 1))).
      induction 1 as [|x l Nx ND IH]; cbn [map]; constructor; [|exact IH].
      intros Hx. apply in_map_iff in Hx as (y & E & Hy). apply Nx. replace x with y by lia. exact Hy. }
  apply IZR_le in L. rewrite plus_IZR, minus_IZR in L. cbn in L. lra.
Qed.

(** ** Differing cells as a list of places *)
Definition diff_cells (A B : amat) : list (nat * nat) :=
  filter (fun p => negb (Bool.eqb (acell A (fst p) (snd p)) (acell B (fst p) (snd p))))
    (list_prod (seq 0 (arows A)) (seq 0 (acols A))).

Lemma count_filter (X : Type) (f : X -> bool) l : count true (map f l) = length (filter f l).
Proof.
  induction l as [|x l IH]; [reflexivity|]. cbn [map filter]. unfold count in *. cbn [filter].
  destruct (f x); cbn [Bool.eqb length]; rewrite IH; reflexivity.
Qed.

Lemma map_list_prod (X Y W : Type) (f : X * Y -> W) l k : map f (list_prod l k) = flat_map (fun x => map (fun y => f (x, y)) k) l.
Proof.
  induction l as [|x l IH]; [reflexivity|]. cbn [list_prod flat_map]. rewrite map_app, IH, map_map. reflexivity.
Qed.

Lemma differences_cells A B : differences A B = length (diff_cells A B).
Proof.
  unfold differences, diff_cells. rewrite <- count_filter. rewrite map_list_prod. reflexivity.
Qed.

Lemma nodup_prod (X Y : Type) (l : list X) (k : list Y) : NoDup l -> NoDup k -> NoDup (list_prod l k).
Proof.
  intros Nl Nk. induction Nl as [|x l Nx Nl IH]; cbn [list_prod]; [constructor|].
  assert (D : forall p, In p (map (fun y => (x, y)) k) -> ~ In p (list_prod l k)).
  { intros p Hp Hq. apply in_map_iff in Hp as (y & <- & _). apply in_prod_iff in Hq as (Hq & _). contradiction. }
  clear Nl. induction Nk as [|y k Ny Nk IHk]; cbn [map app]; [exact IH|].
  revert IH D. generalize (list_prod l (y :: k)). intros q IH D.
  assert (G : forall k', NoDup k' -> (forall p, In p (map (fun y => (x, y)) k') -> ~ In p q) -> NoDup (map (fun y => (x, y)) k' ++ q)).
  { clear - IH. induction 1 as [|z k' Nz Nk' IHk']; intros D; cbn [map app]; [exact IH|]. constructor.
    - rewrite in_app_iff. intros [Hz|Hz]; [|apply (D (x, z)); [left; reflexivity|exact Hz]].
      apply in_map_iff in Hz as (w & E & Hw). injection E as ->. contradiction.
    - apply IHk'. intros p Hp. apply D. right. exact Hp. }
  apply (G (y :: k)); [constructor; assumption|exact D].
Qed.

Lemma diff_cells_nodup A B : NoDup (diff_cells A B).
Proof. apply NoDup_filter, nodup_prod; apply seq_NoDup. Qed.

Lemma diff_cells_in A B i j : In (i, j) (diff_cells A B) <-> i < arows A /\ j < acols A /\ acell A i j <> acell B i j.
Proof.
  unfold diff_cells. rewrite filter_In, in_prod_iff, !in_seq. cbn [fst snd].
  destruct (acell A i j), (acell B i j); cbn [Bool.eqb negb]; split; intros H; decompose [and] H; try discriminate;
    repeat split; try lia; try congruence.
Qed.

(** The cells near (covered by) a rectangle. *)
Definition near_cells (mn mx : coord) (r c : nat) (q : coord * coord) : list (nat * nat) :=
  list_prod
    (filter (between (rows mn mx r (cy (fst q)) - 1 - margin) (rows mn mx r (cy (snd q)) + 1 + margin)) (seq 0 r))
    (filter (between (columns mn mx c (cx (fst q)) - 1 - margin) (columns mn mx c (cx (snd q)) + 1 + margin)) (seq 0 c)).
Definition covered_cells (mn mx : coord) (r c : nat) (q : coord * coord) : list (nat * nat) :=
  list_prod
    (filter (between (rows mn mx r (cy (fst q)) + margin) (rows mn mx r (cy (snd q)) - margin)) (seq 0 r))
    (filter (between (columns mn mx c (cx (fst q)) + margin) (columns mn mx c (cx (snd q)) - margin)) (seq 0 c)).

Lemma near_cells_in mn mx r c q i j : In (i, j) (near_cells mn mx r c q) <->
  i < r /\ j < c /\ near_centre mn mx r c (fst q) (snd q) i j.
Proof.
  unfold near_cells, near_centre. rewrite in_prod_iff, !filter_In, !in_seq, !between_spec.
  split; intros H; decompose [and] H; repeat split; try lia; try assumption.
Qed.
Lemma covered_cells_in mn mx r c q i j : In (i, j) (covered_cells mn mx r c q) <->
  i < r /\ j < c /\ covers_centre mn mx r c (fst q) (snd q) i j.
Proof.
  unfold covered_cells, covers_centre. rewrite in_prod_iff, !filter_In, !in_seq, !between_spec.
  split; intros H; decompose [and] H; repeat split; try lia; try assumption.
Qed.

Lemma margin_pos : (0 < margin < 1 / 2)%R.
Proof.
  unfold margin. split; [apply Rinv_0_lt_compat, IZR_lt; lia|].
  apply Rle_lt_trans with (/ IZR 4)%R; [apply Rinv_le; [lra|apply IZR_le; lia]|lra].
Qed.

Lemma columns_mono mn mx c x y : (cx mn < cx mx)%Z -> (x <= y)%Z -> (columns mn mx c x <= columns mn mx c y)%R.
Proof.
  intros H L. unfold columns, Rdiv. apply Rmult_le_compat_r; [left; apply Rinv_0_lt_compat, IZR_lt; lia|].
  apply Rmult_le_compat_r; [apply pos_INR|apply IZR_le; lia].
Qed.
Lemma rows_mono mn mx r x y : (cy mn < cy mx)%Z -> (y <= x)%Z -> (rows mn mx r x <= rows mn mx r y)%R.
Proof.
  intros H L. unfold rows, Rdiv. apply Rmult_le_compat_r; [left; apply Rinv_0_lt_compat, IZR_lt; lia|].
  apply Rmult_le_compat_r; [apply pos_INR|apply IZR_le; lia].
Qed.

Lemma near_count mn mx r c lt rb : (cx mn < cx mx)%Z -> (cy mn < cy mx)%Z -> (cx lt <= cx rb)%Z -> (cy rb <= cy lt)%Z ->
  (INR (length (near_cells mn mx r c (lt, rb))) <= area_with_rim mn mx r c (lt, rb))%R.
Proof.
  intros Hx Hy Lx Ly. unfold near_cells, area_with_rim, width, height. cbn [fst snd].
  rewrite prod_length, mult_INR, Rmult_comm. pose proof margin_pos as M.
  pose proof (columns_mono mn mx c _ _ Hx Lx) as Cm. pose proof (rows_mono mn mx r _ _ Hy Ly) as Rm.
  apply Rmult_le_compat; try apply pos_INR.
  - eapply Rle_trans; [apply count_above; lra|lra].
  - eapply Rle_trans; [apply count_above; lra|lra].
Qed.

Lemma covered_count mn mx r c lt rb : (cx mn < cx mx)%Z -> (cy mn < cy mx)%Z -> inside_box mn mx lt rb ->
  (1 + 2 * margin <= width mn mx c lt rb)%R -> (1 + 2 * margin <= height mn mx r lt rb)%R ->
  (area_without_rim mn mx r c (lt, rb) <= INR (length (covered_cells mn mx r c (lt, rb))))%R.
Proof.
  intros Hx Hy (B1 & B2 & B3 & B4 & B5 & B6) W H. unfold covered_cells, area_without_rim. cbn [fst snd].
  rewrite prod_length, mult_INR, (Rmult_comm (INR _)). pose proof margin_pos as M.
  assert (C0 : (0 <= columns mn mx c (cx lt))%R).
  { pose proof (columns_mono mn mx c _ _ Hx B1) as Q. unfold columns in Q at 1. rewrite Z.sub_diag in Q. lra. }
  assert (C1 : (columns mn mx c (cx rb) <= INR c)%R).
  { pose proof (columns_mono mn mx c _ _ Hx B3) as Q. unfold columns in Q at 2.
    replace (IZR (cx mx - cx mn) * INR c / IZR (cx mx - cx mn))%R with (INR c) in Q; [exact Q|].
    field. apply not_0_IZR. lia. }
  assert (R0 : (0 <= rows mn mx r (cy lt))%R).
  { pose proof (rows_mono mn mx r _ _ Hy B6) as Q. unfold rows in Q at 1. rewrite Z.sub_diag in Q. lra. }
  assert (R1 : (rows mn mx r (cy rb) <= INR r)%R).
  { pose proof (rows_mono mn mx r _ _ Hy B4) as Q. unfold rows in Q at 2.
    replace (IZR (cy mx - cy mn) * INR r / IZR (cy mx - cy mn))%R with (INR r) in Q; [exact Q|].
    field. apply not_0_IZR. lia. }
  unfold width, height in *.
  apply Rmult_le_compat; try lra.
  - eapply Rle_trans; [|apply count_below; lra]. lra.
  - eapply Rle_trans; [|apply count_below; lra]. lra.
Qed.

Lemma union_length (X : Type) (l : list X) (f : X -> list (nat * nat)) (g : X -> R) D :
  NoDup D -> (forall p, In p D -> exists x, In x l /\ In p (f x)) ->
  (forall x, In x l -> (INR (length (f x)) <= g x)%R) ->
  (INR (length D) <= total (map g l))%R.
Proof.
  intros N H G.
  assert (I : length D <= length (flat_map f l)).
  { apply NoDup_incl_length; [exact N|]. intros p Hp. apply in_flat_map. destruct (H p Hp) as (x & Hx & Hf). eauto. }
  apply le_INR in I. eapply Rle_trans; [exact I|]. clear - G.
  induction l as [|x l IH]; cbn [flat_map map total fold_right length INR]; [lra|].
  rewrite app_length, plus_INR. apply Rplus_le_compat; [apply G; left; reflexivity|].
  apply IH. intros y Hy. apply G. right. exact Hy.
Qed.

(** ** What one shape sets *)
Lemma sets_rect mn mx r c z s lt rb i j : fine_box mn mx r c -> process_zond (box_workspace mn mx) r c z ->
  g_type s = GTrectangle -> corners s lt rb -> manageable mn mx r c lt rb -> starts_inside mn mx lt -> i < r -> j < c ->
  (covers_centre mn mx r c lt rb i j -> sets z r c s i j) /\ (sets z r c s i j -> near_centre mn mx r c lt rb i j).
Proof.
  intros FB Hz Ts G Mg SI Hir Hjc.
  destruct (prepared_ok mn mx r c FB) as (z' & e & Ez & T & HB & HA).
  assert (z = z') by (apply (process_zond_unique _ r c z z' Hz); apply (prepared_zond _ r c z' Ez)). subst z.
  split.
  - intros Cv.
    destruct (rect_inside mn mx r c FB z' s lt rb e (blank r c) T HB HA G Mg SI (shows_new r c)) as (m' & B & E & SB & HBc).
    exists (blank r c), m'. split; [apply shows_new|]. split; [unfold ZondGeometry; rewrite Ts; exact E|].
    destruct (HBc i j Hir Hjc) as (Q & _). specialize (Q Cv).
    assert (E' : ZondGeometry z' (Some s) (blank r c) = (m', Ok tt)) by (unfold ZondGeometry; rewrite Ts; exact E).
    destruct (ZondGeometry_uniform z' (Some s)) as (sl & o & Ha).
    destruct (adds_outcome _ _ _ _ _ _ _ Ha (shows_new r c) E') as (_ & SA).
    destruct (shows_elim _ _ SA) as (Hhm & H1 & H2 & _). cbn in H1, H2.
    destruct (shows_elim _ _ SB) as (_ & H4 & H5 & H3).
    rewrite Get_raw by (try exact Hhm; lia). rewrite H3, Q by lia. reflexivity.
  - intros (m1 & m2 & S1 & E1 & G1).
    destruct (rect_inside mn mx r c FB z' s lt rb e m1 T HB HA G Mg SI S1) as (m' & B & E & SB & HBc).
    pose proof E1 as E'. unfold ZondGeometry in E1. rewrite Ts in E1. rewrite E1 in E. injection E as <-.
    apply (proj2 (HBc i j Hir Hjc)).
    destruct (ZondGeometry_uniform z' (Some s)) as (sl & o & Ha).
    destruct (adds_outcome _ _ _ _ _ _ _ Ha S1 E') as (_ & SA).
    destruct (shows_elim _ _ SA) as (Hhm & H1 & H2 & _). cbn in H1, H2.
    destruct (shows_elim _ _ SB) as (_ & H4 & H5 & H3).
    rewrite Get_raw in G1 by (try exact Hhm; lia). rewrite H3 in G1 by lia. congruence.
Qed.

Lemma sets_other z r c s i j : i < r -> j < c -> sets z r c s i j -> g_type s = GTpolygon -> False.
Proof.
  intros Hi Hj (m1 & m2 & S1 & E1 & G1) Ts. destruct (C43_other_types z s m1) as (E & _). specialize (E Ts).
  rewrite E in E1. injection E1 as <-.
  destruct (shows_elim _ _ S1) as (Hhm & H1 & H2 & H3). cbn in H1, H2.
  rewrite Get_raw in G1 by (try exact Hhm; lia). rewrite H3 in G1 by (cbn; lia). cbn in G1. discriminate G1.
Qed.

Lemma get_shown m A i j : shows m A -> i < arows A -> j < acols A -> (Get m i j = Ok true <-> acell A i j = true).
Proof.
  intros S Hi Hj. destruct (shows_elim _ _ S) as (Hh & H1 & H2 & H3).
  rewrite Get_raw by (try exact Hh; lia). rewrite H3 by assumption. split; [congruence|intros ->; reflexivity].
Qed.
