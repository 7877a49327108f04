(** C134: a drawing with small errors is recognised, from the files. *)
From Coq Require Import Reals Lra Lia.
From Flocq Require Import Core.
From Verif Require Import Prelude P_Prelude M_Double S_Double P_Double M_LayoutData M_Converter S_Converter M_Vector2D M_BitMatrix S_Matrix
  P_BitMatrix P_Cells M_Ratio S_Ratio P_Ratio Props_Ratio Props_BitMatrix P_Rank Props_Rank M_Hash S_Hash Props_Stored M_Zond S_Zond M_Generator S_Generator P_Generator Props_Generator
  S_EndToEnd P_EndToEnd Props_EndToEnd S_Identify P_Identify S_Degrade P_Degrade Props_Degrade S_Exact S_Wobble Props_Wobble S_Library Props_Library Props_Noise
  M_Msk S_Msk P_Msk Props_Msk S_MskBitmap Props_MskBitmap Props_Identify S_Nudge Props_Nudge.
Local Open Scope Z_scope.

(** The reference file is read and drawn; its bitmap m is stored in a library with others.  A second MSK file, with the
    same rectangles on layer n up to k units, is read and drawn: it scores higher against the file of m than against every
    file whose bitmap is more than twice the edges away from m. *)
Theorem C134_recognised_with_errors :
  forall pl pl' fs fs' name name' rd rd' text text' cs cs' l l' n k d heap heap' mn mx v v' al al' al2 stack stack' r c,
  GetReader fs name = Some rd -> encodable name -> fs (narrow name) = Some text ->
  GetReader fs' name' = Some rd' -> encodable name' -> fs' (narrow name') = Some text' ->
  file_says text cs -> shapes cs l -> file_says text' cs' -> shapes cs' l' -> l <> [] -> l' <> [] -> n <> -5 ->
  Forall2 (nudged k) (on_layer n l) (on_layer n l') -> at_most_cells k d mn mx r c ->
  all_drawable mn mx r c n l -> all_drawable mn mx r c n l' ->
  memory_ok al r c -> memory_ok al' r c -> memory_ok al2 r c -> fine_box mn mx r c -> Z.of_nat r * Z.of_nat c < 2 ^ 51 ->
  exists rd1 dt g m rd2 dt' g' m', Read pl fs rd (Some no_layout) = Ok (rd1, Some dt, true) /\
    Init gen_new (Some (mklayout heap (ld_libraries dt))) [n] mn mx = (g, Ok tt) /\ result (Process (Some v) al stack g r c) = (m, Ok true) /\
    Read pl' fs' rd' (Some no_layout) = Ok (rd2, Some dt', true) /\
    Init gen_new (Some (mklayout heap' (ld_libraries dt'))) [n] mn mx = (g', Ok tt) /\ result (Process (Some v') al' stack' g' r c) = (m', Ok true) /\
    forall al3 can_write accepted lib dsk f, Forall (entry al3 can_write accepted) lib -> latest lib f m ->
    (forall f' b A B, f' <> f -> latest lib f' b -> shows m A -> shows b B ->
       arows B = r /\ acols B = c /\ (2 * total (map (seam d mn mx r c) (on_layer n l)) < INR (differences A B))%R) ->
    exists states, stores al3 can_write accepted dsk lib states /\
      forall self f' b, f' <> f -> latest lib f' b ->
      exists q q' x y, ReadFile X86 al3 (last states dsk) self f = (q, Ok true) /\ ReadFile X86 al3 (last states dsk) self f' = (q', Ok true) /\
        Compare al2 m' q = Ok x /\ Compare al2 m' q' = Ok y /\ dgt x y = true.
Proof.
  intros pl pl' fs fs' name name' rd rd' text text' cs cs' l l' n k d heap heap' mn mx v v' al al' al2 stack stack' r c
    G He F G' He' F' S Sh S' Sh' Hl Hl' Hn Nu AM AD AD' Hm Hm' Hm2 FB Sz.
  destruct (C83_from_file_to_bitmap pl fs name rd text cs l n heap mn mx v al stack r c G He F S Sh Hl Hn Hm FB
    (fun p q I _ => proj2 (AD p q I))) as (rd1 & dt & g & m & R & I & P & _).
  destruct (C83_from_file_to_bitmap pl' fs' name' rd' text' cs' l' n heap' mn mx v' al' stack' r c G' He' F' S' Sh' Hl' Hn Hm' FB
    (fun p q I _ => proj2 (AD' p q I))) as (rd2 & dt' & g' & m' & R' & I' & P' & _).
  exists rd1, dt, g, m, rd2, dt', g', m'. do 6 (split; [assumption|]).
  destruct (msk_items _ _ _ _ _ _ _ n _ _ G He F S Sh Hl Hn R) as (items & C & IT).
  destruct (msk_items _ _ _ _ _ _ _ n _ _ G' He' F' S' Sh' Hl' Hn R') as (items' & C' & IT').
  destruct (init_live _ _ _ _ _ I) as (H1 & H2). destruct (init_live _ _ _ _ _ I') as (H1' & H2').
  destruct (combine_all _ _ _ Nu) as (K1 & K2 & K3 & K4).
  pose proof FB as (_ & _ & Bx & By & Hr & Hc).
  assert (DA : drawn_alike d heap heap' mn mx mn mx r c items items' (combine (on_layer n l) (on_layer n l'))).
  { split; [|split].
    - intros lt rb. rewrite (msk_draws heap mn mx r c n l items lt rb AD IT). apply K1.
    - intros lt rb. rewrite (msk_draws heap' mn mx r c n l' items' lt rb AD' IT'). apply K2.
    - intros a b Q. apply (off_by_nudge k d mn mx r c a b ltac:(lia) ltac:(lia) AM). apply K3, Q. }
  assert (Eq : map (fun p => seam d mn mx r c (fst p)) (combine (on_layer n l) (on_layer n l')) = map (seam d mn mx r c) (on_layer n l)).
  { rewrite <- K4 at 2. now rewrite map_map. }
  assert (HC : forall item, In (Some item) items -> overlaps (box_workspace mn mx) item -> collectable heap stack item)
    by (intros item Q _; apply IT in Q as (p & q & _ & ->); exact Logic.I).
  assert (HC' : forall item, In (Some item) items' -> overlaps (box_workspace mn mx) item -> collectable heap' stack' item)
    by (intros item Q _; apply IT' in Q as (p & q & _ & ->); exact Logic.I).
  pose proof (msk_drawable heap mn mx r c n l items AD IT) as HD. pose proof (msk_drawable heap' mn mx r c n l' items' AD' IT') as HD'.
  destruct AM as (Dp & _). rewrite <- Eq.
  destruct (C132_found_in_the_library d _ _ _ _ g g' heap heap' _ _ _ _ mn mx mn mx v v' al al' al2 stack stack' r c items items' _
    H1 H1' H2 H2' C C' Hm Hm' Hm2 FB FB Sz HC HC' HD HD' Dp DA) as (m1 & m1' & E & E' & X).
  rewrite P in E. injection E as <-. rewrite P' in E'. injection E' as <-. exact X.
Qed.

(** Once the edges is not enough: a bitmap half way between two references scores the same against both. *)
Theorem C134_once_is_enough_refuted :
  ~ (forall al q a b Q A B t x y, shows q Q -> shows a A -> shows b B ->
       arows A = arows Q -> acols A = acols Q -> arows B = arows Q -> acols B = acols Q -> nonempty Q -> memory_ok al (arows Q) (acols Q) ->
       (differences A Q <= t)%nat -> (t < differences A B)%nat ->
       Compare al q a = Ok x -> Compare al q b = Ok y -> dgt x y = true).
Proof.
  intros H. pose (a := mkbm [[x00]] 1 2). pose (q := mkbm [[x80]] 1 2). pose (b := mkbm [[xc0]] 1 2).
  assert (S : forall z, shows (mkbm [[z]] 1 2) (mkamat 1 2 (raw (mkbm [[z]] 1 2)))).
  { intros z. apply shows_intro; [split; [reflexivity|repeat constructor]|reflexivity|reflexivity|reflexivity]. }
  assert (D : match Compare infinite_memory q a, Compare infinite_memory q b with Ok u, Ok w => negb (dgt u w) | _, _ => false end = true) by (vm_compute; reflexivity).
  destruct (Compare infinite_memory q a) as [x| |] eqn:E1; [|discriminate D..].
  destruct (Compare infinite_memory q b) as [y| |] eqn:E2; [|discriminate D..].
  specialize (H infinite_memory q a b _ _ _ 1%nat x y (S x80) (S x00) (S xc0) eq_refl eq_refl eq_refl eq_refl ltac:(split; cbn; lia) ltac:(vm_compute; tauto)
    ltac:(vm_compute; lia) ltac:(vm_compute; lia) E1 E2).
  rewrite H in D. discriminate D.
Qed.

(** ** A concrete case: the files of C133 in 50 x 50 cells; the other reference has every cell set. *)
Definition ex_drawn : bm := Eval vm_compute in
  match ex_read ex_file with
  | Some lay => match ex_bitmap lay 23 (mkcoord 0 0) (mkcoord 100 100) 50 50 with Some (m, _) => m | None => bm_empty end
  | None => bm_empty end.
Definition ex_full : bm := mkbm (repeat (repeat xff 7) 50) 50 50.
Definition ex_references : list (list byte * bm) := [(lit "drawn", ex_drawn); (lit "full", ex_full)].
Definition cells_of (m : bm) : amat := mkamat 50 50 (raw m).

Lemma differences_same A A' B B' : asame A A' -> asame B B' -> arows A = arows B -> acols A = acols B -> differences A B = differences A' B'.
Proof.
  intros SA SB Er Ec. pose proof SA as (a1 & a2 & _). pose proof SB as (b1 & b2 & _).
  assert (SA' : differences A A' = 0%nat) by (apply differences_zero; assumption).
  assert (SB' : differences B B' = 0%nat) by (apply differences_zero; assumption).
  assert (ZA : differences A' A = 0%nat) by (rewrite differences_sym; congruence).
  assert (ZB : differences B' B = 0%nat) by (rewrite differences_sym; congruence).
  pose proof (differences_triangle A A' B a1 a2). pose proof (differences_triangle A' B' B ltac:(congruence) ltac:(congruence)).
  pose proof (differences_triangle A' A B' (eq_sym a1) (eq_sym a2)). pose proof (differences_triangle A B B' Er Ec). lia.
Qed.
Lemma shown_once m A A' : shows m A -> shows m A' -> asame A A'.
Proof.
  intros S S'. destruct (shows_elim _ _ S) as (_ & a1 & a2 & a3). destruct (shows_elim _ _ S') as (_ & b1 & b2 & b3).
  split; [congruence|]. split; [congruence|]. intros i j I J. rewrite <- a3 by assumption. apply b3; congruence.
Qed.
Lemma ex_shown_50 m : Isize m = 50%nat -> Jsize m = 50%nat -> healthy m -> shows m (cells_of m).
Proof. intros I J H. apply shows_intro; [exact H|exact I|exact J|reflexivity]. Qed.
Lemma ex_drawn_healthy : healthy ex_drawn.
Proof. split; [reflexivity|]. repeat constructor. Qed.
Lemma ex_full_healthy : healthy ex_full.
Proof. split; [reflexivity|]. repeat constructor. Qed.

Lemma ex_entries : Forall (entry infinite_memory (fun _ => true) 1000) ex_references.
Proof.
  assert (E : forall f m, f <> [] -> Isize m = 50%nat -> Jsize m = 50%nat -> healthy m ->
     match EncodeHash infinite_memory m with Ok h => (length h <=? 1000)%nat | _ => false end = true ->
     entry infinite_memory (fun _ => true) 1000 (f, m)).
  { intros f m Nf I J H L. destruct (EncodeHash infinite_memory m) as [h| |] eqn:Eh; [|discriminate L..].
    split; [exact Nf|]. split; [reflexivity|]. exists (cells_of m), h. split; [apply ex_shown_50; assumption|]. cbn [arows acols cells_of].
    split; [split; cbn; lia|]. split; [reflexivity|]. split; [cbn; lia|]. split; [cbn; lia|].
    split; [apply small_sizes_survive; cbn; lia|]. split; [exact Eh|]. apply Nat.leb_le, L. }
  constructor; [|constructor; [|constructor]]; apply E; try discriminate; try reflexivity;
    first [exact ex_drawn_healthy|exact ex_full_healthy|vm_compute; reflexivity].
Qed.

Example C134_hypotheses_met :
  (exists lay, ex_read ex_file = Some lay /\ ex_bitmap lay 23 (mkcoord 0 0) (mkcoord 100 100) 50 50 = Some (ex_drawn, Ok true)) /\
  at_most_cells 1 (1 / 2) (mkcoord 0 0) (mkcoord 100 100) 50 50 /\
  Forall (entry infinite_memory (fun _ => true) 1000) ex_references /\ latest ex_references (lit "drawn") ex_drawn /\
  (forall f' b A B, f' <> lit "drawn" -> latest ex_references f' b -> shows ex_drawn A -> shows b B ->
     arows B = 50%nat /\ acols B = 50%nat /\
     (2 * total (map (seam (1 / 2) (mkcoord 0 0) (mkcoord 100 100) 50 50) (on_layer 23 ex_shapes)) < INR (differences A B))%R).
Proof.
  split; [eexists; split; [vm_compute; reflexivity|vm_compute; reflexivity]|]. split.
  { unfold at_most_cells. cbn [cx cy]. rewrite !INR_IZR_INZ. change (Z.of_nat 50) with 50. change (100 - 0) with 100. lra. }
  split; [exact ex_entries|]. split; [exists [], [(lit "full", ex_full)]; split; [reflexivity|intros [Q|[]]; discriminate Q]|].
  intros f' b A B Nf (be & af & E & _) SA SB.
  assert (Eb : b = ex_full).
  { assert (I : In (f', b) ex_references) by (rewrite E; apply in_or_app; right; left; reflexivity).
    destruct I as [Q|[Q|[]]].
    - elim Nf. exact (eq_sym (f_equal fst Q)).
    - exact (eq_sym (f_equal snd Q)). }
  subst b. pose proof (ex_shown_50 ex_drawn eq_refl eq_refl ex_drawn_healthy) as SA0. pose proof (ex_shown_50 ex_full eq_refl eq_refl ex_full_healthy) as SB0.
  pose proof (shown_once _ _ _ SA SA0) as QA. pose proof (shown_once _ _ _ SB SB0) as QB.
  pose proof QA as (a1 & a2 & _). pose proof QB as (b1 & b2 & _). cbn [cells_of arows acols] in a1, a2, b1, b2.
  split; [exact b1|]. split; [exact b2|].
  rewrite (differences_same A _ B _ QA QB) by congruence.
  assert (D : differences (cells_of ex_drawn) (cells_of ex_full) = Z.to_nat 2200) by (vm_compute; reflexivity).
  rewrite D, INR_IZR_INZ, Z2Nat.id by lia.
  assert (L : on_layer 23 ex_shapes = [(mkcoord 10 60, mkcoord 40 20)]) by reflexivity. rewrite L.
  pose proof margin_small as MS. pose proof margin_pos as MP. cbn [map total fold_right]. unfold seam, width, height, columns, rows.
  cbn [cx cy fst snd]. rewrite !INR_IZR_INZ. change (Z.of_nat 50) with 50. change (100 - 0) with 100.
  change (100 - 60) with 40. change (100 - 20) with 80. change (40 - 0) with 40. change (10 - 0) with 10.
  replace (40 * 50 / 100 - 10 * 50 / 100)%R with 15%R by field. replace (80 * 50 / 100 - 40 * 50 / 100)%R with 20%R by field.
  nra.
Qed.

Print Assumptions C134_recognised_with_errors.
Print Assumptions C134_once_is_enough_refuted.
