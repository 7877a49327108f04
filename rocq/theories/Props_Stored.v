(** C104: bitmaps that are stored in files and used as references later. *)
From Coq Require Import Reals Lra Lia.
From Flocq Require Import Core IEEE754.BinarySingleNaN.
From Verif Require Import Prelude P_Prelude M_Double S_Double P_Double M_LayoutData M_Vector2D M_BitMatrix S_Matrix
  P_BitMatrix P_Cells S_Ratio M_Ratio P_Ratio Props_Ratio M_Hash S_Hash P_Hash Props_Hash
  P_Rle M_Zond S_Zond M_Generator S_Generator P_Generator Props_Generator S_EndToEnd Props_EndToEnd S_Identify P_Identify Props_Identify.
Local Open Scope Z_scope.

(** Compare, == and != see the visible cells only. *)
Lemma Compare_shown al a a' b A B : shows a A -> shows a' A -> shows b B -> Compare al a b = Compare al a' b.
Proof.
  intros Sa Sa' Sb.
  pose proof Sa as Qa. apply shows_elim in Qa as (_ & A1 & A2 & _).
  pose proof Sa' as Qa'. apply shows_elim in Qa' as (_ & A1' & A2' & _).
  pose proof Sb as Qb. apply shows_elim in Qb as (_ & B1 & B2 & _).
  destruct (Nat.eq_dec (arows A) (arows B)) as [E1|N1].
  2:{ rewrite !Compare_bad by (left; congruence). reflexivity. }
  destruct (Nat.eq_dec (acols A) (acols B)) as [E2|N2].
  2:{ rewrite !Compare_bad by (right; left; congruence). reflexivity. }
  destruct (Nat.eq_dec (arows A) 0) as [Z1|NZ1].
  { rewrite !Compare_bad by (right; right; left; congruence). reflexivity. }
  destruct (Nat.eq_dec (acols A) 0) as [Z2|NZ2].
  { rewrite !Compare_bad by (right; right; right; left; congruence). reflexivity. }
  destruct (alloc_dec al (arows A) (acols A)) as [F|F].
  { rewrite (Compare_bad al a b), (Compare_bad al a' b); [reflexivity| |]; right; right; right; right; congruence. }
  destruct (shows_xor al a b A B Sa Sb E1 E2) as (x & Ex & Sx); [split; lia|exact F|].
  destruct (shows_xor al a' b A B Sa' Sb E1 E2) as (y & Ey & Sy); [split; lia|exact F|].
  unfold Compare. rewrite Ex, Ey. cbn [bind]. unfold OneRatio.
  rewrite (CalcRatio_bits x y (axor A B) (axor A B) true Sx Sy); [reflexivity|]. repeat split.
Qed.

Lemma process_shows M calls g d L mn mx v al stack r c m :
  history M gen_new calls = Some g -> in_force calls (Live d L mn mx) -> memory_ok al r c -> (0 < r)%nat -> (0 < c)%nat ->
  result (Process (Some v) al stack g r c) = (m, Ok true) -> exists A, shows m A /\ arows A = r /\ acols A = c.
Proof.
  intros H F Hm Hr Hc P. destruct d as [heap libs].
  destruct (C52_every_layout_has_its_candidates L libs) as (items & Hi).
  destruct (C52_the_bitmap_is_the_union _ _ _ _ _ _ _ _ _ _ _ _ _ _ _ H F Hm Hr Hc Hi P) as (_ & A & _ & S & Ar & Ac & _).
  exists A. auto.
Qed.

(** ** C104 *)
(** A bitmap that was written with FlushFile and read back shows the same cells, has the same
    hash, and every comparison with it gives what a comparison with the original gives. *)
Theorem C104_stored_bitmaps_are_as_good :
  forall M calls g d L mn mx v al stack r c m al2 can_write accepted disk self f h,
  history M gen_new calls = Some g -> in_force calls (Live d L mn mx) -> memory_ok al r c -> (0 < r)%nat -> (0 < c)%nat ->
  result (Process (Some v) al stack g r c) = (m, Ok true) ->
  memory_ok al2 r c -> Z.of_nat r < 2 ^ 32 -> Z.of_nat c < 2 ^ 32 -> size_survives (Z.of_nat r) (Z.of_nat c) ->
  EncodeHash al2 m = Ok h -> f <> [] -> can_write f = true -> (length h <= accepted)%nat ->
  exists states n, FlushFile al2 can_write accepted disk m f = (states, Ok true) /\
    ReadFile X86 al2 (last states disk) self f = (n, Ok true) /\
    (forall f', f' <> f -> last states disk f' = disk f') /\
    same_matrix m n /\ EncodeHash al2 n = Ok h /\
    forall al3 x X, shows x X ->
      Compare al3 n x = Compare al3 m x /\ Compare al3 x n = Compare al3 x m /\
      bm_eq al3 n x = bm_eq al3 m x /\ bm_eq al3 x n = bm_eq al3 x m /\
      bm_ne al3 n x = bm_ne al3 m x /\ bm_ne al3 x n = bm_ne al3 x m.
Proof.
  intros M calls g d L mn mx v al stack r c m al2 cw acc disk self f h H F Hm Hr Hc P Hm2 Lr Lc Sv E Nf Cw La.
  destruct (process_shows _ _ _ _ _ _ _ _ _ _ _ _ _ H F Hm Hr Hc P) as (A & S & Ar & Ac).
  assert (NE : nonempty A) by (split; lia).
  destruct (C39_file_round_trip al2 cw acc disk m A self f h S NE) as (states & n & Ef & Er & Sn & Ot);
    try (rewrite ?Ar, ?Ac; assumption); try assumption.
  exists states, n. split; [exact Ef|]. split; [exact Er|]. split; [exact Ot|]. split; [exists A; split; assumption|].
  split. { rewrite <- E. apply (C37_hash_depends_on_visible_bits_only al2 n m A Sn S NE). rewrite Ar, Ac. exact Hm2. }
  intros al3 x X Sx. pose proof (Compare_shown al3 n m x A X Sn S Sx) as Q.
  assert (Q' : Compare al3 x n = Compare al3 x m).
  { rewrite (Compare_sym al3 x n X A Sx Sn), (Compare_sym al3 x m X A Sx S). exact Q. }
  unfold bm_eq, bm_ne. rewrite Q, Q'. repeat split.
Qed.

(** So a layout is recognised by the stored bitmap of a layout with the same objects: the
    similarity is exactly 1. *)
Theorem C104_recognised_by_the_stored_bitmap :
  forall M M' calls calls' g g' heap libs libs' L L' mn mx v v' al al' stack r c items items' m al2 al3 can_write accepted disk self f h,
  history M gen_new calls = Some g -> history M' gen_new calls' = Some g' ->
  in_force calls (Live (mklayout heap libs) L mn mx) -> in_force calls' (Live (mklayout heap libs') L' mn mx) ->
  candidates L libs items -> candidates L' libs' items' -> same_objects items items' ->
  memory_ok al r c -> memory_ok al' r c -> memory_ok al2 r c -> memory_ok al3 r c -> (0 < r)%nat -> (0 < c)%nat ->
  Z.of_nat r < 2 ^ 32 -> Z.of_nat c < 2 ^ 32 -> Z.of_nat r * Z.of_nat c <= 2 ^ 53 -> size_survives (Z.of_nat r) (Z.of_nat c) ->
  result (Process (Some v) al stack g r c) = (m, Ok true) ->
  EncodeHash al2 m = Ok h -> f <> [] -> can_write f = true -> (length h <= accepted)%nat ->
  exists states n m' x, FlushFile al2 can_write accepted disk m f = (states, Ok true) /\
    ReadFile X86 al2 (last states disk) self f = (n, Ok true) /\
    result (Process (Some v') al' stack g' r c) = (m', Ok true) /\
    Compare al3 n m' = Ok x /\ real x 1 /\ bm_eq al3 n m' = Ok true /\ bm_ne al3 n m' = Ok false /\
    EncodeHash al2 m' = Ok h.
Proof.
  intros M M' calls calls' g g' heap libs libs' L L' mn mx v v' al al' stack r c items items' m al2 al3 cw acc disk self f h
    H H' F F' Hi Hi' SO Hm Hm' Hm2 Hm3 Hr Hc Lr Lc Sz Sv P E Nf Cw La.
  destruct (C104_stored_bitmaps_are_as_good M calls g (mklayout heap libs) L mn mx v al stack r c m al2 cw acc disk self f h
    H F Hm Hr Hc P Hm2 Lr Lc Sv E Nf Cw La) as (states & n & Ef & Er & _ & (A & S & Sn) & _ & Cmp).
  destruct (C84_same_objects_same_bitmap_and_hash M M' calls calls' g g' heap libs libs' L L' mn mx v v' al al' stack r c items items' m
    H H' F F' Hi Hi' SO Hm Hm' Hr Hc P) as (m' & P' & (A' & S' & S1) & Hh).
  exists states, n, m'.
  destruct (process_shows _ _ _ _ _ _ _ _ _ _ _ _ _ H F Hm Hr Hc P) as (A2 & S2 & Ar & Ac).
  assert (NE : nonempty A2) by (split; lia).
  assert (SM : shows m' A2).
  { eapply shows_asame; [exact S1|]. destruct (shows_elim _ _ S') as (_ & a1 & a2 & a3). destruct (shows_elim _ _ S2) as (_ & b1 & b2 & b3).
    split; [congruence|]. split; [congruence|]. intros i j I J. rewrite <- a3 by (first [exact I|exact J]). apply b3; congruence. }
  destruct (C12_score al3 m m' A2 A2 S2 SM eq_refl eq_refl NE) as (x & y & Ex & Rx & _ & _ & One).
  - rewrite Ar, Ac. unfold memory_ok, out_of_memory in *. intros [O|(i & _ & O)]; congruence.
  - unfold cell_number. rewrite Ar, Ac. lia.
  - rewrite One in Rx by (repeat split). exists x.
    destruct (Cmp al3 m' A2 SM) as (C1 & _ & C3 & _ & C5 & _). rewrite C1, C3, C5.
    split; [exact Ef|]. split; [exact Er|]. split; [exact P'|]. split; [exact Ex|]. split; [exact Rx|].
    pose proof T_real as RT.
    assert (L1 : (T < 1)%R).
    { pose proof score_below. pose proof (dlt_ok _ _ _ _ RT (dz_exact 1 ltac:(lia))) as Q.
      assert (dlt (dlit 9999 10000) (dz 1) = true) as Q1 by (vm_compute; reflexivity). rewrite Q1 in Q.
      symmetry in Q. revert Q. unfold Rlt_bool. destruct (Rcompare_spec T 1); [tauto|discriminate|discriminate]. }
    split; [|split].
    + unfold bm_eq. rewrite Ex. cbn [bind]. f_equal. rewrite (dge_ok _ _ _ _ Rx RT). apply Rle_bool_true. lra.
    + unfold bm_ne. rewrite Ex. cbn [bind]. f_equal. rewrite (dle_ok _ _ _ _ Rx RT). apply Rle_bool_false. exact L1.
    + rewrite <- (Hh al2 Hm2). exact E.
Qed.

(** ** A concrete case: the 10 x 10 bitmap of ex_layout2, stored and read back. *)
Definition ex_stored : list (option geom) := [Some (ex_gen_rect 5 30 30 80 80); None; Some (ex_gen_rect 5 10 10 40 40)].

Lemma small_sizes_survive r c : 0 <= r < 128 -> 0 <= c < 128 -> size_survives r c.
Proof.
  intros Hr Hc i j Hi Hj Q. exfalso. unfold byte_of, size_number in Q.
  assert (I : i = 0 \/ i = 1 \/ i = 2 \/ i = 3 \/ i = 4 \/ i = 5 \/ i = 6) by lia.
  clear Hi Hj j. destruct I as [I|[I|[I|[I|[I|[I|I]]]]]]; subst i;
    match type of Q with 128 <= (_ / ?k) mod 256 => let v := eval vm_compute in k in change k with v in Q end;
    revert Q; Z.div_mod_to_equations; lia.
Qed.

Example C104_hypotheses_met :
  size_survives (Z.of_nat 10) (Z.of_nat 10) /\ same_objects ex_stored (rev ex_stored) /\
  exists m h, option_map (fun g => result (Process (Some 1) infinite_memory 10 g 10 10)) (history ex_machine gen_new ex_calls2) = Some (m, Ok true) /\
    EncodeHash infinite_memory m = Ok h /\ Get m 2 3 = Ok true.
Proof.
  split; [apply small_sizes_survive; lia|]. split; [intros x; apply in_rev|]. run_example.
Qed.

Print Assumptions C104_stored_bitmaps_are_as_good.
Print Assumptions C104_recognised_by_the_stored_bitmap.
