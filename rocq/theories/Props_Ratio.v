(** C11-C13, C67: ratios, similarity, equality, compression coefficients.
    Specifications: S_Matrix ([shows]), S_Ratio (counting), S_Double ([nearest], [real]). *)
From Coq Require Import Reals Lra.
From Flocq Require Import Core IEEE754.BinarySingleNaN.
From Verif Require Import Prelude P_Prelude M_Double S_Double P_Double M_ByteHandler M_Vector2D M_BitMatrix S_Matrix
  P_BitMatrix P_Cells P_Serial P_Vector2D M_LayoutCore M_Rle S_Rle P_Rle S_Ratio M_Ratio P_Ratio Props_BitMatrix.
Local Open Scope nat_scope.

(** ** C11 *)
(** n cells, d of them different: == iff 10000 d <= n, != iff 10000 d >= n.  (The statement of
    C11 asks for n <= 2^36; it holds up to 2^38.) *)
Theorem C11_equality : forall al a b A B, shows a A -> shows b B ->
  arows A = arows B -> acols A = acols B -> nonempty A -> ~ out_of_memory al (arows A) (acols A) ->
  (Z.of_nat (cell_number A) <= 2 ^ 38)%Z ->
  exists e n, bm_eq al a b = Ok e /\ bm_ne al a b = Ok n /\
    (e = true <-> (10000 * Z.of_nat (differences A B) <= Z.of_nat (cell_number A))%Z) /\
    (n = true <-> (Z.of_nat (cell_number A) <= 10000 * Z.of_nat (differences A B))%Z).
Proof.
  intros al a b A B Sa Sb E1 E2 N M H.
  destruct (Compare_ok al a b A B Sa Sb E1 E2 N M ltac:(lia)) as (x & E & R).
  unfold bm_eq, bm_ne. rewrite E. cbn [bind]. do 2 eexists. split; [reflexivity|]. split; [reflexivity|].
  rewrite (dge_ok _ _ _ _ R T_real), (dle_ok _ _ _ _ R T_real).
  pose proof (differences_le A B) as D.
  assert (Hn : (0 < Z.of_nat (cell_number A))%Z) by (unfold nonempty in N; unfold cell_number; nia).
  pose proof (score_ge (Z.of_nat (differences A B)) (Z.of_nat (cell_number A)) ltac:(lia) ltac:(lia)) as G.
  pose proof (score_le (Z.of_nat (differences A B)) (Z.of_nat (cell_number A)) ltac:(lia) ltac:(lia)) as L.
  split; (split; [intros Q | intros Q]).
  - destruct (Rle_bool_spec T (score (Z.of_nat (differences A B)) (Z.of_nat (cell_number A)))); [|discriminate]. apply G; assumption.
  - apply Rle_bool_true, G. exact Q.
  - destruct (Rle_bool_spec (score (Z.of_nat (differences A B)) (Z.of_nat (cell_number A))) T); [|discriminate]. apply L; assumption.
  - apply Rle_bool_true, L. exact Q.
Qed.

Lemma minus1_eq : dge (dz (-1)) (dlit 9999 10000) = false.
Proof. vm_compute. reflexivity. Qed.
Lemma minus1_ne : dle (dz (-1)) (dlit 9999 10000) = true.
Proof. vm_compute. reflexivity. Qed.

(** Different sizes, empty operands or no memory: never ==, always !=. *)
Theorem C11_unequal_or_empty : forall al a b A B, shows a A -> shows b B ->
  arows A <> arows B \/ acols A <> acols B \/ ~ nonempty A \/ out_of_memory al (arows A) (acols A) ->
  bm_eq al a b = Ok false /\ bm_ne al a b = Ok true.
Proof.
  intros al a b A B Sa Sb H.
  pose proof Sa as Qa. apply shows_elim in Qa as (_ & A1 & A2 & _).
  pose proof Sb as Qb. apply shows_elim in Qb as (_ & B1 & B2 & _).
  assert (E : Compare al a b = Ok (dz (-1))).
  { apply Compare_bad. rewrite A1, A2, B1, B2.
    destruct H as [H|[H|[H|H]]]; [tauto|tauto| |].
    - unfold nonempty in H. lia.
    - apply oom_alloc in H. tauto. }
  unfold bm_eq, bm_ne. rewrite E. cbn [bind]. rewrite minus1_eq, minus1_ne. split; reflexivity.
Qed.

(** An empty matrix does not equal itself. *)
Corollary C11_empty_is_not_equal_to_itself : forall al a A, shows a A -> ~ nonempty A ->
  bm_eq al a a = Ok false.
Proof. intros al a A S N. apply (C11_unequal_or_empty al a a A A S S). tauto. Qed.

(** == is not bit equality: matrices with a differing cell can be ==. *)
Theorem C11_equality_is_bit_equality_refuted :
  ~ (forall al a b A B, shows a A -> shows b B -> memory_ok al (arows A) (acols A) ->
       bm_eq al a b = Ok true -> asame A B).
Proof.
  intros H.
  set (A := mkamat 100 100 (fun _ _ => false)). set (B := mkamat 100 100 (fun i j => (i =? 0) && (j =? 0))).
  pose proof (C04_constructor_zero infinite_memory 100 100 eq_refl) as Sa. change (azero 100 100) with A in Sa.
  destruct (C05_set _ A 0 0 true Sa ltac:(cbn; lia) ltac:(cbn; lia)) as (b & Eb & Sb).
  assert (Sb' : shows b B).
  { eapply shows_asame; [exact Sb|]. repeat split. intros i j Hi Hj. cbn. destruct ((i =? 0) && (j =? 0)); reflexivity. }
  destruct (C11_equality infinite_memory _ b A B Sa Sb' eq_refl eq_refl) as (e & n & E1 & _ & (_ & E3) & _).
  - split; cbn; lia.
  - intros [F|(i & _ & F)]; discriminate F.
  - vm_compute. discriminate.
  - rewrite E3 in E1 by (vm_compute; discriminate).
    destruct (H infinite_memory _ b A B Sa Sb' eq_refl E1) as (_ & _ & F).
    specialize (F 0 0 ltac:(cbn; lia) ltac:(cbn; lia)). discriminate F.
Qed.

(** Where 10000 d = n both operators are true. *)
Theorem C11_eq_and_ne_overlap : forall al a b A B, shows a A -> shows b B ->
  arows A = arows B -> acols A = acols B -> nonempty A -> ~ out_of_memory al (arows A) (acols A) ->
  (Z.of_nat (cell_number A) <= 2 ^ 38)%Z ->
  (bm_eq al a b = Ok true /\ bm_ne al a b = Ok true <-> (Z.of_nat (cell_number A) = 10000 * Z.of_nat (differences A B))%Z).
Proof.
  intros al a b A B Sa Sb E1 E2 N M H.
  destruct (C11_equality al a b A B Sa Sb E1 E2 N M H) as (e & n & -> & -> & Q1 & Q2).
  split.
  - intros (I1 & I2). assert (X1 : e = true) by congruence. assert (X2 : n = true) by congruence. apply Q1 in X1. apply Q2 in X2. lia.
  - intros Q. rewrite (proj2 Q1 ltac:(lia)), (proj2 Q2 ltac:(lia)). auto.
Qed.

(** A 100 x 100 matrix and the same with one bit set are both == and !=; with two bits set, not ==.
    (So == is not transitive: 0 bits == 1 bit == 2 bits.) *)
Example C11_example : exists z a b, z = BM_ctor infinite_memory 100 100 /\
  Set_ z 0 0 true = Ok a /\ Set_ a 7 99 true = Ok b /\
  bm_eq infinite_memory z a = Ok true /\ bm_ne infinite_memory z a = Ok true /\
  bm_eq infinite_memory a b = Ok true /\ bm_eq infinite_memory z b = Ok false.
Proof.
  do 3 eexists. split; [reflexivity|].
  split; [vm_compute; reflexivity|]. split; [vm_compute; reflexivity|].
  repeat split; vm_compute; reflexivity.
Qed.

(** Not transitive. *)
Theorem C11_equality_is_transitive_refuted :
  ~ (forall al a b c A B C, shows a A -> shows b B -> shows c C -> memory_ok al (arows A) (acols A) ->
       bm_eq al a b = Ok true -> bm_eq al b c = Ok true -> bm_eq al a c = Ok true).
Proof.
  intros H. destruct C11_example as (z & a & b & Ez & Ea & Eb & E1 & _ & E2 & E3).
  pose proof (C04_constructor_zero infinite_memory 100 100 eq_refl) as Sz. rewrite <- Ez in Sz.
  destruct (C05_set _ _ 0 0 true Sz ltac:(cbn; lia) ltac:(cbn; lia)) as (a' & Ea' & Sa).
  rewrite Ea in Ea'. injection Ea' as <-.
  destruct (C05_set _ _ 7 99 true Sa ltac:(cbn; lia) ltac:(cbn; lia)) as (b' & Eb' & Sb).
  rewrite Eb in Eb'. injection Eb' as <-.
  rewrite (H _ _ _ _ _ _ _ Sz Sa Sb eq_refl E1 E2) in E3. discriminate E3.
Qed.

(** ** C12 *)
Theorem C12_symmetric : forall al a b A B, shows a A -> shows b B -> Compare al a b = Compare al b a.
Proof. exact Compare_sym. Qed.

Theorem C12_score : forall al a b A B, shows a A -> shows b B ->
  arows A = arows B -> acols A = acols B -> nonempty A -> ~ out_of_memory al (arows A) (acols A) ->
  (Z.of_nat (cell_number A) <= 2 ^ 53)%Z ->
  exists x r, Compare al a b = Ok x /\ real x r /\ (0 <= r <= 1)%R /\
    (* the score is computed from the fraction of differing cells with two roundings *)
    r = rnd (1 - rnd (INR (differences A B) / INR (cell_number A))) /\
    (asame A B -> r = 1%R).
Proof.
  intros al a b A B Sa Sb E1 E2 N M H.
  destruct (Compare_ok al a b A B Sa Sb E1 E2 N M H) as (x & E & R).
  exists x, (score (Z.of_nat (differences A B)) (Z.of_nat (cell_number A))).
  split; [exact E|]. split; [exact R|].
  pose proof (differences_le A B) as D.
  assert (Hn : (0 < Z.of_nat (cell_number A))%Z) by (unfold nonempty in N; unfold cell_number; nia).
  split; [apply score_01; lia|]. split.
  - unfold score. rewrite <- !INR_IZR_INZ. reflexivity.
  - intros (_ & _ & Q).
    assert (Z0 : differences A B = 0).
    { rewrite <- xor_differences. unfold cells_equal_to.
      rewrite (same_abits (axor A B) (azero (arows A) (acols A))).
      - unfold azero, abits. cbn [arows acols acell]. generalize (seq 0 (arows A)).
        induction l as [|i l IH]; [reflexivity|]. cbn [flat_map]. unfold count in *. rewrite filter_app, app_length, IH.
        generalize (seq 0 (acols A)). induction l0 as [|j l0 IH0]; [reflexivity|exact IH0].
      - repeat split. cbn [arows acols acell axor azero]. intros i j Hi Hj. rewrite (Q i j Hi Hj). apply xorb_nilpotent. }
    rewrite Z0. unfold score. change (IZR (Z.of_nat 0)) with 0%R.
    replace (0 / IZR (Z.of_nat (cell_number A)))%R with 0%R by (unfold Rdiv; ring).
    rewrite rnd_0. replace (1 - 0)%R with 1%R by ring. apply rnd_1.
Qed.

Theorem C12_minus_one : forall al a b A B, shows a A -> shows b B ->
  (Z.of_nat (cell_number A) <= 2 ^ 53)%Z ->
  (Compare al a b = Ok (dz (-1)) <->
   arows A <> arows B \/ acols A <> acols B \/ ~ nonempty A \/ out_of_memory al (arows A) (acols A)).
Proof.
  intros al a b A B Sa Sb H.
  pose proof Sa as Qa. apply shows_elim in Qa as (_ & A1 & A2 & _).
  pose proof Sb as Qb. apply shows_elim in Qb as (_ & B1 & B2 & _).
  split.
  - intros C.
    destruct (Nat.eq_dec (arows A) (arows B)); [|tauto].
    destruct (Nat.eq_dec (acols A) (acols B)); [|tauto].
    destruct (Nat.eq_dec (arows A) 0); [right; right; left; unfold nonempty; lia|].
    destruct (Nat.eq_dec (acols A) 0); [right; right; left; unfold nonempty; lia|].
    destruct (alloc_dec al (arows A) (acols A)) as [F|F]; [apply alloc_oom in F; tauto|].
    exfalso. destruct (C12_score al a b A B Sa Sb) as (x & r & E & R & (P & _) & _); try assumption.
    + split; lia.
    + intros O. apply F, oom_alloc, O.
    + assert (Q : x = dz (-1)) by congruence. subst x.
      destruct (dz_exact (-1) ltac:(lia)) as (_ & V). destruct R as (_ & V'). lra.
  - intros [Q|[Q|[Q|Q]]]; apply Compare_bad; rewrite ?A1, ?A2, ?B1, ?B2; try tauto.
    + unfold nonempty in Q. lia.
    + apply oom_alloc in Q. tauto.
Qed.

(** Compare is total: it never throws and never has undefined behaviour. *)
Theorem C12_total : forall al a b A B, shows a A -> shows b B -> exists x, Compare al a b = Ok x.
Proof.
  intros al a b A B Sa Sb.
  pose proof Sa as Qa. apply shows_elim in Qa as (_ & A1 & A2 & _).
  pose proof Sb as Qb. apply shows_elim in Qb as (_ & B1 & B2 & _).
  destruct (Nat.eq_dec (arows A) (arows B)) as [E1|]; [|eexists; apply Compare_bad; left; congruence].
  destruct (Nat.eq_dec (acols A) (acols B)) as [E2|]; [|eexists; apply Compare_bad; right; left; congruence].
  destruct (Nat.eq_dec (arows A) 0); [eexists; apply Compare_bad; right; right; left; congruence|].
  destruct (Nat.eq_dec (acols A) 0); [eexists; apply Compare_bad; right; right; right; left; congruence|].
  destruct (alloc_dec al (arows A) (acols A)) as [F|F];
    [eexists; apply Compare_bad; right; right; right; right; congruence|].
  destruct (shows_xor al a b A B Sa Sb E1 E2) as (x & Ex & Sx); [split; lia|exact F|].
  unfold Compare. rewrite Ex. cbn [bind]. unfold OneRatio, CalcRatio.
  apply shows_elim in Sx as Sx'. destruct Sx' as (_ & X1 & X2 & _). rewrite X1, X2.
  rewrite (for2_bits (fun u i j => let* b0 := UnsafeGet x i j in Ok (if Bool.eqb b0 true then dadd u (dz 1) else u))
             (fun u b0 => Ok (if Bool.eqb b0 true then dadd u (dz 1) else u)) (axor A B)).
  - assert (T : forall l u, exists y, for_each l u (fun u b0 => Ok (if Bool.eqb b0 true then dadd u (dz 1) else u)) = Ok y).
    { induction l as [|c l IH]; intros u; [eexists; reflexivity|]. cbn [for_each]. apply IH. }
    destruct (T (abits (axor A B)) (dz 0)) as (y & ->).
    destruct (deq _ _); eexists; reflexivity.
  - intros u i j Hi Hj. rewrite (shows_UnsafeGet x _ i j Sx Hi Hj). reflexivity.
Qed.

(** 3 of 10 cells differ: the score is the double 0.7. *)
Example C12_example : exists a b, SetRange (BM_ctor infinite_memory 2 5) 0 1 0 3 true = Ok b /\
  a = BM_ctor infinite_memory 2 5 /\
  (let* x := Compare infinite_memory a b in Ok (B2SF x)) = Ok (B2SF (dlit 7 10)).
Proof.
  do 2 eexists. split; [vm_compute; reflexivity|]. split; [reflexivity|]. vm_compute. reflexivity.
Qed.

(** ** C13 *)
Theorem C13_ratios : forall m A, shows m A -> nonempty A -> (Z.of_nat (cell_number A) <= 2 ^ 53)%Z ->
  exists one zero, OneRatio m = Ok one /\ ZeroRatio m = Ok zero /\
    nearest one (INR (cells_equal_to true A) / INR (cell_number A)) /\
    nearest zero (INR (cells_equal_to false A) / INR (cell_number A)) /\
    cells_equal_to true A + cells_equal_to false A = cell_number A.
Proof.
  intros m A S N H.
  destruct (CalcRatio_ok m A true S N H) as (x & E & R).
  destruct (CalcRatio_ok m A false S N H) as (y & E' & R').
  exists x, y. rewrite !INR_IZR_INZ. repeat split; try assumption; try apply R; try apply R'.
  unfold cells_equal_to. rewrite count_both. apply abits_length.
Qed.

Theorem C13_empty_is_nan : forall m A, shows m A -> ~ nonempty A ->
  OneRatio m = Ok B754_nan /\ ZeroRatio m = Ok B754_nan.
Proof. intros m A S N. split; now apply (CalcRatio_empty m A). Qed.

(** Only visible bits count: two objects with the same visible bits have the same ratios. *)
Theorem C13_hidden_bits : forall m m' A, shows m A -> shows m' A ->
  OneRatio m = OneRatio m' /\ ZeroRatio m = ZeroRatio m'.
Proof. intros m m' A S S'. split; apply (CalcRatio_bits m m' A A); try assumption; repeat split. Qed.

Example C13_example : (let* x := OneRatio (mkbm [[xff]; [xa0]] 2 3) in Ok (B2SF x)) = Ok (B2SF (dlit 5 6)) /\
  (let* x := ZeroRatio (mkbm [[xff]; [xa0]] 2 3) in Ok (B2SF x)) = Ok (B2SF (dlit 1 6)).
Proof. run_example. Qed.

(** ** C67 *)
Theorem C67_byte_coefficient : forall s, s <> [] -> (Z.of_nat (length s) <= 2 ^ 49)%Z ->
  exists e x, Rle_ByteEncode s = Ok e /\ 0 < length e /\ Rle_CoeffStr s true = Ok x /\
    nearest x (INR (length s) / INR (length e)).
Proof.
  intros s N H. destruct (ByteEncode_ok s N) as (e & E & Q & L).
  exists e. unfold Rle_CoeffStr. rewrite (proj2 (Nat.eqb_neq _ _)) by (destruct s; [congruence|cbn [length]; lia]).
  rewrite E. cbn [bind]. eexists. split; [reflexivity|]. split; [lia|]. split; [reflexivity|].
  rewrite !INR_IZR_INZ. apply (dlit_ok (Z.of_nat (length s)) (Z.of_nat (length e))); lia.
Qed.

(** Without byte interpretation the encoder is a stub that returns the empty string: the
    coefficient of every non-empty string is +infinity. *)
Theorem C67_string_coefficient : forall s,
  (s <> [] -> (Z.of_nat (length s) <= 2 ^ 53)%Z -> Rle_CoeffStr s false = Ok (B754_infinity false)) /\
  (forall b, Rle_CoeffStr [] b = Ok (dz 0)).
Proof.
  intros s. split; [|reflexivity]. intros N H. unfold Rle_CoeffStr.
  rewrite (proj2 (Nat.eqb_neq _ _)) by (destruct s; [congruence|cbn [length]; lia]).
  change (dz (Z.of_nat (length (Rle_EncodeStr s)))) with (B754_zero false : double).
  destruct (dz_exact (Z.of_nat (length s)) ltac:(lia)) as (F & V).
  assert (P : (0 < IZR (Z.of_nat (length s)))%R) by (apply IZR_lt; destruct s; [congruence|cbn [length]; lia]).
  destruct (dz (Z.of_nat (length s))) as [b|b| |b m e Hb]; try discriminate.
  - cbn in V. lra.
  - destruct b; [|reflexivity]. exfalso. rewrite <- V in P.
    pose proof (F2R_lt_0 radix2 (Float radix2 (Zneg m) e) ltac:(reflexivity)) as G.
    cbn [B2R cond_Zopp Z.opp] in P. lra.
Qed.

(** The coefficient of a matrix: serialized size over run-length size. *)
Theorem C67_matrix_coefficient : forall al m A, shows m A -> nonempty A -> memory_ok al (arows A) (acols A) ->
  (Z.of_nat (arows A * acols A) <= 2 ^ 52)%Z ->
  exists e x, Rle_Encode al m = Ok e /\ 0 < length e /\ Rle_CoeffMatrix al m = Ok x /\
    nearest x (INR (18 + arows A * acols A / 8) / INR (length e)).
Proof.
  intros al m A S N M H. destruct (Rle_Encode_ok al m A S N M) as (e & E & X & L).
  destruct (Serialize_ok m A S N) as (out & Es & _).
  match type of Es with Serialize m = Ok ?t => pose (s := t); change (Serialize m = Ok s) in Es end.
  pose proof (C15_serialize_length m A s S N Es) as Ls. clearbody s.
  exists e. unfold Rle_CoeffMatrix. rewrite (LM_not_ok al m A S M).
  destruct N as (N1 & N2). rewrite (proj2 (Nat.eqb_neq _ _)), (proj2 (Nat.eqb_neq _ _)) by lia. cbn [orb].
  rewrite Es. cbn [bind]. rewrite E. cbn [bind]. eexists. split; [reflexivity|]. split; [lia|]. split; [reflexivity|].
  rewrite Ls, !INR_IZR_INZ.
  apply (dlit_ok (Z.of_nat (18 + arows A * acols A / 8)) (Z.of_nat (length e))); [|lia].
  pose proof (Nat.div_le_upper_bound (arows A * acols A) 8 (arows A * acols A) ltac:(lia) ltac:(lia)). lia.
Qed.

Theorem C67_empty_matrix : forall al m A, shows m A -> ~ nonempty A -> memory_ok al (arows A) (acols A) ->
  Rle_CoeffMatrix al m = Ok (dz 0).
Proof.
  intros al m A S N M. unfold Rle_CoeffMatrix. rewrite (LM_not_ok al m A S M).
  assert ((arows A =? 0) || (acols A =? 0) = true) as ->; [|reflexivity].
  unfold nonempty in N. lia.
Qed.

Example C67_example : (let* x := Rle_CoeffStr (repeat x00 100) true in Ok (B2SF x)) = Ok (B2SF (dlit 100 7)) /\
  (let* x := Rle_CoeffMatrix infinite_memory (BM_ctor infinite_memory 10 20) in Ok (B2SF x)) = Ok (B2SF (dlit 43 2)).
Proof. run_example. Qed.

Print Assumptions C11_equality.
Print Assumptions C11_unequal_or_empty.
Print Assumptions C11_empty_is_not_equal_to_itself.
Print Assumptions C11_equality_is_bit_equality_refuted.
Print Assumptions C11_eq_and_ne_overlap.
Print Assumptions C11_equality_is_transitive_refuted.
Print Assumptions C12_symmetric.
Print Assumptions C12_score.
Print Assumptions C12_minus_one.
Print Assumptions C12_total.
Print Assumptions C13_ratios.
Print Assumptions C13_empty_is_nan.
Print Assumptions C13_hidden_bits.
Print Assumptions C67_byte_coefficient.
Print Assumptions C67_string_coefficient.
Print Assumptions C67_matrix_coefficient.
Print Assumptions C67_empty_matrix.
