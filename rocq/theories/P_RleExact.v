(** Lemmas for C120. *)
From Verif Require Import Prelude P_Prelude M_ByteHandler M_Vector2D M_BitMatrix S_Matrix P_BitMatrix P_Cells P_Serial P_Vector2D
  M_LayoutCore M_Rle S_Rle P_Rle S_RleExact.
Local Open Scope nat_scope.
Local Ltac Zify.zify_post_hook ::= Z.to_euclidean_division_equations.

Lemma run_byte_kbyte n v : kbyte n v = run_byte v n.
Proof. unfold kbyte, run_byte. f_equal. destruct v; lia. Qed.

Definition flat (rs : list (bool * nat)) : list bool := flat_map (fun r => repeat (fst r) (snd r)) rs.

Inductive alternating : list (bool * nat) -> Prop :=
| alt_nil : alternating []
| alt_one v n : 0 < n -> alternating [(v, n)]
| alt_cons v n n' rs : 0 < n -> alternating ((negb v, n') :: rs) -> alternating ((v, n) :: (negb v, n') :: rs).

Lemma runs_flat l : flat (runs_of l) = l.
Proof.
  induction l as [|b t IH]; [reflexivity|]. cbn [runs_of].
  destruct (runs_of t) as [|(v, n) r].
  - cbn in IH |- *. now rewrite <- IH.
  - destruct (Bool.eqb b v) eqn:E.
    + apply eqb_prop in E. rewrite <- IH, E. reflexivity.
    + rewrite <- IH. reflexivity.
Qed.

Lemma runs_alternate l : alternating (runs_of l).
Proof.
  induction l as [|b t IH]; [constructor|]. cbn [runs_of].
  destruct (runs_of t) as [|(v, n) r]; [constructor; lia|].
  destruct (Bool.eqb b v) eqn:E.
  - inversion IH; subst; constructor; solve [lia|assumption].
  - assert (v = negb b) as -> by (destruct b, v; cbn in *; congruence). constructor; [lia|exact IH].
Qed.

(** One run from its start. *)
Lemma step_same enc v k : k < 126 -> rle_step (enc, v, z2b (Z.of_nat k)) v = Ok (enc, v, z2b (Z.of_nat (S k))).
Proof.
  intros H. unfold rle_step. rewrite eqb_reflx. cbn [bind].
  assert (E : inc8 (z2b (Z.of_nat k)) = z2b (Z.of_nat (S k))).
  { unfold inc8. rewrite b2z_z2b_small by lia. f_equal. lia. }
  rewrite E. destruct (beqb (z2b (Z.of_nat (S k))) g_maxRleCounterValue) eqn:B; [|reflexivity].
  exfalso. apply beqb_eq in B. apply (f_equal b2z) in B. rewrite b2z_z2b_small in B by lia.
  change (b2z g_maxRleCounterValue) with 127%Z in B. lia.
Qed.

Lemma step_full enc v : rle_step (enc, v, z2b 126) v = Ok (enc ++ [run_byte v 127], v, x00).
Proof. unfold rle_step. rewrite eqb_reflx. cbn [bind]. destruct v; reflexivity. Qed.

Lemma step_change enc v k : k < 127 ->
  rle_step (enc, v, z2b (Z.of_nat k)) (negb v) = Ok (enc ++ [run_byte v k], negb v, z2b 1).
Proof.
  intros H. unfold rle_step. replace (Bool.eqb v (negb v)) with false by (destruct v; reflexivity).
  change g_lastBitPos with 7. assert (B : b2z (z2b (Z.of_nat k)) = Z.of_nat k) by (apply b2z_z2b_small; lia).
  rewrite SetBit7 by lia. cbn [bind]. rewrite B, Nat2Z.id, run_byte_kbyte.
  change (beqb x01 g_maxRleCounterValue) with false. reflexivity.
Qed.

Lemma run_loop n : forall enc v k, k < 127 ->
  for_each (repeat v n) (enc, v, z2b (Z.of_nat k)) rle_step =
  Ok (enc ++ repeat (run_byte v 127) ((k + n) / 127), v, z2b (Z.of_nat ((k + n) mod 127))).
Proof.
  induction n as [|n IH]; intros enc v k H.
  - cbn [repeat for_each]. rewrite Nat.add_0_r, Nat.div_small, Nat.mod_small by lia. cbn [repeat]. now rewrite app_nil_r.
  - cbn [repeat for_each]. destruct (Nat.eq_dec k 126) as [->|N].
    + change (z2b (Z.of_nat 126)) with (z2b 126). rewrite step_full.
      change x00 with (z2b (Z.of_nat 0)). rewrite IH by lia.
      replace ((126 + S n) / 127) with (S ((0 + n) / 127)) by lia.
      replace ((126 + S n) mod 127) with ((0 + n) mod 127) by lia.
      cbn [repeat]. rewrite <- app_assoc. reflexivity.
    + rewrite step_same by lia. rewrite IH by lia. replace (S k + n) with (k + S n) by lia. reflexivity.
Qed.

Lemma runs_loop rs : forall enc v n, alternating ((v, n) :: rs) ->
  (let* st := for_each (flat ((v, n) :: rs)) (enc, v, x00) rle_step in rle_finish st)
  = Ok (enc ++ flat_map run_text ((v, n) :: rs)).
Proof.
  induction rs as [|(w, n') rs IH]; intros enc v n A; unfold flat; cbn [flat_map fst snd]; change x00 with (z2b (Z.of_nat 0)).
  - rewrite app_nil_r, run_loop by lia. cbn [bind rle_finish Nat.add].
    change g_lastBitPos with 7. assert (B : b2z (z2b (Z.of_nat (n mod 127))) = Z.of_nat (n mod 127)) by (apply b2z_z2b_small; lia).
    rewrite SetBit7 by lia. cbn [bind]. rewrite B, Nat2Z.id, run_byte_kbyte, app_nil_r.
    unfold run_text. cbn [fst snd]. now rewrite app_assoc.
  - inversion A as [| |? ? ? ? Hn A']; subst. rewrite for_each_app, run_loop by lia. cbn [bind Nat.add].
    assert (Hn' : 0 < n') by (inversion A'; assumption). destruct n' as [|n'']; [lia|].
    specialize (IH (enc ++ run_text (v, n)) (negb v) (S n'') A').
    cbn [flat flat_map fst snd repeat app for_each] in IH |- *.
    rewrite step_change by lia. 
    change x00 with (z2b (Z.of_nat 0)) in IH. rewrite step_same in IH by lia.
    change (z2b (Z.of_nat 1)) with (z2b 1) in IH. unfold flat in IH. cbn [flat_map] in IH.
    unfold run_text at 1 in IH. cbn [fst snd] in IH. rewrite app_assoc in IH. rewrite IH.
    cbn [flat_map]. unfold run_text. cbn [fst snd]. rewrite <- !app_assoc. reflexivity.
Qed.

Lemma encode_bits_exact l v rest : l = v :: rest ->
  (let* st := for_each l ([], v, x00) rle_step in rle_finish st) = Ok (rle_text l).
Proof.
  intros E. unfold rle_text. pose proof (runs_alternate l) as A. pose proof (runs_flat l) as F.
  destruct (runs_of l) as [|(w, n) rs]; [cbn in F; congruence|].
  assert (w = v) as ->.
  { assert (0 < n) by (inversion A; assumption). destruct n; [lia|]. cbn in F. congruence. }
  rewrite <- F at 1. apply (runs_loop rs [] v n A).
Qed.

(** ** Length and optimality *)
Lemma rle_length l : length (rle_text l) = fold_right (fun r a => snd r / 127 + 1 + a) 0 (runs_of l).
Proof.
  unfold rle_text. induction (runs_of l) as [|r rs IH]; [reflexivity|]. cbn [flat_map fold_right].
  rewrite app_length, IH. unfold run_text. rewrite app_length, repeat_length. cbn [length]. lia.
Qed.

Definition cost (rs : list (bool * nat)) : nat := fold_right (fun r a => (snd r + 126) / 127 + a) 0 rs.

Lemma length_cost l : length (rle_text l) = cost (runs_of l) + wasted l.
Proof.
  rewrite rle_length. unfold cost, wasted. induction (runs_of l) as [|r rs IH]; [reflexivity|]. cbn [fold_right filter].
  rewrite IH. destruct (Nat.eqb_spec (snd r mod 127) 0); cbn [length]; lia.
Qed.

Lemma runs_repeat v k l : 0 < k -> exists n rs, runs_of (repeat v k ++ l) = (v, k + n) :: rs /\
  cost (runs_of l) = (n + 126) / 127 + cost rs.
Proof.
  induction k as [|k IH]; intros H; [lia|]. destruct k as [|k].
  - cbn [repeat app runs_of]. destruct (runs_of l) as [|(w, n) rs] eqn:E.
    + exists 0, []. split; reflexivity.
    + destruct (Bool.eqb v w) eqn:B.
      * apply eqb_prop in B. subst. exists n, rs. split; reflexivity.
      * exists 0, ((w, n) :: rs). split; reflexivity.
  - destruct (IH ltac:(lia)) as (n & rs & E & C). exists n, rs. split; [|exact C].
    change (repeat v (S (S k)) ++ l) with (v :: (repeat v (S k) ++ l)). cbn [runs_of]. rewrite E, eqb_reflx. reflexivity.
Qed.

Lemma cost_run b l : cost (runs_of (run b ++ l)) <= 1 + cost (runs_of l).
Proof.
  unfold run. pose proof (b2z_range b). assert (K : Z.to_nat (b2z b mod 128) <= 127) by lia.
  revert K. generalize (Z.to_nat (b2z b mod 128)). intros [|k] K; [cbn [repeat app]; lia|].
  destruct (runs_repeat (Z.testbit (b2z b) 7) (S k) l ltac:(lia)) as (n & rs & E & C). rewrite E, C.
  cbn [cost fold_right snd]. fold (cost rs). lia.
Qed.

Lemma cost_least s : cost (runs_of (expand s)) <= length s.
Proof.
  induction s as [|b s IH]; [cbn; lia|]. change (expand (b :: s)) with (run b ++ expand s). cbn [length].
  pose proof (cost_run b (expand s)). lia.
Qed.

Lemma run_run_byte v n : n < 128 -> run (run_byte v n) = repeat v n.
Proof. intros H. rewrite <- run_byte_kbyte. apply run_kbyte, H. Qed.

Definition tight (r : bool * nat) : list byte :=
  repeat (run_byte (fst r) 127) (snd r / 127) ++ (if snd r mod 127 =? 0 then [] else [run_byte (fst r) (snd r mod 127)]).

Lemma expand_repeat v k : expand (repeat (run_byte v 127) k) = repeat v (127 * k).
Proof.
  induction k as [|k IH]; [reflexivity|]. cbn [repeat]. unfold expand in *. cbn [flat_map]. rewrite IH, run_run_byte by lia.
  rewrite <- repeat_app. f_equal. lia.
Qed.

Lemma tight_ok rs : expand (flat_map tight rs) = flat rs /\ length (flat_map tight rs) = cost rs.
Proof.
  induction rs as [|(v, n) rs (E & L)]; [split; reflexivity|]. cbn [flat_map]. rewrite expand_app, app_length, E, L.
  split.
  - unfold flat. cbn [flat_map fst snd]. f_equal. unfold tight. cbn [fst snd]. rewrite expand_app, expand_repeat.
    destruct (Nat.eqb_spec (n mod 127) 0) as [Z0|Z0].
    + cbn [expand flat_map]. rewrite app_nil_r. f_equal. lia.
    + unfold expand. cbn [flat_map]. rewrite app_nil_r, run_run_byte by lia. rewrite <- repeat_app. f_equal. lia.
  - unfold tight, cost. cbn [fst snd fold_right]. rewrite app_length, repeat_length.
    destruct (Nat.eqb_spec (n mod 127) 0); cbn [length]; lia.
Qed.
