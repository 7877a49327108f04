(** Lemmas about loops with a run-time condition. *)
From Verif Require Import Prelude M_Loop.

Section Iter.
Context {S R : Type}.
Implicit Types (f : S -> step S R) (s : S).

Lemma iter_nat_add n k f s : iter_nat (n + k) f s =
  match iter_nat n f s with Next s1 => iter_nat k f s1 | Stop r => Stop r end.
Proof.
  revert s. induction n as [|n IH]; intros s; cbn [iter_nat Nat.add]; [reflexivity|].
  destruct (f s); [apply IH|reflexivity].
Qed.

Lemma iter_pos_nat p f s : iter_pos p f s = iter_nat (Pos.to_nat p) f s.
Proof.
  revert s. induction p as [p IH|p IH|]; intros s; cbn [iter_pos].
  - rewrite Pos2Nat.inj_xI. cbn [iter_nat]. destruct (f s) as [s1|r]; [|reflexivity].
    replace (2 * Pos.to_nat p) with (Pos.to_nat p + Pos.to_nat p) by lia.
    rewrite iter_nat_add, <- IH. destruct (iter_pos p f s1); [apply IH|reflexivity].
  - rewrite Pos2Nat.inj_xO. replace (2 * Pos.to_nat p) with (Pos.to_nat p + Pos.to_nat p) by lia.
    rewrite iter_nat_add, <- IH. destruct (iter_pos p f s); [apply IH|reflexivity].
  - change (Pos.to_nat 1) with 1. cbn [iter_nat]. destruct (f s); reflexivity.
Qed.

(** A loop that stops within n iterations. *)
Lemma loop_stops f d s n r : (Z.of_nat n <= 2 ^ 64)%Z -> iter_nat n f s = Stop r -> loop f d s = r.
Proof.
  intros H E. unfold loop. rewrite iter_pos_nat.
  assert (P : Pos.to_nat loop_bound = n + (Pos.to_nat loop_bound - n)).
  { assert (Z.of_nat (Pos.to_nat loop_bound) = 2 ^ 64)%Z by (rewrite positive_nat_Z; reflexivity). lia. }
  rewrite P, iter_nat_add, E. reflexivity.
Qed.

(** Partial correctness. *)
Lemma loop_safe (J : S -> Prop) (Q : R -> Prop) f d s :
  J s ->
  (forall s, J s -> match f s with Next s' => J s' | Stop r => Q r end) ->
  (forall s, J s -> Q (d s)) ->
  Q (loop f d s).
Proof.
  intros HJ HF HD. unfold loop. rewrite iter_pos_nat. generalize (Pos.to_nat loop_bound). intros n.
  revert s HJ. induction n as [|n IH]; intros s HJ; cbn [iter_nat]; [now apply HD|].
  specialize (HF s HJ). destruct (f s); [now apply IH|exact HF].
Qed.
End Iter.
