(** Row-major traversal of an r x c array: nested loops are one loop over the list of cells. *)
From Verif Require Import Prelude P_Prelude M_BitMatrix S_Matrix.

Definition cells (r c : nat) : list (nat * nat) := list_prod (seq 0 r) (seq 0 c).

Lemma cells_length r c : length (cells r c) = r * c.
Proof. unfold cells. rewrite prod_length, !seq_length. reflexivity. Qed.

Lemma for_each_map {S A B} (g : A -> B) (l : list A) (s : S) f :
  for_each (map g l) s f = for_each l s (fun s x => f s (g x)).
Proof. revert s. induction l; intro; cbn; [reflexivity|]. destruct (f s (g a)); auto. Qed.

Lemma for2_cells {S} (body : S -> nat -> nat -> res S) r c s :
  for_each (upto 0 r) s (fun s i => for_each (upto 0 c) s (fun s j => body s i j)) =
  for_each (cells r c) s (fun s p => body s (fst p) (snd p)).
Proof.
  unfold upto, cells. rewrite !Nat.sub_0_r. generalize (seq 0 r) as R. intro R. revert s.
  induction R as [|i R IH]; intro s; [reflexivity|].
  cbn [for_each list_prod]. rewrite for_each_app, for_each_map. cbn [fst snd].
  destruct (for_each (seq 0 c) s (fun s j => body s i j)); auto.
Qed.

Lemma cells_S r c : cells (S r) c = cells r c ++ map (pair r) (seq 0 c).
Proof.
  unfold cells. rewrite seq_S. cbn [Nat.add].
  generalize (seq 0 r) as l. induction l as [|x l IH]; cbn [app list_prod].
  - rewrite app_nil_r. reflexivity.
  - rewrite IH, app_assoc. reflexivity.
Qed.

Lemma cells_nth r c k : k < r * c -> nth_error (cells r c) k = Some (k / c, k mod c).
Proof.
  induction r as [|r IH]; intro H; [lia|].
  rewrite cells_S. destruct (lt_dec k (r * c)) as [L|L].
  - rewrite nth_error_app1 by (rewrite cells_length; exact L). apply IH. exact L.
  - rewrite nth_error_app2 by (rewrite cells_length; lia). rewrite cells_length.
    assert (k - r * c < c) as Hk by nia.
    rewrite nth_error_map. 
    assert (nth_error (seq 0 c) (k - r * c) = Some (k - r * c)) as ->.
    { rewrite (nth_error_nth' _ 0) by (rewrite seq_length; exact Hk). rewrite seq_nth by exact Hk. reflexivity. }
    cbn [option_map].
    assert (k / c = r) as -> by (symmetry; apply (Nat.div_unique k c r (k - r * c)); lia).
    assert (k mod c = k - r * c) as -> by (symmetry; apply (Nat.mod_unique k c r (k - r * c)); lia).
    reflexivity.
Qed.

Lemma cells_split r c pre i j post : cells r c = pre ++ (i, j) :: post ->
  i < r /\ j < c /\ length pre = i * c + j.
Proof.
  intro E. assert (length pre < r * c) as L.
  { rewrite <- cells_length, E, app_length. cbn. lia. }
  pose proof (cells_nth r c (length pre) L) as N. rewrite E in N.
  rewrite nth_error_app2, Nat.sub_diag in N by lia. cbn in N. injection N as Ei Ej.
  assert (0 < c) as Hc by nia.
  split; [|split].
  - rewrite Ei. apply Nat.div_lt_upper_bound; lia.
  - rewrite Ej. apply Nat.mod_upper_bound. lia.
  - rewrite Ei, Ej. rewrite (Nat.div_mod (length pre) c) at 1 by lia. lia.
Qed.

Lemma abits_cells A : abits A = map (fun p => acell A (fst p) (snd p)) (cells (arows A) (acols A)).
Proof.
  unfold abits, cells. generalize (seq 0 (arows A)) as l.
  induction l as [|x l IH]; [reflexivity|]. cbn [flat_map list_prod].
  rewrite map_app, map_map, IH. reflexivity.
Qed.

Lemma abits_length A : length (abits A) = arows A * acols A.
Proof. rewrite abits_cells, map_length. apply cells_length. Qed.

Lemma abits_nth A i j : i < arows A -> j < acols A ->
  nth_error (abits A) (i * acols A + j) = Some (acell A i j).
Proof.
  intros Hi Hj. rewrite abits_cells, nth_error_map, cells_nth by nia. cbn [option_map fst snd].
  assert ((i * acols A + j) / acols A = i) as -> by (symmetry; apply (Nat.div_unique _ _ i j); lia).
  assert ((i * acols A + j) mod acols A = j) as -> by (symmetry; apply (Nat.mod_unique _ _ i j); lia).
  reflexivity.
Qed.

Lemma abits_same A B : arows A = arows B -> acols A = acols B -> abits A = abits B -> asame A B.
Proof.
  intros Er Ec E. split; [exact Er|]. split; [exact Ec|]. intros i j Hi Hj.
  assert (Some (acell A i j) = Some (acell B i j)) as S; [|congruence].
  rewrite <- !abits_nth by congruence. rewrite E, Ec. reflexivity.
Qed.

Lemma same_abits A B : asame A B -> abits A = abits B.
Proof.
  intros (Er & Ec & H). rewrite !abits_cells, <- Er, <- Ec. apply map_ext_in.
  intros (i, j) Hin. cbn [fst snd]. apply in_prod_iff in Hin. rewrite !in_seq in Hin.
  apply H; lia.
Qed.

(** Reading loops: a nested loop whose body only uses the cell's value is a loop over the bits. *)
Lemma for2_bits {S} (body : S -> nat -> nat -> res S) (h : S -> bool -> res S) A s :
  (forall s i j, i < arows A -> j < acols A -> body s i j = h s (acell A i j)) ->
  for_each (upto 0 (arows A)) s (fun s i => for_each (upto 0 (acols A)) s (fun s j => body s i j)) =
  for_each (abits A) s h.
Proof.
  intro H. rewrite for2_cells, abits_cells, for_each_map. apply for_each_ext.
  intros s0 (i, j) Hin. cbn [fst snd]. apply in_prod_iff in Hin. rewrite !in_seq in Hin.
  apply H; lia.
Qed.
