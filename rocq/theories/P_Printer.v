(** Lemmas about printed rectangles. *)
From Coq Require Import Lia.
From Verif Require Import Prelude P_Prelude M_LayoutData S_Msk M_Scanf P_Scanf M_Printer S_Printer.
Local Open Scope Z_scope.

Lemma put_digits_ok f : forall n, 0 <= n < 10 ^ Z.of_nat f -> (0 < f)%nat -> digits (put_digits f n) n /\ (hd_error (put_digits f n) = Some "0"%byte -> n = 0).
Proof.
  induction f as [|f IH]; intros n H F; [lia|]. cbn [put_digits].
  assert (DG : forall v, 0 <= v <= 9 -> b2z (z2b (48 + v)) = 48 + v) by (intros v Hv; apply b2z_z2b_small; lia).
  destruct (Z.ltb_spec n 10) as [L|L].
  - split; [apply digits_one; [lia|apply DG; lia]|]. cbn [hd_error]. intros E.
    assert (Q : b2z (z2b (48 + n)) = b2z "0"%byte) by congruence. rewrite DG in Q by lia. change (b2z "0"%byte) with 48 in Q. lia.
  - rewrite Nat2Z.inj_succ, Z.pow_succ_r in H by lia.
    assert (D : 0 <= n / 10 < 10 ^ Z.of_nat f) by (split; [apply Z.div_pos; lia|apply Z.div_lt_upper_bound; lia]).
    assert (D1 : 1 <= n / 10) by (apply Z.div_le_lower_bound; lia).
    assert (F' : (0 < f)%nat) by (destruct f; [change (10 ^ Z.of_nat 0) with 1 in D; lia|lia]).
    destruct (IH (n / 10) D F') as (I1 & I2). pose proof (Z.mod_pos_bound n 10 ltac:(lia)) as M. split.
    + rewrite (Z.div_mod n 10) at 3 by lia. apply digits_more; [exact I1|lia|apply DG; lia].
    + pose proof (digits_nonempty _ _ I1) as N. destruct (put_digits f (n / 10)) as [|c t]; [congruence|]. cbn [app hd_error] in *.
      intros E. specialize (I2 E). lia.
Qed.

Lemma put_int_plain z : int32 z -> plain (put_int z) z.
Proof.
  intros H. unfold int32 in H. unfold put_int, plain.
  assert (B : 0 <= Z.abs z < 10 ^ Z.of_nat 20) by (change (10 ^ Z.of_nat 20) with 100000000000000000000; lia).
  destruct (put_digits_ok 20 (Z.abs z) B ltac:(lia)) as (D & N).
  exists (put_digits 20 (Z.abs z)). split; [exact D|]. split.
  - intros E. specialize (N E). assert (Z0 : z = 0) by lia. split; [exact Z0|]. rewrite Z0. reflexivity.
  - destruct (Z.ltb_spec z 0); [replace (- z) with (Z.abs z) by lia|replace (put_digits 20 z) with (put_digits 20 (Z.abs z)) by (f_equal; lia)]; reflexivity.
Qed.

(** characters of a number *)
Definition numchar (c : byte) : Prop := 48 <= b2z c <= 57 \/ b2z c = 45.
Lemma plain_chars t z : plain t z -> Forall numchar t.
Proof.
  intros (ds & D & _ & ->). apply digits_all in D.
  assert (F : Forall numchar ds). { eapply Forall_impl; [|exact D]. intros c Q. unfold isdigit in Q. left. lia. }
  destruct (z <? 0); [|exact F]. apply Forall_app. split; [|exact F]. constructor; [right; reflexivity|constructor].
Qed.
Lemma plain_fun t z z' : plain t z -> plain t z' -> z = z'.
Proof.
  intros (ds & D & _ & E) (ds' & D' & _ & E').
  assert (M : forall x n s, digits x n -> x = lit "-" ++ s -> False).
  { intros x n s Q R. apply digits_all in Q. rewrite R in Q. inversion Q as [|c l Qc Ql]. discriminate Qc. }
  pose proof (digits_value _ _ D) as V. pose proof (digits_value _ _ D') as V'.
  destruct (Z.ltb_spec z 0) as [L|L]; destruct (Z.ltb_spec z' 0) as [L'|L']; rewrite E in E'; clear E.
  - apply app_inv_head in E'. rewrite E' in V. lia.
  - exfalso. apply (M ds' _ ds D'). symmetry. exact E'.
  - exfalso. apply (M ds _ ds' D). exact E'.
  - rewrite E' in V. lia.
Qed.

Lemma split_num a b c r s : Forall numchar a -> Forall numchar b -> ~ numchar c -> a ++ c :: r = b ++ c :: s -> a = b /\ r = s.
Proof.
  intros Fa. revert b. induction Fa as [|x a Hx Fa IH]; intros b Fb N E; destruct Fb as [|y b Hy Fb]; cbn [app] in E.
  - injection E as E. split; [reflexivity|exact E].
  - exfalso. assert (c = y) by congruence. subst y. exact (N Hy).
  - exfalso. assert (c = x) by congruence. subst x. exact (N Hx).
  - assert (X : x = y) by congruence. assert (E' : a ++ c :: r = b ++ c :: s) by congruence.
    destruct (IH b Fb N E') as (-> & ->). subst y. split; reflexivity.
Qed.

Lemma plain_next a b za zb c r s : plain a za -> plain b zb -> ~ numchar c -> a ++ c :: r = b ++ c :: s -> za = zb /\ r = s.
Proof.
  intros P Q N E. destruct (split_num a b c r s (plain_chars _ _ P) (plain_chars _ _ Q) N E) as (-> & ->).
  split; [exact (plain_fun _ _ _ P Q)|reflexivity].
Qed.

Lemma comma_not : ~ numchar ","%byte. Proof. intros [H|H]; vm_compute in H; [destruct H as (H & _); apply H; reflexivity|discriminate H]. Qed.
Lemma brace_not : ~ numchar "}"%byte. Proof. intros [H|H]; vm_compute in H; [destruct H as (_ & H); apply H; reflexivity|discriminate H]. Qed.
Lemma nl_not : ~ numchar x0a. Proof. intros [H|H]; vm_compute in H; [destruct H as (H & _); apply H; reflexivity|discriminate H]. Qed.

Lemma pair_next p q c d r s : plain_pair p c -> plain_pair q d -> p ++ r = q ++ s -> c = d /\ r = s.
Proof.
  intros (a & b & A & B & ->) (a' & b' & A' & B' & ->) E. rewrite <- !app_assoc in E. apply app_inv_head in E.
  change (lit ", ") with [","%byte; " "%byte] in E. change (lit "}") with ["}"%byte] in E. cbn [app] in E.
  destruct (plain_next _ _ _ _ _ _ _ A A' comma_not E) as (X & E1).
  assert (E2 : b ++ "}"%byte :: r = b' ++ "}"%byte :: s) by congruence.
  destruct (plain_next _ _ _ _ _ _ _ B B' brace_not E2) as (Y & E3). split; [|exact E3].
  destruct c as [c1 c2], d as [d1 d2]. cbn [cx cy] in X, Y. congruence.
Qed.

Lemma indent_next n m c r s : c <> " "%byte -> repeat " "%byte n ++ c :: r = repeat " "%byte m ++ c :: s -> n = m.
Proof.
  intros N. revert m. induction n as [|n IH]; intros [|m] E; cbn [repeat app] in E; [reflexivity|congruence|congruence|].
  f_equal. apply IH. congruence.
Qed.

Lemma text_tells d ly ty mn mx lt rb d' ly' ty' mn' mx' lt' rb' t :
  rectangle_text d ly ty mn mx lt rb t -> rectangle_text d' ly' ty' mn' mx' lt' rb' t ->
  d = d' /\ ly = ly' /\ ty = ty' /\ mn = mn' /\ mx = mx' /\ lt = lt' /\ rb = rb'.
Proof.
  intros (a1 & a2 & a3 & a4 & a5 & a6 & A1 & A2 & A3 & A4 & A5 & A6 & E) (b1 & b2 & b3 & b4 & b5 & b6 & B1 & B2 & B3 & B4 & B5 & B6 & E').
  rewrite E' in E. clear E' t. unfold line in E. rewrite <- !app_assoc in E.
  assert (D : (4 * d' = 4 * d)%nat). { change (lit "Rectangle{") with ("R"%byte :: lit "ectangle{") in E. cbn [app] in E. eapply indent_next; [|exact E]. discriminate. }
  assert (d' = d) by lia. subst d'. clear D.
  apply app_inv_head in E. apply app_inv_head in E. apply app_inv_head in E.
  apply app_inv_head in E. apply app_inv_head in E. apply app_inv_head in E.
  apply app_inv_head in E. apply app_inv_head in E. 
  destruct (plain_next _ _ _ _ _ _ _ B1 A1 nl_not E) as (Q1 & E1).
  apply app_inv_head in E1. apply app_inv_head in E1. destruct (pair_next _ _ _ _ _ _ B3 A3 E1) as (Q3 & E3).
  apply app_inv_head in E3. apply app_inv_head in E3. apply app_inv_head in E3. destruct (pair_next _ _ _ _ _ _ B4 A4 E3) as (Q4 & E4).
  apply app_inv_head in E4. apply app_inv_head in E4. apply app_inv_head in E4. apply app_inv_head in E4.
  apply app_inv_head in E4. apply app_inv_head in E4. apply app_inv_head in E4. apply app_inv_head in E4. apply app_inv_head in E4.
  destruct (plain_next _ _ _ _ _ _ _ B2 A2 nl_not E4) as (Q2 & E2).
  apply app_inv_head in E2. apply app_inv_head in E2. destruct (pair_next _ _ _ _ _ _ B5 A5 E2) as (Q5 & E5).
  apply app_inv_head in E5. apply app_inv_head in E5. apply app_inv_head in E5. destruct (pair_next _ _ _ _ _ _ B6 A6 E5) as (Q6 & _).
  repeat (split; [congruence|]). congruence.
Qed.

Lemma put_pair c : coord32 c -> plain_pair (lit "{" ++ put_int (cx c) ++ lit ", " ++ put_int (cy c) ++ lit "}") c.
Proof. intros (X & Y). exists (put_int (cx c)), (put_int (cy c)). split; [now apply put_int_plain|]. split; [now apply put_int_plain|reflexivity]. Qed.

Lemma print_rectangle g d ly ty mn mx lt rb : rectangle_object g ly ty mn mx lt rb ->
  exists t, PrintGeometry (Some g) d = Ok (t, []) /\ rectangle_text d ly ty mn mx lt rb t.
Proof.
  intros (T & C & <- & <- & <- & L & R & H1 & H2 & H3 & H4 & H5 & H6). unfold PrintGeometry. rewrite T. unfold InPrintRectangle. rewrite T, C.
  cbn [gt_eqb negb]. unfold at_. rewrite L, R. cbn [bind]. eexists. split; [reflexivity|].
  exists (put_int (g_layer g)), (put_int ty), (lit "{" ++ put_int (cx (g_min g)) ++ lit ", " ++ put_int (cy (g_min g)) ++ lit "}"),
    (lit "{" ++ put_int (cx (g_max g)) ++ lit ", " ++ put_int (cy (g_max g)) ++ lit "}"),
    (lit "{" ++ put_int (cx lt) ++ lit ", " ++ put_int (cy lt) ++ lit "}"), (lit "{" ++ put_int (cx rb) ++ lit ", " ++ put_int (cy rb) ++ lit "}").
  split; [now apply put_int_plain|]. split; [now apply put_int_plain|].
  split; [now apply put_pair|]. split; [now apply put_pair|]. split; [now apply put_pair|]. split; [now apply put_pair|].
  unfold InGetGeometryDataStr, line, spaces, nl.
  replace (4 * (d + 1))%nat with (4 * d + 4)%nat by lia. replace (4 * d + 4 + 2)%nat with (4 * d + 6)%nat by lia.
  change (lit "Min = {") with (lit "Min = " ++ lit "{"). change (lit "Max = {") with (lit "Max = " ++ lit "{").
  change (lit "LeftTop = {") with (lit "LeftTop = " ++ lit "{"). change (lit "RightBot = {") with (lit "RightBot = " ++ lit "{").
  change (repeat " "%byte 0 ++ [] ++ [x0a]) with [x0a]. rewrite <- !app_assoc. reflexivity.
Qed.
