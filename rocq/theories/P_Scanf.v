(** Lemmas about the sscanf model. *)
From Verif Require Import Prelude P_Prelude M_LayoutData S_Converter M_Scanf S_Msk.
Local Open Scope Z_scope.

Lemma isspace_white c : isspace c = true <-> white c.
Proof. unfold isspace, white. pose proof (b2z_range c). split; intros; lia. Qed.
Lemma isspace_not c : isspace c = false <-> ~ white c.
Proof. rewrite <- isspace_white. destruct (isspace c); split; congruence. Qed.

Lemma digits_nonempty s n : digits s n -> s <> [].
Proof. destruct 1; [discriminate|]. intros Q. apply app_eq_nil in Q. destruct Q; discriminate. Qed.
Lemma digits_all s n : digits s n -> Forall (fun c => isdigit c = true) s.
Proof.
  induction 1 as [c v Hv E|s n c v D IH Hv E].
  - repeat constructor. unfold isdigit. lia.
  - apply Forall_app. split; [exact IH|]. repeat constructor. unfold isdigit. lia.
Qed.
Lemma digits_value s n : digits s n -> decimal s = n.
Proof.
  induction 1 as [c v Hv E|s n c v D IH Hv E]; unfold decimal in *.
  - cbn [fold_left]. lia.
  - rewrite fold_left_app. cbn [fold_left]. lia.
Qed.
Lemma digits_nonneg s n : digits s n -> 0 <= n.
Proof. induction 1; lia. Qed.

Lemma skip_white ws s : Forall white ws -> skip_space (ws ++ s) = skip_space s.
Proof. induction 1 as [|c t Hc _ IH]; [reflexivity|]. cbn [app skip_space]. apply isspace_white in Hc. rewrite Hc. exact IH. Qed.
Lemma skip_stop c t : ~ white c -> skip_space (c :: t) = c :: t.
Proof. intros H. apply isspace_not in H. cbn [skip_space]. rewrite H. reflexivity. Qed.
Lemma skip_all ws : Forall white ws -> skip_space ws = [].
Proof. intros H. rewrite <- (app_nil_r ws), skip_white by exact H. reflexivity. Qed.

Lemma span_all p a b : Forall (fun c => p c = true) a -> match b with [] => True | c :: _ => p c = false end -> span p (a ++ b) = (a, b).
Proof.
  intros Ha Hb. induction Ha as [|c t Hc _ IH]; cbn [app].
  - destruct b as [|c b]; [reflexivity|]. cbn [span]. rewrite Hb. reflexivity.
  - cbn [span]. rewrite Hc, IH. reflexivity.
Qed.

Lemma not_digit_white c : isdigit c = true -> ~ white c.
Proof. unfold isdigit, white. lia. Qed.

(** What follows a number *)
Definition no_digit (s : list byte) : Prop := match s with [] => True | c :: _ => isdigit c = false end.

Lemma scan_numeral ds s z rest acc : numeral s z -> no_digit rest ->
  scan (DInt :: ds) (s ++ rest) acc =
  if (- 2 ^ 31 <=? z) && (z <? 2 ^ 31) then scan ds rest (acc ++ [VInt z]) else UB Unparsable.
Proof.
  intros (ws & sg & dg & n & Hws & Hd & -> & Hz) Hr. cbn [scan].
  rewrite <- !app_assoc, skip_white by exact Hws.
  pose proof (digits_nonempty _ _ Hd) as Hn. pose proof (digits_all _ _ Hd) as Ha. pose proof (digits_value _ _ Hd) as Hv.
  destruct dg as [|d dg]; [congruence|]. clear Hn.
  assert (Hd0 : isdigit d = true) by (inversion Ha; assumption).
  assert (Sp : span isdigit ((d :: dg) ++ rest) = (d :: dg, rest)) by (apply span_all; assumption).
  destruct Hz as [(-> & ->)|[(-> & ->)|(-> & ->)]].
  - cbn [app]. rewrite skip_stop by (apply not_digit_white, Hd0).
    assert (sign (d :: dg ++ rest) = (false, (d :: dg) ++ rest)) as ->.
    { cbn [sign]. unfold isdigit in Hd0.
      assert (beqb d "-" = false) as -> by (apply beqb_neq; intros ->; discriminate).
      assert (beqb d "+" = false) as -> by (apply beqb_neq; intros ->; discriminate). reflexivity. }
    rewrite Sp, Hv. reflexivity.
  - change (lit "+" ++ (d :: dg) ++ rest) with (("+"%byte : byte) :: (d :: dg) ++ rest).
    rewrite skip_stop by (unfold white; cbn; lia).
    change (sign (("+"%byte : byte) :: (d :: dg) ++ rest)) with (false, (d :: dg) ++ rest). cbv beta iota. rewrite Sp, Hv. reflexivity.
  - change (lit "-" ++ (d :: dg) ++ rest) with (("-"%byte : byte) :: (d :: dg) ++ rest).
    rewrite skip_stop by (unfold white; cbn; lia).
    change (sign (("-"%byte : byte) :: (d :: dg) ++ rest)) with (true, (d :: dg) ++ rest). cbv beta iota. rewrite Sp, Hv. reflexivity.
Qed.

Lemma scan_number ds s z rest acc : number s z -> no_digit rest -> scan (DInt :: ds) (s ++ rest) acc = scan ds rest (acc ++ [VInt z]).
Proof.
  intros (Hs & Hz) Hr. rewrite (scan_numeral ds s z rest acc Hs Hr).
  unfold int32 in Hz. assert ((- 2 ^ 31 <=? z) && (z <? 2 ^ 31) = true) as -> by lia. reflexivity.
Qed.

Lemma scan_lit p ds rest acc : scan (map DLit p ++ ds) (p ++ rest) acc = scan ds rest acc.
Proof. induction p as [|c p IH]; [reflexivity|]. cbn [map app scan]. rewrite beqb_refl. exact IH. Qed.
Lemma scan_lit1 b ds rest acc : scan (DLit b :: ds) (b :: rest) acc = scan ds rest acc.
Proof. apply (scan_lit [b]). Qed.

Definition stops (s : list byte) : Prop := match s with [] => True | c :: _ => white c end.

Lemma scan_str ds ws w rest acc : Forall white ws -> word w -> w <> [] -> stops rest ->
  scan (DStr :: ds) (ws ++ w ++ rest) acc = scan ds rest (acc ++ [VStr w]).
Proof.
  intros Hws Hw Hn Hr. cbn [scan]. rewrite skip_white by exact Hws.
  destruct w as [|c w]; [congruence|]. pose proof Hw as Hw'. inversion Hw' as [|? ? (Hc & _) _]; subst.
  cbn [app]. rewrite skip_stop by exact Hc. change (c :: w ++ rest) with ((c :: w) ++ rest). cbn [app].
  change (c :: w ++ rest) with ((c :: w) ++ rest). rewrite span_all; [reflexivity| |].
  - apply Forall_forall. intros x Hx. unfold word in Hw. rewrite Forall_forall in Hw. destruct (Hw x Hx) as (Q & _).
    apply isspace_not in Q. rewrite Q. reflexivity.
  - destruct rest as [|x rest]; [exact I|]. cbn in Hr. apply isspace_white in Hr. rewrite Hr. reflexivity.
Qed.

(** c_str *)
Lemma c_str_app a b : ~ In x00 a -> c_str (a ++ b) = a ++ c_str b.
Proof.
  unfold c_str. induction a as [|c a IH]; intros H; [reflexivity|]. cbn [app span].
  assert (beqb c x00 = false) as -> by (apply beqb_neq; intros ->; apply H; left; reflexivity).
  cbn [negb]. specialize (IH (fun Q => H (or_intror Q))).
  destruct (span (fun c => negb (beqb c x00)) (a ++ b)) as [u v]. cbn [fst] in *. rewrite IH. reflexivity.
Qed.
Lemma c_str_id a : ~ In x00 a -> c_str a = a.
Proof. intros H. rewrite <- (app_nil_r a) at 1. rewrite c_str_app by exact H. cbn. apply app_nil_r. Qed.
Lemma c_str_stops rest : ends_word rest -> stops (c_str rest).
Proof.
  intros [->|(c & t & -> & [Hc| ->])]; [exact I| |exact I].
  unfold c_str. cbn [span]. assert (beqb c x00 = false) as -> by (apply beqb_neq; intros ->; unfold white in Hc; cbn in Hc; lia).
  cbn [negb]. destruct (span (fun c => negb (beqb c x00)) t). exact Hc.
Qed.

Lemma white_no_nul ws : Forall white ws -> ~ In x00 ws.
Proof. intros H Q. rewrite Forall_forall in H. apply H in Q. unfold white in Q. cbn in Q. lia. Qed.
Lemma numeral_no_nul s z : numeral s z -> ~ In x00 s.
Proof.
  intros (ws & sg & ds & n & Hws & Hd & -> & Hz) Q. rewrite !in_app_iff in Q. destruct Q as [Q|[Q|Q]].
  - exact (white_no_nul ws Hws Q).
  - destruct Hz as [(-> & _)|[(-> & _)|(-> & _)]]; cbn in Q; intuition discriminate.
  - apply digits_all in Hd. rewrite Forall_forall in Hd. apply Hd in Q. discriminate.
Qed.
Lemma word_no_nul w : word w -> ~ In x00 w.
Proof. intros H Q. unfold word in H. rewrite Forall_forall in H. apply H in Q. destruct Q. congruence. Qed.
Lemma lit_no_nul s : forallb (fun c => negb (beqb c x00)) (lit s) = true -> ~ In x00 (lit s).
Proof. intros H Q. rewrite forallb_forall in H. apply H in Q. discriminate. Qed.

Lemma scan_first_mismatch b ds c t acc : c <> b -> scan (DLit b :: ds) (c :: t) acc = Ok (acc, false).
Proof. intros H. cbn [scan]. apply beqb_neq in H. rewrite H. reflexivity. Qed.
