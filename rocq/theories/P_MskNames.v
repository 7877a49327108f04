(** Lemmas about the names the MSK reader gives. *)
From Verif Require Import Prelude P_Prelude M_LayoutData M_Converter M_Scanf M_Msk S_Msk P_Msk P_MskFile P_MskRead S_MskNames.
Local Open Scope Z_scope.
Local Ltac Zify.zify_post_hook ::= Z.to_euclidean_division_equations.

Lemma utf8_char_spec pl c : 0 <= c < 55296 \/ 57344 <= c < 1114112 -> exists b, utf8_char pl c = Ok b /\ utf8_of c b.
Proof.
  intros H. unfold utf8_char.
  destruct ((0 <=? c) && (c <? 128)) eqn:E1; [eexists; split; [reflexivity|]; constructor; lia|].
  destruct ((128 <=? c) && (c <? 2048)) eqn:E2.
  { eexists. split; [reflexivity|]. replace c with (64 * (c / 64) + c mod 64) at 1 by lia. constructor; lia. }
  assert ((55296 <=? c) && (c <? 57344) = false) as -> by lia. cbn [andb].
  destruct ((2048 <=? c) && (c <? 65536)) eqn:E3.
  { eexists. split; [reflexivity|]. assert (Q : c = 64 * (64 * (c / 4096) + c / 64 mod 64) + c mod 64) by lia.
    rewrite Q at 1. constructor; lia. }
  destruct ((65536 <=? c) && (c <? 1114112)) eqn:E4; [|lia].
  eexists. split; [reflexivity|]. assert (Q : c = 64 * (64 * (64 * (c / 262144) + c / 4096 mod 64) + c / 64 mod 64) + c mod 64) by lia.
  rewrite Q at 1. constructor; lia.
Qed.

Lemma Wcs_spec pl w : encodable w -> exists b, WcsStrToUtf8 pl w = Ok b /\ utf8 w b.
Proof.
  unfold WcsStrToUtf8. intros H.
  assert (G : forall acc, exists b, for_each w acc (fun out c => let* u := utf8_char pl c in Ok (out ++ u)) = Ok (acc ++ b) /\ utf8 w b).
  { induction H as [|c w Hc H IH]; intros acc; cbn [for_each].
    - exists []. rewrite app_nil_r. split; [reflexivity|constructor].
    - destruct (utf8_char_spec pl c Hc) as (b & -> & Hb). cbn [bind]. destruct (IH (acc ++ b)) as (t & E & Ht).
      exists (b ++ t). rewrite app_assoc. split; [exact E|constructor; assumption]. }
  destruct (G []) as (b & E & Hb). exists b. auto.
Qed.

Lemma utf8_char_beyond pl c : beyond_unicode c -> utf8_char pl c = Throw RuntimeError.
Proof.
  intros H. unfold utf8_char, beyond_unicode in *.
  assert ((0 <=? c) && (c <? 128) = false) as -> by lia. assert ((128 <=? c) && (c <? 2048) = false) as -> by lia.
  assert ((55296 <=? c) && (c <? 57344) = false) as -> by lia. cbn [andb].
  assert ((2048 <=? c) && (c <? 65536) = false) as -> by lia. assert ((65536 <=? c) && (c <? 1114112) = false) as -> by lia. reflexivity.
Qed.
Lemma utf8_char_no_ub pl c : (exists b, utf8_char pl c = Ok b) \/ utf8_char pl c = Throw RuntimeError.
Proof. unfold utf8_char. repeat match goal with |- context [if ?b then _ else _] => destruct b end; eauto. Qed.
Lemma Wcs_no_ub pl w : (exists b, WcsStrToUtf8 pl w = Ok b) \/ WcsStrToUtf8 pl w = Throw RuntimeError.
Proof.
  unfold WcsStrToUtf8. generalize (@nil byte). induction w as [|c w IH]; intros acc; cbn [for_each]; [eauto|].
  destruct (utf8_char_no_ub pl c) as [(b & ->)| ->]; cbn [bind]; [apply IH|auto].
Qed.
Lemma Wcs_beyond pl w c : In c w -> beyond_unicode c -> WcsStrToUtf8 pl w = Throw RuntimeError.
Proof.
  unfold WcsStrToUtf8. generalize (@nil byte). induction w as [|x w IH]; intros acc [] Hc; cbn [for_each].
  - subst x. rewrite (utf8_char_beyond pl c Hc). reflexivity.
  - destruct (utf8_char_no_ub pl x) as [(b & ->)| ->]; cbn [bind]; [apply IH; assumption|reflexivity].
Qed.

(** find_last_of *)
Lemma find_last_spec c w : 
  (find_last_of c w = None /\ ~ In c w) \/
  (exists a t, w = a ++ c :: t /\ ~ In c t /\ find_last_of c w = Some (length a)).
Proof.
  induction w as [|x w IH]; cbn [find_last_of]; [left; split; [reflexivity|intros []]|].
  destruct IH as [(-> & N)|(a & t & -> & N & ->)].
  - destruct (Z.eqb_spec x c) as [->|Q].
    + right. exists [], w. auto.
    + left. split; [reflexivity|]. intros [E|E]; [congruence|exact (N E)].
  - right. exists (x :: a), t. auto.
Qed.
Lemma find_last_app c a t : ~ In c t -> find_last_of c (a ++ c :: t) = Some (length a).
Proof.
  intros N. induction a as [|x a IH]; cbn [app find_last_of length].
  - destruct (find_last_spec c t) as [(-> & _)|(a & t' & -> & _)]; [rewrite Z.eqb_refl; reflexivity|].
    destruct N. apply in_or_app. right. left. reflexivity.
  - rewrite IH. reflexivity.
Qed.

Lemma skip_past (a t : list Z) x : skipn (S (length a)) (a ++ x :: t) = t.
Proof. induction a as [|y a IH]; [reflexivity|exact IH]. Qed.

Lemma GetElemName_spec pl name : exists c b, last_component name c /\ stem c b /\ GetElemName pl name = WcsStrToUtf8 pl b.
Proof.
  unfold GetElemName. destruct (find_last_spec 47 name) as [(-> & N)|(a & t & -> & N & ->)].
  - destruct (find_last_spec 46 name) as [(-> & N')|(a & t & -> & N' & ->)].
    + exists name, name. split; [split; auto|]. split; [left; auto|reflexivity].
    + exists (a ++ 46 :: t), a. split; [split; auto|]. split; [right; eauto|]. rewrite firstn_app, firstn_all, Nat.sub_diag. cbn [firstn]. rewrite app_nil_r. reflexivity.
  - rewrite skip_past.
    exists t. assert (LC : last_component (a ++ 47 :: t) t) by (split; [exact N|right; eauto]).
    destruct (find_last_spec 46 t) as [(_ & N')|(b & e & Et & N' & _)].
    + exists t. split; [exact LC|]. split; [left; auto|].
      destruct (find_last_of 46 (a ++ 47 :: t)) as [d|] eqn:E; [|reflexivity].
      destruct (Nat.ltb_spec (length a) d) as [L|L]; [|reflexivity]. exfalso.
      destruct (find_last_spec 46 (a ++ 47 :: t)) as [(Q & _)|(b & e & Q & Ne & E')]; [congruence|].
      rewrite E' in E. injection E as <-.
      assert (G : In 46 t).
      { assert (X := f_equal (skipn (S (length a))) Q). revert X.
        rewrite skip_past.
        rewrite skipn_app. replace (S (length a) - length b)%nat with 0%nat by lia. cbn [skipn]. intros ->. apply in_or_app. right. left. reflexivity. }
      exact (N' G).
    + exists b. split; [exact LC|]. split; [right; eauto|]. subst t.
      assert (E : find_last_of 46 (a ++ 47 :: b ++ 46 :: e) = Some (length (a ++ 47 :: b))).
      { replace (a ++ 47 :: b ++ 46 :: e) with ((a ++ 47 :: b) ++ 46 :: e) by (rewrite <- app_assoc; reflexivity). apply find_last_app, N'. }
      rewrite E. rewrite app_length. cbn [length]. destruct (Nat.ltb_spec (length a) (length a + S (length b))); [|lia].
      replace (length a + S (length b) - length a - 1)%nat with (length b) by lia.
      rewrite firstn_app, firstn_all, Nat.sub_diag. cbn [firstn]. rewrite app_nil_r. reflexivity.
Qed.

Lemma last_component_unique name c c' : last_component name c -> last_component name c' -> c = c'.
Proof.
  intros (N & H) (N' & H').
  assert (G : forall d d' c c' : list Z, d ++ 47 :: c = d' ++ 47 :: c' -> ~ In 47 c -> ~ In 47 c' -> c = c').
  { clear. induction d as [|x d IH]; intros [|y d'] c c' E N N'; cbn [app] in E.
    - exact (f_equal (@tl Z) E).
    - injection E as E1 E2. subst. destruct N. apply in_or_app. right. left. reflexivity.
    - injection E as E1 E2. subst. destruct N'. apply in_or_app. right. left. reflexivity.
    - injection E as E1 E2. exact (IH d' c c' E2 N N'). }
  destruct H as [->|(d & ->)]; destruct H' as [H'|(d' & H')].
  - congruence.
  - subst. destruct N. apply in_or_app. right. left. reflexivity.
  - subst. destruct N'. apply in_or_app. right. left. reflexivity.
  - exact (G d d' c c' H' N N').
Qed.
Lemma stem_unique c b b' : stem c b -> stem c b' -> b = b'.
Proof.
  assert (G : forall d d' c c' : list Z, d ++ 46 :: c = d' ++ 46 :: c' -> ~ In 46 c -> ~ In 46 c' -> d = d').
  { clear. induction d as [|x d IH]; intros [|y d'] c c' E N N'; cbn [app] in E.
    - reflexivity.
    - injection E as E1 E2. subst. destruct N. apply in_or_app. right. left. reflexivity.
    - injection E as E1 E2. subst. destruct N'. apply in_or_app. right. left. reflexivity.
    - injection E as E1 E2. f_equal; [exact E1|exact (IH d' c c' E2 N N')]. }
  intros [(N & ->)|(e & E & N)] [(N' & ->)|(e' & E' & N')].
  - reflexivity.
  - destruct N. rewrite E'. apply in_or_app. right. left. reflexivity.
  - destruct N'. rewrite E. apply in_or_app. right. left. reflexivity.
  - rewrite E in E'. exact (G b b' e e' E' N N').
Qed.
Lemma stem_encodable name c b : encodable name -> last_component name c -> stem c b -> encodable b.
Proof.
  unfold encodable. intros H (_ & L) S.
  assert (Hc : Forall (fun c => 0 <= c < 55296 \/ 57344 <= c < 1114112) c).
  { destruct L as [->|(d & ->)]; [exact H|]. apply Forall_app in H. destruct H as (_ & H). inversion H. assumption. }
  destruct S as [(_ & ->)|(e & -> & _)]; [exact Hc|]. apply Forall_app in Hc. tauto.
Qed.
