(** The record loop of the GDSII reader: it ends on every file, and what can happen in it. *)
From Coq Require Import Reals.
From Flocq Require Import Core IEEE754.BinarySingleNaN.
From Verif Require Import Prelude P_Prelude M_LayoutData M_Double M_Msk M_GdsiiHelpers S_Gdsii P_GdsiiInt P_GdsiiReal M_Gdsii.
Local Open Scope Z_scope.

(** ** The stream *)
Definition stream_ok (s : stream) : Prop := s_good s = negb (s_eof s).
Definition left (s : stream) : nat := length (s_rest s).

Lemma sread_facts n s got s' : sread n s = (got, s') -> (stream_ok s -> stream_ok s') /\ (left s' + length got <= left s)%nat /\ (length got <= n)%nat /\
  ((length got = n -> left s' + n = left s)%nat).
Proof.
  unfold sread, stream_ok, left. destruct (s_good s) eqn:G; cbn [negb].
  - destruct (Nat.ltb_spec (length (s_rest s)) n) as [L|L]; intros Q; injection Q as <- <-; cbn.
    + repeat split; lia.
    + rewrite firstn_length, skipn_length. repeat split; lia.
  - intros Q; injection Q as <- <-. rewrite G. cbn. repeat split; try tauto; lia.
Qed.

Lemma read_over_facts old s img s' : read_over old s = (img, s') -> (stream_ok s -> stream_ok s') /\ (left s' <= left s)%nat /\ length img = length old.
Proof.
  unfold read_over. destruct (sread (length old) s) as [got t] eqn:E. intros Q; injection Q as <- <-.
  destruct (sread_facts _ _ _ _ E) as (H1 & H2 & H3 & _). split; [exact H1|]. split; [lia|]. rewrite app_length, skipn_length. lia.
Qed.

Lemma read_new_facts n s : match read_new n s with
  | Ok (img, s') => (stream_ok s -> stream_ok s') /\ (left s' <= left s)%nat /\ length img = n
  | UB u => u = Indeterminate
  | Throw _ => False end.
Proof.
  unfold read_new. destruct (sread n s) as [got t] eqn:E. destruct (sread_facts _ _ _ _ E) as (H1 & H2 & H3 & _).
  destruct (Nat.ltb_spec (length got) n); [reflexivity|]. split; [exact H1|]. split; lia.
Qed.

(** ** Numbers *)
Lemma word_ok img : length img = 2%nat -> exists v, Normalize_WORD (value16 img) = Ok v.
Proof. destruct img as [|a [|b [|? ?]]]; try discriminate. intros _. exists (twos_complement [a; b]). apply word_value. Qed.
Lemma dword_ok img : length img = 4%nat -> (exists v, Normalize_DWORD (value32 img) = Ok v) \/ Normalize_DWORD (value32 img) = UB SignedOverflow.
Proof.
  destruct img as [|a [|b [|c [|d [|? ?]]]]]; try discriminate. intros L.
  rewrite (dword_normalize _ a b c d (image32_value _ L)). destruct (_ =? _); eauto.
Qed.
Lemma double_ok img : length img = 8%nat -> exists v, Normalize_DOUBLE img = Ok v.
Proof. intros L. destruct (gdsii_exists img L) as (r & G). destruct (normalize_double img r G) as (x & E & _). eauto. Qed.

(** ** One section *)
Definition geom_ok (st : gstate) : Prop := g_geom st = true -> exists e, g_elem st = Some e /\ s_objs e <> [].
Definition safe (n : nat) (r : res gstate) : Prop :=
  match r with
  | Ok st => stream_ok (g_stream st) /\ geom_ok st /\ (left (g_stream st) <= n)%nat
  | UB u => u = SignedOverflow \/ u = Indeterminate
  | Throw _ => False
  end.
Definition sane (n : nat) (st : gstate) : Prop := stream_ok (g_stream st) /\ geom_ok st /\ (left (g_stream st) <= n)%nat.

Lemma safe_ok n st : sane n st -> safe n (Ok st).
Proof. exact (fun H => H). Qed.
Lemma upd_last_nonempty {A} (f : A -> A) l : l <> [] -> upd_last f l <> [].
Proof. destruct l as [|x [|y t]]; cbn; congruence. Qed.
Lemma sane_elem n f st : (forall e, s_objs e <> [] -> s_objs (f e) <> []) -> sane n st -> sane n (with_elem f st).
Proof.
  intros Hf (H1 & H2 & H3). split; [exact H1|]. split; [|exact H3]. intros G. destruct (H2 G) as (e & E & N).
  exists (f e). unfold with_elem. cbn [g_elem]. rewrite E. cbn. auto.
Qed.
Lemma sane_geom n f st : sane n st -> sane n (with_geom f st).
Proof. apply sane_elem. intros e N. cbn. apply upd_last_nonempty, N. Qed.
Lemma sane_lib n f st : sane n st -> sane n (with_lib f st).
Proof. exact (fun H => H). Qed.
Lemma sane_class n f st : sane n st -> sane n (change_class f st).
Proof. apply sane_geom. Qed.
Lemma sane_stream n s st : (stream_ok (g_stream st) -> stream_ok s) -> (left s <= left (g_stream st))%nat -> sane n st -> sane n (set_stream s st).
Proof. intros A B (H1 & H2 & H3). split; [apply A, H1|]. split; [exact H2|]. unfold left in *. cbn. lia. Qed.
Lemma active_some n st : sane n st -> in_element st = true -> exists o, active st = Some o.
Proof.
  intros (_ & H & _) I. unfold in_element in I. destruct (g_geom st) eqn:G; [|rewrite andb_false_r in I; discriminate].
  destruct (H G) as (e & E & N). unfold active. rewrite E. destruct (exists_last N) as (t & o & ->). rewrite rev_app_distr. cbn. eauto.
Qed.

Lemma read_word0_facts n st : sane n st -> exists v st', read_word0 st = Ok (v, st') /\ sane n st'.
Proof.
  intros S. unfold read_word0. destruct (read_over [x00; x00] (g_stream st)) as [img s] eqn:E.
  destruct (read_over_facts _ _ _ _ E) as (H1 & H2 & H3). destruct (word_ok img H3) as (v & ->). cbn [bind].
  exists v, (set_stream s st). split; [reflexivity|]. apply sane_stream; assumption.
Qed.
Lemma read_word_new_facts n st : sane n st -> (exists v st', read_word_new st = Ok (v, st') /\ sane n st') \/ read_word_new st = UB Indeterminate.
Proof.
  intros S. unfold read_word_new. pose proof (read_new_facts 2 (g_stream st)) as F.
  destruct (read_new 2 (g_stream st)) as [[img s]|?|u]; [|contradiction|right; subst; reflexivity].
  destruct F as (H1 & H2 & H3). destruct (word_ok img H3) as (v & E). left. cbn [bind]. rewrite E. cbn [bind].
  exists v, (set_stream s st). split; [reflexivity|]. apply sane_stream; assumption.
Qed.
Lemma read_string_facts n len st str st' : sane n st -> read_string len st = (str, st') -> sane n st'.
Proof.
  intros S. unfold read_string. destruct (sread _ _) as [got s] eqn:E. intros Q. injection Q as <- <-.
  destruct (sread_facts _ _ _ _ E) as (H1 & H2 & H3 & _). apply sane_stream; [exact H1|lia|exact S].
Qed.
Lemma read_dates_safe n st : sane n st -> safe n (read_dates st).
Proof.
  intros S. unfold read_dates. pose proof (read_new_facts 12 (g_stream st)) as F.
  destruct (read_new 12 (g_stream st)) as [[img s]|?|u]; [|contradiction|right; exact F]. cbn [bind snd].
  pose proof (read_new_facts 12 s) as F'. destruct (read_new 12 s) as [[img' s']|?|u]; [|contradiction|right; exact F']. cbn [bind snd].
  apply safe_ok. apply sane_stream; [tauto|lia|exact S].
Qed.

Ltac step_word0 :=
  match goal with S : sane ?n ?st |- context [read_word0 ?st] =>
    let v := fresh "v" in let st' := fresh "st" in let E := fresh in let S' := fresh "S" in
    destruct (read_word0_facts n st S) as (v & st' & E & S'); rewrite E; cbn [bind] end.
Ltac step_word :=
  match goal with S : sane ?n ?st |- context [read_word_new ?st] =>
    let v := fresh "v" in let st' := fresh "st" in let E := fresh in let S' := fresh "S" in
    destruct (read_word_new_facts n st S) as [(v & st' & E & S')|E]; rewrite E; cbn [bind]; [|right; reflexivity] end.
Ltac step_string :=
  match goal with S : sane ?n ?st |- context [read_string ?len ?st] =>
    let E := fresh in let str := fresh in let st' := fresh "st" in
    destruct (read_string len st) as [str st'] eqn:E; apply (read_string_facts _ _ _ _ _ S) in E end.
Ltac step_over :=
  match goal with S : sane ?n ?st |- context [read_over ?old (g_stream ?st)] =>
    let E := fresh in let img := fresh "img" in let s := fresh "s" in let H1 := fresh in let H2 := fresh in let L := fresh "L" in
    destruct (read_over old (g_stream st)) as [img s] eqn:E; destruct (read_over_facts _ _ _ _ E) as (H1 & H2 & L);
    assert (sane n (set_stream s st)) by (apply sane_stream; assumption) end.

Lemma begin_safe n c st : sane n st -> safe n (begin_element c st).
Proof.
  intros S. unfold begin_element. destruct (in_structure st) eqn:I; cbn [negb]; [|apply safe_ok, S].
  apply safe_ok. destruct S as (H1 & H2 & H3). split; [exact H1|]. split; [|exact H3]. intros _. cbn [g_elem].
  unfold in_structure, has_elem in I. unfold with_elem. cbn [g_elem]. destruct (g_elem st) as [e|]; [|rewrite andb_false_r in I; discriminate].
  cbn. eexists. split; [reflexivity|]. cbn. destruct (s_objs e); discriminate.
Qed.

Lemma read_coord_facts c s : match read_coord c s with
  | Ok (_, s') => (stream_ok s -> stream_ok s') /\ (left s' <= left s)%nat
  | UB u => u = SignedOverflow
  | Throw _ => False end.
Proof.
  unfold read_coord. destruct (read_over _ s) as [img t] eqn:E. destruct (read_over_facts _ _ _ _ E) as (H1 & H2 & H3).
  rewrite app_length in H3. unfold image32 in H3. rewrite !le_bytes_length in H3.
  destruct (dword_ok (firstn 4 img)) as [(x & ->)| ->]; [rewrite firstn_length; lia| |reflexivity]. cbn [bind].
  destruct (dword_ok (skipn 4 img)) as [(y & ->)| ->]; [rewrite skipn_length; lia| |reflexivity]. cbn [bind]. tauto.
Qed.
Lemma read_coords_facts n c s : match read_coords n c s with
  | Ok (_, s') => (stream_ok s -> stream_ok s') /\ (left s' <= left s)%nat
  | UB u => u = SignedOverflow
  | Throw _ => False end.
Proof.
  revert c s. induction n as [|n IH]; intros c s; cbn [read_coords]; [split; [tauto|lia]|].
  pose proof (read_coord_facts c s) as F. destruct (read_coord c s) as [[c' s']|?|?]; [|contradiction|exact F]. cbn [bind].
  specialize (IH c' s'). destruct (read_coords n c' s') as [[cs s'']|?|?]; [|contradiction|exact IH]. cbn [bind].
  split; [tauto|lia].
Qed.

Lemma image16_length v : length (image16 v) = 2%nat.
Proof. apply le_bytes_length. Qed.
Lemma double_image_length x : length (double_image x) = 8%nat.
Proof. apply le_bytes_length. Qed.

Lemma dispatch_safe n ty len st : sane n st -> safe n (dispatch ty len st).
Proof.
  intros S.
  assert (D : safe n (Ok (set_stream (sseek (Z.to_nat len) (g_stream st)) st))).
  { apply safe_ok, sane_stream; [| |exact S]; unfold sseek, stream_ok, left; destruct (s_good (g_stream st)) eqn:G; cbn [negb].
    - cbn. reflexivity.
    - rewrite G. tauto.
    - cbn. rewrite skipn_length. lia.
    - lia. }
  unfold dispatch.
  destruct ty as [|p|p]; [|do 6 (try (destruct p as [p|p|]; try exact D))|exact D];
    unfold ReadSection_HEADER, ReadSection_BEGINLIBRARY, ReadSection_LIBNAME, ReadSection_UNITS, ReadSection_ENDLIBRARY, ReadSection_BEGINSTRUCTURE,
      ReadSection_STRNAME, ReadSection_ENDSTRUCTURE, ReadSection_BOUNDARY, ReadSection_PATH, ReadSection_SREF, ReadSection_TEXT, ReadSection_LAYER,
      ReadSection_DATATYPE, ReadSection_WIDTH, ReadSection_XY, ReadSection_ENDELEMENT, ReadSection_SNAME, ReadSection_TEXTTYPE, ReadSection_PRESENTATION,
      ReadSection_STRING, ReadSection_STRANS, ReadSection_MAG, ReadSection_PATHTYPE, ReadSection_PROPATTR, ReadSection_BOX, ReadSection_BOXTYPE;
    try (apply begin_safe, S);
    try match goal with |- context [if ?b then Ok st else _] => destruct b eqn:Hg; [apply safe_ok, S|] end;
    try (step_word0; apply safe_ok; cbn [snd]; first [assumption | apply sane_class; assumption | apply sane_geom; assumption]);
    try (step_word; apply safe_ok; apply sane_class; assumption);
    try (step_string; apply safe_ok; first [apply sane_class; assumption | apply sane_lib; assumption | apply sane_elem; [tauto|assumption]]);
    try (apply read_dates_safe).
  - (* WIDTH *)
    step_over. destruct (dword_ok img L) as [(v & ->)| ->]; cbn [bind]; [|left; reflexivity]. apply safe_ok, sane_class; assumption.
  - (* PROPATTR *)
    destruct (active_some _ _ S) as (o & Ho); [destruct (in_element st); [reflexivity|discriminate]|]. rewrite Ho.
    destruct (rev (o_props o)) as [|[a [|x y]] t]; [| apply safe_ok, S|];
      (step_word0; apply safe_ok; apply sane_geom; assumption).
  - (* MAG *)
    step_over. rewrite double_image_length in L. destruct (double_ok img L) as (v & ->). cbn [bind]. apply safe_ok, sane_class; assumption.
  - (* ENDSTR *)
    destruct (g_elem st) as [e|]; [|apply safe_ok, S]. apply safe_ok. destruct S as (H1 & H2 & H3). split; [exact H1|]. split; [|exact H3].
    intros G. cbn in G. unfold in_structure in Hg. rewrite G, andb_false_r in Hg. discriminate.
  - (* LAYER *)
    destruct (active_some _ _ S) as (o & Ho); [destruct (in_element st); [reflexivity|discriminate]|]. rewrite Ho.
    step_over. rewrite image16_length in L. destruct (word_ok img L) as (v & ->). cbn [bind]. apply safe_ok, sane_geom; assumption.
  - (* ENDEL *)
    apply safe_ok. destruct S as (H1 & H2 & H3). split; [exact H1|]. split; [|exact H3]. intros G. discriminate.
  - (* BGNSTR *)
    destruct S as (H1 & H2 & H3). split; [exact H1|]. split; [|exact H3]. intros G. cbn in G.
    unfold in_library in Hg. rewrite G, andb_false_r in Hg. discriminate.
  - (* UNITS *)
    step_over. rewrite app_length, !double_image_length in L.
    destruct (double_ok (firstn 8 img)) as (v & ->); [rewrite firstn_length; lia|]. cbn [bind].
    destruct (double_ok (skipn 8 img)) as (w & ->); [rewrite skipn_length; lia|]. cbn [bind]. apply safe_ok, sane_lib; assumption.
  - (* SREF *)
    pose proof (begin_safe n (SReference [] None (dz 1)) st S) as B. destruct (begin_element _ st) as [st'|?|?]; [|contradiction|exact B].
    cbn [bind]. apply safe_ok. destruct (in_structure st); [|exact B]. apply sane_elem; [tauto|exact B].
  - (* XY *)
    destruct (active_some _ _ S) as (o & Ho); [destruct (in_element st); [reflexivity|discriminate]|]. rewrite Ho.
    pose proof (read_coord_facts (mkcoord 0 0) (g_stream st)) as F1. pose proof (read_coords_facts (Z.to_nat (len / 8)) (mkcoord 0 0) (g_stream st)) as F2.
    destruct (read_coord (mkcoord 0 0) (g_stream st)) as [[c s]|?|?]; [|contradiction|];
    destruct (read_coords (Z.to_nat (len / 8)) (mkcoord 0 0) (g_stream st)) as [[cs s']|?|?]; try contradiction;
    destruct (o_class o); cbn [bind]; try (left; assumption); apply safe_ok, sane_geom, sane_stream; tauto.
  - (* ENDLIB *) apply safe_ok, S.
  - (* BGNLIB *) exact S.
Qed.

(** ** The loop *)
Lemma record_length_ok l0 l1 : record_length l0 l1 = Ok ((big_endian [l0; l1] - 4) mod 2 ^ 16).
Proof.
  unfold record_length. rewrite word_value. cbn [bind]. f_equal. unfold twos_complement.
  destruct (128 <=? b2z l0); [|reflexivity]. change (256 ^ Z.of_nat (length [l0; l1])) with (2 ^ 16).
  replace (big_endian [l0; l1] - 2 ^ 16 - 4) with (big_endian [l0; l1] - 4 + (-1) * 2 ^ 16) by ring. apply Z.mod_add. lia.
Qed.

Lemma sread4_cases s got s' : stream_ok s -> sread 4 s = (got, s') ->
  (s_eof s' = true /\ (length got < 4)%nat) \/ (s_eof s' = false /\ s_good s = true /\ exists a b c d, got = [a; b; c; d] /\ s_rest s = [a; b; c; d] ++ s_rest s' /\ s_good s' = true).
Proof.
  unfold sread, stream_ok. destruct (s_good s) eqn:G; cbn [negb]; intros H.
  - destruct (Nat.ltb_spec (length (s_rest s)) 4) as [L|L]; intros Q; injection Q as <- <-; [left; auto|]. right.
    destruct (s_rest s) as [|a [|b [|c [|d t]]]]; cbn in L; try lia. split; [reflexivity|]. split; [reflexivity|]. exists a, b, c, d. split; [reflexivity|]. split; reflexivity.
  - intros Q; injection Q as <- <-. left. destruct (s_eof s); [split; [reflexivity|cbn; lia]|discriminate].
Qed.

Definition ends (r : res gstate) : Prop :=
  match r with
  | Ok st => stream_ok (g_stream st) /\ geom_ok st
  | UB u => u = SignedOverflow \/ u = Indeterminate
  | Throw _ => False
  end.
Lemma loop_ends fuel : forall st, stream_ok (g_stream st) -> geom_ok st -> (left (g_stream st) < fuel)%nat -> ends (read_loop fuel st).
Proof.
  induction fuel as [|fuel IH]; intros st Hs Hg L; [lia|]. cbn [read_loop].
  destruct (sread 4 (g_stream st)) as [got s] eqn:E. destruct (sread_facts _ _ _ _ E) as (F1 & F2 & _).
  destruct (sread4_cases _ _ _ Hs E) as [(Ee & Lg)|(Ee & _ & a & b & c & d & -> & R & G)].
  - destruct got as [|a [|b [|c [|d [|? ?]]]]]; cbn in Lg; try lia; rewrite Ee; cbn; auto.
  - rewrite Ee, record_length_ok. cbn [bind]. cbn [length] in F2.
    assert (S : sane (left s) (set_stream s st)) by (split; [apply F1, Hs|split; [exact Hg|cbn; lia]]).
    pose proof (dispatch_safe _ (schar c) ((big_endian [a; b] - 4) mod 2 ^ 16) _ S) as D.
    destruct (dispatch _ _ _) as [st'|?|?]; [|contradiction|exact D]. cbn [bind]. destruct D as (D1 & D2 & D3). apply IH; [exact D1|exact D2|lia].
Qed.

Lemma loop_fuel fuel : forall fuel' st, stream_ok (g_stream st) -> geom_ok st -> (left (g_stream st) < fuel)%nat -> (left (g_stream st) < fuel')%nat ->
  read_loop fuel st = read_loop fuel' st.
Proof.
  induction fuel as [|fuel IH]; intros [|fuel'] st Hs Hg L L'; [lia|lia|lia|]. cbn [read_loop].
  destruct (sread 4 (g_stream st)) as [got s] eqn:E. destruct (sread_facts _ _ _ _ E) as (F1 & F2 & _).
  destruct (sread4_cases _ _ _ Hs E) as [(Ee & Lg)|(Ee & _ & a & b & c & d & -> & R & G)].
  - destruct got as [|a [|b [|c [|d [|? ?]]]]]; cbn in Lg; try lia; rewrite Ee; reflexivity.
  - rewrite Ee, record_length_ok. cbn [bind]. cbn [length] in F2.
    assert (S : sane (left s) (set_stream s st)) by (split; [apply F1, Hs|split; [exact Hg|cbn; lia]]).
    pose proof (dispatch_safe _ (schar c) ((big_endian [a; b] - 4) mod 2 ^ 16) _ S) as D.
    destruct (dispatch _ _ _) as [st'|?|?]; [|reflexivity|reflexivity]. cbn [bind]. destruct D as (D1 & D2 & D3). apply IH; [exact D1|exact D2|lia|lia].
Qed.

(** the loop from a state, with the fuel it needs *)
Definition run (st : gstate) : res gstate := read_loop (S (left (g_stream st))) st.
Definition at_text (t : list byte) (st : gstate) : gstate := set_stream (mkstream t true false) st.

Lemma run_end st : geom_ok st -> run (at_text [] st) = Ok (set_stream (mkstream [] false true) st).
Proof. intros G. reflexivity. Qed.

Lemma run_step st l0 l1 ty dt t : geom_ok st ->
  run (at_text (l0 :: l1 :: ty :: dt :: t) st) =
  let* st' := dispatch (schar ty) ((big_endian [l0; l1] - 4) mod 2 ^ 16) (at_text t st) in run st'.
Proof.
  intros G. unfold run at 1.
  change (left (g_stream (at_text (l0 :: l1 :: ty :: dt :: t) st))) with (S (S (S (S (length t))))).
  assert (L : (length t < S (S (S (S (length t)))))%nat) by lia. revert L. generalize (S (S (S (S (length t))))). intros f L. cbn [read_loop].
  change (sread 4 (g_stream (at_text (l0 :: l1 :: ty :: dt :: t) st))) with ([l0; l1; ty; dt], mkstream t true false).
  cbv iota beta. cbn [s_eof]. rewrite record_length_ok. cbn [bind].
  change (set_stream (mkstream t true false) (at_text (l0 :: l1 :: ty :: dt :: t) st)) with (at_text t st).
  assert (S : sane (length t) (at_text t st)) by (split; [reflexivity|split; [exact G|cbn; lia]]).
  pose proof (dispatch_safe _ (schar ty) ((big_endian [l0; l1] - 4) mod 2 ^ 16) _ S) as D.
  destruct (dispatch _ _ _) as [st'|?|?]; [|reflexivity|reflexivity]. cbn [bind]. destruct D as (D1 & D2 & D3). unfold run.
  apply loop_fuel; [exact D1|exact D2|lia|lia].
Qed.
