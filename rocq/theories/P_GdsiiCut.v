(** Proofs for GDSII files that end early (S_GdsiiCut). *)
From Coq Require Import Lia.
From Verif Require Import Prelude P_Prelude M_LayoutData M_Double S_Double M_Converter S_Converter M_Msk S_Gdsii M_GdsiiHelpers M_Gdsii S_GdsiiFile
  P_GdsiiInt P_GdsiiReal P_GdsiiLoop P_GdsiiFile P_GdsiiRead P_GdsiiShow S_GdsiiCut.
Local Open Scope Z_scope.

(** ** Texts that consist of whole records *)
Definition whole (T : list byte) : Prop := forall p w, stops p w -> stops (T ++ p) w.
Lemma whole_nil : whole [].
Proof. intros p w H. exact H. Qed.
Lemma whole_app a b : whole a -> whole b -> whole (a ++ b).
Proof. intros A B p w H. rewrite <- app_assoc. apply A, B, H. Qed.
Lemma whole_record ty dt data : 0 <= ty < 128 -> Z.of_nat (length data) <= 65531 -> whole (record ty dt data).
Proof. intros T L p w H. apply stops_later; assumption. Qed.

(** ** What a text that ends leads to *)
Definition fate (P : list glib -> Prop) (w : option Z) (r : res gstate) : Prop :=
  (exists ty, w = Some ty /\ In ty needed /\ r = UB Indeterminate) \/
  (exists ty, w = Some ty /\ In ty four_byte /\ r = UB SignedOverflow) \/
  ((forall ty, w = Some ty -> ~ In ty needed) /\ exists st, r = Ok st /\ P (g_libs st)).
Definition tame (P : list glib -> Prop) (T : list byte) (st : gstate) : Prop :=
  forall p q, T = p ++ q -> q <> [] -> exists w, stops p w /\ fate P w (run (at_text p st)).

Lemma tame_nil P st : tame P [] st.
Proof. intros p q E N. destruct p, q; try discriminate E. congruence. Qed.
Lemma split_app {A} (a b p q : list A) : a ++ b = p ++ q -> (exists q', a = p ++ q' /\ q' <> []) \/ (exists p', p = a ++ p' /\ b = p' ++ q).
Proof.
  revert p. induction a as [|x a IH]; intros p E; [right; exists p; split; [reflexivity|exact E]|].
  destruct p as [|y p]; [left; exists (x :: a); split; [reflexivity|discriminate]|]. cbn [app] in E. injection E as -> E.
  destruct (IH p E) as [(q' & -> & N)|(p' & -> & Q)]; [left; exists q'; split; [reflexivity|exact N]|right; exists p'; split; [reflexivity|exact Q]].
Qed.
Lemma tame_app P a b st st' : tame P a st -> whole a -> (forall t, run (at_text (a ++ t) st) = run (at_text t st')) -> tame P b st' -> tame P (a ++ b) st.
Proof.
  intros A W E B p q Eq N. destruct (split_app _ _ _ _ Eq) as [(q' & Ea & N')|(p' & -> & Eb)]; [exact (A p q' Ea N')|].
  destruct (B p' q Eb N) as (w & S & F). exists w. split; [exact (W _ _ S)|]. rewrite E. exact F.
Qed.

(** A record whose data end early. *)
Definition cut_fate (P : list glib -> Prop) (ty : Z) (r : res gstate) : Prop :=
  (In ty needed /\ r = UB Indeterminate) \/ (In ty four_byte /\ r = UB SignedOverflow) \/
  (~ In ty needed /\ exists st, r = Ok st /\ P (g_libs st) /\ s_rest (g_stream st) = []).
Lemma run_exhausted st : stream_ok (g_stream st) -> s_rest (g_stream st) = [] -> exists s, run st = Ok (set_stream s st).
Proof.
  intros O R. destruct (g_stream st) as [rest good eof] eqn:E. cbn [s_rest] in R. subst rest. unfold stream_ok in O. cbn in O.
  unfold run. rewrite E. unfold left. cbn [s_rest length read_loop]. rewrite E. unfold sread. cbn [s_good s_rest length].
  destruct eof; cbn [negb] in O; subst good; eexists; reflexivity.
Qed.
Lemma short_run P st t : P (g_libs st) -> (length t < 4)%nat -> exists s, run (at_text t st) = Ok (set_stream s st).
Proof.
  intros H L. destruct t as [|a [|b [|c [|d t]]]]; try (eexists; reflexivity). cbn [length] in L. lia.
Qed.
Lemma tame_at (P : list glib -> Prop) ty dt data st p q : geom_ok st -> 0 <= ty < 128 -> Z.of_nat (length data) <= 65531 ->
  record ty dt data = p ++ q -> q <> [] -> ((length p < 4)%nat -> P (g_libs st)) ->
  (forall d, length p = (4 + length d)%nat -> data = d ++ q -> cut_fate P ty (dispatch ty (Z.of_nat (length data)) (at_text d st))) ->
  exists w, stops p w /\ fate P w (run (at_text p st)).
Proof.
  intros G T L E N HP C.
  assert (Short : (length p < 4)%nat -> exists w, stops p w /\ fate P w (run (at_text p st))).
  { intros Lp. exists None. split; [constructor; exact Lp|]. right. right. split; [discriminate|].
    destruct (short_run P st p (HP Lp) Lp) as (s & ->). exists (set_stream s st). split; [reflexivity|exact (HP Lp)]. }
  unfold record in E. remember (4 + Z.of_nat (length data)) as L4 eqn:E4. change (word ?x) with [z2b (x / 2 ^ 8); z2b x] in E. cbn [app] in E.
  destruct p as [|l0 p]; [apply Short; cbn; lia|]. destruct p as [|l1 p]; [apply Short; cbn; lia|].
  destruct p as [|y p]; [apply Short; cbn; lia|]. destruct p as [|z d]; [apply Short; cbn; lia|]. clear Short.
  cbn [app] in E. injection E as <- <- <- <- E.
  exists (Some ty). split.
  { change (stops (word L4 ++ [z2b ty; z2b dt] ++ d) (Some ty)). rewrite E4. refine (stops_inside ty dt (Z.of_nat (length data)) d T _). rewrite E, app_length. destruct q; [congruence|cbn [length]].
    rewrite E, app_length in L. cbn [length] in L. lia. }
  rewrite (run_step st _ _ _ _ _ G), (schar_z2b ty T).
  match goal with |- context [big_endian ?x] => change (big_endian x) with (big_endian (word L4)) end. rewrite E4.
  rewrite word_unsigned by lia. replace (4 + Z.of_nat (length data) - 4) with (Z.of_nat (length data)) by ring. rewrite Z.mod_small by lia.
  assert (S : sane (length d) (at_text d st)) by (split; [reflexivity|split; [exact G|cbn; lia]]).
  pose proof (dispatch_safe _ ty (Z.of_nat (length data)) _ S) as D.
  destruct (C d eq_refl E) as [(I & Q)|[(I & Q)|(I & st' & Q & HP' & R)]]; rewrite Q in *; cbn [bind].
  - left. exists ty. auto.
  - right. left. exists ty. auto.
  - right. right. split; [intros ? [= <-]; exact I|]. destruct D as (D1 & _). destruct (run_exhausted st' D1 R) as (s & ->).
    exists (set_stream s st'). split; [reflexivity|exact HP'].
Qed.
Lemma tame_record (P : list glib -> Prop) ty dt data st : geom_ok st -> 0 <= ty < 128 -> Z.of_nat (length data) <= 65531 -> P (g_libs st) ->
  (forall d q, data = d ++ q -> q <> [] -> cut_fate P ty (dispatch ty (Z.of_nat (length data)) (at_text d st))) ->
  tame P (record ty dt data) st.
Proof. intros G T L HP C p q E N. apply (tame_at P ty dt data st p q G T L E N); [auto|]. intros d _ Q. exact (C d q Q N). Qed.

(** ** Streams that end early *)
Lemma prefix_shorter {A} (d q data : list A) : data = d ++ q -> q <> [] -> (length d < length data)%nat.
Proof. intros -> N. rewrite app_length. destruct q; [congruence|cbn [length]; lia]. Qed.
Lemma short_over old d : (length d < length old)%nat -> read_over old (mkstream d true false) = (d ++ skipn (length d) old, mkstream [] false true).
Proof. intros L. unfold read_over, sread. cbn [s_good negb s_rest]. rewrite (proj2 (Nat.ltb_lt _ _) L). reflexivity. Qed.
Lemma short_new n d : (length d < n)%nat -> read_new n (mkstream d true false) = UB Indeterminate.
Proof. intros L. unfold read_new, sread. cbn [s_good negb s_rest]. rewrite (proj2 (Nat.ltb_lt _ _) L), (proj2 (Nat.ltb_lt _ _) L). reflexivity. Qed.
Lemma short_word_new d st : (length d < 2)%nat -> read_word_new (at_text d st) = UB Indeterminate.
Proof. intros L. unfold read_word_new. cbn [at_text set_stream g_stream]. rewrite (short_new 2 d L). reflexivity. Qed.
Lemma short_word0 d st : (length d < 2)%nat -> exists v, read_word0 (at_text d st) = Ok (v, set_stream (mkstream [] false true) st).
Proof.
  intros L. unfold read_word0. cbn [at_text set_stream g_stream]. rewrite short_over by exact L.
  destruct (word_ok (d ++ skipn (length d) [x00; x00])) as (v & E); [|rewrite E; eexists; reflexivity].
  rewrite app_length, skipn_length. cbn [length]. lia.
Qed.
Lemma short_string len d st : (length d < len)%nat ->
  read_string (Z.of_nat len) (at_text d st) = (until_nul d, set_stream (mkstream [] false true) st).
Proof.
  intros L. unfold read_string. cbn [at_text set_stream g_stream]. rewrite Nat2Z.id. unfold sread. cbn [s_good negb s_rest].
  rewrite (proj2 (Nat.ltb_lt _ _) L). reflexivity.
Qed.
Definition tidy (s : stream) : Prop := stream_ok s /\ (s_good s = false -> s_rest s = []).
Lemma over_tidy old s : tidy s -> exists img s', read_over old s = (img, s') /\ length img = length old /\ tidy s' /\
  s_rest s' = skipn (length old) (s_rest s).
Proof.
  intros (O & Z). unfold read_over, sread. destruct s as [rest good eof]. cbn [s_rest s_good] in *. unfold stream_ok in O. cbn in O.
  destruct good; cbn [negb].
  - destruct (Nat.ltb_spec (length rest) (length old)) as [L|L].
    + eexists _, _. split; [reflexivity|]. split; [rewrite app_length, skipn_length; lia|]. split; [split; [reflexivity|reflexivity]|].
      cbn [s_rest]. symmetry. apply skipn_all2. lia.
    + eexists _, _. split; [reflexivity|]. split; [rewrite app_length, skipn_length, firstn_length; lia|]. split; [split; [reflexivity|discriminate]|reflexivity].
  - specialize (Z eq_refl). subst rest. eexists _, _. split; [reflexivity|]. split; [reflexivity|]. split; [split; [exact O|reflexivity]|].
    cbn [s_rest]. now rewrite skipn_nil.
Qed.
Lemma coord_tidy c s : tidy s ->
  match read_coord c s with Ok (_, s') => tidy s' /\ s_rest s' = skipn 8 (s_rest s) | UB u => u = SignedOverflow | Throw _ => False end.
Proof.
  intros T. unfold read_coord. destruct (over_tidy (image32 (cx c) ++ image32 (cy c)) s T) as (img & s' & -> & Li & T' & R).
  change (length (image32 (cx c) ++ image32 (cy c))) with 8%nat in *.
  destruct (dword_ok (firstn 4 img)) as [(v & E)|E]; [rewrite firstn_length; lia| |rewrite E; reflexivity]. rewrite E. cbn [bind].
  destruct (dword_ok (skipn 4 img)) as [(v' & E')|E']; [rewrite skipn_length; lia| |rewrite E'; reflexivity]. rewrite E'. cbn [bind].
  split; assumption.
Qed.
Lemma skipn_twice {A} (l : list A) p q : skipn p (skipn q l) = skipn (q + p) l.
Proof. revert l. induction q as [|q IH]; intros [|x l]; cbn [skipn Nat.add]; try reflexivity; [now rewrite !skipn_nil|apply IH]. Qed.
Lemma coords_tidy n : forall c s, tidy s ->
  match read_coords n c s with Ok (_, s') => tidy s' /\ s_rest s' = skipn (8 * n) (s_rest s) | UB u => u = SignedOverflow | Throw _ => False end.
Proof.
  induction n as [|n IH]; intros c s T; [split; [exact T|reflexivity]|]. cbn [read_coords]. pose proof (coord_tidy c s T) as H.
  destruct (read_coord c s) as [(c1 & s1)| |]; cbn [bind]; try exact H. destruct H as (T1 & R1). specialize (IH c1 s1 T1).
  destruct (read_coords n c1 s1) as [(cs & s2)| |]; cbn [bind]; try exact IH. destruct IH as (T2 & R2). split; [exact T2|].
  rewrite R2, R1, skipn_twice. f_equal. lia.
Qed.

(** ** Cut records inside an element *)
Lemma not_needed ty : Forall (fun x => ty <> x) needed -> ~ In ty needed.
Proof. intros F I. rewrite Forall_forall in F. exact (F ty I eq_refl). Qed.
Ltac not_in := apply not_needed; unfold needed; repeat constructor; lia.
Ltac is_in := unfold needed, four_byte; cbn [In]; tauto.
Ltac done_ok := right; right; split; [not_in|]; eexists; split; [reflexivity|]; split; [assumption|try reflexivity].
Ltac cut_start := apply tame_record; [apply in_el_ok|lia| |assumption|];
  [first [lia | cbn; lia | rewrite points_length; lia]|let d := fresh "d" in let q := fresh "q" in let Eq := fresh "Eq" in let N := fresh "N" in
   let L := fresh "Ln" in intros d q Eq N; pose proof (prefix_shorter _ _ _ Eq N) as L; cbn [dispatch]].

Section InElement.
Variables (P : list glib -> Prop) (libs : list glib) (e : struc) (os : list obj) (o : obj).
Hypothesis HP : P libs.

Lemma cut_layer dt v : tame P (record 13 dt (word v)) (in_el libs e os o).
Proof.
  cut_start. change (length (word v)) with 2%nat in *. unfold ReadSection_LAYER. rewrite in_el_in, in_el_active. cbn [negb].
  change (g_stream (at_text d (in_el libs e os o))) with (mkstream d true false). rewrite short_over by (rewrite image16_length; exact Ln).
  destruct (word_ok (d ++ skipn (length d) (image16 (o_layer o)))) as (x & E); [rewrite app_length, skipn_length, image16_length; lia|].
  rewrite E. cbn [bind]. done_ok.
Qed.
Lemma cut_datatype dt v : tame P (record 14 dt (word v)) (in_el libs e os o).
Proof.
  cut_start. change (length (word v)) with 2%nat in *. unfold ReadSection_DATATYPE. rewrite in_el_in. cbn [negb].
  destruct (short_word0 d (in_el libs e os o) Ln) as (x & ->). cbn [bind]. done_ok.
Qed.
Lemma cut_width dt v : tame P (record 15 dt (dword v)) (in_el libs e os o).
Proof.
  cut_start. change (length (dword v)) with 4%nat in *. unfold ReadSection_WIDTH. rewrite in_el_in. cbn [negb].
  change (g_stream (at_text d (in_el libs e os o))) with (mkstream d true false). rewrite short_over by exact Ln.
  destruct (dword_ok (d ++ skipn (length d) [x00; x00; x00; x00])) as [(x & E)|E]; [rewrite app_length, skipn_length; cbn [length]; lia| |];
    rewrite E; cbn [bind].
  - done_ok.
  - right. left. split; [is_in|reflexivity].
Qed.
Lemma cut_pathtype dt v : tame P (record 33 dt (word v)) (in_el libs e os o).
Proof.
  cut_start. change (length (word v)) with 2%nat in *. unfold ReadSection_PATHTYPE. rewrite in_el_in. cbn [negb].
  rewrite (short_word_new d _ Ln). left. split; [is_in|reflexivity].
Qed.
Lemma cut_strans dt v : tame P (record 26 dt (word v)) (in_el libs e os o).
Proof.
  cut_start. change (length (word v)) with 2%nat in *. unfold ReadSection_STRANS. rewrite in_el_in. cbn [negb].
  rewrite (short_word_new d _ Ln). left. split; [is_in|reflexivity].
Qed.
Lemma cut_mag dt l : real_ok l -> tame P (record 27 dt l) (in_el libs e os o).
Proof.
  intros R. unfold real_ok in R. cut_start. unfold ReadSection_MAG. rewrite in_el_in. cbn [negb].
  change (g_stream (at_text d (in_el libs e os o))) with (mkstream d true false). rewrite short_over by (rewrite double_image_length; lia).
  destruct (double_ok (d ++ skipn (length d) (double_image (dz 0)))) as (x & E); [rewrite app_length, skipn_length, double_image_length; lia|].
  rewrite E. cbn [bind]. done_ok.
Qed.
Lemma cut_texttype dt v : is_text (in_el libs e os o) = true -> tame P (record 22 dt (word v)) (in_el libs e os o).
Proof.
  intros C. cut_start. change (length (word v)) with 2%nat in *. unfold ReadSection_TEXTTYPE. rewrite in_el_in.
  change (is_text (at_text d (in_el libs e os o))) with (is_text (in_el libs e os o)). rewrite C. cbn [negb andb].
  rewrite (short_word_new d _ Ln). left. split; [is_in|reflexivity].
Qed.
Lemma cut_presentation dt v : is_text (in_el libs e os o) = true -> tame P (record 23 dt (word v)) (in_el libs e os o).
Proof.
  intros C. cut_start. change (length (word v)) with 2%nat in *. unfold ReadSection_PRESENTATION. rewrite in_el_in.
  change (is_text (at_text d (in_el libs e os o))) with (is_text (in_el libs e os o)). rewrite C. cbn [negb andb].
  rewrite (short_word_new d _ Ln). left. split; [is_in|reflexivity].
Qed.
Lemma cut_string dt str : string_ok str -> is_text (in_el libs e os o) = true -> tame P (record 25 dt (padded str)) (in_el libs e os o).
Proof.
  intros (_ & H) C. pose proof (padded_length str). cut_start. unfold ReadSection_STRING. rewrite in_el_in.
  change (is_text (at_text d (in_el libs e os o))) with (is_text (in_el libs e os o)). rewrite C. cbn [negb andb].
  rewrite (short_string _ d _ Ln). done_ok.
Qed.
Lemma cut_sname dt str : string_ok str -> is_reference (in_el libs e os o) = true -> tame P (record 18 dt (padded str)) (in_el libs e os o).
Proof.
  intros (_ & H) C. pose proof (padded_length str). cut_start. unfold ReadSection_SNAME. rewrite in_el_in.
  change (is_reference (at_text d (in_el libs e os o))) with (is_reference (in_el libs e os o)). rewrite C. cbn [negb andb].
  rewrite (short_string _ d _ Ln). done_ok.
Qed.
Lemma cut_boxtype dt v : is_rectangle (in_el libs e os o) = true -> tame P (record 46 dt (word v)) (in_el libs e os o).
Proof.
  intros C. cut_start. change (length (word v)) with 2%nat in *. unfold ReadSection_BOXTYPE. rewrite in_el_in.
  change (is_rectangle (at_text d (in_el libs e os o))) with (is_rectangle (in_el libs e os o)). rewrite C. cbn [negb andb].
  destruct (short_word0 d (in_el libs e os o) Ln) as (x & ->). cbn [bind]. done_ok.
Qed.
Lemma cut_propattr dt v : o_props o = [] -> tame P (record 43 dt (word v)) (in_el libs e os o).
Proof.
  intros C. cut_start. change (length (word v)) with 2%nat in *. unfold ReadSection_PROPATTR. rewrite in_el_in, in_el_active, C. cbn [negb rev].
  destruct (short_word0 d (in_el libs e os o) Ln) as (x & ->). cbn [bind]. done_ok.
Qed.
Lemma cut_xy dt cs : Z.of_nat (length cs) <= 8191 -> (match o_class o with SPolygon _ | SPath _ _ _ | SRectangle _ => True | _ => length cs = 1%nat end) ->
  tame P (record 16 dt (concat (map point cs))) (in_el libs e os o).
Proof.
  intros Lc C. pose proof (points_length cs) as PL. cut_start. unfold ReadSection_XY. rewrite in_el_in, in_el_active. cbn [negb].
  rewrite PL in *.
  change (g_stream (at_text d (in_el libs e os o))) with (mkstream d true false).
  assert (T : tidy (mkstream d true false)) by (split; [reflexivity|discriminate]).
  pose proof (coord_tidy (mkcoord 0 0) _ T) as H1. pose proof (coords_tidy (length cs) (mkcoord 0 0) _ T) as H2. cbn [s_rest] in H1, H2.
  replace (Z.to_nat (Z.of_nat (8 * length cs) / 8)) with (length cs) by (rewrite Nat2Z.inj_mul, Z.mul_comm, Z.div_mul by lia; lia).
  destruct (o_class o) eqn:Cl;
    first [ (* several points *)
      destruct (read_coords (length cs) (mkcoord 0 0) (mkstream d true false)) as [(l & s')| |u]; cbn [bind];
        [destruct H2 as (_ & H2); done_ok; cbn [with_geom with_elem set_stream g_stream]; rewrite H2; apply skipn_all2; lia
        |contradiction|right; left; split; [is_in|now subst u]]
    | destruct (read_coord (mkcoord 0 0) (mkstream d true false)) as [(l & s')| |u]; cbn [bind];
        [destruct H1 as (_ & H1); done_ok; cbn [with_geom with_elem set_stream g_stream]; rewrite H1; apply skipn_all2; lia
        |contradiction|right; left; split; [is_in|now subst u]] ].
Qed.
Lemma cut_end dt : tame P (record 17 dt []) (in_el libs e os o).
Proof. cut_start. destruct d; [destruct q; [congruence|discriminate]|discriminate]. Qed.
End InElement.

(** Records that are skipped, anywhere. *)
Lemma cut_skipped (P : list glib -> Prop) ty dt data st : geom_ok st -> P (g_libs st) ->
  ty = 28 \/ ty = 31 \/ ty = 32 \/ ty = 34 \/ ty = 35 \/ ty = 38 \/ ty = 44 \/ ty = 47 -> Z.of_nat (length data) <= 65531 ->
  tame P (record ty dt data) st.
Proof.
  intros G HP T L. apply tame_record; [exact G|lia|exact L|exact HP|]. intros d q Eq N. pose proof (prefix_shorter _ _ _ Eq N) as Ln.
  replace (dispatch ty (Z.of_nat (length data)) (at_text d st)) with (Ok (set_stream (sseek (Z.to_nat (Z.of_nat (length data))) (mkstream d true false)) (at_text d st))).
  - right. right. split; [apply not_needed; unfold needed; repeat constructor; lia|]. eexists. split; [reflexivity|]. split; [exact HP|].
    cbn [set_stream g_stream sseek s_good negb s_rest]. apply skipn_all2. lia.
  - repeat (destruct T as [->|T]; [reflexivity|]). subst. reflexivity.
Qed.
(** Records without data. *)
Lemma cut_empty (P : list glib -> Prop) ty dt st : geom_ok st -> P (g_libs st) -> 0 <= ty < 128 -> tame P (record ty dt []) st.
Proof.
  intros G HP T. apply tame_record; [exact G|exact T|cbn; lia|exact HP|]. intros d q Eq N. destruct d; [destruct q; [congruence|discriminate Eq]|discriminate Eq].
Qed.

(** ** Whole records of the format *)
Lemma whole_word ty dt v : 0 <= ty < 128 -> whole (record ty dt (word v)).
Proof. intros T. apply whole_record; [exact T|cbn; lia]. Qed.
Lemma whole_dword ty dt v : 0 <= ty < 128 -> whole (record ty dt (dword v)).
Proof. intros T. apply whole_record; [exact T|cbn; lia]. Qed.
Lemma whole_real ty dt l : 0 <= ty < 128 -> real_ok l -> whole (record ty dt l).
Proof. intros T R. unfold real_ok in R. apply whole_record; [exact T|lia]. Qed.
Lemma whole_string ty dt s : 0 <= ty < 128 -> string_ok s -> whole (record ty dt (padded s)).
Proof. intros T (_ & L). pose proof (padded_length s). apply whole_record; [exact T|lia]. Qed.
Lemma whole_points ty dt cs : 0 <= ty < 128 -> Z.of_nat (length cs) <= 8191 -> whole (record ty dt (concat (map point cs))).
Proof. intros T L. apply whole_record; [exact T|rewrite points_length; lia]. Qed.
Lemma whole_empty ty dt : 0 <= ty < 128 -> whole (record ty dt []).
Proof. intros T. apply whole_record; [exact T|cbn; lia]. Qed.

(** One part, then the rest. *)
Definition part (P : list glib -> Prop) (a : list byte) (st st' : gstate) : Prop :=
  tame P a st /\ whole a /\ forall t, run (at_text (a ++ t) st) = run (at_text t st').
Lemma part_app P a b st st' st'' : part P a st st' -> part P b st' st'' -> part P (a ++ b) st st''.
Proof.
  intros (A1 & A2 & A3) (B1 & B2 & B3). split; [eapply tame_app; eassumption|]. split; [apply whole_app; assumption|].
  intros t. rewrite <- app_assoc, A3, B3. reflexivity.
Qed.
Lemma part_nil P st : part P [] st st.
Proof. split; [apply tame_nil|]. split; [apply whole_nil|reflexivity]. Qed.
Lemma part_optional {A} P (f : A -> list byte) (Q : A -> Prop) x st g : fits Q x -> (forall a, Q a -> part P (f a) st (g a)) ->
  exists st', part P (optional f x) st st' /\ (st' = st \/ exists a, st' = g a /\ Q a).
Proof.
  intros H F. destruct x as [a|]; cbn [optional].
  - exists (g a). split; [apply F, H; reflexivity|]. right. exists a. split; [reflexivity|apply H; reflexivity].
  - exists st. split; [apply part_nil|auto].
Qed.
Lemma part_skipped (P : list glib -> Prop) ty dt data st : geom_ok st -> P (g_libs st) ->
  ty = 28 \/ ty = 31 \/ ty = 32 \/ ty = 34 \/ ty = 35 \/ ty = 38 \/ ty = 44 \/ ty = 47 -> Z.of_nat (length data) <= 65531 ->
  part P (record ty dt data) st st.
Proof.
  intros G HP T L. split; [apply cut_skipped; assumption|]. split; [apply whole_record; [lia|exact L]|].
  intros t. apply run_skipped; assumption.
Qed.

Section InElement2.
Variables (P : list glib -> Prop) (libs : list glib) (e : struc) (os : list obj).
Hypothesis HP : P libs.
(** An object of the same kind. *)
Definition kind (c : shape_class) : nat := match c with SPolygon _ => 0 | SPath _ _ _ => 1 | SRectangle _ => 2 | SText _ _ _ _ _ _ _ => 3 | SReference _ _ _ => 4 end%nat.
Definition like (o o' : obj) : Prop := kind (o_class o) = kind (o_class o') /\ o_props o = o_props o'.
(** The part a can be read in an element whose object is o, which stays an object of its kind. *)
Definition inner (a : list byte) (k : nat) : Prop :=
  forall o, kind (o_class o) = k -> o_props o = [] -> exists o', part P a (in_el libs e os o) (in_el libs e os o') /\ kind (o_class o') = k /\ o_props o' = [].
(** The same for an object without coordinates, which still has none afterwards. *)
Definition inner0 (a : list byte) (k : nat) : Prop :=
  forall o, kind (o_class o) = k -> o_props o = [] -> o_coords o = [] ->
    exists o', part P a (in_el libs e os o) (in_el libs e os o') /\ kind (o_class o') = k /\ o_props o' = [] /\ o_coords o' = [].
Lemma inner0_app a b k : inner0 a k -> inner0 b k -> inner0 (a ++ b) k.
Proof.
  intros A B o H1 H2 H3. destruct (A o H1 H2 H3) as (o1 & A1 & A2 & A3 & A4). destruct (B o1 A2 A3 A4) as (o2 & B1 & B2).
  exists o2. split; [eapply part_app; eassumption|exact B2].
Qed.
Lemma inner0_inner a b k : inner0 a k -> (forall o, kind (o_class o) = k -> o_props o = [] -> o_coords o = [] ->
  exists o', part P b (in_el libs e os o) (in_el libs e os o') /\ kind (o_class o') = k /\ o_props o' = []) ->
  forall o, kind (o_class o) = k -> o_props o = [] -> o_coords o = [] -> exists o', part P (a ++ b) (in_el libs e os o) (in_el libs e os o') /\ kind (o_class o') = k /\ o_props o' = [].
Proof.
  intros A B o H1 H2 H3. destruct (A o H1 H2 H3) as (o1 & A1 & A2 & A3 & A4). destruct (B o1 A2 A3 A4) as (o2 & B1 & B2).
  exists o2. split; [eapply part_app; eassumption|exact B2].
Qed.
Lemma inner0_optional {A} (f : A -> list byte) (Q : A -> Prop) x k : fits Q x -> (forall a, Q a -> inner0 (f a) k) -> inner0 (optional f x) k.
Proof.
  intros H F. destruct x as [a|]; cbn [optional]; [apply F, H; reflexivity|].
  intros o H1 H2 H3. exists o. split; [apply part_nil|auto].
Qed.
Ltac in_part := intros o K Pr Co; eexists; split; [split; [|split]|].
Lemma in_layer dt v k : int16 v -> inner0 (record 13 dt (word v)) k.
Proof. intros H. in_part; [apply cut_layer; exact HP|apply whole_word; lia|intros t; apply el_layer; exact H|cbn; auto]. Qed.
Lemma in_datatype dt v k : int16 v -> inner0 (record 14 dt (word v)) k.
Proof.
  intros H. in_part; [apply cut_datatype; exact HP|apply whole_word; lia|intros t; apply el_datatype; exact H|].
  cbn. split; [rewrite <- K; destruct (o_class o); reflexivity|auto].
Qed.
Lemma in_width dt v k : int31 v -> inner0 (record 15 dt (dword v)) k.
Proof.
  intros H. in_part; [apply cut_width; exact HP|apply whole_dword; lia|intros t; apply el_width; exact H|].
  cbn. split; [rewrite <- K; destruct (o_class o); reflexivity|auto].
Qed.
Lemma in_pathtype dt v k : int16 v -> inner0 (record 33 dt (word v)) k.
Proof.
  intros H. in_part; [apply cut_pathtype; exact HP|apply whole_word; lia|intros t; apply el_pathtype; exact H|].
  cbn. split; [rewrite <- K; destruct (o_class o); reflexivity|auto].
Qed.
Lemma in_strans dt v k : int16 v -> inner0 (record 26 dt (word v)) k.
Proof.
  intros H. in_part; [apply cut_strans; exact HP|apply whole_word; lia|intros t; apply el_strans; exact H|].
  cbn. split; [rewrite <- K; destruct (o_class o); reflexivity|auto].
Qed.
Lemma in_mag dt l k : real_ok l -> inner0 (record 27 dt l) k.
Proof.
  intros H. destruct (double_ok l H) as (x & E).
  in_part; [apply cut_mag; [exact HP|exact H]|apply whole_real; [lia|exact H]|intros t; apply el_mag; [exact H|exact E]|].
  cbn. split; [rewrite <- K; destruct (o_class o); reflexivity|auto].
Qed.
Lemma in_skipped ty dt data k : ty = 28 \/ ty = 31 \/ ty = 32 \/ ty = 34 \/ ty = 35 \/ ty = 38 \/ ty = 44 \/ ty = 47 -> Z.of_nat (length data) <= 65531 ->
  inner0 (record ty dt data) k.
Proof. intros T L o K Pr Co. exists o. split; [apply part_skipped; [apply in_el_ok|exact HP|exact T|exact L]|auto]. Qed.
Lemma in_trans tr k : fits trans_ok tr -> inner0 (optional trans_bytes tr) k.
Proof.
  intros H. eapply inner0_optional; [exact H|]. intros t (H1 & H2 & H3). unfold trans_bytes.
  apply inner0_app; [apply in_strans, H1|]. apply inner0_app; [eapply inner0_optional; [exact H2|]; intros a Ha; apply in_mag, Ha|].
  eapply inner0_optional; [exact H3|]. intros a Ha. unfold real_ok in Ha. apply in_skipped; [tauto|lia].
Qed.
Lemma kind_text o : kind (o_class o) = 3%nat -> exists a b p f m w s, o_class o = SText a b p f m w s.
Proof. destruct (o_class o); cbn; intros H; try discriminate H. repeat eexists. Qed.
Lemma kind_reference o : kind (o_class o) = 4%nat -> exists n p m, o_class o = SReference n p m.
Proof. destruct (o_class o); cbn; intros H; try discriminate H. repeat eexists. Qed.
Lemma kind_rectangle o : kind (o_class o) = 2%nat -> exists b, o_class o = SRectangle b.
Proof. destruct (o_class o); cbn; intros H; try discriminate H. repeat eexists. Qed.
Lemma kind_is_text t o : kind (o_class o) = 3%nat -> is_text (at_text t (in_el libs e os o)) = true.
Proof. intros H. rewrite is_text_el. destruct (o_class o); cbn in H; try discriminate H. reflexivity. Qed.
Lemma in_texttype dt v : int16 v -> inner0 (record 22 dt (word v)) 3.
Proof.
  intros H o K Pr Co. destruct (kind_text o K) as (a & b & p & f & m & w & s & C). eexists. split; [split; [|split]|].
  - apply cut_texttype; [exact HP|exact (kind_is_text [] o K)].
  - apply whole_word; lia.
  - intros t. eapply el_texttype; [exact H|exact C].
  - cbn. auto.
Qed.
Lemma in_presentation dt v : int16 v -> inner0 (record 23 dt (word v)) 3.
Proof.
  intros H o K Pr Co. destruct (kind_text o K) as (a & b & p & f & m & w & s & C). eexists. split; [split; [|split]|].
  - apply cut_presentation; [exact HP|exact (kind_is_text [] o K)].
  - apply whole_word; lia.
  - intros t. eapply el_presentation; [exact H|exact C].
  - cbn. auto.
Qed.
Lemma in_string dt s : string_ok s -> forall o, kind (o_class o) = 3%nat -> o_props o = [] ->
  exists o', part P (record 25 dt (padded s)) (in_el libs e os o) (in_el libs e os o') /\ kind (o_class o') = 3%nat /\ o_props o' = [].
Proof.
  intros H o K Pr. destruct (kind_text o K) as (a & b & p & f & m & w & s' & C). eexists. split; [split; [|split]|].
  - apply cut_string; [exact HP|exact H|exact (kind_is_text [] o K)].
  - apply whole_string; [lia|exact H].
  - intros t. eapply el_string; [exact H|exact C].
  - cbn. auto.
Qed.
Lemma in_sname dt s : string_ok s -> inner0 (record 18 dt (padded s)) 4.
Proof.
  intros H o K Pr Co. destruct (kind_reference o K) as (n & p & m & C). eexists. split; [split; [|split]|].
  - apply cut_sname; [exact HP|exact H|]. change (is_reference (at_text [] (in_el libs e os o)) = true). rewrite is_reference_el, C. reflexivity.
  - apply whole_string; [lia|exact H].
  - intros t. eapply el_sname; [exact H|exact C].
  - cbn. auto.
Qed.
Lemma in_boxtype dt v : int16 v -> inner0 (record 46 dt (word v)) 2.
Proof.
  intros H o K Pr Co. destruct (kind_rectangle o K) as (b & C). eexists. split; [split; [|split]|].
  - apply cut_boxtype; [exact HP|]. change (is_rectangle (at_text [] (in_el libs e os o)) = true). rewrite is_rectangle_el, C. reflexivity.
  - apply whole_word; lia.
  - intros t. eapply el_boxtype; [exact H|exact C].
  - cbn. auto.
Qed.
Lemma bound_like o cs : o_class (bound_obj o cs) = o_class o /\ o_props (bound_obj o cs) = o_props o.
Proof. unfold bound_obj. destruct cs as [|c t]; [split; reflexivity|]. destruct (fold_left widen t (c, c)). split; reflexivity. Qed.
Lemma in_xy dt cs k : points_ok cs -> (k < 3)%nat -> forall o, kind (o_class o) = k -> o_props o = [] -> o_coords o = [] ->
  exists o', part P (record 16 dt (concat (map point cs))) (in_el libs e os o) (in_el libs e os o') /\ kind (o_class o') = k /\ o_props o' = [].
Proof.
  intros H Lk o K Pr Co. destruct (bound_like o cs) as (B1 & B2). exists (bound_obj o cs). split; [split; [|split]|].
  - apply cut_xy; [exact HP|exact (proj1 (proj2 H))|]. destruct (o_class o); cbn in K; try exact I; lia.
  - apply whole_points; [lia|exact (proj1 (proj2 H))].
  - intros t. apply el_xy; [exact H|]. destruct (o_class o); cbn in K; try exact I; lia.
  - rewrite B1, B2. auto.
Qed.
Lemma in_xy1 dt c k : point_ok c -> (3 <= k)%nat -> forall o, kind (o_class o) = k -> o_props o = [] -> o_coords o = [] ->
  exists o', part P (record 16 dt (point c)) (in_el libs e os o) (in_el libs e os o') /\ kind (o_class o') = k /\ o_props o' = [].
Proof.
  intros H Lk o K Pr Co. destruct (bound_like o [c]) as (B1 & B2). exists (bound_obj o [c]). split; [split; [|split]|].
  - replace (point c) with (concat (map point [c])) by (cbn [map concat]; apply app_nil_r).
    apply cut_xy; [exact HP|cbn; lia|]. destruct (o_class o); cbn in K; try exact I; reflexivity.
  - apply whole_record; [lia|cbn; lia].
  - intros t. apply el_xy1; [exact H| |exact Co]. destruct (o_class o); cbn in K; try exact I; lia.
  - rewrite B1, B2. auto.
Qed.

Lemma in_shape s : shape_ok s -> forall o, kind (o_class o) = kind (first_class s) -> o_props o = [] -> o_coords o = [] ->
  exists o', part P (shape_bytes s) (in_el libs e os o) (in_el libs e os o') /\ kind (o_class o') = kind (first_class s) /\ o_props o' = [].
Proof.
  destruct s as [l d xy|l d pt w xy|l b xy|l ty pr pt w tr xy str|n tr xy]; cbn [shape_ok shape_bytes first_class kind].
  - intros (H1 & H2 & H3). apply inner0_inner; [apply in_layer, H1|]. apply inner0_inner; [apply in_datatype, H2|]. apply in_xy; [exact H3|lia].
  - intros (H1 & H2 & H3 & H4 & H5). apply inner0_inner; [apply in_layer, H1|]. apply inner0_inner; [apply in_datatype, H2|].
    apply inner0_inner; [eapply inner0_optional; [exact H3|]; intros a Ha; apply in_pathtype, Ha|].
    apply inner0_inner; [eapply inner0_optional; [exact H4|]; intros a Ha; apply in_width, Ha|]. apply in_xy; [exact H5|lia].
  - intros (H1 & H2 & H3). apply inner0_inner; [apply in_layer, H1|]. apply inner0_inner; [apply in_boxtype, H2|]. apply in_xy; [exact H3|lia].
  - intros (H1 & H2 & H3 & H4 & H5 & H6 & H7 & H8). apply inner0_inner; [apply in_layer, H1|]. apply inner0_inner; [apply in_texttype, H2|].
    apply inner0_inner; [eapply inner0_optional; [exact H3|]; intros a Ha; apply in_presentation, Ha|].
    apply inner0_inner; [eapply inner0_optional; [exact H4|]; intros a Ha; apply in_pathtype, Ha|].
    apply inner0_inner; [eapply inner0_optional; [exact H5|]; intros a Ha; apply in_width, Ha|].
    apply inner0_inner; [apply in_trans, H6|].
    intros o K Pr Co. destruct (in_xy1 3 xy 3 H7 ltac:(lia) o K Pr Co) as (o1 & P1 & K1 & Pr1).
    destruct (in_string 6 str H8 o1 K1 Pr1) as (o2 & P2 & K2 & Pr2). exists o2. split; [eapply part_app; eassumption|auto].
  - intros (H1 & H2 & H3). apply inner0_inner; [apply in_sname, H1|]. apply inner0_inner; [apply in_trans, H2|]. apply in_xy1; [exact H3|lia].
Qed.
End InElement2.

(** ** Elements, structures *)
Lemma part_element (P : list glib -> Prop) libs e os el : P libs -> element_ok el ->
  tame P (element_bytes el) (between libs e os) /\ whole (element_bytes el).
Proof.
  intros HP (H1 & H2). unfold element_bytes.
  assert (PB : part P (record (shape_type (el_shape el)) 0 []) (between libs e os) (in_el libs (flat_after (el_shape el) e) os (new_obj (first_class (el_shape el))))).
  { split; [apply cut_empty; [apply between_ok|exact HP|destruct (el_shape el); cbn; lia]|].
    split; [apply whole_empty; destruct (el_shape el); cbn; lia|]. intros t. apply el_begin. }
  set (e1 := flat_after (el_shape el) e) in *.
  assert (In1 : forall o, kind (o_class o) = kind (first_class (el_shape el)) -> o_props o = [] -> o_coords o = [] ->
    exists o', part P (optional (fun v => record 38 1 (word v)) (el_flags el) ++ optional (fun v => record 47 3 (dword v)) (el_plex el) ++ shape_bytes (el_shape el))
      (in_el libs e1 os o) (in_el libs e1 os o') /\ kind (o_class o') = kind (first_class (el_shape el)) /\ o_props o' = []).
  { apply inner0_inner; [eapply (inner0_optional P libs e1 os _ (fun _ => True)); [intros ? _; exact I|]; intros a _; apply in_skipped; [exact HP|tauto|cbn; lia]|].
    apply inner0_inner; [eapply (inner0_optional P libs e1 os _ (fun _ => True)); [intros ? _; exact I|]; intros a _; apply in_skipped; [exact HP|tauto|cbn; lia]|].
    apply in_shape; [exact HP|exact H1]. }
  destruct (In1 (new_obj (first_class (el_shape el))) eq_refl eq_refl eq_refl) as (o1 & P1 & K1 & Pr1).
  assert (PP : exists o2, part P (optional (fun p => record 43 2 (word (fst p)) ++ record 44 6 (padded (snd p))) (el_property el)) (in_el libs e1 os o1) (in_el libs e1 os o2)).
  { destruct (el_property el) as [[a str]|]; cbn [optional fst snd]; [|exists o1; apply part_nil].
    destruct (H2 _ eq_refl) as (A & SO). cbn [fst snd] in A, SO. eexists. eapply part_app.
    - split; [apply cut_propattr; [exact HP|exact Pr1]|]. split; [apply whole_word; lia|]. intros t. apply el_propattr; [exact A|exact Pr1].
    - apply part_skipped; [apply in_el_ok|exact HP|tauto|]. pose proof (padded_length str). destruct SO. lia. }
  destruct PP as (o2 & P2).
  assert (PE : part P (record 17 0 []) (in_el libs e1 os o2) (between libs e1 (os ++ [o2]))).
  { split; [apply cut_end; exact HP|]. split; [apply whole_empty; lia|]. intros t. apply el_end. }
  pose proof (part_app _ _ _ _ _ _ PB (part_app _ _ _ _ _ _ P1 (part_app _ _ _ _ _ _ P2 PE))) as (R1 & R2 & _).
  rewrite <- !app_assoc in R1, R2. split; assumption.
Qed.
Lemma part_elements (P : list glib -> Prop) libs els : forall e os, P libs -> Forall element_ok els ->
  exists e' os', part P (concat (map element_bytes els)) (between libs e os) (between libs e' os').
Proof.
  induction els as [|el els IH]; intros e os HP F; [exists e, os; apply part_nil|]. inversion F as [|? ? F1 F2]; subst. cbn [map concat].
  destruct (part_element P libs e os el HP F1) as (A1 & A2). destruct (element_read el libs e os F1) as (o & _ & A3).
  destruct (IH (flat_after (el_shape el) e) (os ++ [o]) HP F2) as (e' & os' & B). exists e', os'.
  eapply part_app; [split; [exact A1|split; [exact A2|exact A3]]|exact B].
Qed.
Lemma part_structure (P : list glib -> Prop) libs s : P libs -> structure_ok s ->
  tame P (structure_bytes s) (in_lib libs) /\ whole (structure_bytes s).
Proof.
  intros HP (H1 & H2 & H3). unfold structure_bytes.
  assert (PB : part P (record 5 2 (st_dates s)) (in_lib libs) (between libs new_struc [])).
  { split; [|split; [apply whole_record; lia|]].
    - apply tame_record; [apply in_lib_ok|lia|lia|exact HP|]. intros d q Eq N. pose proof (prefix_shorter _ _ _ Eq N) as Ln. cbn [dispatch].
      unfold ReadSection_BEGINSTRUCTURE. change (negb (in_library _)) with false. cbv iota.
      left. split; [is_in|]. unfold read_dates.
      match goal with |- context [read_new 12 (g_stream ?x)] => change (g_stream x) with (mkstream d true false) end.
      destruct (Nat.lt_ge_cases (length d) 12) as [L|L]; [rewrite (short_new 12 d L); reflexivity|].
      replace d with (firstn 12 d ++ skipn 12 d) by apply firstn_skipn. rewrite read_new_exact by (rewrite firstn_length; lia). cbn [bind snd].
      rewrite short_new by (rewrite skipn_length; lia). reflexivity.
    - intros t. rewrite run_record by (first [apply in_lib_ok|lia]). cbn [dispatch]. unfold ReadSection_BEGINSTRUCTURE. change (negb (in_library _)) with false. cbv iota.
      change (mkgstate _ _ _ _ _) with (at_text (st_dates s ++ t) (between libs new_struc [])). rewrite (dates_exact _ _ _ H1). reflexivity. }
  assert (PN : part P (record 6 6 (padded (st_name s))) (between libs new_struc []) (between libs (named (st_name s)) [])).
  { pose proof (padded_length (st_name s)) as PL. split; [|split; [apply whole_string; [lia|exact H2]|]].
    - apply tame_record; [apply between_ok|lia|destruct H2; lia|exact HP|]. intros d q Eq N. pose proof (prefix_shorter _ _ _ Eq N) as Ln. cbn [dispatch].
      unfold ReadSection_STRNAME. change (negb (in_structure _)) with false. cbv iota. rewrite (short_string _ d _ Ln). done_ok.
    - intros t. rewrite run_record by (first [apply between_ok|lia|destruct H2; lia]). cbn [dispatch]. unfold ReadSection_STRNAME. change (negb (in_structure _)) with false. cbv iota.
      rewrite (string_exact _ _ _ H2). reflexivity. }
  destruct (part_elements P libs (st_elements s) (named (st_name s)) [] HP H3) as (e' & os' & PE).
  destruct PB as (A1 & A2 & A3). destruct PN as (B1 & B2 & B3). destruct PE as (C1 & C2 & C3). split.
  - eapply tame_app; [exact A1|exact A2|exact A3|]. eapply tame_app; [exact B1|exact B2|exact B3|]. eapply tame_app; [exact C1|exact C2|exact C3|].
    apply cut_empty; [apply between_ok|exact HP|lia].
  - apply whole_app; [exact A2|]. apply whole_app; [exact B2|]. apply whole_app; [exact C2|]. apply whole_empty. lia.
Qed.

(** ** Libraries *)
Lemma structures_cut ss : forall g p q, Forall structure_ok ss -> concat (map structure_bytes ss) ++ record 4 0 [] = p ++ q -> q <> [] ->
  exists n es w, (n <= length ss)%nat /\ (length (concat (map structure_bytes (firstn n ss))) <= length p)%nat /\
    (n = length ss \/ (length p < length (concat (map structure_bytes (firstn (S n) ss))))%nat) /\
    Forall2 read_structure (firstn n ss) es /\ stops p w /\ fate (fun l => l = [add_elems es g]) w (run (at_text p (in_lib [g]))).
Proof.
  assert (Nil : forall g, add_elems [] g = g) by (intros []; unfold add_elems; cbn; rewrite app_nil_r; reflexivity).
  induction ss as [|s ss IH]; intros g p q F E N.
  - cbn [map concat app] in E. destruct (cut_empty (fun l => l = [add_elems [] g]) 4 0 (in_lib [g]) (in_lib_ok _) ltac:(cbn; now rewrite Nil) ltac:(lia) p q E N) as (w & S & Ft).
    exists 0%nat, [], w. cbn. repeat (split; [try lia; try constructor; auto|]); assumption.
  - inversion F as [|? ? F1 F2]; subst. cbn [map concat] in E. rewrite <- app_assoc in E.
    destruct (part_structure (fun l => l = [add_elems [] g]) [g] s ltac:(now rewrite Nil) F1) as (Tm & Wh).
    destruct (split_app _ _ _ _ E) as [(q' & Es & N')|(p' & -> & Er)].
    + destruct (Tm p q' Es N') as (w & S & Ft). exists 0%nat, [], w. cbn [firstn map concat length]. pose proof (prefix_shorter _ _ _ Es N').
      rewrite app_nil_r. repeat (split; [try lia; try constructor; auto|]); assumption.
    + destruct (structure_read s [g] F1) as (e & R & Rd). change (upd_last (add_elem e) [g]) with [add_elem e g] in Rd.
      destruct (IH (add_elem e g) p' q F2 Er N) as (n & es & w & A1 & A2 & A3 & A4 & A5 & A6).
      exists (S n), (e :: es), w. cbn [length]. split; [lia|].
      split; [cbn [firstn map concat]; rewrite !app_length; lia|].
      split; [destruct A3 as [->|A3]; [left; reflexivity|right; rewrite firstn_cons; cbn [map concat]; rewrite !app_length; lia]|].
      split; [rewrite firstn_cons; constructor; assumption|]. split; [apply Wh, A5|]. rewrite Rd.
      replace (add_elems (e :: es) g) with (add_elems es (add_elem e g)) by (unfold add_elems, add_elem; cbn; rewrite <- app_assoc; reflexivity). exact A6.
Qed.

Definition bare (n : list byte) (l : list glib) : Prop := exists g, l = [g] /\ b_name g = n /\ b_elements g = [] /\ b_layers g = [].
Lemma part_options (P : list glib -> Prop) os : forall libs, P libs -> Forall option_ok os ->
  part P (concat (map (fun o => record (fst (fst o)) (snd (fst o)) (snd o)) os)) (in_lib libs) (in_lib libs).
Proof.
  induction os as [|[[ty dt] data] os IH]; intros libs HP F; [apply part_nil|]. inversion F as [|? ? TL F2]; subst. destruct TL as (T & L).
  cbn [map concat fst snd]. eapply part_app; [apply part_skipped; [apply in_lib_ok|exact HP|tauto|exact L]|apply IH; assumption].
Qed.
Lemma until_nul_firstn s d q : ~ In x00 s -> padded s = d ++ q -> q <> [] -> until_nul d = firstn (length d) s.
Proof.
  intros Hs E N. assert (exists r, s = d ++ r) as (r & ->).
  { unfold padded in E. destruct (Nat.even (length s)); [exists q; exact E|]. destruct (exists_last N) as (q' & z & ->).
    rewrite app_assoc in E. apply app_inj_tail in E. destruct E as (-> & _). exists q'. reflexivity. }
  rewrite firstn_app, firstn_all, Nat.sub_diag, firstn_O, app_nil_r. clear E N q.
  induction d as [|x d IH]; [reflexivity|]. cbn [until_nul]. cbn [app In] in Hs.
  destruct (beqb x x00) eqn:Q; [apply beqb_eq in Q; exfalso; apply Hs; left; exact Q|]. f_equal. apply IH. tauto.
Qed.
Lemma padded_longer s : (length s <= length (padded s))%nat.
Proof. unfold padded. destruct (Nat.even _); [lia|]. rewrite app_length. lia. Qed.
Definition head_left (K : nat) (b : library) (l : list glib) : Prop :=
  ((K < 10)%nat /\ l = []) \/ ((34 <= K)%nat /\ bare (firstn (K - 38) (lb_name b)) l).
Definition name_lib (n : list byte) : glib := mkglib n (b_user new_glib) (b_physical new_glib) [] [] (mkcoord 0 0) (mkcoord 0 0).
Lemma record_length ty dt data : length (record ty dt data) = (4 + length data)%nat.
Proof. unfold record. rewrite !app_length. cbn [length]. reflexivity. Qed.
Lemma head_whole b : library_ok b -> whole (library_head b).
Proof.
  intros (HV & H1 & H2 & H3 & H4 & H5 & H6). unfold real_ok in *. unfold library_head.
  apply whole_app; [apply whole_word; lia|]. apply whole_app; [apply whole_record; lia|]. apply whole_app; [apply whole_string; [lia|exact H2]|].
  apply whole_app; [|apply whole_record; [lia|rewrite app_length; lia]].
  exact (proj1 (proj2 (part_options (fun _ => True) (lb_options b) [] I H3))).
Qed.
Lemma head_cut b p q : library_ok b -> library_head b = p ++ q -> q <> [] ->
  exists w, stops p w /\ fate (head_left (length p) b) w (run (at_text p (outside []))).
Proof.
  intros (HV & H1 & H2 & H3 & H4 & H5 & H6) E N. unfold real_ok in *. remember (head_left (length p) b) as P eqn:EP. unfold library_head in E.
  pose proof (padded_length (lb_name b)) as PL. pose proof (padded_longer (lb_name b)) as PG.
  destruct (split_app _ _ _ _ E) as [(q1 & E1 & N1)|(p1 & Ep & E1)]; clear E.
  { (* HEADER *)
    pose proof (prefix_shorter _ _ _ E1 N1) as Ln. rewrite record_length in Ln. change (length (word (lb_version b))) with 2%nat in Ln.
    refine (tame_at P 0 2 (word (lb_version b)) (outside []) p q1 (outside_ok _) ltac:(lia) ltac:(cbn; lia) E1 N1 _ _); [intros _; subst P; left; cbn; split; [lia|reflexivity]|].
    intros d Ld Ed. pose proof (prefix_shorter _ _ _ Ed N1) as Lx. change (length (word (lb_version b))) with 2%nat in Lx. cbn [dispatch]. unfold ReadSection_HEADER.
    destruct (short_word0 d (outside []) Lx) as (x & ->). cbn [bind snd]. right. right. split; [not_in|]. eexists. split; [reflexivity|].
    split; [subst P; left; cbn; split; [lia|reflexivity]|reflexivity]. }
  assert (A : run (at_text p (outside [])) = run (at_text p1 (outside []))).
  { rewrite Ep. rewrite run_record by (first [apply outside_ok|lia|cbn; lia]). cbn [dispatch]. unfold ReadSection_HEADER. rewrite word0_exact by exact HV. reflexivity. }
  assert (W1 : forall w, stops p1 w -> stops p w) by (intros w H; rewrite Ep; apply whole_word; [lia|exact H]).
  assert (L1 : length p = (6 + length p1)%nat) by (rewrite Ep, app_length, record_length; reflexivity). clear Ep. rewrite A. clear A.
  destruct (split_app _ _ _ _ E1) as [(q2 & E2 & N2)|(p2 & Ep & E2)]; clear E1.
  { (* BGNLIB *)
    pose proof (prefix_shorter _ _ _ E2 N2) as Ln. rewrite record_length in Ln.
    destruct (fun a c => tame_at P 1 2 (lb_dates b) (outside []) p1 q2 (outside_ok _) ltac:(lia) ltac:(lia) E2 N2 a c) as (w & S & F); [| |exists w; split; [apply W1, S|exact F]].
    - intros Lp. subst P. left. cbn. split; [lia|reflexivity].
    - intros d Ld Ed. pose proof (prefix_shorter _ _ _ Ed N2) as Lx. cbn [dispatch]. unfold ReadSection_BEGINLIBRARY.
      match goal with |- context [g_lib ?st] => change (g_lib st) with false end. cbv iota. left. split; [is_in|]. unfold read_dates.
      match goal with |- context [read_new 12 (g_stream ?x)] => change (g_stream x) with (mkstream d true false) end.
      destruct (Nat.lt_ge_cases (length d) 12) as [L|L]; [rewrite (short_new 12 d L); reflexivity|].
      replace d with (firstn 12 d ++ skipn 12 d) by apply firstn_skipn. rewrite read_new_exact by (rewrite firstn_length; lia). cbn [bind snd].
      rewrite short_new by (rewrite skipn_length; lia). reflexivity. }
  assert (A : run (at_text p1 (outside [])) = run (at_text p2 (in_lib [new_glib]))).
  { rewrite Ep. rewrite run_record by (first [apply outside_ok|lia]). cbn [dispatch]. unfold ReadSection_BEGINLIBRARY.
    match goal with |- context [g_lib ?st] => change (g_lib st) with false end. cbv iota.
    match goal with |- context [read_dates ?st] => match st with mkgstate (g_stream (at_text ?x _)) _ _ _ _ => change st with (at_text x (in_lib ([] ++ [new_glib]))) end end.
    rewrite (dates_exact _ _ _ H1). reflexivity. }
  assert (W2 : forall w, stops p2 w -> stops p w) by (intros w H; apply W1; rewrite Ep; apply whole_record; [lia|lia|exact H]).
  assert (L2 : length p = (34 + length p2)%nat) by (rewrite L1, Ep, app_length, record_length; lia). clear Ep L1 W1. rewrite A. clear A p1.
  destruct (split_app _ _ _ _ E2) as [(q3 & E3 & N3)|(p3 & Ep & E3)]; clear E2.
  { (* LIBNAME *)
    destruct (fun a c => tame_at P 2 6 (padded (lb_name b)) (in_lib [new_glib]) p2 q3 (in_lib_ok _) ltac:(lia) ltac:(destruct H2; lia) E3 N3 a c) as (w & S & F); [| |exists w; split; [apply W2, S|exact F]].
    - intros Lp. subst P. right. split; [lia|]. exists new_glib. replace (length p - 38)%nat with 0%nat by lia. rewrite firstn_O. auto.
    - intros d Ld Ed. pose proof (prefix_shorter _ _ _ Ed N3) as Lx. cbn [dispatch]. unfold ReadSection_LIBNAME. change (negb (in_library _)) with false. cbv iota.
      rewrite (short_string _ d _ Lx). rewrite (until_nul_firstn _ _ _ (proj1 H2) Ed N3). right. right. split; [not_in|]. eexists. split; [reflexivity|].
      split; [|reflexivity]. subst P. right. split; [lia|]. exists (name_lib (firstn (length d) (lb_name b))). replace (length p - 38)%nat with (length d) by lia.
      split; [reflexivity|]. auto. }
  assert (A : run (at_text p2 (in_lib [new_glib])) = run (at_text p3 (in_lib [name_lib (lb_name b)]))).
  { rewrite Ep. rewrite run_record by (first [apply in_lib_ok|lia|destruct H2; lia]). cbn [dispatch]. unfold ReadSection_LIBNAME. change (negb (in_library _)) with false. cbv iota.
    rewrite (string_exact _ _ _ H2). reflexivity. }
  assert (W3 : forall w, stops p3 w -> stops p w) by (intros w H; apply W2; rewrite Ep; apply whole_string; [lia|exact H2|exact H]).
  assert (L3 : firstn (length p - 38) (lb_name b) = lb_name b) by (apply firstn_all2; rewrite L2, Ep, app_length, record_length; lia).
  assert (K3 : (34 <= length p)%nat) by lia. clear Ep L2 W2. rewrite A. clear A p2.
  assert (HP : P [name_lib (lb_name b)]). { subst P. right. split; [exact K3|]. rewrite L3. exists (name_lib (lb_name b)). auto. }
  destruct (part_options P (lb_options b) _ HP H3) as (O1 & O2 & O3).
  destruct (split_app _ _ _ _ E3) as [(q4 & E4 & N4)|(p4 & Ep & E4)]; clear E3.
  { (* options *) destruct (O1 p3 q4 E4 N4) as (w & S & F). exists w. split; [apply W3, S|exact F]. }
  rewrite Ep in *. rewrite O3.
  (* UNITS *)
  destruct (fun c => tame_at P 3 5 (lb_user b ++ lb_physical b) (in_lib [name_lib (lb_name b)]) p4 q (in_lib_ok _) ltac:(lia) ltac:(rewrite app_length; lia) E4 N (fun _ => HP) c) as (w & S & F);
    [|exists w; split; [apply W3, O2, S|exact F]].
  intros d Ld Ed. pose proof (prefix_shorter _ _ _ Ed N) as Lx. rewrite app_length in Lx. cbn [dispatch]. unfold ReadSection_UNITS. change (negb (in_library _)) with false. cbv iota.
  match goal with |- context [g_stream (at_text ?x (in_lib ?l))] => change (g_stream (at_text x (in_lib l))) with (mkstream x true false) end.
  match goal with |- context [read_over ?x _] => remember x as old eqn:Eo end.
  assert (Lo : length old = 16%nat) by (subst old; rewrite app_length, !double_image_length; reflexivity). clear Eo.
  rewrite short_over by lia.
  assert (Li : length (d ++ skipn (length d) old) = 16%nat) by (rewrite app_length, skipn_length; lia).
  destruct (double_ok (firstn 8 (d ++ skipn (length d) old))) as (x1 & E1); [rewrite firstn_length; lia|]. rewrite E1. cbn [bind].
  destruct (double_ok (skipn 8 (d ++ skipn (length d) old))) as (x2 & E2); [rewrite skipn_length; lia|]. rewrite E2. cbn [bind].
  right. right. split; [not_in|]. eexists. split; [reflexivity|]. split; [|reflexivity]. subst P. right. split; [exact K3|]. rewrite L3.
  eexists. split; [reflexivity|]. split; [reflexivity|]. split; reflexivity.
Qed.

Lemma structures_whole ss : Forall structure_ok ss -> whole (concat (map structure_bytes ss)).
Proof.
  induction 1 as [|s ss H F IH]; [apply whole_nil|]. cbn [map concat]. apply whole_app; [|exact IH].
  exact (proj2 (part_structure (fun _ => True) [] s I H)).
Qed.
Lemma bytes_parts b : library_bytes b = library_head b ++ concat (map structure_bytes (lb_structures b)) ++ record 4 0 [].
Proof. unfold library_bytes, library_head. rewrite <- !app_assoc. reflexivity. Qed.
Lemma bare_post n l : bare n l -> PostProcessLayout l = (l, true).
Proof. intros ([nm u p els lays mn mx] & -> & _ & E1 & E2). cbn in E1, E2. subst. reflexivity. Qed.

Theorem cut_files fs r name ff b k : gr_data r = true -> library_ok b -> (k <= length (library_bytes b))%nat ->
  fs (narrow (gr_name r)) = Some (firstn k (library_bytes b)) ->
  exists w, stops (firstn k (library_bytes b)) w /\
    ((exists ty, w = Some ty /\ In ty needed /\ gRead fs r (Some (mkgdata name [] ff)) = UB Indeterminate) \/
     (exists ty, w = Some ty /\ In ty four_byte /\ gRead fs r (Some (mkgdata name [] ff)) = UB SignedOverflow) \/
     ((forall ty, w = Some ty -> ~ In ty needed) /\ exists libs ok,
        gRead fs r (Some (mkgdata name [] ff)) = Ok (r, Some (mkgdata (gr_name r) libs FFgdsii_bin), ok) /\ left_over b k libs ok)).
Proof.
  intros D H Lk F. pose proof H as (_ & _ & _ & _ & _ & _ & Hs).
  assert (Er : mkgreader (gr_name r) true = r) by (destruct r; cbn in *; now subst).
  destruct (Nat.eq_dec k (length (library_bytes b))) as [->|Nk].
  { rewrite firstn_all in *. exists None. split.
    { replace (library_bytes b) with (library_bytes b ++ []) by apply app_nil_r. rewrite bytes_parts.
      apply whole_app; [apply head_whole, H|apply whole_app; [apply structures_whole, Hs|apply whole_empty; lia]|]. constructor. cbn. lia. }
    right. right. split; [discriminate|].
    destruct (file_shown b 0 fs r name ff H D ltac:(cbn [repeat]; rewrite app_nil_r; exact F)) as (g & ok & E & E1 & E2).
    exists [g], ok. split; [exact E|]. right. right. rewrite bytes_parts, !app_length. split; [lia|].
    exists (length (lb_structures b)), g.
    assert (FS : first_structures (length (lb_structures b)) b = b) by (unfold first_structures; rewrite firstn_all; destruct b; reflexivity).
    rewrite FS, firstn_all. split; [|auto]. unfold whole_structures. rewrite FS. unfold open_library. rewrite app_length. split; [lia|]. split; [lia|]. left. reflexivity. }
  remember (firstn k (library_bytes b)) as p eqn:Ep. remember (skipn k (library_bytes b)) as q eqn:Eq.
  assert (E : library_bytes b = p ++ q) by (subst; symmetry; apply firstn_skipn).
  assert (N : q <> []) by (intros ->; apply (f_equal (@length byte)) in Eq; rewrite skipn_length in Eq; change (length (@nil byte)) with 0%nat in Eq; lia).
  assert (Lp : length p = k) by (rewrite Ep, firstn_length; lia). clear Ep Eq Lk Nk.
  rewrite bytes_parts in E. rewrite (gRead_run fs r _ _ D F). cbn [gd_libraries].
  destruct (split_app _ _ _ _ E) as [(q' & Eh & N')|(p' & -> & Es)].
  - destruct (head_cut b p q' H Eh N') as (w & S & Ft). exists w. split; [exact S|]. pose proof (prefix_shorter _ _ _ Eh N') as Lh. rewrite Lp in *.
    destruct Ft as [(ty & -> & I & ->)|[(ty & -> & I & ->)|(Nn & st & -> & HL)]]; [left; exists ty; auto|right; left; exists ty; auto|].
    right. right. split; [exact Nn|]. cbn [bind]. destruct HL as [(Lt & El)|(Lt & HB)].
    + rewrite El. exists [], true. split; [change (PostProcessLayout []) with (@nil glib, true); cbv iota beta; rewrite Er; reflexivity|]. left. auto.
    + rewrite (bare_post _ _ HB). exists (g_libs st), true. cbv iota beta. rewrite Er. split; [reflexivity|]. right. left. split; [lia|]. split; [reflexivity|exact HB].
  - destruct (library_head_read b [] H) as (g & (B1 & B2 & B3 & B4 & B5 & B6 & B7) & Rd). cbn [app] in Rd. rewrite Rd.
    destruct (structures_cut (lb_structures b) g p' q Hs Es N) as (n & es & w & A1 & A2 & A3 & A4 & A5 & A6).
    exists w. split; [apply head_whole; assumption|]. rewrite app_length in Lp.
    destruct A6 as [(ty & -> & I & ->)|[(ty & -> & I & ->)|(Nn & st & -> & HL)]]; [left; exists ty; auto|right; left; exists ty; auto|].
    right. right. split; [exact Nn|]. cbn [bind]. rewrite HL.
    assert (R : read_library (first_structures n b) (add_elems es g)).
    { unfold read_library, first_structures, add_elems. cbn [b_name b_user b_physical b_elements b_layers b_min b_max lb_name lb_user lb_physical lb_structures].
      rewrite B4. auto 10. }
    destruct (PostProcessLayout [add_elems es g]) as [L ok] eqn:PP. pose proof (post_resolvable _ _ L ok R PP) as RE.
    destruct (post_names _ L ok PP) as (HN & _). destruct L as [|g' [|g'' L]]; try discriminate HN.
    exists [g'], ok. rewrite Er. split; [reflexivity|]. right. right. split; [lia|]. exists n, g'.
    split; [|split; [reflexivity|]; split; [exact RE|]; intros ->; destruct (post_shows _ _ [g'] R (proj1 RE eq_refl) PP) as (g1 & Q & S); injection Q as ->; exact S].
    unfold whole_structures, open_library, first_structures, library_head in *. cbn [lb_version lb_dates lb_name lb_options lb_user lb_physical lb_structures].
    rewrite !app_length in *. split; [exact A1|]. split; [lia|]. destruct A3 as [->|A3]; [left; reflexivity|right; lia].
Qed.

(** ** Where a text stops is determined *)
Lemma head4 v ty dt (t : list byte) v' ty' dt' t' : word v ++ [z2b ty; z2b dt] ++ t = word v' ++ [z2b ty'; z2b dt'] ++ t' ->
  word v = word v' /\ z2b ty = z2b ty' /\ t = t'.
Proof.
  assert (G : forall (a b c d a' b' c' d' : byte) t t', [a; b] ++ [c; d] ++ t = [a'; b'] ++ [c'; d'] ++ t' -> [a; b] = [a'; b'] /\ c = c' /\ t = t').
  { intros. cbn [app] in *. injection H as -> -> -> -> ->. auto. }
  intros H. exact (G _ _ _ _ _ _ _ _ _ _ H).
Qed.
Lemma z2b_small a b : 0 <= a < 128 -> 0 <= b < 128 -> z2b a = z2b b -> a = b.
Proof. intros A B H. apply (f_equal b2z) in H. rewrite !b2z_z2b, !Z.mod_small in H by lia. exact H. Qed.
Lemma stops_inside_inv ty dt n t w : 0 <= ty < 128 -> 0 <= n <= 65531 ->
  stops (word (4 + n) ++ [z2b ty; z2b dt] ++ t) w -> (w = Some ty /\ Z.of_nat (length t) < n) \/ (exists data t', t = data ++ t' /\ Z.of_nat (length data) = n /\ stops t' w).
Proof.
  intros T Rn S. remember (word (4 + n) ++ [z2b ty; z2b dt] ++ t) as x eqn:Ex. destruct S as [x Lx|ty' dt' n' d' T' L'|ty' dt' data' t' w T' L' S'].
  - exfalso. rewrite Ex, !app_length in Lx. change (length (word (4 + n))) with 2%nat in Lx. cbn [length] in Lx. lia.
  - left. apply head4 in Ex. destruct Ex as (W & Y & ->). apply (f_equal big_endian) in W. rewrite !word_unsigned in W by lia. apply z2b_small in Y; [|assumption|assumption].
    subst ty'. split; [reflexivity|lia].
  - right. unfold record in Ex. rewrite <- !app_assoc in Ex. apply head4 in Ex. destruct Ex as (W & Y & Ed). apply (f_equal big_endian) in W. rewrite !word_unsigned in W by lia.
    exists data', t'. split; [symmetry; exact Ed|]. split; [lia|exact S'].
Qed.
Theorem stops_unique t w w' : stops t w -> stops t w' -> w = w'.
Proof.
  intros S. revert w'. induction S as [t Lt|ty dt n d T L|ty dt data t w T L S IH]; intros w' S'.
  - destruct S' as [|ty dt n d T L|ty dt data t w T L S]; [reflexivity| |]; exfalso; unfold record in *; rewrite ?app_length in Lt; cbn in Lt; lia.
  - destruct (stops_inside_inv ty dt n d w' T ltac:(lia) S') as [(-> & _)|(data & t' & -> & Ld & _)]; [reflexivity|].
    exfalso. rewrite app_length in L. lia.
  - assert (S2 : stops (word (4 + Z.of_nat (length data)) ++ [z2b ty; z2b dt] ++ (data ++ t)) w') by (unfold record in S'; rewrite <- !app_assoc in S'; exact S').
    destruct (stops_inside_inv ty dt (Z.of_nat (length data)) _ w' T ltac:(lia) S2) as [(_ & Lx)|(data' & t' & Q & Ld & S3)]; [rewrite app_length in Lx; lia|].
    apply IH. assert (data' = data /\ t' = t) as (_ & <-); [|exact S3].
    apply Nat2Z.inj in Ld. clear - Q Ld. revert data' Ld Q. induction data as [|x data IH]; intros [|y data'] Ld Q; cbn in *; try lia; [auto|].
    injection Q as -> Q. destruct (IH data' ltac:(lia) Q) as (-> & ->). auto.
Qed.

(** ** Without the end *)
Theorem without_the_end fs fs' r name ff b k : gr_data r = true -> library_ok b -> (length (open_library b) <= k)%nat ->
  fs (narrow (gr_name r)) = Some (firstn k (library_bytes b)) -> fs' (narrow (gr_name r)) = Some (library_bytes b) ->
  gRead fs r (Some (mkgdata name [] ff)) = gRead fs' r (Some (mkgdata name [] ff)).
Proof.
  intros D H Lk F F'. rewrite (gRead_run fs r _ _ D F), (gRead_run fs' r _ _ D F'). cbn [gd_libraries].
  pose proof H as (_ & _ & _ & _ & _ & _ & Hs). pose proof (library_head_read b [] H) as (g & _ & Rd). cbn [app] in Rd.
  destruct (structures_read (lb_structures b) [] g Hs) as (es & _ & Re). cbn [app] in Re.
  assert (Any : forall n, exists s, run (at_text (open_library b ++ firstn n (record 4 0 [])) (outside [])) = Ok s /\ g_libs s = [add_elems es g]).
  { intros n. unfold open_library. rewrite <- app_assoc, Rd, Re. destruct (Nat.lt_ge_cases n 4) as [L|L].
    - destruct (short_run (fun _ => True) (in_lib [add_elems es g]) (firstn n (record 4 0 [])) I) as (s & ->); [rewrite firstn_length; lia|]. eexists. split; reflexivity.
    - rewrite firstn_all2 by exact L. rewrite <- (app_nil_r (record 4 0 [])).
      rewrite run_record by (first [apply in_lib_ok|lia|cbn; lia]). cbn [dispatch]. unfold ReadSection_ENDLIBRARY. cbn [bind]. eexists. split; [reflexivity|]. reflexivity. }
  assert (B : library_bytes b = open_library b ++ record 4 0 []) by (rewrite bytes_parts; unfold open_library; now rewrite app_assoc).
  rewrite B. rewrite firstn_app, firstn_all2 by exact Lk.
  destruct (Any (k - length (open_library b))%nat) as (s & -> & E). destruct (Any 4%nat) as (s' & E0 & E').
  change (firstn 4 (record 4 0 [])) with (record 4 0 []) in E0. rewrite E0. cbn [bind]. rewrite E, E'. reflexivity.
Qed.
