(** Reading a well-formed GDSII stream, record by record. *)
From Coq Require Import Reals.
From Flocq Require Import Core IEEE754.BinarySingleNaN.
From Verif Require Import Prelude P_Prelude M_LayoutData M_Double S_Double P_Double S_Converter P_Converter M_Converter M_Msk M_GdsiiHelpers S_Gdsii P_GdsiiInt P_GdsiiReal M_Gdsii P_GdsiiLoop S_GdsiiFile.
Local Open Scope Z_scope.

(** ** Numbers *)
Lemma twos_word v : int16 v -> twos_complement (word v) = v.
Proof.
  intros H. unfold int16 in H. unfold twos_complement, word, big_endian. cbn [length]. rewrite !b2z_z2b.
  change (256 ^ Z.of_nat 2) with 65536. change (256 ^ Z.of_nat 1) with 256. change (256 ^ Z.of_nat 0) with 1. change (2 ^ 8) with 256.
  destruct (Z.leb_spec 128 ((v / 256) mod 256)); Z.to_euclidean_division_equations; lia.
Qed.
Lemma twos_dword v : int31 v -> twos_complement (dword v) = v.
Proof.
  intros H. unfold int31 in H. unfold twos_complement, dword, big_endian. cbn [length]. rewrite !b2z_z2b.
  change (256 ^ Z.of_nat 4) with (2 ^ 32). change (256 ^ Z.of_nat 3) with (2 ^ 24). change (256 ^ Z.of_nat 2) with (2 ^ 16). change (256 ^ Z.of_nat 1) with 256. change (256 ^ Z.of_nat 0) with 1.
  change (2 ^ 8) with 256. change (2 ^ 16) with (256 * 256). change (2 ^ 24) with (256 * (256 * 256)). change (2 ^ 32) with (256 * (256 * (256 * 256))).
  rewrite <- !Z.div_div by lia.
  destruct (Z.leb_spec 128 ((v / 256 / 256 / 256) mod 256)); Z.to_euclidean_division_equations; lia.
Qed.
Lemma read_word v : int16 v -> Normalize_WORD (value16 (word v)) = Ok v.
Proof. intros H. unfold word at 1. rewrite word_value. f_equal. exact (twos_word v H). Qed.
Lemma read_dword v : int31 v -> Normalize_DWORD (value32 (dword v)) = Ok v.
Proof.
  intros H. rewrite (dword_normalize _ _ _ _ _ (image32_value (dword v) eq_refl)).
  change [z2b (v / 2 ^ 24); z2b (v / 2 ^ 16); z2b (v / 2 ^ 8); z2b v] with (dword v). rewrite (twos_dword v H).
  unfold int31 in H. destruct (Z.eqb_spec v (- 2 ^ 31)); [lia|reflexivity].
Qed.
Lemma word_unsigned v : 0 <= v < 2 ^ 16 -> big_endian (word v) = v.
Proof.
  intros H. unfold word, big_endian. cbn [length]. rewrite !b2z_z2b.
  change (256 ^ Z.of_nat 1) with 256. change (256 ^ Z.of_nat 0) with 1. change (2 ^ 8) with 256. Z.to_euclidean_division_equations; lia.
Qed.
Lemma schar_z2b v : 0 <= v < 128 -> schar (z2b v) = v.
Proof. intros H. unfold schar. rewrite b2z_z2b_small by lia. destruct (Z.ltb_spec v 128); lia. Qed.

(** ** Reading what is there *)
Lemma sread_exact n data t : length data = n -> sread n (mkstream (data ++ t) true false) = (data, mkstream t true false).
Proof.
  intros <-. unfold sread. cbn [s_good s_rest negb]. destruct (Nat.ltb_spec (length (data ++ t)) (length data)) as [L|L]; [rewrite app_length in L; lia|].
  rewrite firstn_app, Nat.sub_diag, firstn_all, firstn_O, app_nil_r. rewrite skipn_app, Nat.sub_diag, skipn_all. reflexivity.
Qed.
Lemma read_over_exact old data t : length data = length old -> read_over old (mkstream (data ++ t) true false) = (data, mkstream t true false).
Proof. intros H. unfold read_over. rewrite (sread_exact _ _ _ H), H, skipn_all, app_nil_r. reflexivity. Qed.
Lemma read_new_exact n data t : length data = n -> read_new n (mkstream (data ++ t) true false) = Ok (data, mkstream t true false).
Proof. intros H. unfold read_new. rewrite (sread_exact _ _ _ H), H, Nat.ltb_irrefl. reflexivity. Qed.
Lemma word0_exact v t st : int16 v -> read_word0 (at_text (word v ++ t) st) = Ok (v, at_text t st).
Proof. intros H. unfold read_word0. cbn [at_text set_stream g_stream]. rewrite read_over_exact by reflexivity. rewrite (read_word v H). reflexivity. Qed.
Lemma word_new_exact v t st : int16 v -> read_word_new (at_text (word v ++ t) st) = Ok (v, at_text t st).
Proof. intros H. unfold read_word_new. cbn [at_text set_stream g_stream]. rewrite read_new_exact by reflexivity. cbn [bind]. rewrite (read_word v H). reflexivity. Qed.
Lemma padded_length s : (length (padded s) <= length s + 1)%nat.
Proof. unfold padded. destruct (Nat.even _); [lia|]. rewrite app_length. cbn. lia. Qed.
Lemma until_nul_padded s : ~ In x00 s -> until_nul (padded s) = s.
Proof.
  intros H. assert (G : forall t, (t = [] \/ exists u, t = x00 :: u) -> until_nul (s ++ t) = s).
  { intros t Ht. induction s as [|c s IH]; [destruct Ht as [->|(u & ->)]; reflexivity|]. cbn [app until_nul].
    destruct (beqb c x00) eqn:E; [apply beqb_eq in E; subst; exfalso; apply H; left; reflexivity|]. f_equal. apply IH. intros I. apply H. right. exact I. }
  unfold padded. destruct (Nat.even _); [|apply G; right; exists []; reflexivity]. rewrite <- (app_nil_r s) at 1. apply G. left. reflexivity.
Qed.
Lemma string_exact s t st : string_ok s ->
  read_string (Z.of_nat (length (padded s))) (at_text (padded s ++ t) st) = (s, at_text t st).
Proof.
  intros (H & _). unfold read_string. cbn [at_text set_stream g_stream]. rewrite Nat2Z.id, (sread_exact _ (padded s) t eq_refl).
  rewrite (until_nul_padded s H). reflexivity.
Qed.

Lemma run_record st ty dt data t : geom_ok st -> 0 <= ty < 128 -> Z.of_nat (length data) <= 65531 ->
  run (at_text (record ty dt data ++ t) st) = let* st' := dispatch ty (Z.of_nat (length data)) (at_text (data ++ t) st) in run st'.
Proof.
  intros G T L. unfold record. change (word ?x) with [z2b (x / 2 ^ 8); z2b x]. cbn [app]. rewrite (run_step st _ _ _ _ _ G), (schar_z2b ty T).
  change [z2b ((4 + Z.of_nat (length data)) / 2 ^ 8); z2b (4 + Z.of_nat (length data))] with (word (4 + Z.of_nat (length data))).
  rewrite word_unsigned by lia. replace (4 + Z.of_nat (length data) - 4) with (Z.of_nat (length data)) by ring.
  rewrite Z.mod_small by lia. reflexivity.
Qed.

(** Records that the reader skips. *)
Lemma run_skipped st ty dt data t : geom_ok st -> ty = 28 \/ ty = 31 \/ ty = 32 \/ ty = 34 \/ ty = 35 \/ ty = 38 \/ ty = 44 \/ ty = 47 -> Z.of_nat (length data) <= 65531 ->
  run (at_text (record ty dt data ++ t) st) = run (at_text t st).
Proof.
  intros G T L. rewrite run_record by (first [assumption|lia]).
  replace (dispatch ty (Z.of_nat (length data)) (at_text (data ++ t) st)) with (Ok (set_stream (sseek (Z.to_nat (Z.of_nat (length data))) (g_stream (at_text (data ++ t) st))) (at_text (data ++ t) st))).
  - cbn [bind]. f_equal. rewrite Nat2Z.id. unfold sseek. cbn [at_text set_stream g_stream s_good negb s_rest]. rewrite skipn_app, Nat.sub_diag, skipn_all. reflexivity.
  - repeat (destruct T as [->|T]; [reflexivity|]). subst. reflexivity.
Qed.

(** ** Inside an element *)
Definition in_el (libs : list glib) (e : struc) (os : list obj) (o : obj) : gstate :=
  mkgstate (mkstream [] true false) libs true (Some (with_objs (fun _ => os ++ [o]) e)) true.
Lemma in_el_ok libs e os o : geom_ok (in_el libs e os o).
Proof. intros _. eexists. split; [reflexivity|]. cbn. destruct os; discriminate. Qed.
Lemma in_el_in t libs e os o : in_element (at_text t (in_el libs e os o)) = true.
Proof. reflexivity. Qed.
Lemma in_el_active t libs e os o : active (at_text t (in_el libs e os o)) = Some o.
Proof. unfold active. cbn [at_text set_stream g_elem in_el s_objs with_objs]. rewrite rev_app_distr. reflexivity. Qed.
Lemma upd_last_snoc {A} (f : A -> A) l x : upd_last f (l ++ [x]) = l ++ [f x].
Proof.
  induction l as [|y l IH]; [reflexivity|]. cbn [app upd_last]. rewrite IH. destruct (l ++ [x]) eqn:E; [destruct l; discriminate|reflexivity].
Qed.
Lemma in_el_geom f t libs e os o : with_geom f (at_text t (in_el libs e os o)) = at_text t (in_el libs e os (f o)).
Proof.
  unfold with_geom, with_elem, at_text, set_stream, in_el. cbn [g_stream g_libs g_lib g_elem g_geom option_map]. unfold with_objs. cbn [s_objs s_name s_flat s_min s_max s_nested].
  rewrite upd_last_snoc. reflexivity.
Qed.
Lemma in_el_class f t libs e os o : change_class f (at_text t (in_el libs e os o)) = at_text t (in_el libs e os (set_class (f (o_class o)) o)).
Proof. unfold change_class. rewrite in_el_geom. reflexivity. Qed.

Ltac el_record := rewrite run_record by (first [apply in_el_ok | lia | cbn; lia]); cbn [dispatch];
  try match goal with |- context [Z.of_nat (length (word ?v))] => change (Z.of_nat (length (word v))) with 2 end.

Definition set_layer (v : Z) (o : obj) : obj := mkobj v (o_props o) (o_coords o) (o_min o) (o_max o) (o_class o).
Lemma el_layer dt v t libs e os o : int16 v ->
  run (at_text (record 13 dt (word v) ++ t) (in_el libs e os o)) = run (at_text t (in_el libs e os (set_layer v o))).
Proof.
  intros H. el_record. unfold ReadSection_LAYER. rewrite in_el_in, in_el_active. cbn [negb].
  change (g_stream (at_text (word v ++ t) (in_el libs e os o))) with (mkstream (word v ++ t) true false).
  rewrite read_over_exact by (rewrite image16_length; reflexivity). rewrite (read_word v H). cbn [bind].
  change (set_stream (mkstream t true false) (at_text (word v ++ t) (in_el libs e os o))) with (at_text t (in_el libs e os o)).
  rewrite in_el_geom. reflexivity.
Qed.

Definition change (f : shape_class -> shape_class) (o : obj) : obj := set_class (f (o_class o)) o.
Lemma el_datatype dt v t libs e os o : int16 v ->
  run (at_text (record 14 dt (word v) ++ t) (in_el libs e os o)) =
  run (at_text t (in_el libs e os (change (fun c => match c with SPolygon _ => SPolygon v | SPath _ pt w => SPath v pt w | c => c end) o))).
Proof.
  intros H. el_record. unfold ReadSection_DATATYPE. rewrite in_el_in. cbn [negb]. rewrite (word0_exact v t _ H). cbn [bind]. rewrite in_el_class. reflexivity.
Qed.
Lemma el_width dt v t libs e os o : int31 v ->
  run (at_text (record 15 dt (dword v) ++ t) (in_el libs e os o)) =
  run (at_text t (in_el libs e os (change (fun c => match c with SPath dt pt _ => SPath dt pt v | SText a b p f m _ str => SText a b p f m v str | c => c end) o))).
Proof.
  intros H. el_record. unfold ReadSection_WIDTH. rewrite in_el_in. cbn [negb].
  change (g_stream (at_text (dword v ++ t) (in_el libs e os o))) with (mkstream (dword v ++ t) true false).
  rewrite read_over_exact by reflexivity. rewrite (read_dword v H). cbn [bind].
  change (set_stream (mkstream t true false) (at_text (dword v ++ t) (in_el libs e os o))) with (at_text t (in_el libs e os o)).
  rewrite in_el_class. reflexivity.
Qed.
Lemma el_pathtype dt v t libs e os o : int16 v ->
  run (at_text (record 33 dt (word v) ++ t) (in_el libs e os o)) =
  run (at_text t (in_el libs e os (change (fun c => match c with SPath dt _ w => SPath dt v w | SText a b _ f m w str => SText a b v f m w str | c => c end) o))).
Proof.
  intros H. el_record. unfold ReadSection_PATHTYPE. rewrite in_el_in. cbn [negb]. rewrite (word_new_exact v t _ H). cbn [bind]. rewrite in_el_class. reflexivity.
Qed.
Lemma el_strans dt v t libs e os o : int16 v ->
  run (at_text (record 26 dt (word v) ++ t) (in_el libs e os o)) =
  run (at_text t (in_el libs e os (change (fun c => match c with SText a b p _ m w str => SText a b p v m w str | c => c end) o))).
Proof.
  intros H. el_record. unfold ReadSection_STRANS. rewrite in_el_in. cbn [negb]. rewrite (word_new_exact v t _ H). cbn [bind]. rewrite in_el_class. reflexivity.
Qed.
Lemma el_mag dt l x t libs e os o : real_ok l -> Normalize_DOUBLE l = Ok x ->
  run (at_text (record 27 dt l ++ t) (in_el libs e os o)) =
  run (at_text t (in_el libs e os (change (fun c => match c with SReference n p _ => SReference n p x | SText a b p f _ w str => SText a b p f x w str | c => c end) o))).
Proof.
  intros R H. unfold real_ok in R. el_record. unfold ReadSection_MAG. rewrite in_el_in. cbn [negb].
  change (g_stream (at_text (l ++ t) (in_el libs e os o))) with (mkstream (l ++ t) true false).
  rewrite read_over_exact by (rewrite double_image_length; exact R). rewrite H. cbn [bind].
  change (set_stream (mkstream t true false) (at_text (l ++ t) (in_el libs e os o))) with (at_text t (in_el libs e os o)).
  rewrite in_el_class. reflexivity.
Qed.
Lemma is_text_el t libs e os o : is_text (at_text t (in_el libs e os o)) = match o_class o with SText _ _ _ _ _ _ _ => true | _ => false end.
Proof. unfold is_text. rewrite in_el_active. reflexivity. Qed.
Lemma is_reference_el t libs e os o : is_reference (at_text t (in_el libs e os o)) = match o_class o with SReference _ _ _ => true | _ => false end.
Proof. unfold is_reference. rewrite in_el_active. reflexivity. Qed.
Lemma is_rectangle_el t libs e os o : is_rectangle (at_text t (in_el libs e os o)) = match o_class o with SRectangle _ => true | _ => false end.
Proof. unfold is_rectangle. rewrite in_el_active. reflexivity. Qed.

Lemma el_texttype dt v t libs e os o a b p f m w str : int16 v -> o_class o = SText a b p f m w str ->
  run (at_text (record 22 dt (word v) ++ t) (in_el libs e os o)) = run (at_text t (in_el libs e os (set_class (SText v b p f m w str) o))).
Proof.
  intros H C. el_record. unfold ReadSection_TEXTTYPE. rewrite in_el_in, is_text_el, C. cbn [negb andb]. rewrite (word_new_exact v t _ H). cbn [bind]. rewrite in_el_class, C. reflexivity.
Qed.
Lemma el_presentation dt v t libs e os o a b p f m w str : int16 v -> o_class o = SText a b p f m w str ->
  run (at_text (record 23 dt (word v) ++ t) (in_el libs e os o)) = run (at_text t (in_el libs e os (set_class (SText a v p f m w str) o))).
Proof.
  intros H C. el_record. unfold ReadSection_PRESENTATION. rewrite in_el_in, is_text_el, C. cbn [negb andb]. rewrite (word_new_exact v t _ H). cbn [bind]. rewrite in_el_class, C. reflexivity.
Qed.
Lemma el_string dt s t libs e os o a b p f m w str : string_ok s -> o_class o = SText a b p f m w str ->
  run (at_text (record 25 dt (padded s) ++ t) (in_el libs e os o)) = run (at_text t (in_el libs e os (set_class (SText a b p f m w s) o))).
Proof.
  intros H C. pose proof (padded_length s). destruct H as (H & L). el_record. unfold ReadSection_STRING. rewrite in_el_in, is_text_el, C. cbn [negb andb].
  rewrite string_exact by (split; assumption). cbn [bind]. rewrite in_el_class, C. reflexivity.
Qed.
Lemma el_sname dt s t libs e os o n p m : string_ok s -> o_class o = SReference n p m ->
  run (at_text (record 18 dt (padded s) ++ t) (in_el libs e os o)) = run (at_text t (in_el libs e os (set_class (SReference s p m) o))).
Proof.
  intros H C. pose proof (padded_length s). destruct H as (H & L). el_record. unfold ReadSection_SNAME. rewrite in_el_in, is_reference_el, C. cbn [negb andb].
  rewrite string_exact by (split; assumption). cbn [bind]. rewrite in_el_class, C. reflexivity.
Qed.
Lemma el_boxtype dt v t libs e os o b : int16 v -> o_class o = SRectangle b ->
  run (at_text (record 46 dt (word v) ++ t) (in_el libs e os o)) = run (at_text t (in_el libs e os (set_class (SRectangle v) o))).
Proof.
  intros H C. el_record. unfold ReadSection_BOXTYPE. rewrite in_el_in, is_rectangle_el, C. cbn [negb andb]. rewrite (word0_exact v t _ H). cbn [bind]. rewrite in_el_class, C. reflexivity.
Qed.
Lemma el_propattr dt v t libs e os o : int16 v -> o_props o = [] ->
  run (at_text (record 43 dt (word v) ++ t) (in_el libs e os o)) =
  run (at_text t (in_el libs e os (mkobj (o_layer o) [(v, [])] (o_coords o) (o_min o) (o_max o) (o_class o)))).
Proof.
  intros H P. el_record. unfold ReadSection_PROPATTR. rewrite in_el_in, in_el_active, P. cbn [negb rev]. rewrite (word0_exact v t _ H). cbn [bind]. rewrite in_el_geom, P. reflexivity.
Qed.

(** coordinates *)
Lemma coord_exact c0 c t : point_ok c -> read_coord c0 (mkstream (point c ++ t) true false) = Ok (c, mkstream t true false).
Proof.
  intros (H1 & H2). unfold read_coord. rewrite read_over_exact by (rewrite app_length; unfold image32; rewrite !le_bytes_length; reflexivity).
  change (firstn 4 (point c)) with (dword (cx c)). change (skipn 4 (point c)) with (dword (cy c)).
  rewrite (read_dword _ H1), (read_dword _ H2). destruct c; reflexivity.
Qed.
Lemma coords_exact cs : forall c0 t, Forall point_ok cs ->
  read_coords (length cs) c0 (mkstream (concat (map point cs) ++ t) true false) = Ok (cs, mkstream t true false).
Proof.
  induction cs as [|c cs IH]; intros c0 t F; [reflexivity|]. inversion F as [|? ? H1 H2]; subst. cbn [length read_coords map concat].
  rewrite <- app_assoc, (coord_exact c0 c _ H1). cbn [bind]. rewrite (IH c t H2). reflexivity.
Qed.
Lemma points_length cs : length (concat (map point cs)) = (8 * length cs)%nat.
Proof. induction cs as [|c cs IH]; [reflexivity|]. cbn [map concat length]. rewrite app_length, IH. cbn. lia. Qed.
Lemma el_xy dt cs t libs e os o : points_ok cs -> (match o_class o with SPolygon _ | SPath _ _ _ | SRectangle _ => True | _ => False end) ->
  run (at_text (record 16 dt (concat (map point cs)) ++ t) (in_el libs e os o)) = run (at_text t (in_el libs e os (bound_obj o cs))).
Proof.
  intros (N & L & F) C. rewrite run_record; [|apply in_el_ok|lia|rewrite points_length; lia]. cbn [dispatch]. unfold ReadSection_XY.
  rewrite in_el_in, in_el_active. cbn [negb]. rewrite points_length.
  replace (Z.to_nat (Z.of_nat (8 * length cs) / 8)) with (length cs)
    by (rewrite Nat2Z.inj_mul, Z.mul_comm, Z.div_mul by lia; lia).
  change (g_stream (at_text (concat (map point cs) ++ t) (in_el libs e os o))) with (mkstream (concat (map point cs) ++ t) true false).
  rewrite (coords_exact cs _ t F).
  destruct (o_class o); try contradiction; cbn [bind];
    change (set_stream (mkstream t true false) (at_text (concat (map point cs) ++ t) (in_el libs e os o))) with (at_text t (in_el libs e os o));
    rewrite in_el_geom; reflexivity.
Qed.
Lemma el_xy1 dt c t libs e os o : point_ok c -> (match o_class o with SReference _ _ _ | SText _ _ _ _ _ _ _ => True | _ => False end) -> o_coords o = [] ->
  run (at_text (record 16 dt (point c) ++ t) (in_el libs e os o)) = run (at_text t (in_el libs e os (bound_obj o [c]))).
Proof.
  intros H C N. el_record. unfold ReadSection_XY. rewrite in_el_in, in_el_active. cbn [negb].
  change (g_stream (at_text (point c ++ t) (in_el libs e os o))) with (mkstream (point c ++ t) true false).
  rewrite (coord_exact _ c t H).
  destruct (o_class o); try contradiction; cbn [bind];
    change (set_stream (mkstream t true false) (at_text (point c ++ t) (in_el libs e os o))) with (at_text t (in_el libs e os o));
    rewrite in_el_geom, N; reflexivity.
Qed.

(** the whole object *)
Definition between (libs : list glib) (e : struc) (os : list obj) : gstate :=
  mkgstate (mkstream [] true false) libs true (Some (with_objs (fun _ => os) e)) false.
Lemma between_ok libs e os : geom_ok (between libs e os).
Proof. intros H. discriminate. Qed.
Lemma el_end dt t libs e os o : run (at_text (record 17 dt [] ++ t) (in_el libs e os o)) = run (at_text t (between libs e (os ++ [o]))).
Proof. el_record. unfold ReadSection_ENDELEMENT. rewrite in_el_in. reflexivity. Qed.

Definition first_class (s : shape) : shape_class :=
  match s with
  | Boundary _ _ _ => SPolygon 0
  | Path _ _ _ _ _ => SPath 0 0 0
  | Box _ _ _ => SRectangle 0
  | Text _ _ _ _ _ _ _ _ => SText 0 0 0 0 (dz 1) 0 []
  | Sref _ _ _ => SReference [] None (dz 1)
  end.
Definition flat_after (s : shape) (e : struc) : struc :=
  match s with Sref _ _ _ => mkstruc (s_name e) (s_objs e) false (s_min e) (s_max e) (s_nested e) | _ => e end.
Lemma el_begin dt s t libs e os :
  run (at_text (record (shape_type s) dt [] ++ t) (between libs e os)) = run (at_text t (in_el libs (flat_after s e) os (new_obj (first_class s)))).
Proof. rewrite run_record; [|apply between_ok|destruct s; cbn; lia|cbn; lia]. destruct s; reflexivity. Qed.

(** An optional transformation. *)
Definition with_trans (fl : Z) (x : double) (c : shape_class) : shape_class :=
  match c with SText a b p _ _ w str => SText a b p fl x w str | SReference n p _ => SReference n p x | c => c end.
Lemma el_trans tr libs e os o : fits trans_ok tr -> (match o_class o with SReference _ _ m => m = dz 1 | SText _ _ _ f m _ _ => f = 0 /\ m = dz 1 | _ => False end) ->
  exists x, mag_of tr x /\ forall t, run (at_text (optional trans_bytes tr ++ t) (in_el libs e os o)) =
    run (at_text t (in_el libs e os (change (with_trans (match tr with Some t => t_flags t | None => 0 end) x) o))).
Proof.
  intros H C. destruct tr as [tr|].
  - specialize (H tr eq_refl). destruct H as (H1 & H2 & H3). cbn [optional mag_of]. unfold trans_bytes.
    assert (A : forall t o', run (at_text (optional (record 28 5) (t_angle tr) ++ t) (in_el libs e os o')) = run (at_text t (in_el libs e os o'))).
    { intros t o'. destruct (t_angle tr) as [l|]; [|reflexivity]. cbn [optional]. specialize (H3 l eq_refl). unfold real_ok in H3.
      apply run_skipped; [apply in_el_ok|tauto|lia]. }
    destruct (t_mag tr) as [l|].
    + cbn [optional]. specialize (H2 l eq_refl). destruct (gdsii_exists l H2) as (r & G). destruct (normalize_double l r G) as (x & E & N). exists x.
      split; [exists r; auto|]. intros t. rewrite <- !app_assoc, (el_strans _ _ _ _ _ _ _ H1). rewrite (el_mag _ _ _ _ _ _ _ _ H2 E), A. do 3 f_equal. unfold change, set_class. cbn. destruct (o_class o); reflexivity.
    + exists (dz 1). split; [reflexivity|]. intros t. rewrite <- !app_assoc, (el_strans _ _ _ _ _ _ _ H1). cbn [optional app]. rewrite A. do 3 f_equal. unfold change, set_class. destruct (o_class o); try contradiction; cbn; [destruct C as (_ & ->)|subst]; reflexivity.
  - exists (dz 1). split; [reflexivity|]. intros t. cbn [optional app]. do 3 f_equal. unfold change, set_class. destruct o as [? ? ? ? ? cl]. cbn in *. destruct cl; try contradiction; cbn; [destruct C as (-> & ->)|subst]; reflexivity.
Qed.

(** What one element gives, before references are resolved. *)
Definition read_class (s : shape) (c : shape_class) : Prop :=
  match s with
  | Boundary _ d _ => c = SPolygon d
  | Path _ d pt w _ => c = SPath d (or0 pt) (or0 w)
  | Box _ b _ => c = SRectangle b
  | Text _ ty pr pt w t _ str => exists m, c = SText ty (or0 pr) (or0 pt) (match t with Some t => t_flags t | None => 0 end) m (or0 w) str /\ mag_of t m
  | Sref n t _ => exists m, c = SReference n None m /\ mag_of t m
  end.
Definition read_as (e : element) (o : obj) : Prop :=
  o_layer o = layer_number (el_shape e) /\ o_coords o = coords_of (el_shape e) /\ bounding_box (coords_of (el_shape e)) (o_min o) (o_max o) /\
  o_props o = match el_property e with Some (a, _) => [(a, [])] | None => [] end /\ read_class (el_shape e) (o_class o).

Lemma bound_bbox o cs : cs <> [] -> exists mn mx, bound_obj o cs = mkobj (o_layer o) (o_props o) cs mn mx (o_class o) /\ bounding_box cs mn mx.
Proof.
  destruct cs as [|c0 t]; [congruence|]. intros _. unfold bound_obj. destruct (fold_left widen t (c0, c0)) as [mn mx] eqn:F. apply widen_bbox in F. eauto.
Qed.

Ltac opt_step := match goal with
  | H : fits _ ?x |- context [optional _ ?x] => let v := fresh "v" in destruct x as [v|]; cbn [optional app or0]; [specialize (H v eq_refl); rewrite <- ?app_assoc|]
  end.

Lemma shape_read s libs e os : shape_ok s ->
  exists c mn mx, read_class s c /\ bounding_box (coords_of s) mn mx /\
    forall t, run (at_text (shape_bytes s ++ t) (in_el libs e os (new_obj (first_class s)))) = run (at_text t (in_el libs e os (mkobj (layer_number s) [] (coords_of s) mn mx c))).
Proof.
  pose (O := fun l c => mkobj l [] [] (mkcoord (-1) (-1)) (mkcoord (-1) (-1)) c).
  destruct s as [l d xy|l d pt w xy|l b xy|l ty pr pt w tr xy str|n tr xy]; cbn [shape_ok shape_bytes coords_of layer_number read_class first_class].
  - intros (H1 & H2 & H3). destruct (bound_bbox (O l (SPolygon d)) xy (proj1 H3)) as (mn & mx & E & B).
    exists (SPolygon d), mn, mx. split; [reflexivity|]. split; [exact B|]. intros t.
    rewrite <- !app_assoc. rewrite (el_layer _ _ _ _ _ _ _ H1), (el_datatype _ _ _ _ _ _ _ H2), el_xy by (first [exact H3|exact I]).
    match goal with |- context [bound_obj ?o xy] => change (bound_obj o xy) with (bound_obj (O l (SPolygon d)) xy) end. rewrite E. reflexivity.
  - intros (H1 & H2 & H3 & H4 & H5). destruct (bound_bbox (O l (SPath d (or0 pt) (or0 w))) xy (proj1 H5)) as (mn & mx & E & B).
    exists (SPath d (or0 pt) (or0 w)), mn, mx. split; [reflexivity|]. split; [exact B|]. intros t.
    rewrite <- !app_assoc. rewrite (el_layer _ _ _ _ _ _ _ H1), (el_datatype _ _ _ _ _ _ _ H2).
    destruct pt as [pt|]; cbn [optional app or0] in *; [rewrite (el_pathtype _ _ _ _ _ _ _ (H3 pt eq_refl))|];
      (destruct w as [w|]; cbn [optional app or0] in *; [rewrite (el_width _ _ _ _ _ _ _ (H4 w eq_refl))|]);
      (rewrite el_xy by (first [exact H5|exact I]));
      match goal with E : bound_obj ?o' xy = _ |- context [bound_obj ?o xy] => change (bound_obj o xy) with (bound_obj o' xy) end; rewrite E; reflexivity.
  - intros (H1 & H2 & H3). destruct (bound_bbox (O l (SRectangle b)) xy (proj1 H3)) as (mn & mx & E & B).
    exists (SRectangle b), mn, mx. split; [reflexivity|]. split; [exact B|]. intros t.
    rewrite <- !app_assoc. rewrite (el_layer _ _ _ _ _ _ _ H1), (el_boxtype _ _ _ _ _ _ (set_layer l (new_obj (SRectangle 0))) 0 H2 eq_refl), el_xy by (first [exact H3|exact I]).
    match goal with |- context [bound_obj ?o xy] => change (bound_obj o xy) with (bound_obj (O l (SRectangle b)) xy) end. rewrite E. reflexivity.
  - intros (H1 & H2 & H3 & H4 & H5 & H6 & H7 & H8).
    pose (T := fun a b p f m w s => mkobj l [] [] (mkcoord (-1) (-1)) (mkcoord (-1) (-1)) (SText a b p f m w s)).
    destruct (el_trans tr libs e os (T ty (or0 pr) (or0 pt) 0 (dz 1) (or0 w) []) H6) as (x & M & E); [split; reflexivity|].
    destruct (bound_bbox (T ty (or0 pr) (or0 pt) (match tr with Some t => t_flags t | None => 0 end) x (or0 w) []) [xy] ltac:(discriminate)) as (mn & mx & E' & B).
    eexists. exists mn, mx. split; [exists x; split; [reflexivity|exact M]|]. split; [exact B|]. intros t.
    rewrite <- !app_assoc. rewrite (el_layer _ _ _ _ _ _ _ H1).
    change (set_layer l (new_obj (SText 0 0 0 0 (dz 1) 0 []))) with (T 0 0 0 0 (dz 1) 0 []).
    rewrite (el_texttype _ _ _ _ _ _ (T 0 0 0 0 (dz 1) 0 []) _ _ _ _ _ _ _ H2 eq_refl).
    change (set_class (SText ty 0 0 0 (dz 1) 0 []) (T 0 0 0 0 (dz 1) 0 [])) with (T ty 0 0 0 (dz 1) 0 []).
    assert (Q1 : forall t, run (at_text (optional (fun v => record 23 1 (word v)) pr ++ t) (in_el libs e os (T ty 0 0 0 (dz 1) 0 []))) =
                           run (at_text t (in_el libs e os (T ty (or0 pr) 0 0 (dz 1) 0 [])))).
    { intros t'. destruct pr as [v|]; [|reflexivity]. cbn [optional or0]. rewrite (el_presentation _ _ _ _ _ _ (T ty 0 0 0 (dz 1) 0 []) _ _ _ _ _ _ _ (H3 v eq_refl) eq_refl). reflexivity. }
    rewrite Q1.
    assert (Q2 : forall t, run (at_text (optional (fun v => record 33 2 (word v)) pt ++ t) (in_el libs e os (T ty (or0 pr) 0 0 (dz 1) 0 []))) =
                           run (at_text t (in_el libs e os (T ty (or0 pr) (or0 pt) 0 (dz 1) 0 [])))).
    { intros t'. destruct pt as [v|]; [|reflexivity]. cbn [optional or0]. rewrite (el_pathtype _ _ _ _ _ _ _ (H4 v eq_refl)). reflexivity. }
    rewrite Q2.
    assert (Q3 : forall t, run (at_text (optional (fun v => record 15 3 (dword v)) w ++ t) (in_el libs e os (T ty (or0 pr) (or0 pt) 0 (dz 1) 0 []))) =
                           run (at_text t (in_el libs e os (T ty (or0 pr) (or0 pt) 0 (dz 1) (or0 w) [])))).
    { intros t'. destruct w as [v|]; [|reflexivity]. cbn [optional or0]. rewrite (el_width _ _ _ _ _ _ _ (H5 v eq_refl)). reflexivity. }
    rewrite Q3, E. rewrite el_xy1 by (first [exact H7|exact I|reflexivity]).
    match goal with E' : bound_obj ?o' [xy] = _ |- context [bound_obj ?o [xy]] => change (bound_obj o [xy]) with (bound_obj o' [xy]) end. rewrite E'.
    erewrite el_string; [|exact H8|reflexivity]. reflexivity.
  - intros (H1 & H2 & H3). destruct (el_trans tr libs e os (O (-1) (SReference n None (dz 1))) H2) as (x & M & E); [reflexivity|].
    destruct (bound_bbox (O (-1) (SReference n None x)) [xy] ltac:(discriminate)) as (mn & mx & E' & B).
    eexists. exists mn, mx. split; [exists x; split; [reflexivity|exact M]|]. split; [exact B|]. intros t.
    rewrite <- !app_assoc. rewrite (el_sname _ _ _ _ _ _ (new_obj (SReference [] None (dz 1))) [] None (dz 1) H1 eq_refl).
    match goal with |- context [in_el libs e os ?o] => change (in_el libs e os o) with (in_el libs e os (O (-1) (SReference n None (dz 1)))) end.
    rewrite E. rewrite el_xy1 by (first [exact H3|exact I|reflexivity]).
    match goal with E' : bound_obj ?o' [xy] = _ |- context [bound_obj ?o [xy]] => change (bound_obj o [xy]) with (bound_obj o' [xy]) end. rewrite E'. reflexivity.
Qed.

(** ** Elements *)
Definition open_el (el : element) : list byte :=
  record (shape_type (el_shape el)) 0 [] ++
  optional (fun v => record 38 1 (word v)) (el_flags el) ++ optional (fun v => record 47 3 (dword v)) (el_plex el) ++ shape_bytes (el_shape el) ++
  optional (fun p => record 43 2 (word (fst p)) ++ record 44 6 (padded (snd p))) (el_property el).
Lemma open_el_read el libs e os : element_ok el ->
  exists o, read_as el o /\ forall t, run (at_text (open_el el ++ t) (between libs e os)) = run (at_text t (in_el libs (flat_after (el_shape el) e) os o)).
Proof.
  intros (H1 & H2).
  assert (Q1 : forall t o, run (at_text (optional (fun v => record 38 1 (word v)) (el_flags el) ++ t) (in_el libs (flat_after (el_shape el) e) os o)) =
                         run (at_text t (in_el libs (flat_after (el_shape el) e) os o))).
  { intros t' o. destruct (el_flags el); [|reflexivity]. apply run_skipped; [apply in_el_ok|tauto|cbn; lia]. }
  assert (Q2 : forall t o, run (at_text (optional (fun v => record 47 3 (dword v)) (el_plex el) ++ t) (in_el libs (flat_after (el_shape el) e) os o)) =
                         run (at_text t (in_el libs (flat_after (el_shape el) e) os o))).
  { intros t' o. destruct (el_plex el); [|reflexivity]. apply run_skipped; [apply in_el_ok|tauto|cbn; lia]. }
  destruct (shape_read (el_shape el) libs (flat_after (el_shape el) e) os H1) as (c & mn & mx & C & B & S).
  exists (mkobj (layer_number (el_shape el)) (match el_property el with Some (a, _) => [(a, [])] | None => [] end) (coords_of (el_shape el)) mn mx c).
  split; [unfold read_as; cbn; auto|]. intros t. unfold open_el. rewrite <- !app_assoc. rewrite el_begin, Q1, Q2, S.
  destruct (el_property el) as [[a str]|] eqn:EP; cbn [optional app]; [|reflexivity].
  destruct (H2 _ eq_refl) as (A & SO). cbn [fst snd] in *. rewrite <- app_assoc. rewrite el_propattr by (first [exact A|reflexivity]).
  rewrite run_skipped by (first [apply in_el_ok|tauto|idtac]; pose proof (padded_length str); destruct SO; lia). reflexivity.
Qed.
Lemma element_read el libs e os : element_ok el ->
  exists o, read_as el o /\ forall t, run (at_text (element_bytes el ++ t) (between libs e os)) = run (at_text t (between libs (flat_after (el_shape el) e) (os ++ [o]))).
Proof.
  intros H. destruct (open_el_read el libs e os H) as (o & R & E). exists o. split; [exact R|]. intros t. rewrite <- (el_end 0), <- E. do 2 f_equal.
  unfold element_bytes, open_el. rewrite <- !app_assoc. reflexivity.
Qed.

Definition mark_flat (els : list element) (e : struc) : struc :=
  if existsb is_sref els then mkstruc (s_name e) (s_objs e) false (s_min e) (s_max e) (s_nested e) else e.
Lemma elements_read els : forall libs e os, Forall element_ok els ->
  exists os', Forall2 read_as els os' /\ forall t,
    run (at_text (concat (map element_bytes els) ++ t) (between libs e os)) = run (at_text t (between libs (mark_flat els e) (os ++ os'))).
Proof.
  induction els as [|el els IH]; intros libs e os F.
  - exists []. split; [constructor|]. rewrite app_nil_r. reflexivity.
  - inversion F as [|? ? F1 F2]; subst. cbn [map concat].
    destruct (element_read el libs e os F1) as (o & R & E).
    destruct (IH libs (flat_after (el_shape el) e) (os ++ [o]) F2) as (os' & R' & E').
    exists (o :: os'). split; [constructor; assumption|]. intros t. rewrite <- app_assoc, E, E', <- app_assoc. cbn [app]. do 3 f_equal.
    unfold mark_flat. cbn [existsb]. unfold is_sref at 2, flat_after. destruct (el_shape el); cbn [orb]; destruct (existsb is_sref els); reflexivity.
Qed.

(** ** Structures *)
Definition read_structure (s : structure) (e : struc) : Prop :=
  s_name e = st_name s /\ Forall2 read_as (st_elements s) (s_objs e) /\ s_flat e = negb (existsb is_sref (st_elements s)) /\
  (st_elements s <> [] -> bounding_box (concat (map (fun x => coords_of (el_shape x)) (st_elements s))) (s_min e) (s_max e)) /\
  (st_elements s = [] -> s_min e = mkcoord (-1) (-1) /\ s_max e = mkcoord (-1) (-1)) /\ s_nested e = false.

Lemma widen_box_bbox a b mn mx o mn' mx' : bounding_box a mn mx -> bounding_box b (o_min o) (o_max o) -> widen_box (mn, mx) o = (mn', mx') -> bounding_box (a ++ b) mn' mx'.
Proof.
  intros (A0 & (a1 & Ia1 & A1) & (a2 & Ia2 & A2) & (a3 & Ia3 & A3) & (a4 & Ia4 & A4)) (B0 & (b1 & Ib1 & B1) & (b2 & Ib2 & B2) & (b3 & Ib3 & B3) & (b4 & Ib4 & B4)) E.
  unfold widen_box in E.
  destruct (Z.ltb_spec (cx (o_min o)) (cx mn)); destruct (Z.ltb_spec (cy (o_min o)) (cy mn)); destruct (Z.ltb_spec (cx mx) (cx (o_max o))); destruct (Z.ltb_spec (cy mx) (cy (o_max o)));
    injection E as <- <-; (split; [intros c I; apply in_app_or in I; destruct I as [I|I]; [specialize (A0 c I)|specialize (B0 c I)]; cbn; lia|]); cbn [cx cy];
    (split; [first [exists a1; split; [apply in_or_app; left; assumption|lia] | exists b1; split; [apply in_or_app; right; assumption|lia]]|]);
    (split; [first [exists a2; split; [apply in_or_app; left; assumption|lia] | exists b2; split; [apply in_or_app; right; assumption|lia]]|]);
    (split; [first [exists a3; split; [apply in_or_app; left; assumption|lia] | exists b3; split; [apply in_or_app; right; assumption|lia]]|]);
    first [exists a4; split; [apply in_or_app; left; assumption|lia] | exists b4; split; [apply in_or_app; right; assumption|lia]].
Qed.
Lemma widen_boxes els : forall os a mn mx mn' mx', Forall2 read_as els os -> bounding_box a mn mx -> fold_left widen_box os (mn, mx) = (mn', mx') ->
  bounding_box (a ++ concat (map (fun x => coords_of (el_shape x)) els)) mn' mx'.
Proof.
  induction els as [|el els IH]; intros os a mn mx mn' mx' F B E; inversion F as [|? o ? os' R F']; subst.
  - cbn in E. injection E as <- <-. cbn. rewrite app_nil_r. exact B.
  - cbn [fold_left] in E. destruct (widen_box (mn, mx) o) as [m1 m2] eqn:W. cbn [map concat]. rewrite app_assoc.
    apply (IH os' _ m1 m2); [exact F'| |exact E]. destruct R as (_ & _ & R & _). exact (widen_box_bbox _ _ _ _ _ _ _ B R W).
Qed.

Definition in_lib (libs : list glib) : gstate := mkgstate (mkstream [] true false) libs true None false.
Lemma in_lib_ok libs : geom_ok (in_lib libs).
Proof. intros H. discriminate. Qed.
Definition add_elem (e : struc) (b : glib) : glib := mkglib (b_name b) (b_user b) (b_physical b) (b_elements b ++ [e]) (b_layers b) (b_min b) (b_max b).

Lemma dates_exact l t st : length l = 24%nat -> read_dates (at_text (l ++ t) st) = Ok (at_text t st).
Proof.
  intros L. rewrite <- (firstn_skipn 12 l), <- app_assoc. unfold read_dates. cbn [at_text set_stream g_stream].
  rewrite read_new_exact by (rewrite firstn_length; lia). cbn [bind snd]. rewrite read_new_exact by (rewrite skipn_length; lia). reflexivity.
Qed.

Definition named (n : list byte) : struc := mkstruc n [] true (mkcoord (-1) (-1)) (mkcoord (-1) (-1)) false.
Lemma structure_head s t libs : structure_ok s ->
  run (at_text (record 5 2 (st_dates s) ++ record 6 6 (padded (st_name s)) ++ t) (in_lib libs)) = run (at_text t (between libs (named (st_name s)) [])).
Proof.
  intros (H1 & H2 & H3).
  rewrite run_record by (first [apply in_lib_ok|lia]). cbn [dispatch]. unfold ReadSection_BEGINSTRUCTURE. change (negb (in_library _)) with false. cbv iota.
  change (mkgstate _ _ _ _ _) with (at_text (st_dates s ++ record 6 6 (padded (st_name s)) ++ t) (between libs new_struc [])).
  rewrite (dates_exact _ _ _ H1). cbn [bind].
  pose proof (padded_length (st_name s)). rewrite run_record by (first [apply between_ok|lia|destruct H2; lia]). cbn [dispatch]. unfold ReadSection_STRNAME. change (negb (in_structure _)) with false. cbv iota.
  rewrite (string_exact _ _ _ H2). cbn [bind]. reflexivity.
Qed.
Lemma structure_read s libs : structure_ok s -> exists e, read_structure s e /\ forall t,
  run (at_text (structure_bytes s ++ t) (in_lib libs)) = run (at_text t (in_lib (upd_last (add_elem e) libs))).
Proof.
  intros H. set (e0 := named (st_name s)).
  destruct (elements_read (st_elements s) libs e0 [] (proj2 (proj2 H))) as (os & F & E).
  exists (bound_struc (with_objs (fun _ => os) (mark_flat (st_elements s) e0))). split.
  2: { intros t. unfold structure_bytes. rewrite <- !app_assoc. rewrite (structure_head _ _ _ H). fold e0. rewrite E. cbn [app].
       rewrite run_record by (first [apply between_ok|lia|cbn; lia]). cbn [dispatch]. unfold ReadSection_ENDSTRUCTURE. change (negb (in_structure _)) with false. cbv iota.
       change (g_elem (at_text ([] ++ t) (between libs (mark_flat (st_elements s) e0) os))) with (Some (with_objs (fun _ => os) (mark_flat (st_elements s) e0))).
       cbv iota. cbn [bind]. reflexivity. }
  assert (M : mark_flat (st_elements s) e0 = mkstruc (st_name s) [] (negb (existsb is_sref (st_elements s))) (mkcoord (-1) (-1)) (mkcoord (-1) (-1)) false)
    by (unfold mark_flat; destruct (existsb _ _); reflexivity).
  rewrite M. unfold with_objs. cbn [s_name s_objs s_flat s_min s_max s_nested]. unfold read_structure.
  destruct (st_elements s) as [|el els] eqn:Ees; inversion F as [|? o ? os' R F']; subst.
  - cbn. split; [reflexivity|]. split; [constructor|]. split; [reflexivity|]. split; [congruence|]. split; auto.
  - unfold bound_struc. cbn [s_objs]. destruct (fold_left widen_box os' (o_min o, o_max o)) as [mn mx] eqn:W. cbn [s_name s_objs s_flat s_min s_max s_nested].
    split; [reflexivity|]. split; [exact F|]. split; [reflexivity|]. split; [|split; [congruence|reflexivity]]. intros _. cbn [map concat].
    destruct R as (_ & _ & R & _). exact (widen_boxes _ _ _ _ _ _ _ F' R W).
Qed.

Definition add_elems (es : list struc) (b : glib) : glib := mkglib (b_name b) (b_user b) (b_physical b) (b_elements b ++ es) (b_layers b) (b_min b) (b_max b).
Lemma structures_read ss : forall libs b, Forall structure_ok ss -> exists es, Forall2 read_structure ss es /\ forall t,
  run (at_text (concat (map structure_bytes ss) ++ t) (in_lib (libs ++ [b]))) = run (at_text t (in_lib (libs ++ [add_elems es b]))).
Proof.
  induction ss as [|s ss IH]; intros libs b F.
  - exists []. split; [constructor|]. destruct b. unfold add_elems. cbn. rewrite app_nil_r. reflexivity.
  - inversion F as [|? ? F1 F2]; subst. cbn [map concat].
    destruct (structure_read s (libs ++ [b]) F1) as (e & R & E). rewrite upd_last_snoc in E.
    destruct (IH libs (add_elem e b) F2) as (es & R' & E'). exists (e :: es). split; [constructor; assumption|].
    intros t. rewrite <- app_assoc, E, E'. do 4 f_equal. unfold add_elems, add_elem. cbn. rewrite <- app_assoc. reflexivity.
Qed.

(** ** Libraries *)
Definition outside (libs : list glib) : gstate := mkgstate (mkstream [] true false) libs false None false.
Lemma outside_ok libs : geom_ok (outside libs).
Proof. intros H. discriminate. Qed.

Lemma options_read os : forall t libs, Forall option_ok os ->
  run (at_text (concat (map (fun o => record (fst (fst o)) (snd (fst o)) (snd o)) os) ++ t) (in_lib libs)) = run (at_text t (in_lib libs)).
Proof.
  induction os as [|[[ty dt] data] os IH]; intros t libs F; [reflexivity|]. inversion F as [|? ? TL F2]; subst. unfold option_ok in TL. destruct TL as (T & L). cbn [map concat fst snd].
  rewrite <- app_assoc, run_skipped by (first [apply in_lib_ok|tauto|exact L]). apply IH, F2.
Qed.

Definition read_library (b : library) (g : glib) : Prop :=
  b_name g = lb_name b /\ (exists r, gdsii_real (lb_user b) r /\ nearest (b_user g) r) /\ (exists r, gdsii_real (lb_physical b) r /\ nearest (b_physical g) r) /\
  Forall2 read_structure (lb_structures b) (b_elements g) /\ b_layers g = [] /\ b_min g = mkcoord 0 0 /\ b_max g = mkcoord 0 0.

Lemma library_head_read b libs : library_ok b -> exists g,
  (b_name g = lb_name b /\ (exists r, gdsii_real (lb_user b) r /\ nearest (b_user g) r) /\ (exists r, gdsii_real (lb_physical b) r /\ nearest (b_physical g) r) /\
   b_elements g = [] /\ b_layers g = [] /\ b_min g = mkcoord 0 0 /\ b_max g = mkcoord 0 0) /\
  forall t, run (at_text (library_head b ++ t) (outside libs)) = run (at_text t (in_lib (libs ++ [g]))).
Proof.
  intros (HV & H1 & H2 & H3 & H4 & H5 & H6). unfold real_ok in H4, H5.
  destruct (gdsii_exists _ H4) as (r1 & G1). destruct (normalize_double _ r1 G1) as (x1 & E1 & N1).
  destruct (gdsii_exists _ H5) as (r2 & G2). destruct (normalize_double _ r2 G2) as (x2 & E2 & N2).
  exists (mkglib (lb_name b) x1 x2 [] [] (mkcoord 0 0) (mkcoord 0 0)).
  split; [split; [reflexivity|]; split; [exists r1; auto|]; split; [exists r2; auto|]; auto|]. intros t. unfold library_head. rewrite <- !app_assoc.
  rewrite run_record by (first [apply outside_ok|lia|cbn; lia]). cbn [dispatch]. unfold ReadSection_HEADER. rewrite word0_exact by exact HV. cbn [bind snd].
  rewrite run_record by (first [apply outside_ok|lia]). cbn [dispatch]. unfold ReadSection_BEGINLIBRARY.
  match goal with |- context [g_lib ?st] => change (g_lib st) with false end. cbv iota.
  match goal with |- context [read_dates ?st] => match st with mkgstate (g_stream (at_text ?x _)) _ _ _ _ => change st with (at_text x (in_lib (libs ++ [new_glib]))) end end.
  rewrite (dates_exact _ _ _ H1). cbn [bind].
  pose proof (padded_length (lb_name b)). rewrite run_record by (first [apply in_lib_ok|lia|destruct H2; lia]). cbn [dispatch]. unfold ReadSection_LIBNAME. change (negb (in_library _)) with false. cbv iota.
  rewrite (string_exact _ _ _ H2). cbn [bind].
  match goal with |- context [with_lib ?f (at_text ?x (in_lib ?l))] => change (with_lib f (at_text x (in_lib l))) with (at_text x (in_lib (upd_last f l))) end. rewrite upd_last_snoc.
  rewrite (options_read _ _ _ H3).
  rewrite run_record by (first [apply in_lib_ok|lia|rewrite app_length; lia]). cbn [dispatch]. unfold ReadSection_UNITS. change (negb (in_library _)) with false. cbv iota.
  match goal with |- context [g_stream (at_text ?x (in_lib ?l))] => change (g_stream (at_text x (in_lib l))) with (mkstream x true false) end.
  rewrite read_over_exact by (rewrite !app_length, !double_image_length; lia).
  rewrite firstn_app, skipn_app, H4, firstn_O, app_nil_r, skipn_O, (firstn_all2 (n:=8) (lb_user b)), (skipn_all2 (n:=8) (lb_user b)) by lia. cbn [app].
  rewrite E1. cbn [bind].
  rewrite E2. cbn [bind].
  match goal with |- context [with_lib ?f (set_stream (mkstream ?x true false) (at_text _ (in_lib ?l)))] =>
    change (with_lib f (set_stream (mkstream x true false) (at_text _ (in_lib l)))) with (at_text x (in_lib (upd_last f l))) end. rewrite upd_last_snoc.
  reflexivity.
Qed.
Lemma library_read b t libs : library_ok b -> exists g, read_library b g /\
  run (at_text (library_bytes b ++ t) (outside libs)) = run (at_text t (outside (libs ++ [g]))).
Proof.
  intros H. replace (library_bytes b ++ t) with (library_head b ++ concat (map structure_bytes (lb_structures b)) ++ record 4 0 [] ++ t) by (unfold library_bytes, library_head; rewrite <- !app_assoc; reflexivity).
  destruct (library_head_read b libs H) as (g & (A1 & A2 & A3 & A4 & A5 & A6 & A7) & ->).
  destruct H as (_ & _ & _ & _ & _ & _ & H6).
  destruct (structures_read (lb_structures b) libs g H6) as (es & R & ->).
  rewrite run_record by (first [apply in_lib_ok|lia|cbn; lia]). cbn [dispatch]. unfold ReadSection_ENDLIBRARY. cbn [bind].
  exists (add_elems es g). split; [|reflexivity]. unfold read_library, add_elems. cbn [b_name b_user b_physical b_elements b_layers b_min b_max]. rewrite A4. auto 10.
Qed.

(** NULs at the end of the file *)
Lemma nuls_read n : forall st, geom_ok st -> exists s, run (at_text (repeat x00 n) st) = Ok (set_stream s st).
Proof.
  induction n as [n IH] using lt_wf_ind. intros st G.
  destruct n as [|[|[|[|n]]]]; [eexists; reflexivity..|]. cbn [repeat]. rewrite run_step by exact G.
  change (schar x00) with 0. cbn [dispatch]. unfold ReadSection_HEADER. destruct n as [|[|n]]; [eexists; reflexivity..|].
  cbn [repeat]. change (x00 :: x00 :: repeat x00 n) with (word 0 ++ repeat x00 n). rewrite word0_exact by (unfold int16; lia). cbn [bind snd].
  apply IH; [lia|exact G].
Qed.

Theorem file_read b n libs : library_ok b -> exists g s, read_library b g /\
  run (at_text (library_bytes b ++ repeat x00 n) (outside libs)) = Ok (set_stream s (outside (libs ++ [g]))).
Proof.
  intros H. destruct (library_read b (repeat x00 n) libs H) as (g & R & ->). destruct (nuls_read n (outside (libs ++ [g])) (outside_ok _)) as (s & E).
  exists g, s. auto.
Qed.

(** ** Files that break off *)
Lemma open_structure_stable b s libs : library_ok b -> structure_ok s -> exists libs' e os, forall t,
  run (at_text (open_structure b s ++ t) (outside libs)) = run (at_text t (between libs' e os)).
Proof.
  intros H HS. destruct (library_head_read b libs H) as (g & _ & E1). destruct H as (_ & _ & _ & _ & _ & _ & H6).
  destruct (structures_read (lb_structures b) libs g H6) as (es & _ & E2).
  destruct (elements_read (st_elements s) (libs ++ [add_elems es g]) (named (st_name s)) [] (proj2 (proj2 HS))) as (os & _ & E3).
  exists (libs ++ [add_elems es g]), (mark_flat (st_elements s) (named (st_name s))), ([] ++ os). intros t. unfold open_structure. rewrite <- !app_assoc.
  rewrite E1, E2, (structure_head _ _ _ HS), E3. reflexivity.
Qed.
Lemma open_element_stable b s el libs : library_ok b -> structure_ok s -> element_ok el -> exists libs' e os o, read_as el o /\ forall t,
  run (at_text (open_element b s el ++ t) (outside libs)) = run (at_text t (in_el libs' e os o)).
Proof.
  intros H HS HE. destruct (open_structure_stable b s libs H HS) as (libs' & e & os & E). destruct (open_el_read el libs' e os HE) as (o & R & E').
  exists libs', (flat_after (el_shape el) e), os, o. split; [exact R|]. intros t. unfold open_element. rewrite <- app_assoc, E. exact (E' t).
Qed.

(** The data of a second PROPATTR are not consumed. *)
Lemma second_propattr dt data t libs e os o a ps : Z.of_nat (length data) <= 65531 -> o_props o = ps ++ [(a, [])] ->
  run (at_text (record 43 dt data ++ t) (in_el libs e os o)) = run (at_text (data ++ t) (in_el libs e os o)).
Proof.
  intros L H. rewrite run_record by (first [apply in_el_ok|lia]). cbn [dispatch]. unfold ReadSection_PROPATTR. rewrite in_el_in, in_el_active. cbn [negb]. rewrite H, rev_app_distr. reflexivity.
Qed.
(** Between elements the records that belong to an element are refused, and their data are not consumed. *)
Lemma stray_record ty dt data t libs e os : element_record ty -> Z.of_nat (length data) <= 65531 ->
  run (at_text (record ty dt data ++ t) (between libs e os)) = run (at_text (data ++ t) (between libs e os)).
Proof.
  intros T L. rewrite run_record by (first [apply between_ok|cbn in T; lia|exact L]). unfold element_record, In in T.
  repeat (destruct T as [<-|T]; [reflexivity|]). contradiction.
Qed.
Lemma aref_skipped dt t libs e os : run (at_text (record 11 dt [] ++ t) (between libs e os)) = run (at_text t (between libs e os)).
Proof. rewrite run_record by (first [apply between_ok|lia|cbn; lia]). reflexivity. Qed.

Lemma open_library_stable b libs : library_ok b -> exists libs', forall t,
  run (at_text (open_library b ++ t) (outside libs)) = run (at_text t (in_lib libs')).
Proof.
  intros H. destruct (library_head_read b libs H) as (g & _ & E1). destruct H as (_ & _ & _ & _ & _ & _ & H6).
  destruct (structures_read (lb_structures b) libs g H6) as (es & _ & E2).
  exists (libs ++ [add_elems es g]). intros t. unfold open_library. rewrite <- !app_assoc, E1, E2. reflexivity.
Qed.

(** Records without a section are skipped. *)
Lemma dispatch_unknown ty len st : 0 <= ty < 128 -> ~ known_record ty ->
  dispatch ty len st = Ok (set_stream (sseek (Z.to_nat len) (g_stream st)) st).
Proof.
  intros R NK. unfold dispatch. destruct ty as [|p|p]; [exfalso; apply NK; left; reflexivity| |reflexivity].
  repeat (match goal with |- context [match ?q with xI _ => _ | xO _ => _ | xH => _ end] => is_var q; destruct q end; try reflexivity);
  exfalso; apply NK; unfold known_record, In; repeat (first [left; reflexivity|right]).
Qed.
Lemma run_unknown st ty dt data t : geom_ok st -> 0 <= ty < 128 -> ~ known_record ty -> Z.of_nat (length data) <= 65531 ->
  run (at_text (record ty dt data ++ t) st) = run (at_text t st).
Proof.
  intros G R NK L. rewrite run_record by assumption. rewrite dispatch_unknown by assumption. cbn [bind].
  f_equal. rewrite Nat2Z.id. unfold sseek. cbn [at_text set_stream g_stream s_good negb s_rest]. rewrite skipn_app, Nat.sub_diag, skipn_all. reflexivity.
Qed.

(** A record at a place where it is not taken. *)
Lemma known_range ty : known_record ty -> 0 <= ty < 128.
Proof. unfold known_record, In. intros H. repeat (destruct H as [<-|H]; [lia|]). contradiction. Qed.
Ltac refuse K N := unfold known_record, In in K;
  repeat (destruct K as [<-|K]; [first [reflexivity | exfalso; apply N; unfold taken, In; tauto]|]); contradiction.
Lemma refused_outside ty dt data t libs : known_record ty -> ~ taken AtStart ty -> Z.of_nat (length data) <= 65531 ->
  run (at_text (record ty dt data ++ t) (outside libs)) = run (at_text (data ++ t) (outside libs)).
Proof. intros K N L. rewrite run_record by (first [apply outside_ok|apply known_range; exact K|exact L]). refuse K N. Qed.
Lemma refused_in_lib ty dt data t libs : known_record ty -> ~ taken AmongStructures ty -> Z.of_nat (length data) <= 65531 ->
  run (at_text (record ty dt data ++ t) (in_lib libs)) = run (at_text (data ++ t) (in_lib libs)).
Proof. intros K N L. rewrite run_record by (first [apply in_lib_ok|apply known_range; exact K|exact L]). refuse K N. Qed.
Lemma refused_between ty dt data t libs e os : known_record ty -> ~ taken AmongElements ty -> Z.of_nat (length data) <= 65531 ->
  run (at_text (record ty dt data ++ t) (between libs e os)) = run (at_text (data ++ t) (between libs e os)).
Proof. intros K N L. rewrite run_record by (first [apply between_ok|apply known_range; exact K|exact L]). refuse K N. Qed.
Lemma refused_in_el ty dt data t libs e os o el : read_as el o -> known_record ty -> ~ taken (InsideElement el) ty -> Z.of_nat (length data) <= 65531 ->
  run (at_text (record ty dt data ++ t) (in_el libs e os o)) = run (at_text (data ++ t) (in_el libs e os o)).
Proof.
  intros R K N L. destruct R as (_ & _ & _ & P & C).
  destruct (Z.eq_dec ty 43) as [->|N43].
  { destruct (el_property el) as [[a v]|] eqn:EP; [|exfalso; apply N; unfold taken; tauto]. exact (second_propattr dt data t libs e os o a [] L P). }
  rewrite run_record by (first [apply in_el_ok|apply known_range; exact K|exact L]).
  assert (T : forall f, is_text (at_text f (in_el libs e os o)) = match o_class o with SText _ _ _ _ _ _ _ => true | _ => false end) by (intros f; unfold is_text; rewrite in_el_active; reflexivity).
  assert (F : forall f, is_reference (at_text f (in_el libs e os o)) = match o_class o with SReference _ _ _ => true | _ => false end) by (intros f; unfold is_reference; rewrite in_el_active; reflexivity).
  assert (B : forall f, is_rectangle (at_text f (in_el libs e os o)) = match o_class o with SRectangle _ => true | _ => false end) by (intros f; unfold is_rectangle; rewrite in_el_active; reflexivity).
  unfold known_record, In in K.
  repeat (destruct K as [<-|K]; [first [reflexivity | congruence | exfalso; apply N; unfold taken, In; tauto |
    cbn [dispatch]; unfold ReadSection_SNAME, ReadSection_TEXTTYPE, ReadSection_PRESENTATION, ReadSection_STRING, ReadSection_BOXTYPE;
    rewrite in_el_in, ?T, ?F, ?B; unfold taken, In in N; unfold read_class in C; destruct (el_shape el);
    repeat match goal with H : exists _, _ |- _ => destruct H as (? & H) end;
    repeat match goal with H : _ = _ /\ _ |- _ => destruct H as (H & _) end; try (rewrite C; reflexivity); exfalso; apply N; tauto]|]); contradiction.
Qed.
