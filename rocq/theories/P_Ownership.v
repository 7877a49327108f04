(** Lemmas about destruction of layouts. *)
From Coq Require Import Permutation.
From Verif Require Import Prelude P_Prelude M_LayoutData M_Msk M_Ownership S_Msk S_Ownership.
Local Open Scope Z_scope.

Lemma NoDup_app_iff {A} (l1 l2 : list A) : NoDup (l1 ++ l2) <-> NoDup l1 /\ NoDup l2 /\ forall x, In x l1 -> ~ In x l2.
Proof.
  induction l1 as [|a t IH]; cbn [app].
  - split; [intros H; split; [constructor|split; [exact H|intros x []]]|intros (_ & H & _); exact H].
  - rewrite !NoDup_cons_iff, IH, in_app_iff. split.
    + intros (N & A1 & A2 & A3). split; [split; [intros Q; apply N; left; exact Q|exact A1]|]. split; [exact A2|].
      intros x [->|Q]; [intros Q; apply N; right; exact Q|exact (A3 x Q)].
    + intros ((N & A1) & A2 & A3). split; [intros [Q|Q]; [exact (N Q)|exact (A3 a (or_introl eq_refl) Q)]|].
      split; [exact A1|]. split; [exact A2|]. intros x Q. apply A3. right. exact Q.
Qed.

Lemma NoDup_concat {A} (l : list (list A)) x : NoDup (concat l) -> In x l -> NoDup x.
Proof.
  induction l as [|y t IH]; cbn [concat In]; [intros _ []|]. rewrite NoDup_app_iff. intros (A1 & A2 & _) [->|Q]; [exact A1|exact (IH A2 Q)].
Qed.

Lemma targets_cons p ps : targets (p :: ps) = match p with Some a => a :: targets ps | None => targets ps end.
Proof. destruct p; reflexivity. Qed.
Lemma targets_app a b : targets (a ++ b) = targets a ++ targets b.
Proof. unfold targets. rewrite map_app, concat_app. reflexivity. Qed.

Lemma without_trans h l1 h1 l2 h2 : without h l1 h1 -> without h1 l2 h2 -> without h (l1 ++ l2) h2.
Proof.
  intros A B a. destruct (A a) as (A1 & A2). destruct (B a) as (B1 & B2). split; intros H.
  - apply in_app_iff in H. destruct (in_dec Nat.eq_dec a l2) as [Q|Q]; [exact (B1 Q)|]. rewrite (B2 Q). destruct H as [H|H]; [exact (A1 H)|contradiction].
  - rewrite B2 by (intros Q; apply H, in_app_iff; right; exact Q). apply A2. intros Q. apply H, in_app_iff. left. exact Q.
Qed.

Lemma without_nil h : without h [] h.
Proof. intros a. split; [intros []|reflexivity]. Qed.

Lemma without_release h a : without h [a] (release h a).
Proof.
  intros x. unfold release. cbn [h_cell]. destruct (Nat.eqb_spec x a) as [->|N].
  - split; [reflexivity|]. intros Q. exfalso. apply Q. left. reflexivity.
  - split; [intros [Q|[]]; congruence|reflexivity].
Qed.

(** A loop that deletes objects of one kind. *)
Lemma delete_all (D : heap -> pointer -> res heap) (ok : heap -> address -> Prop) (own : heap -> address -> list address) :
  (forall h, D h None = Ok h) ->
  (forall h a, ok h a -> exists h', D h (Some a) = Ok h') ->
  (forall h a h', D h (Some a) = Ok h' -> ok h a /\ without h (own h a) h' /\ h_next h' = h_next h) ->
  (forall h a, ok h a -> NoDup (own h a)) ->
  (forall h a x, ok h a -> In x (own h a) -> h_cell h x <> None) ->
  (forall h h' a, ok h a -> (forall x, In x (own h a) -> h_cell h' x = h_cell h x) -> ok h' a /\ own h' a = own h a) ->
  forall ps h,
    (Forall (ok h) (targets ps) -> NoDup (concat (map (own h) (targets ps))) -> exists h', for_each ps h D = Ok h') /\
    (forall h', for_each ps h D = Ok h' -> Forall (ok h) (targets ps) /\ NoDup (concat (map (own h) (targets ps))) /\
       without h (concat (map (own h) (targets ps))) h' /\ h_next h' = h_next h).
Proof.
  intros H0 H1 H2 Hnd H3 H4. induction ps as [|p ps IH]; intros h; cbn [for_each].
  - split; [intros _ _; exists h; reflexivity|]. intros h' [= <-]. split; [constructor|]. split; [constructor|]. split; [apply without_nil|reflexivity].
  - rewrite targets_cons. destruct p as [a|]; [|rewrite H0; apply IH]. cbn [map concat].
    assert (Loc : forall h1, D h (Some a) = Ok h1 -> forall t, ok h1 t -> (forall x, In x (own h1 t) -> ~ In x (own h a)) /\ ok h t /\ own h t = own h1 t).
    { intros h1 E t K. destruct (H2 h a h1 E) as (_ & W & _).
      assert (J : forall x, In x (own h1 t) -> ~ In x (own h a)) by (intros x Q Q'; apply (H3 h1 t x K Q); apply (proj1 (W x) Q')).
      split; [exact J|]. apply (H4 h1 h t K). intros x Q. symmetry. apply (proj2 (W x)), J. exact Q. }
    assert (Cat : forall h1, D h (Some a) = Ok h1 -> forall ts, Forall (ok h1) ts -> Forall (ok h) ts /\ map (own h) ts = map (own h1) ts /\
              forall x, In x (own h a) -> ~ In x (concat (map (own h) ts))).
    { intros h1 E ts K. induction K as [|t ts Kt K IHt]; cbn [map concat].
      - split; [constructor|]. split; [reflexivity|]. intros x _ [].
      - destruct (Loc h1 E t Kt) as (J & K' & O). destruct IHt as (I1 & I2 & I3). split; [constructor; assumption|]. split; [congruence|].
        intros x Q Q'. apply in_app_iff in Q'. destruct Q' as [Q'|Q']; [rewrite O in Q'; exact (J x Q' Q)|exact (I3 x Q Q')]. }
    split.
    + intros F N. inversion F as [|? ? Fa Ft]; subst. destruct (H1 h a Fa) as (h1 & E). rewrite E.
      destruct (H2 h a h1 E) as (_ & W & _). apply NoDup_app_iff in N. destruct N as (N1 & N2 & N3).
      assert (Q : forall t, In t (targets ps) -> ok h1 t /\ own h1 t = own h t).
      { intros t It. rewrite Forall_forall in Ft. apply (H4 h h1 t (Ft t It)). intros x Ix. apply (proj2 (W x)).
        intros Ix'. apply (N3 x Ix'). apply in_concat. exists (own h t). split; [apply in_map; exact It|exact Ix]. }
      apply (IH h1).
      * apply Forall_forall. intros t It. apply Q. exact It.
      * rewrite (map_ext_in (own h1) (own h)); [exact N2|]. intros t It. apply Q. exact It.
    + intros h' E. destruct (D h (Some a)) as [h1|e|u] eqn:E1; [|discriminate E|discriminate E].
      destruct (H2 h a h1 E1) as (Ka & W & Nx). destruct (proj2 (IH h1) h' E) as (F & N & W' & Nx').
      destruct (Cat h1 eq_refl _ F) as (F' & M & J). rewrite M in *.
      split; [constructor; assumption|]. split; [apply NoDup_app_iff; split; [exact (Hnd h a Ka)|split; [exact N|exact J]]|].
      split; [exact (without_trans h _ h1 _ h' W W')|congruence].
Qed.

Definition geometry_ok (h : heap) (a : address) : Prop := is_geometry h a.
Definition element_ok (h : heap) (a : address) : Prop := is_element h a /\ NoDup (owned_by_element h a).
Definition library_ok (h : heap) (a : address) : Prop := is_library h a /\ NoDup (owned_by_library h a).

Lemma concat_singles {A} (l : list A) : concat (map (fun a => [a]) l) = l.
Proof. induction l as [|x t IH]; cbn [map concat app]; [reflexivity|]. rewrite IH. reflexivity. Qed.

Lemma delete_geometries ps h :
  (Forall (is_geometry h) (targets ps) -> NoDup (targets ps) -> exists h', for_each ps h delete_geometry = Ok h') /\
  (forall h', for_each ps h delete_geometry = Ok h' -> Forall (is_geometry h) (targets ps) /\ NoDup (targets ps) /\
     without h (targets ps) h' /\ h_next h' = h_next h).
Proof.
  pose proof (fun A B C D E F => delete_all delete_geometry is_geometry (fun _ a => [a]) A B C D E F ps h) as L. cbv beta in L. rewrite concat_singles in L. apply L; clear L.
  - reflexivity.
  - intros h0 a (g & E). unfold delete_geometry, load_geometry. rewrite E. eexists. reflexivity.
  - intros h0 a h'. unfold delete_geometry, load_geometry. destruct (h_cell h0 a) as [[g|e|b]|] eqn:E; cbn [bind]; try discriminate.
    intros [= <-]. split; [exists g; exact E|]. split; [apply without_release|reflexivity].
  - intros h0 a _. constructor; [intros []|constructor].
  - intros h0 a x (g & E) [<-|[]]. rewrite E. discriminate.
  - intros h0 h1 a (g & E) Q. split; [exists g; rewrite Q by (left; reflexivity); exact E|reflexivity].
Qed.

(** What an object owns depends on the objects it owns only. *)
Lemma element_local h h' a : is_element h a -> (forall x, In x (owned_by_element h a) -> h_cell h' x = h_cell h x) ->
  is_element h' a /\ owned_by_element h' a = owned_by_element h a.
Proof.
  intros (e & E & F) Q. pose proof (Q a (or_introl eq_refl)) as Qa. unfold owned_by_element in *. rewrite E in Q. rewrite Qa, E. split; [|reflexivity].
  exists e. split; [congruence|]. rewrite Forall_forall in *. intros x I. destruct (F x I) as (g & G). exists g. rewrite Q by (right; exact I). exact G.
Qed.

Lemma element_live h a x : is_element h a -> In x (owned_by_element h a) -> h_cell h x <> None.
Proof.
  intros (e & E & F) I. unfold owned_by_element in I. rewrite E in I. destruct I as [<-|I]; [rewrite E; discriminate|].
  rewrite Forall_forall in F. destruct (F x I) as (g & G). rewrite G. discriminate.
Qed.

Lemma delete_element_spec h a :
  (element_ok h a -> exists h', delete_element h (Some a) = Ok h') /\
  (forall h', delete_element h (Some a) = Ok h' -> element_ok h a /\ without h (owned_by_element h a) h' /\ h_next h' = h_next h).
Proof.
  unfold delete_element, load_element, element_ok, is_element, owned_by_element. split.
  - intros ((e & E & F) & N). rewrite E in *. cbn [bind]. apply NoDup_cons_iff in N. destruct N as (Na & N).
    destruct (proj1 (delete_geometries (pe_geometries e) h) F N) as (h' & ->). eexists. reflexivity.
  - intros h'. destruct (h_cell h a) as [[g|e|b]|] eqn:E; cbn [bind]; try discriminate.
    destruct (for_each (pe_geometries e) h delete_geometry) as [h1|x|u] eqn:E1; cbn [bind]; try discriminate.
    intros [= <-]. destruct (proj2 (delete_geometries _ _) h1 E1) as (F & N & W & Nx).
    assert (Na : ~ In a (targets (pe_geometries e))).
    { intros I. rewrite Forall_forall in F. destruct (F a I) as (g & G). rewrite E in G. discriminate G. }
    split; [split; [exists e; split; [reflexivity|exact F]|constructor; assumption]|].
    split; [|exact Nx]. intros x. destruct (without_trans h _ h1 _ _ W (without_release h1 a) x) as (A & B). split; intros H.
    + apply A. apply in_app_iff. destruct H as [->|H]; [right; left; reflexivity|left; exact H].
    + apply B. intros Q. apply H. apply in_app_iff in Q. destruct Q as [Q|[->|[]]]; [right; exact Q|left; reflexivity].
Qed.

Lemma delete_elements ps h :
  (Forall (element_ok h) (targets ps) -> NoDup (concat (map (owned_by_element h) (targets ps))) -> exists h', for_each ps h delete_element = Ok h') /\
  (forall h', for_each ps h delete_element = Ok h' -> Forall (element_ok h) (targets ps) /\ NoDup (concat (map (owned_by_element h) (targets ps))) /\
     without h (concat (map (owned_by_element h) (targets ps))) h' /\ h_next h' = h_next h).
Proof.
  apply (delete_all delete_element element_ok owned_by_element).
  - reflexivity.
  - intros h0 a. apply delete_element_spec.
  - intros h0 a. apply delete_element_spec.
  - intros h0 a (_ & N). exact N.
  - intros h0 a x (K & _). exact (element_live h0 a x K).
  - intros h0 h1 a (K & N) Q. destruct (element_local h0 h1 a K Q) as (K' & O). split; [split; [exact K'|rewrite O; exact N]|exact O].
Qed.

Lemma library_local h h' a : is_library h a -> (forall x, In x (owned_by_library h a) -> h_cell h' x = h_cell h x) ->
  is_library h' a /\ owned_by_library h' a = owned_by_library h a.
Proof.
  intros (b & E & F) Q. pose proof (Q a (or_introl eq_refl)) as Qa. unfold owned_by_library in *. rewrite E in Q. rewrite Qa, E.
  assert (L : forall t, In t (targets (pb_elements b)) -> is_element h' t /\ owned_by_element h' t = owned_by_element h t).
  { intros t I. rewrite Forall_forall in F. apply element_local; [exact (F t I)|]. intros x Ix. apply Q. right.
    apply in_concat. exists (owned_by_element h t). split; [apply in_map; exact I|exact Ix]. }
  split.
  - exists b. split; [congruence|]. apply Forall_forall. intros t I. apply L. exact I.
  - f_equal. f_equal. apply map_ext_in. intros t I. apply L. exact I.
Qed.

Lemma library_live h a x : is_library h a -> In x (owned_by_library h a) -> h_cell h x <> None.
Proof.
  intros (b & E & F) I. unfold owned_by_library in I. rewrite E in I. destruct I as [<-|I]; [rewrite E; discriminate|].
  apply in_concat in I. destruct I as (l & Il & Ix). apply in_map_iff in Il. destruct Il as (t & <- & It).
  rewrite Forall_forall in F. exact (element_live h t x (F t It) Ix).
Qed.

Lemma delete_library_spec h a :
  (library_ok h a -> exists h', delete_library h (Some a) = Ok h') /\
  (forall h', delete_library h (Some a) = Ok h' -> library_ok h a /\ without h (owned_by_library h a) h' /\ h_next h' = h_next h).
Proof.
  unfold delete_library, load_library, library_ok, is_library, owned_by_library. split.
  - intros ((b & E & F) & N). rewrite E in *. cbn [bind]. apply NoDup_cons_iff in N. destruct N as (Na & N).
    assert (F' : Forall (element_ok h) (targets (pb_elements b))).
    { apply Forall_forall. intros t I. rewrite Forall_forall in F. split; [exact (F t I)|]. apply (NoDup_concat _ _ N). apply in_map. exact I. }
    destruct (proj1 (delete_elements (pb_elements b) h) F' N) as (h' & ->). eexists. reflexivity.
  - intros h'. destruct (h_cell h a) as [[g|e|b]|] eqn:E; cbn [bind]; try discriminate.
    destruct (for_each (pb_elements b) h delete_element) as [h1|x|u] eqn:E1; cbn [bind]; try discriminate.
    intros [= <-]. destruct (proj2 (delete_elements _ _) h1 E1) as (F & N & W & Nx).
    assert (Na : ~ In a (concat (map (owned_by_element h) (targets (pb_elements b))))).
    { intros I. apply in_concat in I. destruct I as (l & Il & Ix). apply in_map_iff in Il. destruct Il as (t & <- & It).
      rewrite Forall_forall in F. destruct (F t It) as ((e & Ee & Fe) & _). unfold owned_by_element in Ix. rewrite Ee in Ix.
      destruct Ix as [->|Ix]; [congruence|]. rewrite Forall_forall in Fe. destruct (Fe a Ix) as (g & G). congruence. }
    split; [split; [exists b; split; [reflexivity|]|constructor; assumption]|].
    { apply Forall_forall. intros t I. rewrite Forall_forall in F. apply (F t I). }
    split; [|exact Nx]. intros x. destruct (without_trans h _ h1 _ _ W (without_release h1 a) x) as (A & B). split; intros H.
    + apply A. apply in_app_iff. destruct H as [->|H]; [right; left; reflexivity|left; exact H].
    + apply B. intros Q. apply H. apply in_app_iff in Q. destruct Q as [Q|[->|[]]]; [right; exact Q|left; reflexivity].
Qed.

Lemma delete_libraries ps h :
  (Forall (library_ok h) (targets ps) -> NoDup (concat (map (owned_by_library h) (targets ps))) -> exists h', for_each ps h delete_library = Ok h') /\
  (forall h', for_each ps h delete_library = Ok h' -> Forall (library_ok h) (targets ps) /\ NoDup (concat (map (owned_by_library h) (targets ps))) /\
     without h (concat (map (owned_by_library h) (targets ps))) h' /\ h_next h' = h_next h).
Proof.
  apply (delete_all delete_library library_ok owned_by_library).
  - reflexivity.
  - intros h0 a. apply delete_library_spec.
  - intros h0 a. apply delete_library_spec.
  - intros h0 a (_ & N). exact N.
  - intros h0 a x (K & _). exact (library_live h0 a x K).
  - intros h0 h1 a (K & N) Q. destruct (library_local h0 h1 a K Q) as (K' & O). split; [split; [exact K'|rewrite O; exact N]|exact O].
Qed.

(** Nothing throws, and what fails is a double deletion or a pointer to an object of another type. *)
Lemma for_each_no_throw {S A} (f : S -> A -> res S) l : (forall s a e, f s a <> Throw e) -> forall s e, for_each l s f <> Throw e.
Proof.
  intros H. induction l as [|a t IH]; intros s e; cbn [for_each]; [discriminate|]. destruct (f s a) as [s'|e'|u] eqn:E; [apply IH| |discriminate].
  exfalso. exact (H s a e' E).
Qed.

Lemma delete_geometry_no_throw h p e : delete_geometry h p <> Throw e.
Proof. destruct p as [a|]; [|discriminate]. unfold delete_geometry, load_geometry. destruct (h_cell h a) as [[g|x|b]|]; discriminate. Qed.
Lemma delete_element_no_throw h p e : delete_element h p <> Throw e.
Proof.
  destruct p as [a|]; [|discriminate]. unfold delete_element, load_element. destruct (h_cell h a) as [[g|x|b]|]; try discriminate. cbn [bind].
  destruct (for_each _ h delete_geometry) as [h1|x'|u] eqn:E; [discriminate| |discriminate]. exfalso. exact (for_each_no_throw _ _ delete_geometry_no_throw _ _ E).
Qed.
Lemma delete_library_no_throw h p e : delete_library h p <> Throw e.
Proof.
  destruct p as [a|]; [|discriminate]. unfold delete_library, load_library. destruct (h_cell h a) as [[g|x|b]|]; try discriminate. cbn [bind].
  destruct (for_each _ h delete_element) as [h1|x'|u] eqn:E; [discriminate| |discriminate]. exfalso. exact (for_each_no_throw _ _ delete_element_no_throw _ _ E).
Qed.

Lemma destroy_spec h d :
  (sound h d -> exists h', destroy_data h d = Ok h') /\
  (forall h', destroy_data h d = Ok h' -> sound h d /\ without h (owned h d) h' /\ h_next h' = h_next h).
Proof.
  unfold destroy_data, sound, owned. split.
  - intros (F & N). apply delete_libraries; [|exact N]. apply Forall_forall. intros t I. rewrite Forall_forall in F. split; [exact (F t I)|].
    apply (NoDup_concat _ _ N). apply in_map. exact I.
  - intros h' E. destruct (proj2 (delete_libraries _ _) h' E) as (F & N & W & Nx). split; [split; [|exact N]|split; [exact W|exact Nx]].
    apply Forall_forall. intros t I. rewrite Forall_forall in F. apply (F t I).
Qed.
