(** What follows the reading of the records: references, layers, bounding boxes. *)
From Coq Require Import Permutation Sorted.
From Flocq Require Import IEEE754.BinarySingleNaN.
From Verif Require Import Prelude P_Prelude M_LayoutData M_Double M_Msk M_GdsiiHelpers M_Gdsii.
Local Open Scope Z_scope.

(** ** Access by position *)
Definition get_el (i j : nat) (libs : list glib) : option struc :=
  match nth_error libs i with Some b => nth_error (b_elements b) j | None => None end.
Definition upd_el (i j : nat) (f : struc -> struc) (libs : list glib) : list glib :=
  match nth_error libs i with
  | None => libs
  | Some b =>
      match nth_error (b_elements b) j with
      | None => libs
      | Some e => upd libs i (mkglib (b_name b) (b_user b) (b_physical b) (upd (b_elements b) j (f e)) (b_layers b) (b_min b) (b_max b))
      end
  end.
Definition set_nested (e : struc) : struc := mkstruc (s_name e) (s_objs e) (s_flat e) (s_min e) (s_max e) true.
Definition put_obj (k : nat) (o : obj) (e : struc) : struc := mkstruc (s_name e) (upd (s_objs e) k o) (s_flat e) (s_min e) (s_max e) (s_nested e).
Lemma mark_nested_upd i j libs : mark_nested i j libs = upd_el i j set_nested libs.
Proof. reflexivity. Qed.
Lemma set_obj_upd i j k o libs : set_obj i j k o libs = upd_el i j (put_obj k o) libs.
Proof. reflexivity. Qed.
Lemma get_obj_el i j k libs : get_obj i j k libs = match get_el i j libs with Some e => nth_error (s_objs e) k | None => None end.
Proof. unfold get_obj, get_el. destruct (nth_error libs i); reflexivity. Qed.

(** the rest of a library *)
Definition lib_hd (b : glib) := (b_name b, b_user b, b_physical b, length (b_elements b), b_layers b, b_min b, b_max b).

Lemma upd_el_hd i j f libs a : option_map lib_hd (nth_error (upd_el i j f libs) a) = option_map lib_hd (nth_error libs a).
Proof.
  unfold upd_el. destruct (nth_error libs i) as [b|] eqn:E; [|reflexivity]. destruct (nth_error (b_elements b) j) as [e|]; [|reflexivity].
  rewrite nth_error_upd. destruct (Nat.eqb_spec a i) as [->|N]; [|reflexivity]. cbn [andb]. rewrite E.
  destruct (Nat.ltb_spec i (length libs)); [|reflexivity]. cbn. unfold lib_hd. cbn. rewrite upd_length. reflexivity.
Qed.
Lemma get_upd_el i j f libs a c : get_el a c (upd_el i j f libs) = if (a =? i)%nat && (c =? j)%nat then option_map f (get_el a c libs) else get_el a c libs.
Proof.
  unfold get_el, upd_el. destruct (nth_error libs i) as [b|] eqn:E.
  - destruct (nth_error (b_elements b) j) as [e|] eqn:E'.
    + rewrite nth_error_upd. destruct (Nat.eqb_spec a i) as [->|N]; cbn [andb]; [|reflexivity].
      assert (i < length libs)%nat as L by (apply nth_error_Some; congruence). rewrite (proj2 (Nat.ltb_lt _ _) L), E. cbn [b_elements]. rewrite nth_error_upd.
      destruct (Nat.eqb_spec c j) as [->|N']; cbn [andb]; [|reflexivity]. assert (j < length (b_elements b))%nat as L' by (apply nth_error_Some; congruence).
      rewrite (proj2 (Nat.ltb_lt _ _) L'), E'. reflexivity.
    + destruct (Nat.eqb_spec a i) as [->|N]; cbn [andb]; [|reflexivity]. rewrite E. destruct (Nat.eqb_spec c j) as [->|N']; [|reflexivity]. rewrite E'. reflexivity.
  - destruct (Nat.eqb_spec a i) as [->|N]; cbn [andb]; [|reflexivity]. rewrite E. destruct (c =? j)%nat; reflexivity.
Qed.

Lemma nth_ext_opt {A} (l l' : list A) : (forall k, nth_error l k = nth_error l' k) -> l = l'.
Proof.
  revert l'. induction l as [|x l IH]; intros [|y l'] H; [reflexivity|specialize (H 0%nat); discriminate|specialize (H 0%nat); discriminate|].
  pose proof (H 0%nat) as H0. cbn in H0. injection H0 as ->. f_equal. apply IH. intros k. exact (H (S k)).
Qed.
Lemma libs_ext L L' : (forall i, option_map lib_hd (nth_error L i) = option_map lib_hd (nth_error L' i)) -> (forall i j, get_el i j L = get_el i j L') -> L = L'.
Proof.
  intros H1 H2. apply nth_ext_opt. intros i. specialize (H1 i). assert (H3 : forall j, get_el i j L = get_el i j L') by (intros j; apply H2). unfold get_el in H3.
  destruct (nth_error L i) as [b|], (nth_error L' i) as [b'|]; try discriminate; [|reflexivity]. f_equal.
  destruct b, b'. unfold lib_hd in H1. cbn in H1, H3. injection H1 as -> -> -> _ -> -> ->. f_equal. apply nth_ext_opt, H3.
Qed.

(** ** Resolving *)
Lemma find_index_ext {A B} (p : A -> bool) (q : B -> bool) l : forall l', map p l = map q l' -> find_index p l = find_index q l'.
Proof.
  induction l as [|x l IH]; intros [|y l'] H; try discriminate; [reflexivity|]. cbn in H. injection H as H1 H2. cbn. rewrite H1, (IH _ H2). reflexivity.
Qed.
Definition names (libs : list glib) : list (list (list byte)) := map (fun b => map s_name (b_elements b)) libs.
Lemma resolve_name_names n L : forall L', names L = names L' -> resolve_name n L = resolve_name n L'.
Proof.
  induction L as [|b L IH]; intros [|b' L'] H; try discriminate; [reflexivity|]. unfold names in H. cbn [map] in H. injection H as H1 H2. cbn [resolve_name].
  rewrite (find_index_ext (fun e => streqb (s_name e) n) (fun e => streqb (s_name e) n) (b_elements b) (b_elements b')), (IH L' H2); [reflexivity|].
  assert (G : forall l, map (fun e => streqb (s_name e) n) l = map (fun x => streqb x n) (map s_name l)) by (intros l; rewrite map_map; reflexivity).
  rewrite !G, H1. reflexivity.
Qed.

Fixpoint imap {A B} (f : nat -> A -> B) (k : nat) (l : list A) : list B :=
  match l with [] => [] | x :: t => f k x :: imap f (S k) t end.
Lemma nth_imap {A B} (f : nat -> A -> B) l : forall k i, nth_error (imap f k l) i = option_map (f (k + i)%nat) (nth_error l i).
Proof.
  induction l as [|x l IH]; intros k [|i]; cbn; try reflexivity.
  - rewrite Nat.add_0_r. reflexivity.
  - rewrite IH. replace (S k + i)%nat with (k + S i)%nat by lia. reflexivity.
Qed.
Lemma imap_ext {A B} (f g : nat -> A -> B) l : (forall i x, nth_error l i = Some x -> f i x = g i x) -> imap f 0 l = imap g 0 l.
Proof. intros H. apply nth_ext_opt. intros i. rewrite !nth_imap. cbn. destruct (nth_error l i) eqn:E; [|reflexivity]. cbn. f_equal. apply H, E. Qed.
Lemma imap_map {A B} (f : A -> B) l : imap (fun _ => f) 0 l = map f l.
Proof. generalize 0%nat. induction l as [|x l IH]; intros k; [reflexivity|]. cbn. f_equal. apply IH. Qed.

Definition pos_eqb (p q : nat * nat * nat) : bool :=
  let '(a, b, c) := p in let '(x, y, z) := q in (a =? x)%nat && (b =? y)%nat && (c =? z)%nat.
Definition mem (p : nat * nat * nat) (ps : list (nat * nat * nat)) : bool := existsb (pos_eqb p) ps.
Lemma pos_eqb_eq p q : pos_eqb p q = true <-> p = q.
Proof.
  destruct p as [[a b] c], q as [[x y] z]. unfold pos_eqb. rewrite !andb_true_iff, !Nat.eqb_eq. split; [intros ((-> & ->) & ->); reflexivity|intros Q; injection Q as -> -> ->; auto].
Qed.
Lemma mem_in p ps : mem p ps = true <-> In p ps.
Proof.
  unfold mem. rewrite existsb_exists. split; [intros (q & I & E); apply pos_eqb_eq in E; subst; exact I|intros I; exists p; split; [exact I|apply pos_eqb_eq; reflexivity]].
Qed.

(** an object resolved; whether the reference at a position leads to element j of library i *)
Definition ref_name (o : obj) : option (list byte) := match o_class o with SReference n _ _ => Some n | _ => None end.
Definition ro (libs : list glib) (o : obj) : obj :=
  match o_class o with
  | SReference n p m => match resolve_name n libs with Some ij => set_class (SReference n (Some ij) m) o | None => o end
  | _ => o
  end.
Definition refers (libs : list glib) (i j : nat) (p : nat * nat * nat) : bool :=
  let '(a, b, c) := p in
  match get_obj a b c libs with
  | Some o => match ref_name o with
              | Some n => match resolve_name n libs with Some (x, y) => (x =? i)%nat && (y =? j)%nat | None => false end
              | None => false end
  | None => false
  end.
Definition resolves (libs : list glib) (p : nat * nat * nat) : bool :=
  let '(a, b, c) := p in
  match get_obj a b c libs with
  | Some o => match ref_name o with Some n => match resolve_name n libs with Some _ => true | None => false end | None => true end
  | None => true
  end.

Definition after (libs : list glib) (ps : list (nat * nat * nat)) (i j : nat) (e : struc) : struc :=
  mkstruc (s_name e) (imap (fun k o => if mem (i, j, k) ps then ro libs o else o) 0 (s_objs e)) (s_flat e) (s_min e) (s_max e) (s_nested e || existsb (refers libs i j) ps).
Definition Inv (libs : list glib) (ps : list (nat * nat * nat)) (L : list glib) : Prop :=
  (forall i, option_map lib_hd (nth_error L i) = option_map lib_hd (nth_error libs i)) /\
  (forall i j, get_el i j L = option_map (after libs ps i j) (get_el i j libs)).

Lemma Inv_names libs ps L : Inv libs ps L -> names L = names libs.
Proof.
  intros (H1 & H2). unfold names. apply nth_ext_opt. intros i. rewrite !nth_error_map. specialize (H1 i).
  assert (H3 : forall j, get_el i j L = option_map (after libs ps i j) (get_el i j libs)) by (intros j; apply H2). unfold get_el in H3.
  destruct (nth_error L i) as [b|], (nth_error libs i) as [b'|]; try discriminate; [|reflexivity]. cbn. f_equal. apply nth_ext_opt. intros j. rewrite !nth_error_map, H3.
  destruct (nth_error (b_elements b') j); reflexivity.
Qed.
Lemma Inv_nil libs : Inv libs [] libs.
Proof.
  split; [reflexivity|]. intros i j. destruct (get_el i j libs) as [e|]; [|reflexivity]. cbn. f_equal. destruct e. unfold after. cbn. rewrite orb_false_r. f_equal.
  rewrite (imap_map (fun o => o)), map_id. reflexivity.
Qed.

Lemma mem_snoc p ps q : mem p (ps ++ [q]) = mem p ps || pos_eqb p q.
Proof. unfold mem. rewrite existsb_app. cbn. rewrite orb_false_r. reflexivity. Qed.

Lemma Inv_same libs ps L p : ~ In p ps ->
  (let '(i, j, k) := p in forall o, get_obj i j k libs = Some o -> ro libs o = o /\ ref_name o = None) -> Inv libs ps L -> Inv libs (ps ++ [p]) L.
Proof.
  destruct p as [[i j] k]. intros Hn Hp (H1 & H2). split; [exact H1|]. intros a c. rewrite H2. destruct (get_el a c libs) as [e|] eqn:E; [|reflexivity]. cbn. f_equal. unfold after. f_equal.
  - apply imap_ext. intros x o Ho. rewrite mem_snoc. destruct (mem (a, c, x) ps); [reflexivity|]. cbn [orb].
    destruct (pos_eqb (a, c, x) (i, j, k)) eqn:Q; [|reflexivity]. apply pos_eqb_eq in Q. injection Q as -> -> ->.
    symmetry. apply Hp. rewrite get_obj_el, E. exact Ho.
  - rewrite existsb_app. cbn [existsb]. rewrite orb_false_r.
    assert (R : refers libs a c (i, j, k) = false).
    { unfold refers. destruct (get_obj i j k libs) as [o|] eqn:G; [|reflexivity]. destruct (Hp o eq_refl) as (_ & ->). reflexivity. }
    rewrite R, orb_false_r. reflexivity.
Qed.

Lemma resolve_step libs ps L p : ~ In p ps -> Inv libs ps L ->
  if resolves libs p then exists L', resolve_at (L, true) p = (L', true) /\ Inv libs (ps ++ [p]) L'
  else resolve_at (L, true) p = (L, false).
Proof.
  destruct p as [[i j] k]. intros Hn HI. pose proof (Inv_names _ _ _ HI) as HN. unfold resolve_at, resolves. cbn [negb].
  assert (G : get_obj i j k L = get_obj i j k libs).
  { rewrite !get_obj_el. destruct HI as (_ & H2). rewrite H2. destruct (get_el i j libs) as [e|]; [|reflexivity]. cbn [option_map after s_objs]. rewrite nth_imap. cbn [Nat.add].
    assert (M : mem (i, j, k) ps = false) by (destruct (mem (i, j, k) ps) eqn:M; [apply mem_in in M; contradiction|reflexivity]). rewrite M.
    destruct (nth_error (s_objs e) k); reflexivity. }
  rewrite G. destruct (get_obj i j k libs) as [o|] eqn:Eo.
  - unfold ref_name. destruct (o_class o) as [?|? ? ?|? ? ? ? ? ? ?|?|n p0 m] eqn:C;
      try (exists L; split; [reflexivity|]; apply Inv_same; [exact Hn| |exact HI]; intros o' Ho'; rewrite Eo in Ho'; injection Ho' as <-; unfold ro, ref_name; rewrite C; auto).
    rewrite (resolve_name_names n L libs HN). destruct (resolve_name n libs) as [[x y]|] eqn:ER; [|reflexivity].
    eexists. split; [reflexivity|]. rewrite mark_nested_upd, set_obj_upd. destruct HI as (H1 & H2). split.
    + intros a. rewrite !upd_el_hd. apply H1.
    + intros a c. rewrite !get_upd_el, !H2. destruct (get_el a c libs) as [e|] eqn:E; [|destruct ((a =? x)%nat && (c =? y)%nat), ((a =? i)%nat && (c =? j)%nat); reflexivity].
      cbn [option_map].
      assert (A1 : (if (a =? i)%nat && (c =? j)%nat then put_obj k (set_class (SReference n (Some (x, y)) m) o) (after libs ps a c e) else after libs ps a c e) =
                   mkstruc (s_name e) (imap (fun k0 o0 => if mem (a, c, k0) (ps ++ [(i, j, k)]) then ro libs o0 else o0) 0 (s_objs e)) (s_flat e) (s_min e) (s_max e)
                     (s_nested e || existsb (refers libs a c) ps)).
      { destruct ((a =? i)%nat && (c =? j)%nat) eqn:Q.
        - apply andb_true_iff in Q. destruct Q as (Q1 & Q2). apply Nat.eqb_eq in Q1, Q2. subst a c. unfold put_obj, after. cbn [s_name s_objs s_flat s_min s_max s_nested]. f_equal.
          apply nth_ext_opt. intros q. rewrite nth_error_upd, !nth_imap. cbn [Nat.add]. rewrite mem_snoc.
          rewrite get_obj_el, E in Eo.
          assert (k < length (s_objs e))%nat as LK by (apply nth_error_Some; congruence).
          destruct (Nat.eqb_spec q k) as [->|NQ].
          + assert (LL : length (imap (fun k0 o0 => if mem (i, j, k0) ps then ro libs o0 else o0) 0 (s_objs e)) = length (s_objs e)).
            { clear. generalize 0%nat. induction (s_objs e) as [|z l IH]; intros z0; [reflexivity|]. cbn. f_equal. apply IH. }
            cbn [andb]. rewrite LL, (proj2 (Nat.ltb_lt _ _) LK), Eo. cbn [option_map].
            rewrite (proj2 (pos_eqb_eq (i, j, k) (i, j, k)) eq_refl), orb_true_r. unfold ro. rewrite C, ER. reflexivity.
          + cbn [andb]. assert (P : pos_eqb (i, j, q) (i, j, k) = false) by (destruct (pos_eqb (i, j, q) (i, j, k)) eqn:P; [apply pos_eqb_eq in P; congruence|reflexivity]).
            rewrite P, orb_false_r. reflexivity.
        - unfold after. f_equal. apply imap_ext. intros q o0 _. rewrite mem_snoc.
          assert (P : pos_eqb (a, c, q) (i, j, k) = false) by (unfold pos_eqb; rewrite Q; reflexivity). rewrite P, orb_false_r. reflexivity. }
      assert (A2 : existsb (refers libs a c) (ps ++ [(i, j, k)]) = existsb (refers libs a c) ps || ((x =? a)%nat && (y =? c)%nat)).
      { rewrite existsb_app. cbn [existsb]. rewrite orb_false_r. f_equal. unfold refers, ref_name. rewrite Eo, C, ER. reflexivity. }
      assert (A3 : (if (a =? i)%nat && (c =? j)%nat then option_map (put_obj k (set_class (SReference n (Some (x, y)) m) o)) (Some (after libs ps a c e)) else Some (after libs ps a c e)) =
                   Some (if (a =? i)%nat && (c =? j)%nat then put_obj k (set_class (SReference n (Some (x, y)) m) o) (after libs ps a c e) else after libs ps a c e))
        by (destruct ((a =? i)%nat && (c =? j)%nat); reflexivity).
      cbn [option_map] in A3. rewrite A3, A1. unfold after at 1. rewrite A2.
      rewrite (Nat.eqb_sym x a), (Nat.eqb_sym y c). destruct ((a =? x)%nat && (c =? y)%nat); cbn [option_map]; f_equal; unfold set_nested; cbn [s_name s_objs s_flat s_min s_max s_nested].
      * rewrite orb_assoc, !orb_true_r. reflexivity.
      * rewrite orb_false_r. reflexivity.
  - exists L. split; [reflexivity|]. apply Inv_same; [exact Hn| |exact HI]. intros o Ho. congruence.
Qed.

Lemma resolve_frozen ps L : fold_left resolve_at ps (L, false) = (L, false).
Proof. induction ps as [|[[? ?] ?] ps IH]; [reflexivity|]. exact IH. Qed.

Lemma resolve_fold libs : forall qs ps L, NoDup (ps ++ qs) -> Inv libs ps L ->
  if forallb (resolves libs) qs then exists L', fold_left resolve_at qs (L, true) = (L', true) /\ Inv libs (ps ++ qs) L'
  else exists L' qs', fold_left resolve_at qs (L, true) = (L', false) /\ Inv libs (ps ++ qs') L'.
Proof.
  induction qs as [|q qs IH]; intros ps L N HI; cbn [forallb fold_left].
  - exists L. rewrite app_nil_r. split; [reflexivity|exact HI].
  - assert (NI : ~ In q ps). { intros I. apply NoDup_remove_2 in N. apply N, in_or_app. left. exact I. }
    pose proof (resolve_step libs ps L q NI HI) as S. destruct (resolves libs q); cbn [andb].
    + destruct S as (L' & E & HI'). rewrite E. specialize (IH (ps ++ [q]) L'). rewrite <- app_assoc in IH. cbn [app] in IH. specialize (IH N HI').
      destruct (forallb (resolves libs) qs); [exact IH|]. destruct IH as (L'' & qs' & E' & HI''). exists L'', (q :: qs'). rewrite <- app_assoc in HI''. auto.
    + rewrite S, resolve_frozen. exists L, []. rewrite app_nil_r. auto.
Qed.

Lemma positions_in libs i j k : In (i, j, k) (positions libs) <-> exists o, get_obj i j k libs = Some o.
Proof.
  unfold positions. rewrite in_concat. split.
  - intros (l & Hl & I). apply in_map_iff in Hl. destruct Hl as (a & <- & Ia). apply in_concat in I. destruct I as (l & Hl & I).
    apply in_map_iff in Hl. destruct Hl as (c & <- & Ic). apply in_map_iff in I. destruct I as (q & Q & Iq). injection Q as -> -> ->. apply in_seq in Ia, Ic, Iq.
    unfold get_obj. destruct (nth_error libs i) as [b|]; [|cbn in Ic; lia]. destruct (nth_error (b_elements b) j) as [e|]; [|cbn in Iq; lia].
    destruct (nth_error (s_objs e) k) eqn:E; [eauto|]. apply nth_error_None in E. lia.
  - intros (o & H). unfold get_obj in H. destruct (nth_error libs i) as [b|] eqn:E1; [|discriminate]. destruct (nth_error (b_elements b) j) as [e|] eqn:E2; [|discriminate].
    assert (i < length libs)%nat by (apply nth_error_Some; congruence). assert (j < length (b_elements b))%nat by (apply nth_error_Some; congruence).
    assert (k < length (s_objs e))%nat by (apply nth_error_Some; congruence).
    eexists. split; [apply in_map_iff; exists i; split; [reflexivity|apply in_seq; lia]|]. apply in_concat. eexists. split; [apply in_map_iff; exists j; split; [reflexivity|apply in_seq; rewrite E1; lia]|].
    apply in_map_iff. exists k. split; [reflexivity|]. apply in_seq. rewrite E1, E2. lia.
Qed.

Lemma NoDup_concat_map {A B} (f : nat -> list A) (key : A -> B) (g : nat -> B) l :
  NoDup l -> (forall x y, g x = g y -> x = y) -> (forall x a, In a (f x) -> key a = g x) -> (forall x, NoDup (f x)) -> NoDup (concat (map f l)).
Proof.
  intros N Hg Hk Hf. induction N as [|x l NI N IH]; [constructor|]. cbn [map concat]. 
  assert (A1 : forall a, In a (f x) -> ~ In a (concat (map f l))).
  { intros a I I'. apply in_concat in I'. destruct I' as (m & Hm & I'). apply in_map_iff in Hm. destruct Hm as (y & <- & Iy). apply NI.
    assert (x = y) by (apply Hg; rewrite <- (Hk x a I), <- (Hk y a I'); reflexivity). subst. exact Iy. }
  revert A1. specialize (Hf x). induction Hf as [|a m NA Hm IHm]; intros A1; [exact IH|]. cbn [app]. constructor.
  - intros I. apply in_app_or in I. destruct I as [I|I]; [contradiction|]. apply (A1 a); [left; reflexivity|exact I].
  - apply IHm. intros b I. apply A1. right. exact I.
Qed.
Lemma positions_nodup libs : NoDup (positions libs).
Proof.
  unfold positions. apply (NoDup_concat_map _ (fun p => fst (fst p)) (fun x => x)); [apply seq_NoDup|auto| |].
  - intros i a I. apply in_concat in I. destruct I as (m & Hm & I). apply in_map_iff in Hm. destruct Hm as (j & <- & _). apply in_map_iff in I. destruct I as (k & <- & _). reflexivity.
  - intros i. apply (NoDup_concat_map _ (fun p => snd (fst p)) (fun x => x)); [apply seq_NoDup|auto| |].
    + intros j a I. apply in_map_iff in I. destruct I as (k & <- & _). reflexivity.
    + intros j. apply FinFun.Injective_map_NoDup; [intros x y Q; injection Q as ->; reflexivity|apply seq_NoDup].
Qed.

(** All references resolved at once. *)
Definition resolved_struc (libs : list glib) (i j : nat) (e : struc) : struc :=
  mkstruc (s_name e) (map (ro libs) (s_objs e)) (s_flat e) (s_min e) (s_max e) (s_nested e || existsb (refers libs i j) (positions libs)).
Theorem resolve_all_spec libs : exists L, resolve_all libs = (L, forallb (resolves libs) (positions libs)) /\
  (forall i, option_map lib_hd (nth_error L i) = option_map lib_hd (nth_error libs i)) /\
  (forallb (resolves libs) (positions libs) = true -> forall i j, get_el i j L = option_map (resolved_struc libs i j) (get_el i j libs)) /\
  exists ps, forall i j, get_el i j L = option_map (after libs ps i j) (get_el i j libs).
Proof.
  pose proof (resolve_fold libs (positions libs) [] libs (positions_nodup libs) (Inv_nil libs)) as F. unfold resolve_all.
  destruct (forallb (resolves libs) (positions libs)).
  - destruct F as (L & E & H1 & H2). exists L. split; [exact E|]. split; [exact H1|]. split; [|exists (positions libs); exact H2]. intros _ i j. rewrite H2. cbn [app].
    destruct (get_el i j libs) as [e|] eqn:Ee; [|reflexivity]. cbn. f_equal. unfold after, resolved_struc. f_equal. rewrite <- imap_map. apply imap_ext.
    intros k o Ho. assert (M : mem (i, j, k) (positions libs) = true) by (apply mem_in, positions_in; exists o; rewrite get_obj_el, Ee; exact Ho). rewrite M. reflexivity.
  - destruct F as (L & qs & E & H1 & H2). exists L. split; [exact E|]. split; [exact H1|]. split; [discriminate|]. exists qs. exact H2.
Qed.

(** ** Names *)
Lemma find_index_spec {A} (p : A -> bool) l : match find_index p l with
  | Some j => exists x, nth_error l j = Some x /\ p x = true /\ forall i y, (i < j)%nat -> nth_error l i = Some y -> p y = false
  | None => forall x, In x l -> p x = false end.
Proof.
  induction l as [|a l IH]; cbn [find_index]; [intros x []|]. destruct (p a) eqn:E.
  - exists a. split; [reflexivity|]. split; [exact E|]. intros; lia.
  - destruct (find_index p l) as [j|]; cbn [option_map].
    + destruct IH as (x & H1 & H2 & H3). exists x. split; [exact H1|]. split; [exact H2|]. intros [|i] y L H; [cbn in H; congruence|]. apply (H3 i); [lia|exact H].
    + intros x [->|I]; auto.
Qed.
Lemma resolve_name_spec n L : match resolve_name n L with
  | Some (i, j) => (exists e, get_el i j L = Some e /\ s_name e = n) /\
                   forall i' j' e, (i' < i \/ (i' = i /\ j' < j))%nat -> get_el i' j' L = Some e -> s_name e <> n
  | None => forall i j e, get_el i j L = Some e -> s_name e <> n end.
Proof.
  induction L as [|b L IH]; cbn [resolve_name].
  - intros [|i] j e H; discriminate.
  - pose proof (find_index_spec (fun e => streqb (s_name e) n) (b_elements b)) as F. destruct (find_index _ (b_elements b)) as [j|].
    + destruct F as (x & H1 & H2 & H3). split; [exists x; split; [exact H1|apply streqb_eq, H2]|]. intros i' j' e Hl He. destruct Hl as [Hl|(-> & Hl)]; [lia|].
      specialize (H3 j' e Hl He). intros Q. rewrite (proj2 (streqb_eq _ _) Q) in H3. discriminate.
    + assert (F0 : forall j e, get_el 0 j (b :: L) = Some e -> s_name e <> n).
      { intros j e He Q. unfold get_el in He. cbn in He. apply nth_error_In in He. specialize (F e He). rewrite (proj2 (streqb_eq _ _) Q) in F. discriminate. }
      destruct (resolve_name n L) as [[i j]|].
      * destruct IH as (H1 & H2). split; [exact H1|]. intros [|i'] j' e Hl He; [apply (F0 j' e He)|]. apply (H2 i' j' e); [lia|exact He].
      * intros [|i] j e He; [apply (F0 j e He)|exact (IH i j e He)].
Qed.

(** ** Layers *)
Lemma same_layer_eq a b : same_layer a b = true <-> a = b.
Proof. destruct a, b. unfold same_layer. cbn. rewrite andb_true_iff, !Z.eqb_eq. split; [intros (-> & ->); reflexivity|intros Q; injection Q as -> ->; auto]. Qed.
Lemma collect_spec os : forall ls, NoDup ls -> NoDup (fold_left collect os ls) /\
  forall y, In y (fold_left collect os ls) <-> In y ls \/ exists o, In o os /\ layer_of o = Some y.
Proof.
  induction os as [|o os IH]; intros ls N; cbn [fold_left].
  - split; [exact N|]. intros y. split; [auto|intros [H|(o & [] & _)]; exact H].
  - assert (C : NoDup (collect ls o) /\ forall y, In y (collect ls o) <-> In y ls \/ layer_of o = Some y).
    { unfold collect. destruct (layer_of o) as [z|].
      - destruct (existsb (same_layer z) ls) eqn:E.
        + apply existsb_exists in E. destruct E as (w & I & E). apply same_layer_eq in E. subst w. split; [exact N|]. intros y. split; [auto|intros [H|H]; [exact H|injection H as ->; exact I]].
        + split.
          * apply (Permutation_NoDup (Permutation_cons_append ls z)). constructor; [|exact N]. intros I.
            assert (existsb (same_layer z) ls = true) by (apply existsb_exists; exists z; split; [exact I|apply same_layer_eq; reflexivity]). congruence.
          * intros y. rewrite in_app_iff. cbn. split; [intros [H|[->|[]]]; auto|intros [H|H]; [auto|injection H as ->; auto]].
      - split; [exact N|]. intros y. split; [auto|intros [H|H]; [exact H|discriminate]]. }
    destruct C as (C1 & C2). destruct (IH _ C1) as (I1 & I2). split; [exact I1|]. intros y. rewrite I2, C2. cbn. split.
    + intros [[H|H]|(o' & I & H)]; eauto.
    + intros [H|(o' & [->|I] & H)]; eauto.
Qed.

(** bubble sort *)
Definition swap_step (l : list Z) (k : nat) : list Z :=
  match nth_error l (k - 1), nth_error l k with
  | Some a, Some b => if b <? a then upd (upd l (k - 1) b) k a else l
  | _, _ => l
  end.
Lemma map_upd {A B} (f : A -> B) l i x : map f (upd l i x) = upd (map f l) i (f x).
Proof. revert i. induction l as [|y l IH]; intros [|i]; cbn; try reflexivity. f_equal. apply IH. Qed.
Lemma reorder_step_layers ls k : (1 <= k)%nat -> map y_layer (reorder_step ls k) = swap_step (map y_layer ls) k /\ map y_dataType (reorder_step ls k) = map y_dataType ls.
Proof.
  intros Hk. unfold reorder_step, swap_step. rewrite !nth_error_map. destruct (nth_error ls (k - 1)) as [a|] eqn:Ea; [|auto]. destruct (nth_error ls k) as [b|] eqn:Eb; [|auto]. cbn [option_map].
  assert (U : forall a' b', y_dataType a' = y_dataType a -> y_dataType b' = y_dataType b -> map y_dataType (upd (upd ls (k - 1) a') k b') = map y_dataType ls).
  { intros a' b' Ha Hb. rewrite !map_upd, Ha, Hb. rewrite (upd_same (map y_dataType ls) (k - 1)) by (rewrite nth_error_map, Ea; reflexivity).
    apply upd_same. rewrite nth_error_map, Eb. reflexivity. }
  assert (V : forall x y, upd (upd (map y_layer ls) (k - 1) x) k y = upd (upd (map y_layer ls) (k - 1) x) k y) by reflexivity.
  destruct (Z.ltb_spec (y_layer b) (y_layer a)) as [L|L]; cbn [y_layer y_dataType].
  - destruct (Z.eqb_spec (y_layer a) (y_layer b)) as [Q|Q]; [lia|]. cbn [andb]. split; [rewrite !map_upd; reflexivity|apply U; reflexivity].
  - destruct ((y_layer b =? y_layer a) && (y_dataType b <? y_dataType a)) eqn:Q.
    + apply andb_true_iff in Q. destruct Q as (Q & _). apply Z.eqb_eq in Q. split; [|apply U; reflexivity]. rewrite !map_upd. cbn [y_layer]. rewrite Q.
      rewrite (upd_same (map y_layer ls) (k - 1)) by (rewrite nth_error_map, Ea; reflexivity). apply upd_same. rewrite nth_error_map, Eb. cbn. congruence.
    + split; [|apply U; reflexivity]. rewrite !map_upd. rewrite (upd_same (map y_layer ls) (k - 1)) by (rewrite nth_error_map, Ea; reflexivity).
      apply upd_same. rewrite nth_error_map, Eb. reflexivity.
Qed.
Lemma reorder_step_length ls k : length (reorder_step ls k) = length ls.
Proof.
  unfold reorder_step. destruct (nth_error ls (k - 1)) as [a|]; [|reflexivity]. destruct (nth_error ls k) as [b|]; [|reflexivity].
  destruct (if y_layer b <? y_layer a then _ else _) as [a1 b1]. destruct (if (y_layer b1 =? y_layer a1) && _ then _ else _) as [a2 b2]. rewrite !upd_length. reflexivity.
Qed.
Lemma reorder_pass ks : forall ls, (forall k, In k ks -> 1 <= k)%nat ->
  map y_layer (fold_left reorder_step ks ls) = fold_left swap_step ks (map y_layer ls) /\ map y_dataType (fold_left reorder_step ks ls) = map y_dataType ls.
Proof.
  induction ks as [|k ks IH]; intros ls H; [auto|]. cbn [fold_left]. destruct (reorder_step_layers ls k (H k (or_introl eq_refl))) as (A & B).
  destruct (IH (reorder_step ls k)) as (C & D); [intros q I; apply H; right; exact I|]. rewrite C, D, A, B. auto.
Qed.
Definition sort_pass (l : list Z) : list Z := fold_left swap_step (seq 1 (length l - 1)) l.
Lemma reorder_sort ls : map y_layer (reorder ls) = fold_left (fun l _ => sort_pass l) (seq 0 (length ls)) (map y_layer ls) /\ map y_dataType (reorder ls) = map y_dataType ls.
Proof.
  unfold reorder. generalize (seq 0 (length ls)). intros xs. revert ls. induction xs as [|x xs IH]; intros ls; [auto|]. cbn [fold_left].
  destruct (reorder_pass (seq 1 (length ls - 1)) ls) as (A & B); [intros k I; apply in_seq in I; lia|].
  destruct (IH (fold_left reorder_step (seq 1 (length ls - 1)) ls)) as (C & D). rewrite C, D, A, B. unfold sort_pass. rewrite map_length. auto.
Qed.

(** a pass carries the greatest of the elements so far *)
Fixpoint bubble (a : Z) (l : list Z) : list Z :=
  match l with
  | [] => [a]
  | b :: t => if b <? a then b :: bubble a t else a :: bubble b t
  end.
Lemma swap_pass_from pre : forall a l, fold_left swap_step (seq (S (length pre)) (length l)) (pre ++ a :: l) = pre ++ bubble a l.
Proof.
  intros a l. revert pre a. induction l as [|b l IH]; intros pre a; [reflexivity|]. cbn [length seq fold_left bubble].
  assert (E : swap_step (pre ++ a :: b :: l) (S (length pre)) = if b <? a then pre ++ b :: a :: l else pre ++ a :: b :: l).
  { unfold swap_step. replace (S (length pre) - 1)%nat with (length pre) by lia. rewrite (nth_error_app2 pre _ (n:=length pre)), (nth_error_app2 pre _ (n:=S (length pre))), Nat.sub_diag by lia.
    replace (S (length pre) - length pre)%nat with 1%nat by lia. cbn [nth_error]. destruct (b <? a); [|reflexivity].
    clear. induction pre as [|p pre IH]; [reflexivity|]. cbn. f_equal. exact IH. }
  rewrite E. destruct (b <? a).
  - replace (pre ++ b :: a :: l) with ((pre ++ [b]) ++ a :: l) by (rewrite <- app_assoc; reflexivity).
    replace (S (S (length pre))) with (S (length (pre ++ [b]))) by (rewrite app_length; cbn; lia). rewrite IH, <- app_assoc. reflexivity.
  - replace (pre ++ a :: b :: l) with ((pre ++ [a]) ++ b :: l) by (rewrite <- app_assoc; reflexivity).
    replace (S (S (length pre))) with (S (length (pre ++ [a]))) by (rewrite app_length; cbn; lia). rewrite IH, <- app_assoc. reflexivity.
Qed.
Lemma sort_pass_bubble a l : sort_pass (a :: l) = bubble a l.
Proof. unfold sort_pass. cbn [length]. replace (S (length l) - 1)%nat with (length l) by lia. exact (swap_pass_from [] a l). Qed.
Lemma bubble_perm a l : Permutation (bubble a l) (a :: l).
Proof.
  revert a. induction l as [|b l IH]; intros a; [apply Permutation_refl|]. cbn [bubble]. destruct (b <? a); [|constructor; apply IH].
  eapply Permutation_trans; [constructor; apply IH|apply perm_swap].
Qed.
Lemma sort_pass_perm l : Permutation (sort_pass l) l.
Proof. destruct l as [|a l]; [apply Permutation_refl|]. rewrite sort_pass_bubble. apply bubble_perm. Qed.
(** a pass puts the greatest element of the unsorted part in front of the sorted part *)
Lemma bubble_last a l : exists m pre, bubble a l = pre ++ [m] /\ Forall (fun x => x <= m) (a :: l).
Proof.
  revert a. induction l as [|b l IH]; intros a.
  - exists a, []. split; [reflexivity|]. repeat constructor. lia.
  - cbn [bubble]. destruct (Z.ltb_spec b a) as [L|L].
    + destruct (IH a) as (m & pre & E & F). inversion F; subst. exists m, (b :: pre). rewrite E. split; [reflexivity|]. constructor; [assumption|]. constructor; [lia|assumption].
    + destruct (IH b) as (m & pre & E & F). inversion F; subst. exists m, (a :: pre). rewrite E. split; [reflexivity|]. constructor; [lia|]. constructor; assumption.
Qed.
Lemma bubble_app_sorted s : Sorted Z.le s -> forall l a, Forall (fun x => Forall (fun y => y <= x) (a :: l)) s -> bubble a (l ++ s) = bubble a l ++ s.
Proof.
  intros S. assert (B0 : forall s, Sorted Z.le s -> forall a, Forall (fun x => a <= x) s -> bubble a s = a :: s).
  { clear. induction s as [|x s IH]; intros S a F; [reflexivity|]. inversion F; subst. cbn [bubble]. destruct (Z.ltb_spec x a); [lia|]. f_equal. apply Sorted_StronglySorted in S; [|intros ? ? ?; lia].
    inversion S; subst. apply IH; [apply StronglySorted_Sorted; assumption|assumption]. }
  induction l as [|b l IH]; intros a F.
  - cbn [app]. rewrite B0; [reflexivity|exact S|]. eapply Forall_impl; [|exact F]. intros x Hx. inversion Hx; assumption.
  - cbn [app bubble]. destruct (b <? a); cbn [app]; f_equal; apply IH; (eapply Forall_impl; [|exact F]); intros x Hx; inversion Hx as [|? ? P1 P2]; subst; inversion P2; subst; constructor; assumption.
Qed.
Definition part_sorted (n : nat) (l : list Z) : Prop :=
  exists u s, l = u ++ s /\ length s = n /\ Sorted Z.le s /\ Forall (fun x => Forall (fun y => y <= x) u) s.
Lemma pass_sorts n l : (n < length l)%nat -> part_sorted n l -> part_sorted (S n) (sort_pass l).
Proof.
  intros L (u & s & -> & Ls & S & F). rewrite app_length in L. destruct u as [|a u]; [cbn in L; lia|]. cbn [app]. rewrite sort_pass_bubble.
  rewrite (bubble_app_sorted s S u a F). destruct (bubble_last a u) as (m & pre & E & G). pose proof (bubble_perm a u) as P.
  exists pre, (m :: s). split; [rewrite E, <- app_assoc; reflexivity|]. split; [cbn; lia|].
  assert (IM : In m (a :: u)). { apply (Permutation_in m P). rewrite E. apply in_or_app. right. left. reflexivity. }
  assert (IP : forall y, In y pre -> In y (a :: u)). { intros y I. apply (Permutation_in y P). rewrite E. apply in_or_app. left. exact I. }
  rewrite Forall_forall in G. split.
  - constructor; [exact S|]. destruct s as [|x s]; constructor. inversion F as [|? ? Fx _]; subst. rewrite Forall_forall in Fx. apply Fx, IM.
  - constructor; [apply Forall_forall; intros y I; apply G, IP, I|]. eapply Forall_impl; [|exact F]. intros x Fx. rewrite Forall_forall in *. intros y I. apply Fx, IP, I.
Qed.
Lemma sort_pass_length l : length (sort_pass l) = length l.
Proof. apply Permutation_length, sort_pass_perm. Qed.
Lemma passes_sort xs : forall n l, part_sorted n l -> (length xs + n <= length l)%nat ->
  part_sorted (length xs + n) (fold_left (fun l (_ : nat) => sort_pass l) xs l) /\ Permutation (fold_left (fun l (_ : nat) => sort_pass l) xs l) l.
Proof.
  induction xs as [|x xs IH]; intros n l P L; [split; [exact P|apply Permutation_refl]|]. cbn [fold_left length] in *.
  destruct (IH (S n) (sort_pass l)) as (A & B); [apply pass_sorts; [lia|exact P]|rewrite sort_pass_length; lia|]. replace (S (length xs) + n)%nat with (length xs + S n)%nat by lia.
  split; [exact A|]. eapply Permutation_trans; [exact B|apply sort_pass_perm].
Qed.
Theorem reorder_spec ls : Permutation (map y_layer (reorder ls)) (map y_layer ls) /\ Sorted Z.le (map y_layer (reorder ls)) /\ map y_dataType (reorder ls) = map y_dataType ls.
Proof.
  destruct (reorder_sort ls) as (A & B). destruct (passes_sort (seq 0 (length ls)) 0 (map y_layer ls)) as ((u & s & E & Ls & S & F) & P).
  - exists (map y_layer ls), []. rewrite app_nil_r. repeat split; auto.
  - rewrite seq_length, map_length. lia.
  - rewrite A. split; [exact P|]. split; [|exact B]. pose proof (Permutation_length P) as PL. rewrite E, app_length, Ls, seq_length, map_length in PL.
    destruct u; [|cbn in PL; lia]. rewrite E. exact S.
Qed.

(** ** The bounding box of a library *)
Definition last_outer (es : list struc) (mm : coord * coord) : coord * coord :=
  match rev (filter (fun e => negb (s_nested e)) es) with e :: _ => (s_min e, s_max e) | [] => mm end.
Lemma bound_lib_spec b : bound_lib b = mkglib (b_name b) (b_user b) (b_physical b) (b_elements b) (b_layers b) (fst (last_outer (b_elements b) (b_min b, b_max b))) (snd (last_outer (b_elements b) (b_min b, b_max b))).
Proof.
  unfold bound_lib.
  match goal with |- (let '(mn, mx) := fold_left ?f _ _ in _) = _ => assert (G : forall l mm, fold_left f l mm = last_outer l mm) end.
  { clear. intros es. induction es as [|e es IH] using rev_ind; intros mm; [reflexivity|]. rewrite fold_left_app. cbn [fold_left]. unfold last_outer. rewrite filter_app, rev_app_distr. cbn [filter].
    destruct (s_nested e); cbn [negb rev app].
    - rewrite IH. reflexivity.
    - rewrite !Z.ltb_irrefl. destruct (s_min e), (s_max e); reflexivity. }
  rewrite G. destruct (last_outer _ _) as [mn mx]. reflexivity.
Qed.
