(** C126: a library of reference bitmaps, written, interrupted, read, and searched.
    Specification: S_Library. *)
From Coq Require Import Reals Lra Lia.
From Verif Require Import Prelude P_Prelude M_Double S_Double P_Double M_LayoutData M_Converter M_Vector2D M_BitMatrix S_Matrix
  P_BitMatrix P_Cells S_Ratio M_Ratio P_Ratio Props_Ratio M_Hash S_Hash P_Hash Props_Hash Props_Rank
  P_Rle M_Zond S_Zond M_Generator S_Generator P_Generator Props_Generator S_EndToEnd Props_EndToEnd
  M_Scanf M_Msk S_Msk P_Msk Props_Msk S_MskBitmap Props_MskBitmap
  S_Identify P_Identify Props_Identify Props_Stored S_Library.
Local Open Scope nat_scope.

Lemma same_as (d d' : disk) al f m : d f = d' f -> reads_as al d f m -> reads_as al d' f m.
Proof.
  intros E R self. destruct (R self) as (n & Q & S). exists n. split; [|exact S].
  unfold ReadFile in *. rewrite <- E. exact Q.
Qed.

(** One call. *)
Lemma flush_entry al cw acc d f m : entry al cw acc (f, m) ->
  exists states, FlushFile al cw acc d m f = (states, Ok true) /\ reads_as al (last states d) f m /\
    (forall s g, In s states -> g <> f -> s g = d g) /\
    (forall s, In s states -> reads_as al s f m \/ rejected al s f).
Proof.
  intros (Nf & Cw & A & h & S & N & M & Hr & Hc & Sv & E & La). cbn [fst snd] in *.
  destruct (C39_file_round_trip al cw acc d m A m f h S N M Hr Hc Sv E Nf Cw La) as (states & n & F & _).
  assert (RD : forall s, s f = Some h -> reads_as al s f m).
  { intros s Hs self.
    destruct (C39_file_round_trip al cw acc d m A self f h S N M Hr Hc Sv E Nf Cw La) as (states' & n' & F' & R' & Sn & _).
    rewrite F in F'. injection F' as <-. exists n'. split; [|exists A; split; assumption].
    assert (La' : last states d f = Some h); [|unfold ReadFile in *; rewrite Hs; rewrite La' in R'; exact R'].
    destruct (C40_torn_files_are_rejected X86 al al cw acc d m A f h states (Ok true) (last states d) self S N M E Nf F) as [Q|Q]; [|exact Q|].
    - destruct states as [|a states].
      + exfalso. unfold FlushFile in F. rewrite (proj2 (Nat.eqb_neq _ _)) in F by (destruct f; [congruence|cbn [length]; lia]).
        rewrite Cw, E in F. cbn [negb] in F. discriminate F.
      + destruct (@exists_last _ (a :: states) ltac:(discriminate)) as (l & x & ->). rewrite last_last. apply in_or_app. right. now left.
    - rewrite R' in Q. discriminate Q. }
  exists states. split; [exact F|]. split.
  - intros self. destruct (C39_file_round_trip al cw acc d m A self f h S N M Hr Hc Sv E Nf Cw La) as (states' & n' & F' & R' & Sn & _).
    rewrite F in F'. injection F' as <-. exists n'. split; [exact R'|exists A; split; assumption].
  - split.
    + intros s g I Ng. unfold FlushFile in F. rewrite (proj2 (Nat.eqb_neq _ _)) in F by (destruct f; [congruence|cbn [length]; lia]).
      rewrite Cw, E in F. cbn [negb] in F. injection F as <-.
      assert (T : exists c, s = disk_put d f c).
      { cbn [app In] in I. destruct I as [<-|I]; [eexists; reflexivity|]. apply in_map_iff in I as (k & <- & _). eexists. reflexivity. }
      destruct T as (c & ->). unfold disk_put. destruct (streqb g f) eqn:Q; [|reflexivity]. apply streqb_eq in Q. congruence.
    + intros s I. destruct (C40_torn_files_are_rejected X86 al al cw acc d m A f h states (Ok true) s m S N M E Nf F I) as [Q|Q].
      * left. exact (RD s Q).
      * destruct (s f) as [t|] eqn:Qs.
        2:{ exfalso. unfold ReadFile in Q. rewrite Qs in Q. destruct (length f =? 0); discriminate Q. }
        destruct (list_eq_dec Byte.byte_eq_dec t h) as [->|Nt]; [left; exact (RD s Qs)|].
        right. intros self. destruct (C40_torn_files_are_rejected X86 al al cw acc d m A f h states (Ok true) s self S N M E Nf F I) as [Q'|Q']; [|exact Q'].
        rewrite Qs in Q'. congruence.
Qed.

Lemma last_states (states : list disk) d g : (forall s, In s states -> s g = d g) -> last states d g = d g.
Proof.
  intros H. destruct states as [|a l]; [reflexivity|].
  destruct (@exists_last _ (a :: l) ltac:(discriminate)) as (l' & x & E). rewrite E, last_last. apply H. rewrite E. apply in_or_app. right. now left.
Qed.
Lemma last_app_disk (a b : list disk) d : last (a ++ b) d = last b (last a d).
Proof.
  destruct b as [|y b]; [now rewrite app_nil_r|].
  destruct (@exists_last _ (y :: b) ltac:(discriminate)) as (l & x & ->). now rewrite app_assoc, !last_last.
Qed.

(** ** C126 *)
(** Storing bitmaps that can be stored always succeeds, and then every file that was written
    reads as the bitmap that was stored there last; every other file is as it was. *)
Theorem C126_the_library_reads_back : forall al can_write accepted l d, Forall (entry al can_write accepted) l ->
  exists states, stores al can_write accepted d l states /\
    (forall f m, latest l f m -> reads_as al (last states d) f m) /\
    (forall g, ~ In g (map fst l) -> last states d g = d g).
Proof.
  intros al cw acc l. induction l as [|(f & m) l IH]; intros d Fl.
  - exists []. split; [constructor|]. split; [|reflexivity]. intros f m (b & a & E & _). destruct b; discriminate E.
  - inversion Fl as [|? ? En Fl' Eq]; subst. destruct (flush_entry al cw acc d f m En) as (s1 & F & R & O & _).
    destruct (IH (last s1 d) Fl') as (s2 & St & L & U).
    exists (s1 ++ s2). split; [econstructor; eassumption|]. rewrite last_app_disk. split.
    + intros g x (b & a & E & Na). destruct b as [|e b]; cbn [app] in E.
      * injection E as -> -> ->. refine (same_as _ _ _ _ _ _ R). symmetry. apply U. exact Na.
      * injection E as E1 E2. apply L. exists b, a. split; assumption.
    + intros g Ng. cbn [map fst In] in Ng. rewrite U by tauto. apply last_states. intros s I. apply O; [exact I|]. intros ->. tauto.
Qed.

(** Interrupted at any moment, such a program has lost one file at most: the file f it was
    writing either reads as its new bitmap or is rejected; the files finished before read as the
    bitmaps stored there, and the files it had not come to are as they were. *)
Theorem C126_a_crash_costs_one_file : forall al can_write accepted l d states s,
  Forall (entry al can_write accepted) l -> stores al can_write accepted d l states -> In s states ->
  exists before f m after, l = before ++ (f, m) :: after /\
    (reads_as al s f m \/ rejected al s f) /\
    forall g, g <> f ->
      (forall x, latest before g x -> reads_as al s g x) /\
      (~ In g (map fst before) -> s g = d g).
Proof.
  intros al cw acc l d states s Fl St. revert Fl. induction St as [d|d f m s1 rest more F St IH]; intros Fl I; [destruct I|].
  inversion Fl as [|? ? En Fl' Eq]; subst. destruct (flush_entry al cw acc d f m En) as (s1' & F' & R & O & T).
  rewrite F in F'. injection F' as <-. apply in_app_or in I. destruct I as [I|I].
  - exists [], f, m, rest. split; [reflexivity|]. split; [exact (T s I)|]. intros g Ng. split.
    + intros x (b & a & E & _). destruct b; discriminate E.
    + intros _. exact (O s g I Ng).
  - destruct (IH Fl' I) as (b & f' & m' & a & -> & T' & G). exists ((f, m) :: b), f', m', a.
    split; [reflexivity|]. split; [exact T'|]. intros g Ng. destruct (G g Ng) as (G1 & G2). split.
    + intros x (b' & a' & E & Na). destruct b' as [|e b']; cbn [app] in E.
      * injection E as -> -> <-. refine (same_as _ _ _ _ _ _ R). symmetry. apply G2. exact Na.
      * injection E as E1 E2. apply G1. exists b', a'. split; assumption.
    + intros N. cbn [map fst In] in N. rewrite G2 by tauto. apply last_states. intros y Iy. apply O; [exact Iy|]. intros ->. tauto.
Qed.

(** Searching it: of two references of the library, read from their files, the one with the
    greater score is the one whose stored bitmap differs from the query in fewer cells, and
    a reference with the cells of the query scores exactly 1. *)
Theorem C126_the_best_score_is_the_nearest : forall al can_write accepted l d f g a b A B q Q al2 self,
  Forall (entry al can_write accepted) l -> latest l f a -> latest l g b ->
  shows q Q -> shows a A -> shows b B ->
  arows Q = arows A -> acols Q = acols A -> arows Q = arows B -> acols Q = acols B ->
  nonempty Q -> ~ out_of_memory al2 (arows Q) (acols Q) -> (Z.of_nat (cell_number Q) < 2 ^ 51)%Z ->
  exists states n n' x y, stores al can_write accepted d l states /\
    ReadFile X86 al (last states d) self f = (n, Ok true) /\ ReadFile X86 al (last states d) self g = (n', Ok true) /\
    Compare al2 q n = Ok x /\ Compare al2 q n' = Ok y /\
    (dgt x y = true <-> differences Q A < differences Q B) /\
    (deq x y = true <-> differences Q A = differences Q B) /\
    (deq x (dz 1) = true <-> asame Q A).
Proof.
  intros al cw acc l d f g a b A B q Q al2 self Fl Lf Lg Sq Sa Sb E1 E2 E3 E4 N M H.
  destruct (C126_the_library_reads_back al cw acc l d Fl) as (states & St & R & _).
  destruct (R f a Lf self) as (n & Rn & X & Sx & Sn). destruct (R g b Lg self) as (n' & Rn' & Y & Sy & Sn').
  assert (Tr : forall u v U V, shows u U -> shows u V -> shows v V -> shows v U).
  { intros u v U V SU SV Sv. destruct (shows_elim _ _ SU) as (_ & u1 & u2 & u3). destruct (shows_elim _ _ SV) as (_ & v1 & v2 & v3).
    eapply shows_asame; [exact Sv|]. split; [congruence|]. split; [congruence|]. intros i j I J.
    rewrite <- v3 by (first [exact I|exact J]). apply u3; congruence. }
  pose proof (Tr _ _ _ _ Sa Sx Sn) as SnA. pose proof (Tr _ _ _ _ Sb Sy Sn') as SnB.
  destruct (C107_greater_score_fewer_differences al2 q n n' Q A B Sq SnA SnB E1 E2 E3 E4 N M H) as (x & y & Cx & Cy & C1 & C2).
  destruct (C107_one_means_identical al2 q n Q A Sq SnA E1 E2 N M H) as (x' & Cx' & C3).
  rewrite Cx in Cx'. injection Cx' as <-.
  exists states, n, n', x, y. repeat (split; [assumption|]). assumption.
Qed.

(** From drawing to recognition.  The layer n of an MSK file is drawn and stored; the layer of
    another file - other name, comments, order, other layers, but the same rectangles on it -
    is drawn later: the stored bitmap, read back, equals it, with score exactly 1. *)
Theorem C126_from_drawings_to_recognition :
  forall pl pl' fs fs' name name' rd rd' text text' cs cs' l l' n heap mn mx v v' al al' stack r c al2 al3 can_write accepted dsk self f,
  GetReader fs name = Some rd -> encodable name -> fs (narrow name) = Some text ->
  GetReader fs' name' = Some rd' -> encodable name' -> fs' (narrow name') = Some text' ->
  file_says text cs -> shapes cs l -> file_says text' cs' -> shapes cs' l' -> l <> [] -> l' <> [] -> (n <> -5)%Z ->
  (forall p q, In (n, p, q) l <-> In (n, p, q) l') ->
  memory_ok al r c -> memory_ok al' r c -> memory_ok al2 r c -> memory_ok al3 r c -> fine_box mn mx r c ->
  (forall p q, In (n, p, q) l -> meets mn mx p q ->
     manageable mn mx r c (left_top p q) (right_bottom p q) /\ starts_inside mn mx (left_top p q)) ->
  0 < r -> 0 < c -> (Z.of_nat r < 2 ^ 32)%Z -> (Z.of_nat c < 2 ^ 32)%Z -> (Z.of_nat r * Z.of_nat c <= 2 ^ 53)%Z ->
  size_survives (Z.of_nat r) (Z.of_nat c) -> f <> [] -> can_write f = true ->
  exists rd1 d g m rd2 d' g', Read pl fs rd (Some no_layout) = Ok (rd1, Some d, true) /\
    Init gen_new (Some (mklayout heap (ld_libraries d))) [n] mn mx = (g, Ok tt) /\
    result (Process (Some v) al stack g r c) = (m, Ok true) /\
    Read pl' fs' rd' (Some no_layout) = Ok (rd2, Some d', true) /\
    Init gen_new (Some (mklayout heap (ld_libraries d'))) [n] mn mx = (g', Ok tt) /\
    forall h, EncodeHash al2 m = Ok h -> length h <= accepted ->
    exists states k m' x, FlushFile al2 can_write accepted dsk m f = (states, Ok true) /\
      ReadFile X86 al2 (last states dsk) self f = (k, Ok true) /\
      result (Process (Some v') al' stack g' r c) = (m', Ok true) /\
      Compare al3 k m' = Ok x /\ real x 1 /\ bm_eq al3 k m' = Ok true /\ EncodeHash al2 m' = Ok h.
Proof.
  intros pl pl' fs fs' name name' rd rd' text text' cs cs' l l' n heap mn mx v v' al al' stack r c al2 al3 cw acc dsk self f
    G He F G' He' F' S Sh S' Sh' Hl Hl' Hn E Hm Hm' Hm2 Hm3 FB HD Hr Hc Lr Lc Sz Sv Nf Cw.
  destruct (C83_from_file_to_bitmap pl fs name rd text cs l n heap mn mx v al stack r c G He F S Sh Hl Hn Hm FB HD)
    as (rd1 & d & g & m & R & I & P & _).
  destruct (C83_from_file_to_bitmap pl' fs' name' rd' text' cs' l' n heap mn mx v' al' stack r c G' He' F' S' Sh' Hl' Hn Hm' FB)
    as (rd2 & d' & g' & m2 & R' & I' & P' & _).
  { intros p q Hpq. apply HD. apply E. exact Hpq. }
  exists rd1, d, g, m, rd2, d', g'. repeat (split; [assumption|]). intros h Eh La.
  destruct (init_live _ _ _ _ _ I) as (H1 & H2). destruct (init_live _ _ _ _ _ I') as (H1' & H2').
  destruct (msk_items _ _ _ _ _ _ _ n _ _ G He F S Sh Hl Hn R) as (items & C & IT).
  destruct (msk_items _ _ _ _ _ _ _ n _ _ G' He' F' S' Sh' Hl' Hn R') as (items' & C' & IT').
  destruct (C104_recognised_by_the_stored_bitmap _ _ _ _ g g' heap _ _ _ _ mn mx v v' al al' stack r c items items' m al2 al3 cw acc dsk self f h
    H1 H1' H2 H2' C C') as (states & k & m' & x & Q); try assumption.
  { intros z. rewrite IT, IT'. split; intros (p & q & X & Y); exists p, q; (split; [apply E, X|exact Y]). }
  exists states, k, m', x. tauto.
Qed.

(** Example data: a row of three cells, the first two or the last one set. *)
Definition ex_ref (b : byte) : bm := mkbm [[b]] 1 3.
Lemma ex_shown b : b = xc0 \/ b = x20 -> shows (ex_ref b) (mkamat 1 3 (fun _ j => if Byte.eqb b xc0 then j <? 2 else 2 <=? j)).
Proof.
  intros B. apply shows_intro; [split; [reflexivity|]; repeat constructor|reflexivity|reflexivity|].
  intros i j I J. assert (i = 0) by lia. subst i. destruct B as [-> | ->]; destruct j as [|[|[|j]]]; try lia; reflexivity.
Qed.
Lemma ex_entry f b : f <> [] -> b = xc0 \/ b = x20 -> entry infinite_memory (fun _ => true) 1000 (f, ex_ref b).
Proof.
  intros Nf B. split; [exact Nf|]. split; [reflexivity|].
  destruct (EncodeHash infinite_memory (ex_ref b)) as [h| |] eqn:E; [|destruct B as [-> | ->]; vm_compute in E; discriminate E..].
  eexists _, h. split; [exact (ex_shown b B)|]. cbn [arows acols].
  split; [split; cbn; lia|]. split; [reflexivity|]. split; [cbn; lia|]. split; [cbn; lia|].
  split; [apply small_sizes_survive; cbn; lia|]. split; [exact E|].
  destruct B as [-> | ->]; vm_compute in E; injection E as <-; cbn [length]; lia.
Qed.

(** A file that is written again is not protected: in between it holds neither the old nor the
    new bitmap. *)
Theorem C126_old_or_new_refuted :
  ~ (forall al can_write accepted d f m m' states s, entry al can_write accepted (f, m') ->
       reads_as al d f m -> FlushFile al can_write accepted d m' f = (states, Ok true) -> In s states ->
       reads_as al s f m \/ reads_as al s f m').
Proof.
  intros H. pose (m := ex_ref xc0). pose (f := lit "f"). pose (d0 := (fun _ => None) : disk).
  pose proof (ex_entry f xc0 ltac:(discriminate) (or_introl eq_refl)) as En. fold m in En.
  destruct (flush_entry infinite_memory (fun _ => true) 1000 d0 f m En) as (st & F & R & _).
  destruct (C40_flush_truncates_first infinite_memory (fun _ => true) 1000 (last st d0) m f ltac:(discriminate) eq_refl) as (rest & r & F2).
  destruct (flush_entry infinite_memory (fun _ => true) 1000 (last st d0) f m En) as (st2 & F3 & _).
  rewrite F2 in F3. injection F3 as <- ->.
  destruct (H _ _ _ _ f m m _ (disk_put (last st d0) f []) En R F2 ltac:(now left)) as [Q|Q];
    destruct (Q m) as (n & Q1 & _); unfold ReadFile, disk_put in Q1; rewrite streqb_refl in Q1; cbn [length Nat.eqb f lit] in Q1;
    vm_compute in Q1; discriminate Q1.
Qed.

(** (The hypotheses of C126_from_drawings_to_recognition: C83_hypotheses_met, C85_hypotheses_met.)
    Three calls for two files; the second bitmap of "a" replaces the first. *)
Definition ex_library : list (list byte * bm) := [(lit "a", ex_ref xc0); (lit "b", ex_ref xc0); (lit "a", ex_ref x20)].
Example C126_hypotheses_met :
  Forall (entry infinite_memory (fun _ => true) 1000) ex_library /\
  latest ex_library (lit "a") (ex_ref x20) /\ latest ex_library (lit "b") (ex_ref xc0) /\
  ~ latest ex_library (lit "a") (ex_ref xc0) /\
  exists A B, shows (ex_ref xc0) A /\ shows (ex_ref x20) B /\ arows A = arows B /\ acols A = acols B /\ nonempty A /\
    ~ out_of_memory infinite_memory (arows A) (acols A) /\ (Z.of_nat (cell_number A) < 2 ^ 51)%Z /\
    differences A A = 0 /\ differences A B = 3.
Proof.
  split; [repeat apply Forall_cons; try apply Forall_nil; apply ex_entry; try discriminate; auto|].
  split; [exists [(lit "a", ex_ref xc0); (lit "b", ex_ref xc0)], []; split; [reflexivity|intros []]|].
  split; [exists [(lit "a", ex_ref xc0)], [(lit "a", ex_ref x20)]; split; [reflexivity|intros [Q|[]]; discriminate Q]|].
  split.
  { intros (b & a & E & N). unfold ex_library in E. destruct b as [|e [|e' [|e'' b]]]; cbn [app] in E.
    - injection E as <-. apply N. right. now left.
    - discriminate E.
    - discriminate E.
    - destruct b; discriminate E. }
  do 2 eexists. split; [exact (ex_shown xc0 (or_introl eq_refl))|]. split; [exact (ex_shown x20 (or_intror eq_refl))|].
  split; [reflexivity|]. split; [reflexivity|]. split; [split; cbn; lia|]. split; [intros [Q|(k & _ & Q)]; discriminate Q|].
  split; [cbn; lia|]. split; reflexivity.
Qed.

(** The crash points of those calls: 2 bytes of the hash of "b" are on the disk. *)
Example C126_a_crash : exists n n' st st' s,
  FlushFile infinite_memory (fun _ => true) 1000 (fun _ => None) (ex_ref xc0) (lit "a") = (st, Ok true) /\
  FlushFile infinite_memory (fun _ => true) 1000 (last st (fun _ => None)) (ex_ref xc0) (lit "b") = (st', Ok true) /\
  nth_error st' 2 = Some s /\ s (lit "b") = Some (firstn 2 hash_begin) /\
  ReadFile X86 infinite_memory s bm_empty (lit "a") = (n, Ok true) /\ n = ex_ref xc0 /\
  ReadFile X86 infinite_memory s bm_empty (lit "b") = (n', Throw InvalidArgument) /\ n' = bm_empty.
Proof.
  do 2 eexists.
  exists (fst (FlushFile infinite_memory (fun _ => true) 1000 (fun _ => None) (ex_ref xc0) (lit "a"))).
  exists (fst (FlushFile infinite_memory (fun _ => true) 1000
    (last (fst (FlushFile infinite_memory (fun _ => true) 1000 (fun _ => None) (ex_ref xc0) (lit "a"))) (fun _ => None)) (ex_ref xc0) (lit "b"))).
  eexists. split; [vm_compute; reflexivity|]. split; [vm_compute; reflexivity|]. split; [reflexivity|].
  split; [vm_compute; reflexivity|]. split; [vm_compute; reflexivity|]. split; [reflexivity|]. split; [vm_compute; reflexivity|]. reflexivity.
Qed.

Print Assumptions C126_the_library_reads_back.
Print Assumptions C126_a_crash_costs_one_file.
Print Assumptions C126_the_best_score_is_the_nearest.
Print Assumptions C126_from_drawings_to_recognition.
Print Assumptions C126_old_or_new_refuted.
