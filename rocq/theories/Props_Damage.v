(** C137: a damaged library and a program that searches it.  Specification: S_Damage. *)
From Coq Require Import Reals Lra Lia.
From Verif Require Import Prelude P_Prelude M_Double S_Double P_Double M_LayoutData M_Converter M_Vector2D M_BitMatrix S_Matrix
  P_BitMatrix P_Cells S_Ratio M_Ratio P_Ratio Props_Ratio S_Crc32 S_Flips Props_Flips M_Hash S_Hash P_Hash Props_Hash P_Rank Props_Rank
  M_Zond S_Zond M_Generator S_Generator P_Generator Props_Generator S_EndToEnd P_EndToEnd Props_EndToEnd S_Identify P_Identify
  S_Degrade P_Degrade Props_Degrade S_Exact S_Wobble Props_Wobble Props_Noise S_Library Props_Library S_Damage.
Local Open Scope nat_scope.

(** What is in a file after it was stored. *)
Lemma stored_file al cw acc d m f states : entry al cw acc (f, m) -> FlushFile al cw acc d m f = (states, Ok true) ->
  (exists A h, shows m A /\ nonempty A /\ memory_ok al (arows A) (acols A) /\ EncodeHash al m = Ok h /\ last states d f = Some h /\
     forall d', d' f = Some h -> reads_as al d' f m) /\
  (forall g, g <> f -> last states d g = d g).
Proof.
  intros (Nf & Cw & A & h & S & N & M & Hr & Hc & Sv & E & La) F. cbn [fst snd] in *.
  destruct (C39_file_round_trip al cw acc d m A m f h S N M Hr Hc Sv E Nf Cw La) as (st & n0 & F0 & _ & _ & O).
  rewrite F in F0. injection F0 as <-. split; [|exact O].
  assert (Hl : last states d f = Some h).
  { unfold FlushFile in F. rewrite (proj2 (Nat.eqb_neq _ _)) in F by (destruct f; [congruence|cbn [length]; lia]).
    rewrite Cw, E in F. cbn [negb] in F. rewrite Nat.min_r in F by lia. injection F as <-.
    assert (0 < length h).
    { destruct (C36_round_trip al m A h m S N M Hr Hc Sv E) as ((m' & D & _) & _). destruct h; [discriminate D|cbn [length]; lia]. }
    destruct (length h) as [|k] eqn:K; [lia|]. rewrite seq_S, map_app. cbn [map].
    rewrite app_comm_cons, last_last. unfold disk_put. rewrite streqb_refl. cbn [Nat.add]. rewrite <- K, firstn_all. reflexivity. }
  exists A, h. do 5 (split; [assumption|]). intros d' Hd self.
  destruct (C39_file_round_trip al cw acc d m A self f h S N M Hr Hc Sv E Nf Cw La) as (st & n & F1 & R & Sn & _).
  rewrite F in F1. injection F1 as <-. exists n. split; [|exists A; split; assumption].
  unfold ReadFile in *. rewrite Hl in R. rewrite Hd. exact R.
Qed.

Lemma library_file al cw acc l : forall d states, Forall (entry al cw acc) l -> stores al cw acc d l states ->
  (forall f m, latest l f m -> exists A h, shows m A /\ nonempty A /\ memory_ok al (arows A) (acols A) /\ EncodeHash al m = Ok h /\
     last states d f = Some h /\ forall d', d' f = Some h -> reads_as al d' f m) /\
  (forall g, ~ In g (map fst l) -> last states d g = d g).
Proof.
  intros d states Fl St. revert Fl. induction St as [d|d f m s1 rest more F St IH]; intros Fl.
  - split; [|reflexivity]. intros f m (b & a & E & _). destruct b; discriminate E.
  - inversion Fl as [|? ? En Fl' Eq]; subst. destruct (stored_file _ _ _ _ _ _ _ En F) as (H & O). destruct (IH Fl') as (L & U).
    rewrite last_app_disk. split.
    + intros g x (b & a & E & Na). destruct b as [|e b]; cbn [app] in E.
      * injection E as -> -> ->. destruct H as (A & h & S & N & M & Eh & Hl & R).
        exists A, h. do 4 (split; [assumption|]). split; [|exact R]. rewrite U by exact Na. exact Hl.
      * injection E as E1 E2. apply L. exists b, a. split; assumption.
    + intros g Ng. cbn [map fst In] in Ng. rewrite U by tauto. apply O. intros ->. tauto.
Qed.

Lemma damage_thrown al m A h t : shows m A -> nonempty A -> memory_ok al (arows A) (acols A) -> EncodeHash al m = Ok h ->
  damaged h t -> exists e, DecodeHash X86 al t = Throw e.
Proof.
  intros S N M E D. destruct D as [k K|t B|t B|t L B|k t K L F].
  - eexists. eapply C38_truncation_rejected; eassumption.
  - eexists. apply C38_no_begin. exact B.
  - eexists. apply C38_no_end. exact B.
  - eapply C38_burst_rejected; eassumption.
  - eapply C100_hash_flips_rejected; eassumption.
Qed.

(** Every file of the library that is intact reads as the bitmap stored last; every file that is gone or damaged is refused
    and costs nothing but itself. *)
Theorem C137_damage_is_noticed : forall al can_write accepted l d states d',
  Forall (entry al can_write accepted) l -> stores al can_write accepted d l states ->
  forall f m, latest l f m ->
  (intact (last states d) d' f -> reads_as al d' f m) /\
  (hit (last states d) d' f -> refused al d' f).
Proof.
  intros al cw acc l d states d' Fl St f m L. destruct (library_file _ _ _ _ _ _ Fl St) as (H & _).
  destruct (H f m L) as (A & h & S & N & M & E & Hl & R). split.
  - intros I. apply R. unfold intact in I. congruence.
  - intros [G|(h' & t & Hh & Ht & D)] self.
    + unfold ReadFile. rewrite G. exists (Ok false). split; [destruct (length f =? 0); reflexivity|left; reflexivity].
    + rewrite Hl in Hh. injection Hh as <-. destruct (damage_thrown al m A h t S N M E D) as (e & De).
      unfold ReadFile. rewrite Ht, De. destruct (length f =? 0); eexists; (split; [reflexivity|]); [left; reflexivity|right; eexists; reflexivity].
Qed.

(** The two cases exclude each other. *)
Lemma not_both al d f m : reads_as al d f m -> refused al d f -> False.
Proof.
  intros R F. destruct (R m) as (n & E & _). destruct (F m) as (r & E' & [->|(e & ->)]); rewrite E in E'; discriminate E'.
Qed.

Definition found_so_far (al2 : allocator) (l : list (list byte * bm)) (d d' : disk) (q : bm) (Q : amat) (names : list (list byte))
  (best : option (list byte * double)) : Prop :=
  match best with
  | None => forall f, In f names -> hit d d' f
  | Some (f, s) => In f names /\ intact d d' f /\
      (exists k, Compare al2 q k = Ok s /\ forall m A, latest l f m -> shows m A -> shows k A) /\
      forall m A, latest l f m -> shows m A -> forall g n N, In g names -> intact d d' g -> latest l g n -> shows n N ->
        differences Q A <= differences Q N
  end.

Lemma shown_alike m k A A' : shows m A -> shows m A' -> shows k A -> shows k A'.
Proof.
  intros S S' K. destruct (shows_elim _ _ S) as (_ & a1 & a2 & a3). destruct (shows_elim _ _ S') as (_ & b1 & b2 & b3).
  destruct (shows_elim _ _ K) as (c0 & c1 & c2 & c3). destruct A' as [r c fA]. cbn [arows acols acell] in *. assert (E1 : arows A = r) by congruence. assert (E2 : acols A = c) by congruence. apply shows_intro; [exact c0|rewrite <- E1; exact c1|rewrite <- E2; exact c2|]. intros i j Hi Hj.
  rewrite c3 by congruence. rewrite <- a3, <- b3 by congruence. reflexivity.
Qed.
Lemma shown_alike_differ m Q A A' : shows m A -> shows m A' -> arows Q = arows A -> acols Q = acols A -> differences Q A = differences Q A'.
Proof.
  intros S S' E1 E2. destruct (shows_elim _ _ S) as (_ & a1 & a2 & a3). destruct (shows_elim _ _ S') as (_ & b1 & b2 & b3).
  assert (Z0 : differences A A' = 0).
  { apply differences_zero; try congruence. split; [congruence|]. split; [congruence|]. intros i j Hi Hj. rewrite <- a3, <- b3 by congruence. reflexivity. }
  assert (Z1 : differences A' A = 0) by (rewrite differences_sym by congruence; exact Z0).
  pose proof (differences_triangle Q A A' ltac:(congruence) ltac:(congruence)).
  pose proof (differences_triangle Q A' A ltac:(congruence) ltac:(congruence)). lia.
Qed.
Lemma stored_last (l : list (list byte * bm)) f : In f (map fst l) -> exists m, latest l f m.
Proof.
  induction l as [|(g & x) l IH]; cbn [map fst In]; intros I; [destruct I|].
  destruct (in_dec (list_eq_dec Byte.byte_eq_dec) f (map fst l)) as [J|J].
  - destruct (IH J) as (m & b & a & -> & Na). exists m, ((g, x) :: b), a. split; [reflexivity|exact Na].
  - destruct I as [->|I]; [|contradiction]. exists x, [], l. split; [reflexivity|exact J].
Qed.

Lemma search_finds al al2 l d d' q Q names : shows q Q -> nonempty Q -> ~ out_of_memory al2 (arows Q) (acols Q) ->
  (Z.of_nat (cell_number Q) < 2 ^ 51)%Z ->
  (forall f m, latest l f m -> (intact d d' f -> reads_as al d' f m) /\ (hit d d' f -> refused al d' f)) ->
  (forall f m A, latest l f m -> shows m A -> arows Q = arows A /\ acols Q = acols A) ->
  (forall f, In f names -> In f (map fst l) /\ (intact d d' f \/ hit d d' f)) ->
  forall before object best, found_so_far al2 l d d' q Q before best ->
  (forall f, In f before -> In f (map fst l)) ->
  exists o best', search al al2 d' q object names best = Ok (o, best') /\ found_so_far al2 l d d' q Q (before ++ names) best'.
Proof.
  intros Sq Nq Mq Cq H Sz. induction names as [|f names IH]; intros Hn before object best B Hb.
  - exists object, best. rewrite app_nil_r. split; [reflexivity|exact B].
  - destruct (Hn f ltac:(now left)) as (If & D). destruct (stored_last l f If) as (m & Lm). destruct (H f m Lm) as (HI & HH).
    assert (Hb' : forall g, In g (before ++ [f]) -> In g (map fst l)).
    { intros g G. apply in_app_or in G as [G|[<-|[]]]; [apply Hb, G|exact If]. }
    assert (Hn' : forall g, In g names -> In g (map fst l) /\ (intact d d' g \/ hit d d' g)) by (intros g G; apply Hn; now right).
    cbn [search]. replace (before ++ f :: names) with ((before ++ [f]) ++ names) by (rewrite <- app_assoc; reflexivity).
    destruct D as [D|D].
    + destruct (HI D object) as (k & Ek & A & SA & SkA). rewrite Ek.
      assert (Sk : forall m' A', latest l f m' -> shows m' A' -> shows k A').
      { intros m' A' L' S'. destruct (proj1 (H f m' L') D object) as (k' & Ek' & A2 & S2 & Sk2). rewrite Ek in Ek'. injection Ek' as <-.
        exact (shown_alike m' k A2 A' S2 S' Sk2). }
      destruct (Sz f m A Lm SA) as (Z1 & Z2).
      destruct best as [(b & sb)|].
      * destruct B as (Ib & Db & (kb & Eb & Skb) & Best). destruct (stored_last l b (Hb b Ib)) as (mb & Lb).
        destruct (proj1 (H b mb Lb) Db object) as (_ & _ & Ab & Sb & _). destruct (Sz b mb Ab Lb Sb) as (Y1 & Y2).
        destruct (C107_greater_score_fewer_differences al2 q k kb Q A Ab Sq SkA (Skb mb Ab Lb Sb) Z1 Z2 Y1 Y2 Nq Mq Cq) as (x & y & Ex & Ey & Hgt & _).
        rewrite Eb in Ey. injection Ey as <-. rewrite Ex.
        apply IH; [exact Hn'| |exact Hb'].
        destruct (dgt x sb) eqn:G.
        -- split; [apply in_or_app; right; now left|]. split; [exact D|]. split; [exists k; split; [exact Ex|exact Sk]|].
           intros m' A' L' S' g n N Ig Dg Lg Sn. apply in_app_or in Ig as [Ig|[<-|[]]].
           ++ pose proof (Best mb Ab Lb Sb g n N Ig Dg Lg Sn) as K. pose proof (proj1 Hgt eq_refl) as K2.
              assert (differences Q A' = differences Q A); [|lia].
              symmetry. apply (shown_alike_differ k); [exact SkA|exact (Sk m' A' L' S')|exact Z1|exact Z2].
           ++ assert (differences Q A' = differences Q N); [|lia]. destruct (Sz f m' A' L' S') as (W1 & W2).
              apply (shown_alike_differ k); [exact (Sk m' A' L' S')|exact (Sk n N Lg Sn)|exact W1|exact W2].
        -- split; [apply in_or_app; left; exact Ib|]. split; [exact Db|]. split; [exists kb; split; [exact Eb|exact Skb]|].
           intros m' A' L' S' g n N Ig Dg Lg Sn. apply in_app_or in Ig as [Ig|[<-|[]]].
           ++ exact (Best m' A' L' S' g n N Ig Dg Lg Sn).
           ++ assert (E1 : differences Q A = differences Q N).
              { apply (shown_alike_differ k); [exact SkA|exact (Sk n N Lg Sn)|exact Z1|exact Z2]. }
              assert (E2 : differences Q Ab = differences Q A').
              { apply (shown_alike_differ kb); [exact (Skb mb Ab Lb Sb)|exact (Skb m' A' L' S')|exact Y1|exact Y2]. }
              assert (~ differences Q A < differences Q Ab) by (intros C; apply Hgt in C; congruence). lia.
      * destruct (C107_greater_score_fewer_differences al2 q k k Q A A Sq SkA SkA Z1 Z2 Z1 Z2 Nq Mq Cq) as (x & y & Ex & _ & _). rewrite Ex.
        apply IH; [exact Hn'| |exact Hb'].
        split; [apply in_or_app; right; now left|]. split; [exact D|]. split; [exists k; split; [exact Ex|exact Sk]|].
        intros m' A' L' S' g n N Ig Dg Lg Sn. apply in_app_or in Ig as [Ig|[<-|[]]].
        -- exfalso. destruct (H g n Lg) as (HI2 & HH2). exact (not_both _ _ _ _ (HI2 Dg) (HH2 (B g Ig))).
        -- assert (differences Q A' = differences Q N); [|lia]. destruct (Sz f m' A' L' S') as (W1 & W2).
           apply (shown_alike_differ k); [exact (Sk m' A' L' S')|exact (Sk n N Lg Sn)|exact W1|exact W2].
    + destruct (HH D object) as (r & Er & Hr). rewrite Er.
      assert (B' : found_so_far al2 l d d' q Q (before ++ [f]) best).
      { destruct best as [(b & sb)|].
        - destruct B as (Ib & Db & X & Best). split; [apply in_or_app; left; exact Ib|]. split; [exact Db|]. split; [exact X|].
          intros m' A' L' S' g n N Ig Dg Lg Sn. apply in_app_or in Ig as [Ig|[<-|[]]]; [exact (Best m' A' L' S' g n N Ig Dg Lg Sn)|].
          exfalso. destruct (H f n Lg) as (HI2 & HH2). exact (not_both _ _ _ _ (HI2 Dg) (HH2 D)).
        - intros g G. apply in_app_or in G as [G|[<-|[]]]; [exact (B g G)|exact D]. }
      destruct Hr as [->|(e & ->)]; apply IH; assumption.
Qed.

(** The program never fails.  It finds nothing only if every file is gone or damaged; otherwise it finds an intact file, no other
    intact file differs from the query in fewer cells, and the score is 1 exactly if the cells are the same. *)
Theorem C137_the_search : forall al al2 can_write accepted l d states d' q Q names object,
  Forall (entry al can_write accepted) l -> stores al can_write accepted d l states ->
  shows q Q -> nonempty Q -> ~ out_of_memory al2 (arows Q) (acols Q) -> (Z.of_nat (cell_number Q) < 2 ^ 51)%Z ->
  (forall f m A, latest l f m -> shows m A -> arows Q = arows A /\ acols Q = acols A) ->
  (forall f, In f names -> In f (map fst l) /\ (intact (last states d) d' f \/ hit (last states d) d' f)) ->
  exists o best, search al al2 d' q object names None = Ok (o, best) /\
  match best with
  | None => forall f, In f names -> hit (last states d) d' f
  | Some (f, s) => In f names /\ intact (last states d) d' f /\
      forall m A, latest l f m -> shows m A ->
        (deq s (dz 1) = true <-> asame Q A) /\
        forall g n N, In g names -> intact (last states d) d' g -> latest l g n -> shows n N -> differences Q A <= differences Q N
  end.
Proof.
  intros al al2 cw acc l d states d' q Q names object Fl St Sq Nq Mq Cq Sz Hn.
  destruct (search_finds al al2 l (last states d) d' q Q names Sq Nq Mq Cq) with (before := @nil (list byte)) (object := object) (best := @None (list byte * double))
    as (o & best & E & B); try assumption.
  - intros f m L. exact (C137_damage_is_noticed al cw acc l d states d' Fl St f m L).
  - intros f [].
  - intros f [].
  - exists o, best. split; [exact E|]. cbn [app] in B. destruct best as [(f & s)|]; [|exact B].
    destruct B as (I & D & (k & Ek & Sk) & Best). split; [exact I|]. split; [exact D|]. intros m A L S. split.
    + destruct (Sz f m A L S) as (Z1 & Z2).
      destruct (C107_one_means_identical al2 q k Q A Sq (Sk m A L S) Z1 Z2 Nq Mq Cq) as (x & Ex & X). rewrite Ek in Ex. injection Ex as <-. exact X.
    + intros g n N. apply (Best m A L S).
Qed.

(** An intact file that is nearer to the query than all other intact files is found, whatever happened to the rest. *)
Theorem C137_the_nearest_is_found : forall al al2 can_write accepted l d states d' q Q names object f m A,
  Forall (entry al can_write accepted) l -> stores al can_write accepted d l states ->
  shows q Q -> nonempty Q -> ~ out_of_memory al2 (arows Q) (acols Q) -> (Z.of_nat (cell_number Q) < 2 ^ 51)%Z ->
  (forall f m A, latest l f m -> shows m A -> arows Q = arows A /\ acols Q = acols A) ->
  (forall f, In f names -> In f (map fst l) /\ (intact (last states d) d' f \/ hit (last states d) d' f)) ->
  In f names -> intact (last states d) d' f -> latest l f m -> shows m A ->
  (forall g n N, In g names -> g <> f -> intact (last states d) d' g -> latest l g n -> shows n N -> differences Q A < differences Q N) ->
  exists o s, search al al2 d' q object names None = Ok (o, Some (f, s)).
Proof.
  intros al al2 cw acc l d states d' q Q names object f m A Fl St Sq Nq Mq Cq Sz Hn If Df Lf Sf Near.
  destruct (C137_the_search al al2 cw acc l d states d' q Q names object Fl St Sq Nq Mq Cq Sz Hn) as (o & best & E & B).
  destruct best as [(g & s)|].
  - destruct B as (Ig & Dg & X). destruct (list_eq_dec Byte.byte_eq_dec g f) as [->|Ne]; [exists o, s; exact E|]. exfalso.
    destruct (Hn g Ig) as (Il & _). destruct (stored_last l g Il) as (n & Lg).
    destruct (proj1 (C137_damage_is_noticed al cw acc l d states d' Fl St g n Lg) Dg object) as (_ & _ & N & SN & _).
    destruct (X n N Lg SN) as (_ & Best). pose proof (Best f m A If Df Lf Sf). pose proof (Near g n N Ig Ne Dg Lg SN). lia.
  - exfalso. destruct (C137_damage_is_noticed al cw acc l d states d' Fl St f m Lf) as (R & F).
    exact (not_both _ _ _ _ (R Df) (F (B f If))).
Qed.

(** The reference of a drawing is found among the files of a damaged library, if it is intact itself: a second drawing of the
    same layout with errors up to d cells (drawn_alike, as in C129 and C132), and all other references that are intact differ
    from the reference in more than 2 T cells. *)
Theorem C137_a_drawing_is_recognised :
  forall d M M' calls calls' g g' heap heap' libs libs' L L' mn mx mn' mx' v v' al al' al2 stack stack' r c items items' pairs,
  history M gen_new calls = Some g -> history M' gen_new calls' = Some g' ->
  in_force calls (Live (mklayout heap libs) L mn mx) -> in_force calls' (Live (mklayout heap' libs') L' mn' mx') ->
  candidates L libs items -> candidates L' libs' items' -> memory_ok al r c -> memory_ok al' r c -> memory_ok al2 r c -> fine_box mn mx r c -> fine_box mn' mx' r c ->
  (Z.of_nat r * Z.of_nat c < 2 ^ 51)%Z ->
  (forall item, In (Some item) items -> overlaps (box_workspace mn mx) item -> collectable heap stack item) ->
  (forall item, In (Some item) items' -> overlaps (box_workspace mn' mx') item -> collectable heap' stack' item) ->
  drawable heap mn mx r c items -> drawable heap' mn' mx' r c items' ->
  (0 <= d)%R -> drawn_alike d heap heap' mn mx mn' mx' r c items items' pairs ->
  exists m m', result (Process (Some v) al stack g r c) = (m, Ok true) /\ result (Process (Some v') al' stack' g' r c) = (m', Ok true) /\
    forall al3 can_write accepted l dsk states dsk' names object f,
    Forall (entry al3 can_write accepted) l -> stores al3 can_write accepted dsk l states -> latest l f m ->
    (forall f' n N, latest l f' n -> shows n N -> arows N = r /\ acols N = c) ->
    (forall f', In f' names -> In f' (map fst l) /\ (intact (last states dsk) dsk' f' \/ hit (last states dsk) dsk' f')) ->
    In f names -> intact (last states dsk) dsk' f ->
    (forall f' n A N, In f' names -> f' <> f -> intact (last states dsk) dsk' f' -> latest l f' n -> shows m A -> shows n N ->
       (2 * total (map (fun p => seam d mn mx r c (fst p)) pairs) < INR (differences A N))%R) ->
    exists o s, search al3 al2 dsk' m' object names None = Ok (o, Some (f, s)).
Proof.
  intros d M M' calls calls' g g' heap heap' libs libs' L L' mn mx mn' mx' v v' al al' al2 stack stack' r c items items' pairs
    H H' F F' Hi Hi' Hm Hm' Hm2 FB FB' Sz HC HC' HD HD' D P.
  destruct (noise d M M' calls calls' g g' heap heap' libs libs' L L' mn mx mn' mx' v v' al al' stack stack' r c items items' pairs
    H H' F F' Hi Hi' Hm Hm' FB FB' HC HC' HD HD' D P) as (m & m' & B & E & E' & SB & Br & Bc & (A & SA) & W).
  exists m, m'. split; [exact E|]. split; [exact E'|]. intros al3 cw acc l dsk states dsk' names object f Fl St Lf Sizes Hn If Df Far.
  destruct (W A SA) as (Ar & Ac & Q). pose proof FB as (_ & _ & _ & _ & Hr & Hc).
  apply (C137_the_nearest_is_found al3 al2 cw acc l dsk states dsk' m' B names object f m A); try assumption.
  - split; lia.
  - rewrite Br, Bc. now apply plenty.
  - unfold cell_number. rewrite Br, Bc. lia.
  - intros f' n N L1 S1. destruct (Sizes f' n N L1 S1). split; congruence.
  - intros f' n N I1 N1 D1 L1 S1. destruct (Sizes f' n N L1 S1) as (Nr & Nc). pose proof (Far f' n A N I1 N1 D1 L1 SA S1) as G.
    pose proof (differences_triangle A B N ltac:(congruence) ltac:(congruence)) as T. rewrite (differences_sym A B) in T by congruence.
    apply le_INR in T. rewrite plus_INR in T. apply INR_lt. lra.
Qed.

(** Example data: two references; the first file has lost all but ten characters, the second is intact. *)
Definition ex_two : list (list byte * bm) := [(lit "a", ex_ref x20); (lit "b", ex_ref xc0)].
Definition ex_cut (d : disk) : disk := fun f => if streqb f (lit "a") then option_map (firstn 10) (d f) else d f.
Lemma ex_two_entries : Forall (entry infinite_memory (fun _ => true) 1000) ex_two.
Proof. repeat apply Forall_cons; try apply Forall_nil; apply ex_entry; try discriminate; auto. Qed.
Lemma ex_two_latest f m : latest ex_two f m -> f = lit "a" /\ m = ex_ref x20 \/ f = lit "b" /\ m = ex_ref xc0.
Proof.
  intros (b & a & E & _). unfold ex_two in E. destruct b as [|e [|e' b]]; cbn [app] in E.
  - injection E as <- <- _. left. split; reflexivity.
  - injection E as _ <- <- _. right. split; reflexivity.
  - destruct b; discriminate E.
Qed.
Lemma ex_two_hit d states : stores infinite_memory (fun _ => true) 1000 d ex_two states ->
  hit (last states d) (ex_cut (last states d)) (lit "a") /\ intact (last states d) (ex_cut (last states d)) (lit "b").
Proof.
  intros St. split; [|reflexivity]. right.
  destruct (library_file _ _ _ _ _ _ ex_two_entries St) as (H & _).
  destruct (H (lit "a") (ex_ref x20)) as (A & h & _ & _ & _ & E & Hl & _).
  { exists [], [(lit "b", ex_ref xc0)]. split; [reflexivity|intros [Q|[]]; discriminate Q]. }
  exists h, (firstn 10 h). split; [exact Hl|]. split; [unfold ex_cut; rewrite streqb_refl, Hl; reflexivity|].
  apply cut_off. vm_compute in E. injection E as <-. cbn [length]. lia.
Qed.
Lemma ex_two_sizes b B f m A : b = xc0 \/ b = x20 -> shows (ex_ref b) B -> latest ex_two f m -> shows m A -> arows B = arows A /\ acols B = acols A.
Proof.
  intros K SB L S. destruct (shows_elim _ _ SB) as (_ & b1 & b2 & _). destruct (shows_elim _ _ S) as (_ & a1 & a2 & _).
  destruct (ex_two_latest f m L) as [(_ & ->)|(_ & ->)]; cbn in *; split; congruence.
Qed.

(** A search in a damaged library does not find the right reference or nothing: it finds the best of what is left. *)
Theorem C137_right_or_nothing_refuted :
  ~ (forall al al2 can_write accepted l d states d' q names object f m o best,
       Forall (entry al can_write accepted) l -> stores al can_write accepted d l states -> latest l f m -> same_matrix q m ->
       (forall f, In f names -> In f (map fst l) /\ (intact (last states d) d' f \/ hit (last states d) d' f)) -> In f names ->
       search al al2 d' q object names None = Ok (o, best) -> best = None \/ exists s, best = Some (f, s)).
Proof.
  intros H.
  destruct (C126_the_library_reads_back infinite_memory (fun _ => true) 1000 ex_two (fun _ => None) ex_two_entries) as (states & St & _).
  destruct (ex_two_hit _ _ St) as (Ha & Ib). set (dl := last states (fun _ => None)) in *.
  pose proof (ex_shown x20 (or_intror eq_refl)) as SQ.
  assert (Hn : forall f, In f [lit "a"; lit "b"] -> In f (map fst ex_two) /\ (intact dl (ex_cut dl) f \/ hit dl (ex_cut dl) f)).
  { intros f [<-|[<-|[]]]; (split; [cbn; tauto|]); [right; exact Ha|left; exact Ib]. }
  destruct (C137_the_search infinite_memory infinite_memory (fun _ => true) 1000 ex_two (fun _ => None) states (ex_cut dl) (ex_ref x20) _ [lit "a"; lit "b"] bm_empty
    ex_two_entries St SQ) as (o & best & E & B).
  - split; cbn; lia.
  - intros [O|(i & _ & O)]; discriminate O.
  - cbn. lia.
  - intros f m A L S. exact (ex_two_sizes x20 _ f m A (or_intror eq_refl) SQ L S).
  - exact Hn.
  - destruct (H infinite_memory infinite_memory (fun _ => true) 1000 ex_two (fun _ => None) states (ex_cut dl) (ex_ref x20) [lit "a"; lit "b"] bm_empty (lit "a") (ex_ref x20) o best
      ex_two_entries St) as [-> | (s & ->)]; try assumption.
    + exists [], [(lit "b", ex_ref xc0)]. split; [reflexivity|intros [Q|[]]; discriminate Q].
    + eexists. split; exact SQ.
    + now left.
    + assert (Lb : latest ex_two (lit "b") (ex_ref xc0)) by (exists [(lit "a", ex_ref x20)], []; split; [reflexivity|intros []]).
      destruct (C137_damage_is_noticed infinite_memory (fun _ => true) 1000 ex_two (fun _ => None) states (ex_cut dl) ex_two_entries St _ _ Lb) as (R & F).
      exact (not_both _ _ _ _ (R Ib) (F (B (lit "b") ltac:(cbn; tauto)))).
    + destruct B as (_ & Da & _).
      assert (La : latest ex_two (lit "a") (ex_ref x20)) by (exists [], [(lit "b", ex_ref xc0)]; split; [reflexivity|intros [Q|[]]; discriminate Q]).
      destruct (C137_damage_is_noticed infinite_memory (fun _ => true) 1000 ex_two (fun _ => None) states (ex_cut dl) ex_two_entries St _ _ La) as (R & F).
      exact (not_both _ _ _ _ (R Da) (F Ha)).
Qed.

(** The hypotheses hold for the example, the query being the first reference, whose file is damaged: the second is found. *)
Example C137_hypotheses_met :
  exists states, stores infinite_memory (fun _ => true) 1000 (fun _ => None) ex_two states /\
    let dl := last states (fun _ => None) in
    Forall (entry infinite_memory (fun _ => true) 1000) ex_two /\
    (forall f, In f [lit "a"; lit "b"] -> In f (map fst ex_two) /\ (intact dl (ex_cut dl) f \/ hit dl (ex_cut dl) f)) /\
    hit dl (ex_cut dl) (lit "a") /\
    exists Q, shows (ex_ref x20) Q /\ nonempty Q /\ ~ out_of_memory infinite_memory (arows Q) (acols Q) /\ (Z.of_nat (cell_number Q) < 2 ^ 51)%Z /\
      (forall f m A, latest ex_two f m -> shows m A -> arows Q = arows A /\ acols Q = acols A) /\
      exists o s, search infinite_memory infinite_memory (ex_cut dl) (ex_ref x20) bm_empty [lit "a"; lit "b"] None = Ok (o, Some (lit "b", s)).
Proof.
  destruct (C126_the_library_reads_back infinite_memory (fun _ => true) 1000 ex_two (fun _ => None) ex_two_entries) as (states & St & _).
  destruct (ex_two_hit _ _ St) as (Ha & Ib). exists states. split; [exact St|]. cbv zeta. set (dl := last states (fun _ => None)) in *.
  pose proof (ex_shown x20 (or_intror eq_refl)) as SQ.
  assert (Hn : forall f, In f [lit "a"; lit "b"] -> In f (map fst ex_two) /\ (intact dl (ex_cut dl) f \/ hit dl (ex_cut dl) f)).
  { intros f [<-|[<-|[]]]; (split; [cbn; tauto|]); [right; exact Ha|left; exact Ib]. }
  split; [exact ex_two_entries|]. split; [exact Hn|]. split; [exact Ha|]. eexists. split; [exact SQ|].
  split; [split; cbn; lia|]. split; [intros [O|(i & _ & O)]; discriminate O|]. split; [cbn; lia|].
  split; [intros f m A L S; exact (ex_two_sizes x20 _ f m A (or_intror eq_refl) SQ L S)|].
  assert (Lb : latest ex_two (lit "b") (ex_ref xc0)) by (exists [(lit "a", ex_ref x20)], []; split; [reflexivity|intros []]).
  eapply (C137_the_nearest_is_found infinite_memory infinite_memory (fun _ => true) 1000 ex_two (fun _ => None) states (ex_cut dl) (ex_ref x20) _ _ bm_empty
    (lit "b") (ex_ref xc0) _ ex_two_entries St SQ); try exact Lb; try exact (ex_shown xc0 (or_introl eq_refl)); try exact Hn; try exact Ib.
  - split; cbn; lia.
  - intros [O|(i & _ & O)]; discriminate O.
  - cbn. lia.
  - intros f m A L S. exact (ex_two_sizes x20 _ f m A (or_intror eq_refl) SQ L S).
  - cbn. tauto.
  - intros g n N [<-|[<-|[]]] Ng Dg Lg Sn; [|contradiction]. exfalso.
    destruct (C137_damage_is_noticed infinite_memory (fun _ => true) 1000 ex_two (fun _ => None) states (ex_cut dl) ex_two_entries St _ _ Lg) as (R & F).
    exact (not_both _ _ _ _ (R Dg) (F Ha)).
Qed.

Print Assumptions C137_damage_is_noticed.
Print Assumptions C137_the_search.
Print Assumptions C137_the_nearest_is_found.
Print Assumptions C137_a_drawing_is_recognised.
Print Assumptions C137_right_or_nothing_refuted.
