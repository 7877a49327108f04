(** C127: GDSII files that end early. *)
From Verif Require Import Prelude P_Prelude M_LayoutData M_Msk M_GdsiiHelpers S_Gdsii M_Gdsii S_GdsiiFile S_GdsiiCut P_GdsiiCut Props_Gdsii.
Local Open Scope Z_scope.

(** The first k bytes of a well-formed file, whatever k: the reader has undefined behaviour only if the text stops
    inside the data of one of seven kinds of records; otherwise it shows the structures that are there completely. *)
Theorem C127_cut_files : forall fs r name ff b k, gr_data r = true -> library_ok b -> (k <= length (library_bytes b))%nat ->
  fs (narrow (gr_name r)) = Some (firstn k (library_bytes b)) ->
  exists w, stops (firstn k (library_bytes b)) w /\
    ((exists ty, w = Some ty /\ In ty needed /\ gRead fs r (Some (mkgdata name [] ff)) = UB Indeterminate) \/
     (exists ty, w = Some ty /\ In ty four_byte /\ gRead fs r (Some (mkgdata name [] ff)) = UB SignedOverflow) \/
     ((forall ty, w = Some ty -> ~ In ty needed) /\ exists libs ok,
        gRead fs r (Some (mkgdata name [] ff)) = Ok (r, Some (mkgdata (gr_name r) libs FFgdsii_bin), ok) /\ left_over b k libs ok)).
Proof. exact cut_files. Qed.
Print Assumptions C127_cut_files.

(** The place where a text stops is determined by the text. *)
Theorem C127_where_it_stops_is_determined : forall t w w', stops t w -> stops t w' -> w = w'.
Proof. exact stops_unique. Qed.
Print Assumptions C127_where_it_stops_is_determined.

(** A file that ends between two records, or inside the first four bytes of one, is read without undefined behaviour. *)
Corollary C127_between_records : forall fs r name ff b k, gr_data r = true -> library_ok b -> (k <= length (library_bytes b))%nat ->
  fs (narrow (gr_name r)) = Some (firstn k (library_bytes b)) -> stops (firstn k (library_bytes b)) None ->
  exists libs ok, gRead fs r (Some (mkgdata name [] ff)) = Ok (r, Some (mkgdata (gr_name r) libs FFgdsii_bin), ok) /\ left_over b k libs ok.
Proof.
  intros fs r name ff b k D H L F S. destruct (cut_files fs r name ff b k D H L F) as (w & S' & C). rewrite (stops_unique _ _ _ S' S) in C.
  destruct C as [(ty & Q & _)|[(ty & Q & _)|(_ & C)]]; [discriminate Q|discriminate Q|exact C].
Qed.
Print Assumptions C127_between_records.

(** The ENDLIB record is not needed: with and without it, or with a part of it, Read gives the same. *)
Theorem C127_the_end_is_not_needed : forall fs fs' r name ff b k, gr_data r = true -> library_ok b -> (length (open_library b) <= k)%nat ->
  fs (narrow (gr_name r)) = Some (firstn k (library_bytes b)) -> fs' (narrow (gr_name r)) = Some (library_bytes b) ->
  gRead fs r (Some (mkgdata name [] ff)) = gRead fs' r (Some (mkgdata name [] ff)).
Proof. exact without_the_end. Qed.
Print Assumptions C127_the_end_is_not_needed.

(** A boundary with a corner whose first coordinate is -2^31 + 1. *)
Definition ex_far : library := mklibrary 600 (repeat x00 24) [x4c] [] ex_milli ex_nano
  [mkstructure (repeat x00 24) [x41] [mkelement None None (Boundary 3 7 [mkcoord (- 2 ^ 31 + 1) 5]) None]].

Example C127_hypotheses_met : library_ok ex_library /\ length (library_bytes ex_library) = 506%nat /\
  (* nothing; a part of the name; no structure; one; all three *)
  ex_view (gRead (ex_gfs (firstn 9 (library_bytes ex_library))) ex_greader (Some ex_empty)) = Some (true, []) /\
  ex_view (gRead (ex_gfs (firstn 40 (library_bytes ex_library))) ex_greader (Some ex_empty)) = Some (true, [([x4c; x49], [])]) /\
  ex_view (gRead (ex_gfs (firstn 150 (library_bytes ex_library))) ex_greader (Some ex_empty)) = Some (true, [([x4c; x49; x42], [])]) /\
  ex_view (gRead (ex_gfs (firstn 350 (library_bytes ex_library))) ex_greader (Some ex_empty)) = Some (true, [([x4c; x49; x42], [([x41], 3%nat, false)])]) /\
  ex_view (gRead (ex_gfs (firstn 503 (library_bytes ex_library))) ex_greader (Some ex_empty)) =
    Some (true, [([x4c; x49; x42], [([x41], 3%nat, true); ([x42], 1%nat, false); ([x54; x4f; x50], 2%nat, false)])]) /\
  (* inside the dates *)
  gRead (ex_gfs (firstn 33 (library_bytes ex_library))) ex_greader (Some ex_empty) = UB Indeterminate.
Proof.
  split; [exact (proj1 (proj2 C74_hypotheses_met))|]. repeat (split; [vm_compute; reflexivity|]). vm_compute. reflexivity.
Qed.

(** One byte of a coordinate that is there completely in the file is -2^31. *)
Example C127_overflow_occurs : library_ok ex_far /\
  ex_view (gRead (ex_gfs (library_bytes ex_far)) ex_greader (Some ex_empty)) = Some (true, [([x4c], [([x41], 1%nat, false)])]) /\
  gRead (ex_gfs (firstn (length (library_bytes ex_far) - 19) (library_bytes ex_far))) ex_greader (Some ex_empty) = UB SignedOverflow.
Proof. split; [unfold ex_far; well_formed|]. split; vm_compute; reflexivity. Qed.

Lemma view_one x n l : ex_view x = Some (true, [(n, l)]) -> exists r d g, x = Ok (r, Some d, true) /\ gd_libraries d = [g] /\ length (b_elements g) = length l.
Proof.
  destruct x as [[[r [d|]] ok]|?|?]; try discriminate. cbn [ex_view]. intros V. injection V as -> V. exists r, d.
  destruct (gd_libraries d) as [|g [|? ?]]; try discriminate V. cbn [map] in V. injection V as _ V. exists g. rewrite <- V, map_length. auto.
Qed.
Lemma reader_kept fs r d r' d' ok : gr_data r = true -> gRead fs r (Some d) = Ok (r', d', ok) -> r' = r.
Proof.
  destruct r as [nm dd]. cbn. intros ->. unfold gRead. cbn [gr_data negb gr_name]. destruct (fs _); [|intros Q; injection Q as <- _ _; reflexivity].
  destruct (read_loop _ _); cbn [bind]; try discriminate. destruct (PostProcessLayout _). intros Q. injection Q as <- _ _. reflexivity.
Qed.

(** It would be natural to expect that Read reports a file that lacks structures; it does not. *)
Theorem C127_truncation_noticed_refuted : ~ (forall fs r name ff b k d, gr_data r = true -> library_ok b -> resolvable (lb_structures b) ->
  fs (narrow (gr_name r)) = Some (firstn k (library_bytes b)) ->
  gRead fs r (Some (mkgdata name [] ff)) = Ok (r, Some d, true) ->
  forall g, gd_libraries d = [g] -> length (b_elements g) = length (lb_structures b)).
Proof.
  intros C. destruct C76_hypotheses_met as (H1 & H2 & _).
  destruct (view_one _ _ _ (proj1 (proj2 (proj2 (proj2 (proj2 (proj2 C127_hypotheses_met))))))) as (r & d & g & E & Eg & L).
  pose proof (reader_kept _ ex_greader _ _ _ _ eq_refl E) as ->.
  pose proof (C (ex_gfs (firstn 350 (library_bytes ex_library))) ex_greader [] FFundefined ex_library 350%nat d eq_refl H1 H2 eq_refl E g Eg) as L'.
  rewrite L in L'. clear - L'. discriminate L'.
Qed.
Print Assumptions C127_truncation_noticed_refuted.
