(** C81, C82: the names the MSK reader gives; one reader used several times. *)
From Verif Require Import Prelude P_Prelude M_LayoutData M_Converter S_Converter M_Scanf M_Msk S_Msk P_Msk P_MskFile P_MskRead Props_Msk S_MskNames P_MskNames.
Local Open Scope Z_scope.

(** ** C81 *)
(** After a successful Read the last library of the layout is called like the file, in UTF-8; it
    has one element, called like the last component of the file name without its extension. *)
Theorem C81_library_and_element_names : forall pl fs r d text r' d',
  rd_open r = false -> fs (narrow (rd_name r)) = Some text -> encodable (rd_name r) ->
  Read pl fs r (Some d) = Ok (r', Some d', true) ->
  exists libs lib el c b, ld_libraries d' = libs ++ [lib] /\ length libs = length (ld_libraries d) /\
    utf8 (rd_name r) (lib_name lib) /\ lib_elements lib = [el] /\
    last_component (rd_name r) c /\ stem c b /\ utf8 b (e_name el).
Proof.
  intros pl fs r d text r' d' O F He R. rewrite (read_opened pl fs r d text O F) in R.
  destruct (opened_cases pl (rd_name r) text d He) as (ln & en & E1 & E2 & [(u & _ & Eu)|(lib & el & E & Hn & Hel & Hen & _)]).
  { rewrite Eu in R. discriminate R. }
  destruct (Wcs_spec pl _ He) as (ln' & W & U). pose proof (eq_trans (eq_sym E2) W) as Q. injection Q as <-. clear W.
  destruct (GetElemName_spec pl (rd_name r)) as (c & b & LC & ST & G).
  destruct (Wcs_spec pl _ (stem_encodable _ _ _ He LC ST)) as (en' & W & Ub).
  pose proof (eq_trans (eq_sym E1) (eq_trans G W)) as Q. injection Q as <-. clear W G.
  rewrite (read_text pl _ text d en ln lib el E1 E2 E), Hel in R. cbn [app] in R.
  destruct (ld_libraries d) as [|l0 ls].
  - cbn [app] in R. unfold bound_first in R. cbn [at_ nth_error bind lib_elements] in R.
    destruct (bound_element el) as [el'| |] eqn:B; cbn [bind] in R; [|discriminate R|discriminate R]. injection R as <- <-.
    assert (Ne : e_name el' = e_name el).
    { revert B. unfold bound_element. destruct (at_ (e_geometries el) 0) as [[g0|]| |]; cbn [bind]; try discriminate.
      destruct (for_each (tl (e_geometries el)) _ _) as [mm| |]; cbn [bind]; try discriminate. intros [= <-]. reflexivity. }
    exists [], (mklibrary (lib_name lib) [el'] (lib_layers lib) (lib_min lib) (lib_max lib)), el', c, b.
    cbn [ld_libraries upd lib_name lib_elements app length]. rewrite Hn, Ne, Hen. auto 10.
  - cbn [app] in R. unfold bound_first in R. cbn [at_ nth_error bind] in R.
    destruct (at_ (lib_elements l0) 0) as [e0| |]; cbn [bind] in R; [|discriminate R|discriminate R].
    destruct (bound_element e0) as [e1| |]; cbn [bind] in R; [|discriminate R|discriminate R]. injection R as <- <-.
    eexists (_ :: ls), (mklibrary (lib_name lib) [el] (lib_layers lib) (lib_min lib) (lib_max lib)), el, c, b.
    cbn [ld_libraries upd lib_name lib_elements app length]. rewrite Hn, Hen. repeat (split; [reflexivity || assumption|]). assumption.
Qed.

(** Component and stem are determined by the name. *)
Theorem C81_stem_is_unique : forall name c b c' b',
  last_component name c -> stem c b -> last_component name c' -> stem c' b' -> b = b'.
Proof.
  intros name c b c' b' L S L' S'. pose proof (last_component_unique _ _ _ L L'). subst c'. exact (stem_unique _ _ _ S S').
Qed.

(** A name with a character beyond Unicode: Read returns false and leaves the libraries alone. *)
Theorem C81_unencodable_names : forall pl fs r d text c,
  rd_open r = false -> fs (narrow (rd_name r)) = Some text -> In c (rd_name r) -> beyond_unicode c ->
  exists r' d', Read pl fs r (Some d) = Ok (r', Some d', false) /\ ld_libraries d' = ld_libraries d /\ ld_format d' = FFundefined.
Proof.
  intros pl fs r d text c O F Hi Hc. rewrite (read_opened pl fs r d text O F). unfold ReadOpened.
  destruct (GetElemName_spec pl (rd_name r)) as (c' & b & _ & _ & ->). rewrite (Wcs_beyond pl (rd_name r) c Hi Hc).
  destruct (Wcs_no_ub pl b) as [(en & ->)| ->]; cbn [bind]; eexists _, _; (split; [reflexivity|split; reflexivity]).
Qed.

Example C81_hypotheses_met : exists r' d' lib el,
  Read ex_platform (ex_fs ex_file) ex_reader (Some ex_data) = Ok (r', Some d', true) /\ ld_libraries d' = [lib] /\
  lib_name lib = lit "dir/chip.msk" /\ lib_elements lib = [el] /\ e_name el = lit "chip".
Proof. run_example. Qed.

(** Two-byte and three-byte characters; a point in the directory only; no extension. *)
Example C81_names_met :
  (forall pl, GetElemName pl [100; 47; 233; 8364; 46; 109; 115; 107] = Ok [z2b 195; z2b 169; z2b 226; z2b 130; z2b 172]) /\
  (forall pl, GetElemName pl (map b2z (lit "a.b/c")) = Ok (lit "c")) /\
  (forall pl, GetElemName pl (map b2z (lit "x.y.msk")) = Ok (lit "x.y")) /\
  (forall pl, GetElemName pl (map b2z (lit "dir\chip.msk")) = Ok (lit "dir\chip")).
Proof. repeat split; intros; vm_compute; reflexivity. Qed.
Example C81_unencodable_met : exists r' d',
  Read ex_platform (fun _ => Some ex_file) (mkreader [1114112; 46; 109; 115; 107] false false) (Some ex_data) = Ok (r', Some d', false).
Proof. run_example. Qed.

(** ** C82 *)
(** What Read does to a layout does not depend on what the reader has read before, as long as the
    file can be opened. *)
Theorem C82_readers_can_be_used_again : forall pl fs r1 r2 d text,
  rd_name r1 = rd_name r2 -> rd_open r1 = false -> rd_open r2 = false -> fs (narrow (rd_name r1)) = Some text ->
  Read pl fs r1 (Some d) = Read pl fs r2 (Some d).
Proof. intros pl fs r1 r2 d text N O1 O2 F. unfold Read. rewrite O1, O2, <- N, F. reflexivity. Qed.

(** So reading the unchanged file again, into another empty layout, gives the same layout. *)
Theorem C82_reading_twice : forall pl fs name r d r1 d1,
  GetReader fs name = Some r -> Read pl fs r (Some d) = Ok (r1, Some d1, true) ->
  exists r2, Read pl fs r1 (Some d) = Ok (r2, Some d1, true).
Proof.
  intros pl fs name r d r1 d1 G R. apply C62_format_detection in G. destruct G as (-> & _ & text & F & _).
  destruct (C72_failing_reads pl fs (mkreader name false false) d) as (_ & _ & _ & C). destruct (C _ _ R) as (_ & O & N).
  exists r1. rewrite <- R. apply (C82_readers_can_be_used_again pl fs _ _ d text).
  - exact N.
  - exact O.
  - reflexivity.
  - rewrite N. exact F.
Qed.

(** IsMyFormat on an empty file with an MSK name leaves the stream open: IsMyFormat then says
    false whatever the file; Read does not read any file: into a layout without libraries it is
    undefined behaviour. *)
Theorem C82_an_empty_file_blocks_the_reader : forall fs r name,
  rd_open r = false -> msk_name (narrow name) -> fs (narrow name) = Some [] ->
  exists r', IsMyFormat fs r name = (r', false) /\
    (forall fs' name', IsMyFormat fs' r' name' = (r', false)) /\
    (forall pl fs' d, encodable name -> ld_libraries d = [] -> Read pl fs' r' (Some d) = UB OobIndex).
Proof.
  intros fs r name O Hn F. apply regex_spec in Hn. exists (mkreader name true (rd_active r)).
  split; [unfold IsMyFormat; rewrite Hn, O, F; reflexivity|]. split.
  - intros fs' name'. unfold IsMyFormat. destruct (regex_search (narrow name')); reflexivity.
  - intros pl fs' d He D. unfold Read. cbn [rd_open rd_name].
    destruct (opened_cases pl name [] d He) as (ln & en & E1 & E2 & [(u & Eu & _)|(lib & el & E & Hn' & Hel & Hen & _ & _ & _ & HB)]).
    + cbn in Eu. discriminate Eu.
    + cbn [getlines for_each] in E. injection E as <- <-.
      destruct (read_blank pl name [] d ln en _ _ D E1 E2 eq_refl eq_refl HB) as (-> & _); reflexivity.
Qed.

Example C82_hypotheses_met : exists r r1 d1 r2,
  GetReader (ex_fs ex_file) ex_name = Some r /\ Read ex_platform (ex_fs ex_file) r (Some ex_data) = Ok (r1, Some d1, true) /\
  Read ex_platform (ex_fs ex_file) r1 (Some ex_data) = Ok (r2, Some d1, true).
Proof. run_example. Qed.
Example C82_empty_met :
  snd (IsMyFormat (ex_fs []) reader_new ex_name) = false /\
  snd (IsMyFormat (ex_fs ex_file) (fst (IsMyFormat (ex_fs []) reader_new ex_name)) ex_name) = false /\
  snd (IsMyFormat (ex_fs ex_file) reader_new ex_name) = true.
Proof. repeat split; vm_compute; reflexivity. Qed.

Print Assumptions C81_library_and_element_names.
Print Assumptions C81_stem_is_unique.
Print Assumptions C81_unencodable_names.
Print Assumptions C82_readers_can_be_used_again.
Print Assumptions C82_reading_twice.
Print Assumptions C82_an_empty_file_blocks_the_reader.
