(** * Property C56: which documents can be saved, and from which sources. *)
From Coq Require Import Permutation.
From Verif Require Import GoStr GoStrFacts Sorting Types TvUtil TvReader TvParser TvParserFacts RdfConst Rdf RdfReader SpecTv SpecId SpecDoc SpecRdf SpecRdfDoc SpecRdfLoad
  SpecRdfContent SpecRdfSave RdfFacts RdfNodeFacts RdfLoadFacts RdfContentFacts
  RdfWholeFacts RdfRead RdfReadFacts PropsRdf PropsRdfLoad PropsRdfContent PropsRdfRead Json JsonSpdx JsonText SpecJsonWrite JsonWriteOk JsonWriteCalm
  SpecFormats Formats FormatsFacts RdfSaveFacts.

(** Any document: as JSON exactly if every reference refers to something, and
    every creator, annotator, supplier and originator has a name (suppliers and
    originators also a kind, unless they are NOASSERTION); otherwise an error. *)
Theorem C56_json : forall v h ind d, (exists s, json_write v h ind d = Ok s) <-> document_writable d.
Proof.
  intros v h ind d. rewrite <- (takes_document v h). unfold json_write. split.
  - intros (s & E). apply bind_ok in E as (j & E & _). eauto.
  - intros (j & ->). cbn [bindR]. eauto.
Qed.
Print Assumptions C56_json.
Theorem C56_json_no_panic : forall v h ind d, json_write v h ind d <> Panic.
Proof. exact json_write_no_panic. Qed.
Print Assumptions C56_json_no_panic.
(** ... as tag-value text exactly if it has creation information and no nil pointer. *)
Theorem C56_tag : forall so v d, (exists t d', tagvalue_write so v d = Ok (t, d')) <-> d_CreationInfo d <> None /\ ~ document_nil d.
Proof.
  intros so v d. split.
  - intros (t & d' & E). assert (C : d_CreationInfo d <> None). { intros N. unfold tagvalue_write in E. rewrite N in E. discriminate. }
    split; [exact C|]. intros N. rewrite (proj2 (tagvalue_write_nil so v d) (conj C N)) in E. discriminate.
  - intros (C & N). apply no_nil_jdoc in N as (e & ->). rewrite tagvalue_write_jdoc. cbn [jdoc d_CreationInfo] in C.
    unfold TvWriter.render_document, TvWriter.render_document_chunks. destruct (d_CreationInfo e); [|congruence]. cbn [bindR]. eauto.
Qed.
Print Assumptions C56_tag.

(** A document read from RDF can always be saved as tag-value text. *)
Theorem C56_rdf_tag : forall so g iter v d, consistent g -> shuffle iter -> rdf_read g iter = Ok (v, d) ->
  exists t d', tagvalue_write so v (jdoc d) = Ok (t, d').
Proof.
  intros so g iter v d CN SH R. apply rdf_read_load in R as (L & _). apply C56_tag. split.
  - destruct (sf_document _ _ _ (load_stands v g iter d CN SH L)) as (n & _ & DS). destruct (ds_creation _ _ _ _ DS) as (c & E & _).
    cbn [jdoc d_CreationInfo]. rewrite E. discriminate.
  - apply no_nil_jdoc. eauto.
Qed.
Print Assumptions C56_rdf_tag.
(** ... and as JSON exactly if the graph names every creator, annotator, supplier
    and originator, and gives every relationship another end. *)
Theorem C56_rdf_json : forall h ind g iter v d, consistent g -> shuffle iter -> rdf_read g iter = Ok (v, d) ->
  (exists s, json_write v h ind (jdoc d) = Ok s) <-> json_ready g.
Proof.
  intros h ind g iter v d CN SH R. apply rdf_read_load in R as (L & _). rewrite C56_json.
  exact (writable_iff v g d (one_document g v iter d CN L) (load_stands v g iter d CN SH L)).
Qed.
Print Assumptions C56_rdf_json.

(** A document read from tag-value text can be saved as JSON exactly if all names
    are given. *)
Theorem C56_text_json : forall h ind text v d, read_into text = Ok (v, Some d) ->
  (exists s, json_write v h ind (jdoc d) = Ok s) <-> names_given d.
Proof. intros h ind text v d R. rewrite C56_json. exact (well_formed_writable v d (read_well_formed text v d R)). Qed.
Print Assumptions C56_text_json.

(** ** Witnesses *)
Example C56_rdf_witness : consistent rich_22 /\ shuffle (fun m => m) /\ json_ready rich_22 /\
  exists d, rdf_read rich_22 (fun m => m) = Ok (V22, d) /\ d_Relationships d <> [] /\ d_Annotations d <> [].
Proof.
  split; [exact rich_22_consistent|]. split; [intros m; reflexivity|].
  assert (R : exists d, rdf_read rich_22 (fun m => m) = Ok (V22, d) /\ d_Relationships d <> [] /\ d_Annotations d <> [] /\
    exists s, json_write V22 true "" (jdoc d) = Ok s).
  { eexists. split; [vm_compute; reflexivity|]. repeat split; [discriminate|discriminate|]. eexists. vm_compute. reflexivity. }
  destruct R as (d & R & A & B & W). split; [|eauto].
  exact (proj1 (C56_rdf_json true "" rich_22 (fun m => m) V22 d rich_22_consistent (fun m => Permutation_refl m) R) W).
Qed.

Definition C56_text (creator : string) : string := String.concat LF
  ["SPDXVersion: SPDX-2.2"; "SPDXID: SPDXRef-DOCUMENT"; "Creator: " ++ creator; "PackageName: p"; "SPDXID: SPDXRef-p";
   "PackageSupplier: NOASSERTION"; "Relationship: SPDXRef-DOCUMENT DESCRIBES SPDXRef-p"; "Annotator: Person: Ann"; ""].
Example C56_text_witness : exists d, read_into (C56_text "Tool: x") = Ok (V22, Some d) /\ names_given d /\ d_Packages d <> [] /\ d_Annotations d <> [].
Proof.
  assert (R : exists d, read_into (C56_text "Tool: x") = Ok (V22, Some d) /\ d_Packages d <> [] /\ d_Annotations d <> [] /\
    exists s, json_write V22 true "" (jdoc d) = Ok s).
  { eexists. split; [vm_compute; reflexivity|]. repeat split; [discriminate|discriminate|]. eexists. vm_compute. reflexivity. }
  destruct R as (d & R & A & B & W). exists d. split; [exact R|]. split; [|auto]. exact (proj1 (C56_text_json _ _ _ _ _ R) W).
Qed.
(** What can be read from tag-value text need not be fit for JSON: here the
    creator has no name. *)
Theorem C56_text_json_refuted : ~ forall text v d, read_into text = Ok (v, Some d) -> exists s, json_write v true "" (jdoc d) = Ok s.
Proof.
  intros H. assert (E : exists d, read_into (C56_text "Person:") = Ok (V22, Some d) /\ exists e, json_write V22 true "" (jdoc d) = Err e).
  { eexists. split; [vm_compute; reflexivity|]. eexists. vm_compute. reflexivity. }
  destruct E as (d & R & E). destruct (H _ _ _ R) as (s & W). destruct E as (e & E); rewrite E in W; discriminate.
Qed.
Print Assumptions C56_text_json_refuted.

(** Nor what can be read from RDF: here an annotation has no annotator. *)
Definition bare_22 : graph := MkGraph
  [st (ref "DOCUMENT") rdf_type (term "SpdxDocument"); st (ref "DOCUMENT") (spdx "specVersion") (lit "SPDX-2.2");
   st (ref "DOCUMENT") (spdx "annotation") (iri "a"); st (iri "a") rdf_type (term "Annotation"); st (iri "a") (rdfs "comment") (lit "no annotator")]
  [ref "DOCUMENT"] (fun _ => true).
Lemma bare_22_reached r n : ~ reached bare_22 r n.
Proof.
  intros H. induction H; try assumption.
  1-3: destruct H as ([<-|[]] & _); vm_compute in H0; contradiction.
  all: destruct H as (root & t & [<-|[]] & E & N & <-); vm_compute in E; injection E as <-; discriminate N.
Qed.
Lemma bare_22_consistent : consistent bare_22.
Proof.
  split.
  - intros (r & n & r' & n' & A & _). now apply bare_22_reached in A.
  - intros n m id A. now apply bare_22_reached in A.
  - intros n m id A. now apply bare_22_reached in A.
  - intros n m A. now apply bare_22_reached in A.
  - intros n m ([<-|[]] & _) ([<-|[]] & _). reflexivity.
Qed.
Theorem C56_rdf_json_refuted : ~ forall g iter v d, consistent g -> shuffle iter -> rdf_read g iter = Ok (v, d) ->
  exists s, json_write v true "" (jdoc d) = Ok s.
Proof.
  intros H. assert (E : exists d, rdf_read bare_22 (fun m => m) = Ok (V22, d) /\ exists e, json_write V22 true "" (jdoc d) = Err e).
  { eexists. split; [vm_compute; reflexivity|]. eexists. vm_compute. reflexivity. }
  destruct E as (d & R & E). destruct (H _ _ _ _ bare_22_consistent (fun m => Permutation_refl m) R) as (s & W). destruct E as (e & E); rewrite E in W; discriminate.
Qed.
Print Assumptions C56_rdf_json_refuted.

(** A relationship whose other end is NONE comes out as one with an element that
    is called NONE and is not there. *)
Definition none_22 : graph := MkGraph
  [st (ref "DOCUMENT") rdf_type (term "SpdxDocument"); st (ref "DOCUMENT") (spdx "specVersion") (lit "SPDX-2.2");
   st (ref "DOCUMENT") (spdx "relationship") (iri "r"); st (iri "r") rdf_type (term "Relationship");
   st (iri "r") (spdx "relationshipType") (term "relationshipType_describes"); st (iri "r") (spdx "relatedSpdxElement") (term "NONE")]
  [ref "DOCUMENT"] (fun _ => true).
Theorem C56_none_refuted : exists d t d' s, rdf_read none_22 (fun m => m) = Ok (V22, d) /\ map r_RefB (d_Relationships d) = [MkDEID "" "NONE" ""] /\
  tagvalue_write insertion_sorter V22 (jdoc d) = Ok (t, d') /\ occurs "Relationship: SPDXRef-DOCUMENT describes SPDXRef-NONE" t /\
  json_write V22 true "" (jdoc d) = Ok s /\ occurs "SPDXRef-NONE" s.
Proof.
  eexists _, _, _, _. split; [vm_compute; reflexivity|]. split; [reflexivity|]. split; [vm_compute; reflexivity|].
  split; [apply TvReaderFacts.occurs_contains; vm_compute; reflexivity|]. split; [vm_compute; reflexivity|]. apply TvReaderFacts.occurs_contains; vm_compute; reflexivity.
Qed.
Print Assumptions C56_none_refuted.
