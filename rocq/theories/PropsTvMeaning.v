(** * Property C08: document-level elements of the tag-value reader. *)
From Verif Require Import GoStr Types TvReader TvUtil TvParser SpecTv SpecId SpecDoc SpecRead TvParserFacts
  DenoteBase DenoteGlobal.

(** C08, full content: for every list of pairs the parser accepts, the relationships,
    annotations, other licenses, reviews, creators, external document references
    and document fields are those the declarative reading of [SpecRead] gives, in
    input order and with their sub-fields. *)
Theorem C08_document_level : forall v l d, parse_tag_values v l = Ok (Some d) -> globals_den v l d.
Proof. exact parse_globals. Qed.
Print Assumptions C08_document_level.

(** C08 as counts. *)
Theorem C08_counts : forall v l d, parse_tag_values v l = Ok (Some d) ->
  length (d_Relationships d) = length (values "Relationship" l) /\
  length (d_Annotations d) = length (values "Annotator" l) /\
  length (d_OtherLicenses d) = length (values "LicenseID" l) /\
  length (d_Reviews d) = length (values "Reviewer" l) /\
  length (d_ExternalDocumentReferences d) = length (values "ExternalDocumentRef" l) /\
  (forall ci, d_CreationInfo d = Some ci -> length (ci_Creators ci) = length (values "Creator" l)).
Proof. exact parse_counts. Qed.
Print Assumptions C08_counts.

(** C08 as order: what is listed can be read off the tag's values one by one. *)
Theorem C08_order : forall v l d, parse_tag_values v l = Ok (Some d) ->
  Forall2 (relationship_text v) (values "Relationship" l) (d_Relationships d) /\
  Forall2 (fun x a => actor_text actor3 x (an_AnnotatorType (a_Annotator a)) (an_Annotator (a_Annotator a)))
          (values "Annotator" l) (d_Annotations d) /\
  map ol_LicenseIdentifier (d_OtherLicenses d) = values "LicenseID" l /\
  Forall2 (fun x r => actor_text actor3 x (rv_ReviewerType r) (rv_Reviewer r))
          (values "Reviewer" l) (d_Reviews d) /\
  Forall2 edr_text (values "ExternalDocumentRef" l) (d_ExternalDocumentReferences d).
Proof. exact parse_order. Qed.
Print Assumptions C08_order.

Definition C08_pairs : pairs :=
  [("SPDXVersion", "SPDX-2.3"); ("Creator", "Tool: t"); ("Creator", "Person: p");
   ("PackageName", "p"); ("SPDXID", "SPDXRef-p"); ("Relationship", "SPDXRef-DOCUMENT DESCRIBES SPDXRef-p");
   ("RelationshipComment", "rc"); ("LicenseID", "LicenseRef-1"); ("ExtractedText", "t");
   ("LicenseCrossReference", "a"); ("LicenseCrossReference", "b"); ("Annotator", "Person: a");
   ("AnnotationDate", "d"); ("SPDXREF", "SPDXRef-p"); ("Relationship", "SPDXRef-p CONTAINS NONE");
   ("Reviewer", "Person: r"); ("ReviewComment", "c")].
Example C08_witness : exists d, parse_tag_values V23 C08_pairs = Ok (Some d) /\
  length (d_Relationships d) = 2 /\ map r_Comment (d_Relationships d) = ["rc"; ""] /\
  map ol_CrossReferences (d_OtherLicenses d) = [["a"; "b"]].
Proof. eexists. split; [vm_compute; reflexivity|]. repeat split. Qed.
