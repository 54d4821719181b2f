(** * Properties of the RDF reader: nodes without elements inside (C33).
    Each theorem characterises a reading function completely: it returns a value
    exactly when the statements of the node are readable and mean that value. *)
From Verif Require Import GoStr Types TvUtil RdfConst Rdf RdfReader SpecTv SpecId SpecDoc SpecRdf SpecRdfDoc
  RdfFacts RdfLicenseFacts RdfHelperFacts RdfNodeFacts PropsRdf.

Theorem C33_checksum : forall v g n c, element_checksum v g n = Ok c <-> checksum_node v g n c.
Proof. exact checksum_node_spec. Qed.
Print Assumptions C33_checksum.
Theorem C33_annotation : forall g n a, annotation_from_node g n = Ok a <-> annotation_says (of_node g n) a.
Proof. exact annotation_node_spec. Qed.
Print Assumptions C33_annotation.
Theorem C33_creation_info : forall g n c,
  for_each creation_info_step (triples_of g n) zero_CreationInfo = Ok c <-> creation_info_says (of_node g n) c.
Proof. intros g n c. rewrite triples_of_node. apply creation_info_spec. Qed.
Print Assumptions C33_creation_info.
Theorem C33_review : forall g n r, review_from_node g n = Ok r <-> review_says (of_node g n) r.
Proof. exact review_node_spec. Qed.
Print Assumptions C33_review.
Theorem C33_artifact : forall g n a, artifact_from_node g n = Ok a <-> artifact_says n (of_node g n) a.
Proof. exact artifact_spec. Qed.
Print Assumptions C33_artifact.
Theorem C33_external_ref : forall g n e, external_ref_from_node g n = Ok e <-> external_ref_says (of_node g n) e.
Proof. exact external_ref_node_spec. Qed.
Print Assumptions C33_external_ref.
Theorem C33_verification_code : forall g n c,
  verification_from_node g n None = Ok c <-> verification_says (of_node g n) c.
Proof. exact verification_spec. Qed.
Print Assumptions C33_verification_code.
(** A second code of the same package adds its statements to those of the first. *)
Theorem C33_verification_again : forall g n m c c', verification_says (of_node g n) c ->
  verification_from_node g m (Some c) = Ok c' -> verification_says (of_node g n ++ of_node g m) c'.
Proof. intros g n m c c'. apply verification_more. Qed.
Print Assumptions C33_verification_again.
Theorem C33_external_document : forall g n e,
  external_document_from_node g n = Ok e <-> external_document_says g (of_node g n) e.
Proof. exact external_document_node_spec. Qed.
Print Assumptions C33_external_document.
Theorem C33_other_license : forall g n l,
  (exists s x, extracted_from_node g n = Ok (s, x) /\ other_license s x = l) <-> other_license_says g (about g (n_id n)) l.
Proof. exact other_license_spec. Qed.
Print Assumptions C33_other_license.

(** A graph with a node of each kind *)
Definition n_graph : graph := MkGraph
  [st (iri "ck") rdf_type (term "Checksum"); st (iri "ck") (spdx "checksumValue") (lit " ab12 ");
   st (iri "ck") (spdx "algorithm") (term "checksumAlgorithm_sha256");
   st (iri "an") (spdx "annotator") (lit "Person: A: B"); st (iri "an") (spdx "annotationDate") (lit "2020");
   st (iri "an") (spdx "annotationType") (term "annotationType_review"); st (iri "an") (rdfs "comment") (lit "hm");
   st (iri "ci") (spdx "creator") (lit "Tool: t"); st (iri "ci") (spdx "created") (lit "2021");
   st (iri "ci") (spdx "creator") (lit "Organization: o");
   st (iri "rv") (spdx "reviewer") (lit "Person: P"); st (iri "rv") (spdx "reviewDate") (lit "2022");
   st (iri "ar") (doap "name") (lit "proj"); st (iri "ar") (doap "homepage") (lit "h");
   st (iri "er") (spdx "referenceCategory") (term "referenceCategory_packageManager");
   st (iri "er") (spdx "referenceType") (lit "purl"); st (iri "er") (spdx "referenceLocator") (lit "pkg:x");
   st (iri "vc") (spdx "packageVerificationCodeValue") (lit "c0de");
   st (iri "vc") (spdx "packageVerificationCodeExcludedFile") (lit "a"); st (iri "vc") (spdx "packageVerificationCodeExcludedFile") (lit "b");
   st (iri "ed") (spdx "externalDocumentId") (lit "DocumentRef-1"); st (iri "ed") (spdx "spdxDocument") (lit "http://d");
   st (iri "ed") (spdx "checksum") (iri "ck");
   st (iri "ol") (spdx "licenseId") (lit "LicenseRef-1"); st (iri "ol") (spdx "extractedText") (lit "text");
   st (iri "bad") (spdx "algorithm") (term "sha256")]
  [] (fun _ => true).
Example C33_witness :
  checksum_node V23 n_graph (iri "ck") (MkChecksum "SHA256" "ab12") /\
  annotation_says (of_node n_graph (iri "an"))
    (MkAnn (MkAnnotator "A: B" "Person") "2020" "REVIEW" (MkDEID "" "" "") "hm") /\
  creation_info_says (of_node n_graph (iri "ci")) (MkCI "" [MkCreator "t" "Tool"; MkCreator "o" "Organization"] "2021" "") /\
  external_ref_says (of_node n_graph (iri "er")) (MkER "PACKAGE-MANAGER" "purl" "pkg:x" "") /\
  verification_says (of_node n_graph (iri "vc")) (MkVC "c0de" ["a"; "b"]) /\
  external_document_says n_graph (of_node n_graph (iri "ed")) (MkEDR "DocumentRef-1" "http://d" (MkChecksum "SHA256" "ab12")) /\
  other_license_says n_graph (about n_graph (n_id (iri "ol"))) (MkOL "LicenseRef-1" "text" "" [] "") /\
  (forall c, ~ checksum_node V23 n_graph (iri "bad") c).
Proof.
  split; [apply C33_checksum; reflexivity|]. split; [apply C33_annotation; reflexivity|].
  split; [apply C33_creation_info; reflexivity|]. split; [apply C33_external_ref; reflexivity|].
  split; [apply C33_verification_code; reflexivity|]. split; [apply C33_external_document; reflexivity|].
  split; [apply C33_other_license; eexists _, _; split; reflexivity|].
  intros c H. apply C33_checksum in H. vm_compute in H. discriminate H.
Qed.
