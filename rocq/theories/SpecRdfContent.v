(** * Specification of the RDF reader: the document that a graph stands for. *)
From Verif Require Import GoStr Types TvUtil RdfConst Rdf SpecTv SpecId SpecDoc SpecRdf SpecRdfDoc SpecRdfLoad.

(** ** The document node *)
Definition document_predicates : list string :=
  [rdf_type; spdx "specVersion"; spdx "dataLicense"; spdx "name"; spdx "externalDocumentRef"; spdx "creationInfo";
   rdfs "comment"; spdx "reviewed"; spdx "describesPackage"; spdx "hasExtractedLicensingInfo"; spdx "relationship";
   spdx "annotation"].
(** everything but packages, files, relationships and annotations *)
Record document_says {PK FI} (g : graph) (n : node) (ts : list triple) (d : DocumentOf PK FI OtherLicense Relationship Annotation) : Prop := {
  ds_only : only document_predicates ts;
  ds_names : kind_name "#" (n_id n) (d_DocumentNamespace d) (d_SPDXIdentifier d);
  ds_version : d_SPDXVersion d = last_text (spdx "specVersion") ts;
  ds_license : last_read (license_text g []) "" (objects (spdx "dataLicense") ts) (d_DataLicense d);
  ds_name : d_DocumentName d = last_text (spdx "name") ts;
  ds_comment : d_DocumentComment d = last_text (rdfs "comment") ts;
  ds_external : Forall2 (fun o e => external_document_says g (of_node g o) e) (objects (spdx "externalDocumentRef") ts)
                  (d_ExternalDocumentReferences d);
  ds_creation : exists c, d_CreationInfo d = Some c /\
                  creation_info_says (flat_map (of_node g) (objects (spdx "creationInfo") ts)) c;
  ds_reviews : Forall2 (fun o r => review_says (of_node g o) r) (objects (spdx "reviewed") ts) (d_Reviews d);
  ds_licenses : Forall2 (fun o l => other_license_says g (about g (n_id o)) l)
                  (objects (spdx "hasExtractedLicensingInfo") ts) (d_OtherLicenses d);
  ds_snippets : d_Snippets d = []
}.

(** ** Snippets *)
(** the file a snippet is from; the v2.3 reader takes "" for a name it cannot read *)
Definition from_term (v : version) (o : node) (x : string) : Prop :=
  exists f, last_piece (n_id o) f /\
    ((exists d, plain_ref d /\ ref_text d f /\ x = de_ElementRefID d) \/
     (v = V23 /\ x = "" /\ ~ exists d, plain_ref d /\ ref_text d f)).
Inductive position := Offset (z : Z) | Line (z : Z).
Definition position_term (t : triple) (p : position) : Prop :=
  (t_pred t = ptr_term "offset" /\ exists z, atoi (n_id (t_obj t)) = Ok z /\ p = Offset z) \/
  (t_pred t = ptr_term "lineNumber" /\ exists z, atoi (n_id (t_obj t)) = Ok z /\ p = Line z).
Definition positions : list triple -> list triple :=
  filter (fun t => String.eqb (t_pred t) (ptr_term "offset") || String.eqb (t_pred t) (ptr_term "lineNumber")).
(** the last offset or line of a pointer counts *)
Definition pointer_says (ts : list triple) (p : position) : Prop :=
  only [rdf_type; ptr_term "reference"; ptr_term "offset"; ptr_term "lineNumber"] ts /\
  exists l t, positions ts = (l ++ [t])%list /\ Forall (fun u => exists q, position_term u q) (positions ts) /\ position_term t p.
Definition range_says (g : graph) (ts : list triple) (file : string) (r : SnippetRange) : Prop :=
  List.length ts = 3 /\ List.length (objects rdf_type ts) = 1 /\
  exists a b, objects (ptr_term "startPointer") ts = [a] /\ objects (ptr_term "endPointer") ts = [b] /\
    ((exists x y, pointer_says (of_node g a) (Offset x) /\ pointer_says (of_node g b) (Offset y) /\
        r = MkRange (MkRP x 0 file) (MkRP y 0 file)) \/
     (exists x y, pointer_says (of_node g a) (Line x) /\ pointer_says (of_node g b) (Line y) /\
        r = MkRange (MkRP 0 x file) (MkRP 0 y file))).
Definition snippet_predicates : list string :=
  [rdf_type; spdx "snippetFromFile"; spdx "range"; spdx "licenseInfoInSnippet"; spdx "name"; spdx "copyrightText";
   spdx "licenseComments"; rdfs "comment"; spdx "licenseConcluded"].
(** the last range counts; it carries the file named before it *)
Definition ranges_say (v : version) (g : graph) (ts : list triple) (l : list SnippetRange) : Prop :=
  (objects (spdx "range") ts = [] /\ l = []) \/
  exists before t after file r, ts = (before ++ t :: after)%list /\ t_pred t = spdx "range" /\ objects (spdx "range") after = [] /\
    last_read (from_term v) "" (objects (spdx "snippetFromFile") before) file /\ range_says g (of_node g (t_obj t)) file r /\ l = [r].
Record snippet_says (v : version) (g : graph) (n : node) (ts : list triple) (s : Snippet) : Prop := {
  sn_only : only snippet_predicates ts;
  sn_id : element_term (n_id n) (s_SPDXIdentifier s);
  sn_from : last_read (from_term v) "" (objects (spdx "snippetFromFile") ts) (s_FromFile s);
  sn_ranges : ranges_say v g ts (s_Ranges s);
  sn_concluded : last_read (license_text g []) "" (objects (spdx "licenseConcluded") ts) (s_LicenseConcluded s);
  sn_licenses : Forall2 (license_text g []) (objects (spdx "licenseInfoInSnippet") ts) (s_LicenseInfoInSnippet s);
  sn_license_comments : s_LicenseComments s = last_text (spdx "licenseComments") ts;
  sn_copyright : s_CopyrightText s = last_text (spdx "copyrightText") ts;
  sn_comment : s_Comment s = last_text (rdfs "comment") ts;
  sn_name : s_Name s = last_text (spdx "name") ts;
  sn_attribution : s_AttributionTexts s = []
}.
(** the snippet nodes, in the order of the root nodes *)
Definition snippet_of (g : graph) (root : node) : list node :=
  match filter (fun u => String.eqb (t_pred u) rdf_type) (about g (n_id root)) with
  | [t] => if String.eqb (n_id (t_obj t)) (spdx "Snippet") then [t_subj t] else []
  | _ => []
  end.
(** the last snippet of a file with a name *)
Definition named_snippet (file id : string) (l : list Snippet) : option Snippet :=
  find (fun s => String.eqb (s_FromFile s) file && String.eqb (s_SPDXIdentifier s) id) (rev l).

(** ** The whole document *)
Definition all_files (d : Document) : list File := (d_Files d ++ flat_map p_Files (d_Packages d))%list.
(** a node that is met several times is read several times: its lists repeat *)
Definition file_entry (v : version) (g : graph) (n : node) (f : File) : Prop :=
  reached g RFile n /\ exists k, file_says v g n (again (S k) (of_node g n)) f.
Definition package_entry (v : version) (g : graph) (n : node) (p : Package) : Prop :=
  reached g RPackage n /\ exists k, package_says v g (file_entry v g) n (again (S k) (of_node g n)) p.
Record stands_for (v : version) (g : graph) (d : Document) : Prop := {
  sf_document : exists n, document_node g n /\ document_says g n (of_node g n) d;
  sf_files : Forall (fun f => exists n, file_entry v g n f) (all_files d);
  sf_all_files : forall n, reached g RFile n -> Exists (file_entry v g n) (all_files d);
  sf_packages : Forall (fun p => exists n, package_entry v g n p) (d_Packages d);
  sf_all_packages : forall n, reached g RPackage n -> Exists (package_entry v g n) (d_Packages d);
  sf_relationships : exists ts,
    Forall2 (fun t r => statement g (spdx "relationship") t /\ relationship_says g t (of_node g (t_obj t)) r) ts (d_Relationships d) /\
    forall n, reached g RRelationship n -> Exists (fun t => t_obj t = n) ts;
  sf_annotations : exists ts,
    Forall2 (fun t a => statement g (spdx "annotation") t /\ annotation_says (of_node g (t_obj t)) a) ts (d_Annotations d) /\
    forall t, statement g (spdx "annotation") t -> In t ts;
  sf_snippets : exists l,
    Forall2 (fun n s => snippet_says v g n (of_node g n) s) (flat_map (snippet_of g) (g_roots g)) l /\
    (forall s, In s l -> Exists (fun f => f_SPDXIdentifier f = s_FromFile s) (all_files d)) /\
    forall f id, In f (all_files d) -> lookup id (f_Snippets f) = named_snippet (f_SPDXIdentifier f) id l
}.
