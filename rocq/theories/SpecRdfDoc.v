(** * Specification of the RDF reader: what the nodes of a document say.
    Each node is described by its statements [ts]: which predicates they may use
    and which value each field of the resulting structure then has.  A
    single-valued field has the value of the last statement. *)
From Verif Require Import GoStr Types TvUtil RdfConst Rdf SpecTv SpecId SpecDoc SpecRdf.

(** All the values can be read, and [y] is what the last one means; [d] without any. *)
Definition last_read {A B} (R : A -> B -> Prop) (d : B) (l : list A) (y : B) : Prop :=
  Forall (fun x => exists z, R x z) l /\
  ((l = [] /\ y = d) \/ exists l' x, l = (l' ++ [x])%list /\ R x y).

(** "Kind: name" of a person, an organization or a tool *)
Definition actor3_term (x k v : string) : Prop := kind_name ":" x k v /\ In k actor3.

(** ** Nodes without elements inside *)
Record checksum_says (ts : list triple) (c : Checksum) : Prop := {
  cs_only : only [rdf_type; spdx "checksumValue"; spdx "algorithm"] ts;
  cs_value : ck_Value c = trim_space (last_text (spdx "checksumValue") ts);
  cs_algorithm : last_read algorithm_term "" (texts (spdx "algorithm") ts) (ck_Algorithm c)
}.
(** of a file or package: the algorithm is one of the version *)
Definition checksum_node (v : version) (g : graph) (n : node) (c : Checksum) : Prop :=
  checksum_says (of_node g n) c /\ In (ck_Algorithm c) (algorithms v).

Record annotation_says (ts : list triple) (a : Annotation) : Prop := {
  as_only : only [spdx "annotator"; spdx "annotationDate"; rdfs "comment"; spdx "annotationType"; rdf_type] ts;
  as_annotator : last_read (fun x y => actor3_term x (an_AnnotatorType y) (an_Annotator y)) (MkAnnotator "" "")
                   (texts (spdx "annotator") ts) (a_Annotator a);
  as_date : a_Date a = last_text (spdx "annotationDate") ts;
  as_comment : a_Comment a = last_text (rdfs "comment") ts;
  as_type : last_read annotation_type_term "" (texts (spdx "annotationType") ts) (a_Type a);
  as_element : a_SPDXIdentifier a = MkDEID "" "" ""
}.

Record creation_info_says (ts : list triple) (c : CreationInfo) : Prop := {
  ci_only : only [spdx "licenseListVersion"; spdx "creator"; spdx "created"; rdfs "comment"; rdf_type] ts;
  ci_version : ci_LicenseListVersion c = last_text (spdx "licenseListVersion") ts;
  ci_creators : Forall2 (fun x y => actor3_term x (cr_CreatorType y) (cr_Creator y)) (texts (spdx "creator") ts) (ci_Creators c);
  ci_created : ci_Created c = last_text (spdx "created") ts;
  ci_comment : ci_CreatorComment c = last_text (rdfs "comment") ts
}.

Record review_says (ts : list triple) (r : Review) : Prop := {
  rs_only : only [rdf_type; rdfs "comment"; spdx "reviewDate"; spdx "reviewer"] ts;
  rs_comment : rv_Comment r = last_text (rdfs "comment") ts;
  rs_date : rv_Date r = last_text (spdx "reviewDate") ts;
  rs_reviewer : last_read (fun x y => kind_name ":" x (fst y) (snd y)) ("", "") (texts (spdx "reviewer") ts)
                  (rv_ReviewerType r, rv_Reviewer r)
}.

Record artifact_says (n : node) (ts : list triple) (a : Artifact) : Prop := {
  ars_only : only [rdf_type; doap "homepage"; doap "name"] ts;
  ars_name : ar_Name a = last_text (doap "name") ts;
  ars_home : ar_HomePage a = last_text (doap "homepage") ts;
  ars_uri : ar_URI a = match n_type n with NIri => n_id n | NOther _ => "" end
}.

Record external_ref_says (ts : list triple) (e : ExternalRef) : Prop := {
  ers_only : only [spdx "referenceCategory"; rdf_type; spdx "referenceType"; spdx "referenceLocator"; rdfs "comment"] ts;
  ers_category : last_read category_term "" (texts (spdx "referenceCategory") ts) (er_Category e);
  ers_type : er_RefType e = last_text (spdx "referenceType") ts;
  ers_locator : er_Locator e = last_text (spdx "referenceLocator") ts;
  ers_comment : er_Comment e = last_text (rdfs "comment") ts
}.

Record verification_says (ts : list triple) (c : VerificationCode) : Prop := {
  vs_only : only [spdx "packageVerificationCodeValue"; spdx "packageVerificationCodeExcludedFile"; rdf_type] ts;
  vs_value : vc_Value c = last_text (spdx "packageVerificationCodeValue") ts;
  vs_excluded : vc_ExcludedFiles c = texts (spdx "packageVerificationCodeExcludedFile") ts
}.

Record external_document_says (g : graph) (ts : list triple) (e : ExternalDocumentRef) : Prop := {
  eds_only : only [spdx "externalDocumentId"; spdx "spdxDocument"; spdx "checksum"; rdf_type] ts;
  eds_id : edr_DocumentRefID e = last_text (spdx "externalDocumentId") ts;
  eds_uri : edr_URI e = last_text (spdx "spdxDocument") ts;
  eds_checksum : last_read (fun o c => checksum_says (of_node g o) c) (MkChecksum "" "")
                   (objects (spdx "checksum") ts) (edr_Checksum e)
}.

Record other_license_says (g : graph) (ts : list triple) (l : OtherLicense) : Prop := {
  ols_only : only (spdx "extractedText" :: simple_predicates) ts;
  ols_uris : valid_see_also g ts;
  ols_id : ol_LicenseIdentifier l = last_text (spdx "licenseId") ts;
  ols_text : ol_ExtractedText l = last_text (spdx "extractedText") ts;
  ols_name : ol_LicenseName l = last_text (spdx "name") ts;
  ols_refs : ol_CrossReferences l = texts (rdfs "seeAlso") ts;
  ols_comment : ol_Comment l = last_text (rdfs "comment") ts
}.

(** ** Elements *)
Definition notice_term (x y : string) : Prop :=
  (In x [spdx "NOASSERTION"; spdx "noassertion"] /\ y = "NOASSERTION") \/
  (~ In x [spdx "NOASSERTION"; spdx "noassertion"] /\ y = x).
(** the identifier of a file node, of a package node *)
Definition file_id (n : node) (id : string) : Prop := element_term (trim_space (n_id n)) id.
Definition package_id (n : node) (id : string) : Prop := element_term (n_id n) id.

Definition file_predicates : list string :=
  [spdx "fileName"; spdx "name"; rdf_type; spdx "fileType"; spdx "checksum"; spdx "licenseConcluded";
   spdx "licenseInfoInFile"; spdx "licenseComments"; spdx "copyrightText"; spdx "licenseInfoFromFiles";
   spdx "artifactOf"; rdfs "comment"; spdx "noticeText"; spdx "fileContributor"; spdx "fileDependency";
   spdx "attributionText"; spdx "annotation"; spdx "relationship"].
Record file_says {SN} (v : version) (g : graph) (n : node) (ts : list triple) (f : FileOf SN Artifact) : Prop := {
  fs_only : only file_predicates ts;
  fs_id : file_id n (f_SPDXIdentifier f);
  fs_name : f_FileName f = last_text (spdx "fileName") ts;
  fs_types : Forall2 file_type_term (texts (spdx "fileType") ts) (f_FileTypes f);
  fs_checksums : Forall2 (checksum_node v g) (objects (spdx "checksum") ts) (f_Checksums f);
  fs_concluded : last_read (license_text g []) "" (objects (spdx "licenseConcluded") ts) (f_LicenseConcluded f);
  fs_licenses : Forall2 (license_text g []) (objects (spdx "licenseInfoInFile") ts) (f_LicenseInfoInFiles f);
  fs_license_comments : f_LicenseComments f = last_text (spdx "licenseComments") ts;
  fs_copyright : f_CopyrightText f = last_text (spdx "copyrightText") ts;
  fs_artifacts : Forall2 (fun o a => artifact_says o (of_node g o) a) (objects (spdx "artifactOf") ts) (f_Artifacts f);
  fs_comment : f_Comment f = last_text (rdfs "comment") ts;
  fs_notice : last_read notice_term "" (texts (spdx "noticeText") ts) (f_Notice f);
  fs_contributors : f_Contributors f = texts (spdx "fileContributor") ts;
  fs_attribution : f_AttributionTexts f = texts (spdx "attributionText") ts;
  fs_dependencies : Forall2 file_id (objects (spdx "fileDependency") ts) (f_Dependencies f);
  fs_annotations : f_Annotations f = []
}.

Definition package_predicates (v : version) : list string :=
  ([rdf_type; spdx "name"; spdx "versionInfo"; spdx "packageFileName"; spdx "supplier"; spdx "originator";
    spdx "downloadLocation"; spdx "filesAnalyzed"; spdx "packageVerificationCode"; spdx "checksum"; doap "homepage";
    spdx "sourceInfo"; spdx "licenseConcluded"; spdx "licenseInfoFromFiles"; spdx "licenseDeclared";
    spdx "licenseComments"; spdx "copyrightText"; spdx "summary"; spdx "description"; rdfs "comment";
    spdx "externalRef"; spdx "hasFile"; spdx "relationship"; spdx "attributionText"; spdx "annotation"] ++
   match v with
   | V23 => [spdx "primaryPackagePurpose"; spdx "releaseDate"; spdx "builtDate"; spdx "validUntilDate"]
   | _ => []
   end)%list.
Definition supplier_term (x : string) (y : option Supplier) : Prop :=
  exists s, y = Some s /\ package_actor_term x (su_SupplierType s) (su_Supplier s).
Definition originator_term (x : string) (y : option Originator) : Prop :=
  exists s, y = Some s /\ package_actor_term x (or_OriginatorType s) (or_Originator s).
(** the codes of all the nodes, taken together *)
Definition verification_of (g : graph) (os : list node) (c : option VerificationCode) : Prop :=
  (os = [] /\ c = None) \/ (os <> [] /\ exists x, c = Some x /\ verification_says (flat_map (of_node g) os) x).
(** [F o x]: the entry [x] of the file list stands for the file node [o] *)
Record package_says {FI} (v : version) (g : graph) (F : node -> FI -> Prop) (n : node) (ts : list triple) (p : PackageOf FI ExternalRef) : Prop := {
  ps_only : only (package_predicates v) ts;
  ps_id : package_id n (p_SPDXIdentifier p);
  ps_name : p_PackageName p = last_text (spdx "name") ts;
  ps_version : p_Version p = last_text (spdx "versionInfo") ts;
  ps_file_name : p_FileName p = last_text (spdx "packageFileName") ts;
  ps_supplier : last_read supplier_term None (texts (spdx "supplier") ts) (p_Supplier p);
  ps_originator : last_read originator_term None (texts (spdx "originator") ts) (p_Originator p);
  ps_location : last_read (location_term g) "" (texts (spdx "downloadLocation") ts) (p_DownloadLocation p);
  ps_analyzed : last_read bool_term false (texts (spdx "filesAnalyzed") ts) (p_FilesAnalyzed p);
  ps_analyzed_tag : p_IsFilesAnalyzedTagPresent p = true <-> texts (spdx "filesAnalyzed") ts <> [];
  ps_verification : verification_of g (objects (spdx "packageVerificationCode") ts) (p_VerificationCode p);
  ps_checksums : Forall2 (checksum_node v g) (objects (spdx "checksum") ts) (p_Checksums p);
  ps_home_valid : Forall (fun x => g_valid_uri g x = true) (texts (doap "homepage") ts);
  ps_home : p_HomePage p = last_text (doap "homepage") ts;
  ps_source : p_SourceInfo p = last_text (spdx "sourceInfo") ts;
  ps_concluded : last_read (license_text g []) "" (objects (spdx "licenseConcluded") ts) (p_LicenseConcluded p);
  ps_from_files : Forall2 license_name (texts (spdx "licenseInfoFromFiles") ts) (p_LicenseInfoFromFiles p);
  ps_declared : last_read (license_text g []) "" (objects (spdx "licenseDeclared") ts) (p_LicenseDeclared p);
  ps_license_comments : p_LicenseComments p = last_text (spdx "licenseComments") ts;
  ps_copyright : p_CopyrightText p = last_text (spdx "copyrightText") ts;
  ps_summary : p_Summary p = last_text (spdx "summary") ts;
  ps_description : p_Description p = last_text (spdx "description") ts;
  ps_comment : p_Comment p = last_text (rdfs "comment") ts;
  ps_refs : Forall2 (fun o e => external_ref_says (of_node g o) e) (objects (spdx "externalRef") ts) (p_ExternalReferences p);
  ps_attribution : p_AttributionTexts p = texts (spdx "attributionText") ts;
  ps_purpose : last_read purpose_term "" (texts (spdx "primaryPackagePurpose") ts) (p_PrimaryPackagePurpose p);
  ps_release : p_ReleaseDate p = last_text (spdx "releaseDate") ts;
  ps_built : p_BuiltDate p = last_text (spdx "builtDate") ts;
  ps_valid_until : p_ValidUntilDate p = last_text (spdx "validUntilDate") ts;
  ps_files : Forall2 F (objects (spdx "hasFile") ts) (p_Files p);
  ps_annotations : p_Annotations p = [];
  ps_unpackaged : p_IsUnpackaged p = false
}.

(** the other end of a relationship: a file, a package, an element by its name only *)
Definition typed_node (g : graph) (n : node) (ty : string) : Prop := texts rdf_type (of_node g n) = [spdx ty].
Definition related_term (g : graph) (o : node) (d : DocElementID) : Prop :=
  exists d0, reference_term (n_id o) d0 /\
    ((of_node g o = [] /\ d = d0) \/
     (typed_node g o "File" /\ exists id, file_id o id /\ d = MkDEID "" id "") \/
     (typed_node g o "Package" /\ exists id, package_id o id /\ d = MkDEID "" id "") \/
     (typed_node g o "SpdxElement" /\ exists f, last_piece (n_id o) f /\ plain_ref d /\ ref_text d f)).
Record relationship_says (g : graph) (t : triple) (ts : list triple) (r : Relationship) : Prop := {
  rls_only : only [spdx "relationshipType"; rdf_type; spdx "relatedSpdxElement"; rdfs "comment"] ts;
  rls_a : reference_term (n_id (t_subj t)) (r_RefA r);
  rls_type : last_read relationship_term "" (texts (spdx "relationshipType") ts) (r_Relationship r);
  rls_b : last_read (related_term g) (MkDEID "" "" "") (objects (spdx "relatedSpdxElement") ts) (r_RefB r);
  rls_comment : r_Comment r = last_text (rdfs "comment") ts
}.
