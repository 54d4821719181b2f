(** * Specification for the tag-value writer: documents up to order, documents
    that can be represented in tag-value form, and what the printed text means. *)
From Verif Require Import GoStr Types TvUtil TvParser Sorting SpecTv SpecId SpecDoc.

(** ** Documents up to the order of lists and maps *)

(** The snippets of a file form a map: the order of its entries is immaterial. *)
Definition file_same (f g : File) : Prop :=
  exists sn, Permutation (f_Snippets f) sn /\ g = set_f_Snippets sn f.
Definition files_same (l m : list File) : Prop :=
  exists k, Permutation l k /\ Forall2 file_same k m.
Definition package_same (p q : Package) : Prop :=
  exists fs, files_same (p_Files p) fs /\ q = set_p_Files fs p.
Definition packages_same (l m : list Package) : Prop :=
  exists k, Permutation l k /\ Forall2 package_same k m.
Definition document_same (d e : Document) : Prop :=
  exists refs files pkgs,
    Permutation (d_ExternalDocumentReferences d) refs /\
    files_same (d_Files d) files /\ packages_same (d_Packages d) pkgs /\
    e = set_d_ExternalDocumentReferences refs (set_d_Files files (set_d_Packages pkgs d)).

(** ** Representable documents *)

(** Values printed on one line (possibly empty), and values printed in a text
    block if they contain a newline. *)
Definition line_ok (x : string) : Prop := good_line_value x.
Definition text_ok (x : string) : Prop := good_text_value x.
(** A value that must not be empty. *)
Definition name_ok (x : string) : Prop := x <> "" /\ line_ok x.
(** A word that can be printed. *)
Definition word_ok (x : string) : Prop := word x /\ line_ok x.
(** An identifier: a word without a colon. *)
Definition ident_ok (x : string) : Prop := word_ok x /\ ~ occurs ":" x.

Definition actor_rep (kinds : list string) (kind name : string) : Prop := In kind kinds /\ name_ok name.
Definition checksum_rep (v : version) (c : Checksum) : Prop :=
  In (ck_Algorithm c) (algorithms v) /\ name_ok (ck_Value c).
Definition ref_rep (d : DocElementID) : Prop :=
  de_SpecialID d = "" /\ ident_ok (de_ElementRefID d) /\
  (de_DocumentRefID d = "" \/ ident_ok (de_DocumentRefID d)).
Definition special_rep (v : version) (d : DocElementID) : Prop :=
  v <> V21 /\ special_ref ["NONE"; "NOASSERTION"] d.

Definition relationship_rep (v : version) (r : Relationship) : Prop :=
  ref_rep (r_RefA r) /\ (ref_rep (r_RefB r) \/ special_rep v (r_RefB r)) /\
  word_ok (r_Relationship r) /\ text_ok (r_Comment r).
Definition annotation_rep (a : Annotation) : Prop :=
  actor_rep actor3 (an_AnnotatorType (a_Annotator a)) (an_Annotator (a_Annotator a)) /\
  line_ok (a_Date a) /\ line_ok (a_Type a) /\
  (a_SPDXIdentifier a = zero_DocElementID \/ ref_rep (a_SPDXIdentifier a)) /\
  text_ok (a_Comment a).
Definition review_rep (r : Review) : Prop :=
  actor_rep actor3 (rv_ReviewerType r) (rv_Reviewer r) /\ line_ok (rv_Date r) /\ text_ok (rv_Comment r).
Definition license_rep (o : OtherLicense) : Prop :=
  name_ok (ol_LicenseIdentifier o) /\ text_ok (ol_ExtractedText o) /\ line_ok (ol_LicenseName o) /\
  Forall line_ok (ol_CrossReferences o) /\ text_ok (ol_Comment o).

(** a byte range or a line range, with bounds different from zero *)
Definition bound_ok (z : Z) : Prop := z <> 0%Z /\ in_int z = true.
Definition range_rep (r : SnippetRange) : Prop :=
  exists a b, bound_ok a /\ bound_ok b /\
    (r = MkRange (MkRP a 0 "") (MkRP b 0 "") \/ r = MkRange (MkRP 0 a "") (MkRP 0 b "")).
Definition attributions_rep (v : version) (l : list string) : Prop :=
  Forall text_ok l /\ (v = V21 -> l = []).
Definition snippet_rep (v : version) (s : Snippet) : Prop :=
  ident_ok (s_SPDXIdentifier s) /\ ident_ok (s_FromFile s) /\ Forall range_rep (s_Ranges s) /\
  line_ok (s_LicenseConcluded s) /\ Forall line_ok (s_LicenseInfoInSnippet s) /\
  text_ok (s_LicenseComments s) /\ text_ok (s_CopyrightText s) /\ text_ok (s_Comment s) /\
  line_ok (s_Name s) /\ attributions_rep v (s_AttributionTexts s).
Definition artifact_rep (a : Artifact) : Prop :=
  line_ok (ar_Name a) /\ line_ok (ar_HomePage a) /\ line_ok (ar_URI a).
Definition file_rep (v : version) (f : File) : Prop :=
  name_ok (f_FileName f) /\ ident_ok (f_SPDXIdentifier f) /\ Forall line_ok (f_FileTypes f) /\
  Forall (checksum_rep v) (f_Checksums f) /\ line_ok (f_LicenseConcluded f) /\
  Forall line_ok (f_LicenseInfoInFiles f) /\ text_ok (f_LicenseComments f) /\
  text_ok (f_CopyrightText f) /\ Forall artifact_rep (f_Artifacts f) /\ text_ok (f_Comment f) /\
  text_ok (f_Notice f) /\ Forall line_ok (f_Contributors f) /\
  attributions_rep v (f_AttributionTexts f) /\ Forall line_ok (f_Dependencies f) /\
  NoDup (map fst (f_Snippets f)) /\
  Forall (fun e => fst e = s_SPDXIdentifier (snd e) /\ snippet_rep v (snd e)) (f_Snippets f) /\
  f_Annotations f = [].

Definition supplier_rep (s : Supplier) : Prop :=
  s = MkSupplier "NOASSERTION" "" \/ actor_rep actor2 (su_SupplierType s) (su_Supplier s).
Definition originator_rep (s : Originator) : Prop :=
  s = MkOriginator "NOASSERTION" "" \/ actor_rep actor2 (or_OriginatorType s) (or_Originator s).
Definition code_rep (c : VerificationCode) : Prop :=
  name_ok (vc_Value c) /\ ~ occurs "(excludes:" (vc_Value c) /\
  (vc_ExcludedFiles c = [] \/
   exists f, vc_ExcludedFiles c = [f] /\ line_ok f /\ ~ occurs ")" f).
Definition external_ref_rep (e : ExternalRef) : Prop :=
  word_ok (er_Category e) /\ word_ok (er_RefType e) /\ word_ok (er_Locator e) /\ text_ok (er_Comment e).
Definition only_v23 (v : version) (x : string) : Prop := line_ok x /\ (v <> V23 -> x = "").
Definition package_rep (v : version) (p : Package) : Prop :=
  p_IsUnpackaged p = false /\ name_ok (p_PackageName p) /\ ident_ok (p_SPDXIdentifier p) /\
  line_ok (p_Version p) /\ line_ok (p_FileName p) /\
  opt_ok supplier_rep (p_Supplier p) /\ opt_ok originator_rep (p_Originator p) /\
  line_ok (p_DownloadLocation p) /\
  (* what is only meaningful if the files were analyzed *)
  (p_FilesAnalyzed p = false ->
     p_IsFilesAnalyzedTagPresent p = true /\ p_VerificationCode p = None /\ p_LicenseInfoFromFiles p = []) /\
  opt_ok code_rep (p_VerificationCode p) /\ Forall (checksum_rep v) (p_Checksums p) /\
  line_ok (p_HomePage p) /\ text_ok (p_SourceInfo p) /\ line_ok (p_LicenseConcluded p) /\
  Forall line_ok (p_LicenseInfoFromFiles p) /\ line_ok (p_LicenseDeclared p) /\
  text_ok (p_LicenseComments p) /\ text_ok (p_CopyrightText p) /\ text_ok (p_Summary p) /\
  text_ok (p_Description p) /\ text_ok (p_Comment p) /\
  Forall external_ref_rep (p_ExternalReferences p) /\ attributions_rep v (p_AttributionTexts p) /\
  only_v23 v (p_PrimaryPackagePurpose p) /\ only_v23 v (p_ReleaseDate p) /\
  only_v23 v (p_BuiltDate p) /\ only_v23 v (p_ValidUntilDate p) /\
  Forall (file_rep v) (p_Files p) /\ p_Annotations p = [].

Definition edr_rep (e : ExternalDocumentRef) : Prop :=
  word_ok (edr_DocumentRefID e) /\ word_ok (edr_URI e) /\
  ident_ok (ck_Algorithm (edr_Checksum e)) /\ word_ok (ck_Value (edr_Checksum e)).
Definition creation_info_rep (c : CreationInfo) : Prop :=
  line_ok (ci_LicenseListVersion c) /\
  Forall (fun x => actor_rep actor3 (cr_CreatorType x) (cr_Creator x)) (ci_Creators c) /\
  line_ok (ci_Created c) /\ text_ok (ci_CreatorComment c).

(** the document has something besides its own fields *)
Definition has_elements (d : Document) : Prop :=
  d_Files d <> [] \/ d_Packages d <> [] \/ d_OtherLicenses d <> [] \/ d_Relationships d <> [] \/
  d_Annotations d <> [] \/ d_Reviews d <> [].
Definition representable (v : version) (d : Document) : Prop :=
  d_SPDXVersion d = version_string v /\ line_ok (d_DataLicense d) /\
  (d_SPDXIdentifier d = "" \/ ident_ok (d_SPDXIdentifier d)) /\
  line_ok (d_DocumentName d) /\ line_ok (d_DocumentNamespace d) /\
  Forall edr_rep (d_ExternalDocumentReferences d) /\ text_ok (d_DocumentComment d) /\
  (exists ci, d_CreationInfo d = Some ci /\ creation_info_rep ci /\
     (ci <> zero_CreationInfo \/ has_elements d)) /\
  Forall (package_rep v) (d_Packages d) /\ Forall (file_rep v) (d_Files d) /\
  Forall license_rep (d_OtherLicenses d) /\ Forall (relationship_rep v) (d_Relationships d) /\
  Forall annotation_rep (d_Annotations d) /\ Forall review_rep (d_Reviews d) /\ d_Snippets d = [].

(** ** What writing may do to the caller's document *)

(** Only the order of the lists of external references, files and packages, and
    of the files inside each package, may change. *)
Definition package_reordered (p q : Package) : Prop :=
  exists fs, Permutation (p_Files p) fs /\ q = set_p_Files fs p.
Definition document_reordered (d e : Document) : Prop :=
  exists refs files k pkgs,
    Permutation (d_ExternalDocumentReferences d) refs /\ Permutation (d_Files d) files /\
    Permutation (d_Packages d) k /\ Forall2 package_reordered k pkgs /\
    e = set_d_ExternalDocumentReferences refs (set_d_Files files (set_d_Packages pkgs d)).

(** Only the iteration order of the snippet maps differs: all lists agree,
    element by element and in order. *)
Definition package_maps (p q : Package) : Prop :=
  exists fs, Forall2 file_same (p_Files p) fs /\ q = set_p_Files fs p.
Definition document_maps (d e : Document) : Prop :=
  exists files pkgs, Forall2 file_same (d_Files d) files /\ Forall2 package_maps (d_Packages d) pkgs /\
    e = set_d_Files files (set_d_Packages pkgs d).

(** Identifiers are distinct where the writer sorts; the keys of a map are distinct. *)
Definition file_distinct (f : File) : Prop := NoDup (map fst (f_Snippets f)).
Definition files_distinct (l : list File) : Prop :=
  NoDup (map f_SPDXIdentifier l) /\ Forall file_distinct l.
Definition distinct_ids (d : Document) : Prop :=
  NoDup (map edr_DocumentRefID (d_ExternalDocumentReferences d)) /\
  files_distinct (d_Files d) /\
  NoDup (map p_SPDXIdentifier (d_Packages d)) /\
  Forall (fun p => files_distinct (p_Files p)) (d_Packages d).
