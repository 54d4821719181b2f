(** * Specification of well-formed documents, of the tag vocabulary, and of the
    correspondence between tags and elements. *)
From Verif Require Import GoStr Types TvUtil SpecTv SpecId.

(** Checksum algorithms of the SPDX versions. *)
Definition algorithms (v : version) : list string :=
  match v with
  | V21 => ["SHA1"; "SHA256"; "MD5"]
  | V22 => ["SHA1"; "SHA224"; "SHA256"; "SHA384"; "SHA512"; "MD2"; "MD4"; "MD5"; "MD6"]
  | V23 => ["SHA1"; "SHA224"; "SHA256"; "SHA384"; "SHA512"; "MD2"; "MD4"; "MD5"; "MD6";
            "SHA3-256"; "SHA3-384"; "SHA3-512"; "BLAKE2b-256"; "BLAKE2b-384"; "BLAKE2b-512";
            "BLAKE3"; "ADLER32"]
  end.
Definition checksum_ok (v : version) (c : Checksum) : Prop := In (ck_Algorithm c) (algorithms v).

Definition actor3 : list string := ["Person"; "Organization"; "Tool"].
Definition actor2 : list string := ["Person"; "Organization"].

Definition supplier_ok (s : Supplier) : Prop :=
  In (su_SupplierType s) actor2 \/ s = MkSupplier "NOASSERTION" "".
Definition originator_ok (s : Originator) : Prop :=
  In (or_OriginatorType s) actor2 \/ s = MkOriginator "NOASSERTION" "".
Definition opt_ok {A} (P : A -> Prop) (x : option A) : Prop :=
  match x with Some y => P y | None => True end.

(** the right end of a relationship may also be NONE or NOASSERTION, except in 2.1 *)
Definition ref_right_ok (v : version) (d : DocElementID) : Prop :=
  plain_ref d \/ (v <> V21 /\ special_ref ["NONE"; "NOASSERTION"] d).
Definition relationship_ok (v : version) (r : Relationship) : Prop :=
  plain_ref (r_RefA r) /\ ref_right_ok v (r_RefB r) /\ r_Relationship r <> "".
Definition annotation_ok (a : Annotation) : Prop :=
  In (an_AnnotatorType (a_Annotator a)) actor3 /\
  (a_SPDXIdentifier a = zero_DocElementID \/ plain_ref (a_SPDXIdentifier a)).
Definition review_ok (r : Review) : Prop := In (rv_ReviewerType r) actor3.
Definition creation_info_ok (c : CreationInfo) : Prop :=
  Forall (fun x => In (cr_CreatorType x) actor3) (ci_Creators c).
Definition edr_ok (e : ExternalDocumentRef) : Prop := edr_DocumentRefID e <> "".
Definition snippet_ok (s : Snippet) : Prop :=
  id_ok (s_SPDXIdentifier s) /\ (s_FromFile s = "" \/ id_ok (s_FromFile s)).
Definition file_ok (v : version) (f : File) : Prop :=
  id_ok (f_SPDXIdentifier f) /\ Forall (checksum_ok v) (f_Checksums f) /\
  NoDup (map fst (f_Snippets f)) /\
  Forall (fun p => fst p = s_SPDXIdentifier (snd p) /\ snippet_ok (snd p)) (f_Snippets f) /\
  f_Annotations f = [].
Definition package_ok (v : version) (p : Package) : Prop :=
  id_ok (p_SPDXIdentifier p) /\ Forall (checksum_ok v) (p_Checksums p) /\
  opt_ok supplier_ok (p_Supplier p) /\ opt_ok originator_ok (p_Originator p) /\
  Forall (file_ok v) (p_Files p) /\ p_IsUnpackaged p = false /\ p_Annotations p = [] /\
  (p_FilesAnalyzed p = false -> p_IsFilesAnalyzedTagPresent p = true).
Definition well_formed (v : version) (d : Document) : Prop :=
  (d_SPDXIdentifier d = "" \/ id_ok (d_SPDXIdentifier d)) /\
  Forall (package_ok v) (d_Packages d) /\ Forall (file_ok v) (d_Files d) /\
  Forall (relationship_ok v) (d_Relationships d) /\ Forall annotation_ok (d_Annotations d) /\
  Forall review_ok (d_Reviews d) /\ opt_ok creation_info_ok (d_CreationInfo d) /\
  Forall edr_ok (d_ExternalDocumentReferences d) /\ d_Snippets d = [].

(** ** Tag vocabulary *)
Definition relation_tags : list string :=
  ["Relationship"; "RelationshipComment"; "Annotator"; "AnnotationDate"; "AnnotationType";
   "SPDXREF"; "AnnotationComment"].
Definition common_tags : list string :=
  ["SPDXVersion"; "DataLicense"; "SPDXID"; "DocumentName"; "DocumentNamespace"; "DocumentComment";
   "ExternalDocumentRef"; "LicenseListVersion"; "Creator"; "Created"; "CreatorComment";
   "PackageName"; "PackageVersion"; "PackageFileName"; "PackageSupplier"; "PackageOriginator";
   "PackageDownloadLocation"; "FilesAnalyzed"; "PackageVerificationCode"; "PackageChecksum";
   "PackageHomePage"; "PackageSourceInfo"; "PackageLicenseConcluded"; "PackageLicenseInfoFromFiles";
   "PackageLicenseDeclared"; "PackageLicenseComments"; "PackageCopyrightText"; "PackageSummary";
   "PackageDescription"; "PackageComment"; "ExternalRef"; "ExternalRefComment";
   "FileName"; "FileType"; "FileChecksum"; "LicenseConcluded"; "LicenseInfoInFile"; "LicenseComments";
   "FileCopyrightText"; "ArtifactOfProjectName"; "ArtifactOfProjectHomePage"; "ArtifactOfProjectURI";
   "FileComment"; "FileNotice"; "FileContributor"; "FileDependency";
   "SnippetSPDXID"; "SnippetFromFileSPDXID"; "SnippetByteRange"; "SnippetLineRange";
   "SnippetLicenseConcluded"; "LicenseInfoInSnippet"; "SnippetLicenseComments"; "SnippetCopyrightText";
   "SnippetComment"; "SnippetName";
   "LicenseID"; "ExtractedText"; "LicenseName"; "LicenseCrossReference"; "LicenseComment";
   "Reviewer"; "ReviewDate"; "ReviewComment"].
Definition vocabulary (v : version) : list string :=
  (common_tags ++ relation_tags
   ++ match v with V21 => [] | _ => ["PackageAttributionText"; "FileAttributionText"; "SnippetAttributionText"] end
   ++ match v with V23 => ["PrimaryPackagePurpose"; "ReleaseDate"; "BuiltDate"; "ValidUntilDate"] | _ => [] end)%list.

(** ** Elements and tags *)
(** the values of all occurrences of a tag, in order *)
Definition values (tag : string) (pairs : list (string * string)) : list string :=
  map snd (filter (fun p => String.eqb (fst p) tag) pairs).
