(** * What a list of (tag, value) pairs means: a declarative reading of the SPDX
    tag-value format, independent of the parser.

    The list is cut into segments by the tags that open an element.  Inside the
    segment of an element, a single-valued field has the last value of its tag, a
    multi-valued field has all values of its tag in order. *)
From Verif Require Import GoStr Types TvUtil SpecTv SpecId SpecDoc.

Definition pairs := list (string * string).
Bind Scope list_scope with pairs.

(** The pairs before the first [t], and for every [t] its value and the pairs
    up to the next [t]. *)
Fixpoint segs (t : string) (l : pairs) : pairs * list (string * pairs) :=
  match l with
  | [] => ([], [])
  | (k, x) :: r =>
      let (h, ss) := segs t r in
      if String.eqb k t then ([], (x, h) :: ss) else ((k, x) :: h, ss)
  end.
Definition head_of (t : string) (l : pairs) : pairs := fst (segs t l).
Definition parts_of (t : string) (l : pairs) : list (string * pairs) := snd (segs t l).

(** the last value of a tag, if any *)
Definition last_value (t : string) (l : pairs) : string := last (values t l) "".

(** ** Text of structured values *)
(** "kind: name" *)
Definition kind_name (x k n : string) : Prop :=
  exists a b, x = a ++ ":" ++ b /\ ~ occurs ":" a /\ k = trim_space a /\ n = trim_space b.
Definition actor_text (kinds : list string) (x k n : string) : Prop := kind_name x k n /\ In k kinds.
Definition checksum_text (v : version) (x : string) (c : Checksum) : Prop :=
  kind_name x (ck_Algorithm c) (ck_Value c) /\ checksum_ok v c.
(** the blank-separated words *)
Definition words (x : string) : list string := filter nonempty (map trim_space (split_on " " x)).
Definition relationship_text (v : version) (x : string) (r : Relationship) : Prop :=
  exists wa wb, words x = [wa; r_Relationship r; wb] /\
    plain_ref (r_RefA r) /\ ref_text (r_RefA r) wa /\
    ((plain_ref (r_RefB r) /\ ref_text (r_RefB r) wb) \/
     (v <> V21 /\ (wb = "NONE" \/ wb = "NOASSERTION") /\ r_RefB r = MkDEID "" "" wb)).
Definition edr_text (x : string) (e : ExternalDocumentRef) : Prop :=
  edr_DocumentRefID e <> "" /\
  (words x = ["DocumentRef-" ++ edr_DocumentRefID e; edr_URI e;
              ck_Algorithm (edr_Checksum e) ++ ":"; ck_Value (edr_Checksum e)] \/
   (words x = ["DocumentRef-" ++ edr_DocumentRefID e; edr_URI e;
               ck_Algorithm (edr_Checksum e) ++ ":" ++ ck_Value (edr_Checksum e)] /\
    ~ occurs ":" (ck_Algorithm (edr_Checksum e)))).
Definition code_text (x : string) (c : VerificationCode) : Prop :=
  (~ occurs "(excludes:" x /\ c = MkVC x []) \/
  (exists a b n, first_cut "(excludes:" x a b /\
     ((exists r, first_cut ")" b n r) \/ (~ occurs ")" b /\ n = b)) /\
     c = MkVC (trim_space a) [trim_space n]).
Definition range_text (x : string) (a b : Z) : Prop :=
  exists p q, kind_name x p q /\ atoi p = Ok a /\ atoi q = Ok b.
Definition supplier_text (x : string) (s : Supplier) : Prop :=
  if String.eqb x "NOASSERTION" then s = MkSupplier x ""
  else actor_text actor2 x (su_SupplierType s) (su_Supplier s).
Definition originator_text (x : string) (s : Originator) : Prop :=
  if String.eqb x "NOASSERTION" then s = MkOriginator x ""
  else actor_text actor2 x (or_OriginatorType s) (or_Originator s).

(** an optional field: nothing if the tag is absent, else given by the last value *)
Definition opt_text_of {A} (R : string -> A -> Prop) (l : list string) (x : option A) : Prop :=
  match l with [] => x = None | _ => exists y, x = Some y /\ R (last l "") y end.
(** an identifier: empty if the tag is absent *)
Definition id_text_of (l : list string) (id : string) : Prop :=
  match l with [] => id = "" | _ => last l "" = "SPDXRef-" ++ id end.

(** ** Elements of the document itself *)
Definition relationship_den (v : version) (seg : string * pairs) (r : Relationship) : Prop :=
  relationship_text v (fst seg) r /\ r_Comment r = last_value "RelationshipComment" (snd seg).
Definition annotation_den (seg : string * pairs) (a : Annotation) : Prop :=
  actor_text actor3 (fst seg) (an_AnnotatorType (a_Annotator a)) (an_Annotator (a_Annotator a)) /\
  a_Date a = last_value "AnnotationDate" (snd seg) /\
  a_Type a = last_value "AnnotationType" (snd seg) /\
  a_Comment a = last_value "AnnotationComment" (snd seg) /\
  match values "SPDXREF" (snd seg) with
  | [] => a_SPDXIdentifier a = zero_DocElementID
  | l => plain_ref (a_SPDXIdentifier a) /\ ref_text (a_SPDXIdentifier a) (last l "")
  end.
Definition review_den (seg : string * pairs) (r : Review) : Prop :=
  actor_text actor3 (fst seg) (rv_ReviewerType r) (rv_Reviewer r) /\
  rv_Date r = last_value "ReviewDate" (snd seg) /\
  rv_Comment r = last_value "ReviewComment" (snd seg).
Definition license_den (seg : string * pairs) (o : OtherLicense) : Prop :=
  ol_LicenseIdentifier o = fst seg /\
  ol_ExtractedText o = last_value "ExtractedText" (snd seg) /\
  ol_LicenseName o = last_value "LicenseName" (snd seg) /\
  ol_CrossReferences o = values "LicenseCrossReference" (snd seg) /\
  ol_Comment o = last_value "LicenseComment" (snd seg).

(** tags that do not open the creation information *)
Definition document_tags : list string :=
  ["DocumentComment"; "SPDXVersion"; "DataLicense"; "SPDXID"; "DocumentName"; "DocumentNamespace";
   "ExternalDocumentRef"].
Definition creation_info_den (l : pairs) (c : option CreationInfo) : Prop :=
  match c with
  | None => Forall (fun p => In (fst p) document_tags) l
  | Some ci =>
      Exists (fun p => ~ In (fst p) document_tags) l /\
      ci_LicenseListVersion ci = last_value "LicenseListVersion" l /\
      Forall2 (fun x c => actor_text actor3 x (cr_CreatorType c) (cr_Creator c))
              (values "Creator" l) (ci_Creators ci) /\
      ci_Created ci = last_value "Created" l /\
      ci_CreatorComment ci = last_value "CreatorComment" l
  end.

(** everything but the identifier, the packages and the files *)
Record globals_den {PK FI : Type} (v : version) (l : pairs) (d : DocumentOf PK FI OtherLicense Relationship Annotation) : Prop := {
  g_version : d_SPDXVersion d = last_value "SPDXVersion" l;
  g_license : d_DataLicense d = last_value "DataLicense" l;
  g_name : d_DocumentName d = last_value "DocumentName" l;
  g_namespace : d_DocumentNamespace d = last_value "DocumentNamespace" l;
  g_comment : d_DocumentComment d = last_value "DocumentComment" l;
  g_edrs : Forall2 edr_text (values "ExternalDocumentRef" l) (d_ExternalDocumentReferences d);
  g_ci : creation_info_den l (d_CreationInfo d);
  g_licenses : Forall2 license_den (parts_of "LicenseID" l) (d_OtherLicenses d);
  g_rels : Forall2 (relationship_den v) (parts_of "Relationship" l) (d_Relationships d);
  g_anns : Forall2 annotation_den (parts_of "Annotator" l) (d_Annotations d);
  g_reviews : Forall2 review_den (parts_of "Reviewer" l) (d_Reviews d);
  g_snippets : d_Snippets d = []
}.

(** ** Snippets, files, packages *)
(** byte and line ranges are kept in one list, in input order *)
Definition range_den (p : string * string) (r : SnippetRange) : Prop :=
  exists a b, range_text (snd p) a b /\
    if String.eqb (fst p) "SnippetByteRange"
    then r = MkRange (MkRP a 0 "") (MkRP b 0 "")
    else r = MkRange (MkRP 0 a "") (MkRP 0 b "").
Definition range_pairs (l : pairs) : pairs :=
  filter (fun p => String.eqb (fst p) "SnippetByteRange" || String.eqb (fst p) "SnippetLineRange") l.

Record snippet_den (v : version) (seg : string * pairs) (s : Snippet) : Prop := {
  sn_id : fst seg = "SPDXRef-" ++ s_SPDXIdentifier s;
  sn_from : match values "SnippetFromFileSPDXID" (snd seg) with
            | [] => s_FromFile s = ""
            | l => exists d, plain_ref d /\ ref_text d (last l "") /\ s_FromFile s = de_ElementRefID d
            end;
  sn_ranges : Forall2 range_den (range_pairs (snd seg)) (s_Ranges s);
  sn_lic : s_LicenseConcluded s = last_value "SnippetLicenseConcluded" (snd seg);
  sn_info : s_LicenseInfoInSnippet s = values "LicenseInfoInSnippet" (snd seg);
  sn_lcom : s_LicenseComments s = last_value "SnippetLicenseComments" (snd seg);
  sn_copy : s_CopyrightText s = last_value "SnippetCopyrightText" (snd seg);
  sn_com : s_Comment s = last_value "SnippetComment" (snd seg);
  sn_name : s_Name s = last_value "SnippetName" (snd seg);
  sn_attr : s_AttributionTexts s = match v with V21 => [] | _ => values "SnippetAttributionText" (snd seg) end
}.

Definition artifact_den (seg : string * pairs) (a : Artifact) : Prop :=
  ar_Name a = fst seg /\
  ar_HomePage a = last_value "ArtifactOfProjectHomePage" (snd seg) /\
  ar_URI a = last_value "ArtifactOfProjectURI" (snd seg).

Record file_fields {SN : Type} (v : version) (seg : string * pairs) (f : FileOf SN Artifact) : Prop := {
  fi_name : f_FileName f = fst seg;
  fi_id : id_text_of (values "SPDXID" (snd seg)) (f_SPDXIdentifier f);
  fi_types : f_FileTypes f = values "FileType" (snd seg);
  fi_sums : Forall2 (checksum_text v) (values "FileChecksum" (snd seg)) (f_Checksums f);
  fi_lic : f_LicenseConcluded f = last_value "LicenseConcluded" (snd seg);
  fi_info : f_LicenseInfoInFiles f = values "LicenseInfoInFile" (snd seg);
  fi_lcom : f_LicenseComments f = last_value "LicenseComments" (snd seg);
  fi_copy : f_CopyrightText f = last_value "FileCopyrightText" (snd seg);
  fi_arts : Forall2 artifact_den (parts_of "ArtifactOfProjectName" (snd seg)) (f_Artifacts f);
  fi_com : f_Comment f = last_value "FileComment" (snd seg);
  fi_notice : f_Notice f = last_value "FileNotice" (snd seg);
  fi_contr : f_Contributors f = values "FileContributor" (snd seg);
  fi_attr : f_AttributionTexts f = match v with V21 => [] | _ => values "FileAttributionText" (snd seg) end;
  fi_deps : f_Dependencies f = values "FileDependency" (snd seg);
  fi_anns : f_Annotations f = []
}.
Definition file_den (v : version) (seg : string * pairs) (f : File) : Prop :=
  file_fields v seg f /\
  Forall2 (fun sg e => fst e = s_SPDXIdentifier (snd e) /\ snippet_den v sg (snd e))
          (parts_of "SnippetSPDXID" (snd seg)) (f_Snippets f).

Definition external_ref_den (seg : string * pairs) (e : ExternalRef) : Prop :=
  words (fst seg) = [er_Category e; er_RefType e; er_Locator e] /\
  er_Comment e = last_value "ExternalRefComment" (snd seg).

(** [true] unless the last "true"/"false" says otherwise *)
Definition flag_of (l : list string) : bool :=
  fold_left (fun b x => if String.eqb x "false" then false else if String.eqb x "true" then true else b) l true.
Definition v23_value (v : version) (t : string) (l : pairs) : string :=
  match v with V23 => last_value t l | _ => "" end.

Record package_fields {FI : Type} (v : version) (seg : string * pairs) (p : PackageOf FI ExternalRef) : Prop := {
  pk_unp : p_IsUnpackaged p = false;
  pk_name : p_PackageName p = fst seg;
  pk_id : id_text_of (values "SPDXID" (head_of "FileName" (snd seg))) (p_SPDXIdentifier p);
  pk_version : p_Version p = last_value "PackageVersion" (snd seg);
  pk_fname : p_FileName p = last_value "PackageFileName" (snd seg);
  pk_sup : opt_text_of supplier_text (values "PackageSupplier" (snd seg)) (p_Supplier p);
  pk_orig : opt_text_of originator_text (values "PackageOriginator" (snd seg)) (p_Originator p);
  pk_loc : p_DownloadLocation p = last_value "PackageDownloadLocation" (snd seg);
  pk_fa : p_FilesAnalyzed p = flag_of (values "FilesAnalyzed" (snd seg));
  pk_fap : p_IsFilesAnalyzedTagPresent p = negb (match values "FilesAnalyzed" (snd seg) with [] => true | _ => false end);
  pk_code : opt_text_of code_text (values "PackageVerificationCode" (snd seg)) (p_VerificationCode p);
  pk_sums : Forall2 (checksum_text v) (values "PackageChecksum" (snd seg)) (p_Checksums p);
  pk_home : p_HomePage p = last_value "PackageHomePage" (snd seg);
  pk_src : p_SourceInfo p = last_value "PackageSourceInfo" (snd seg);
  pk_lic : p_LicenseConcluded p = last_value "PackageLicenseConcluded" (snd seg);
  pk_info : p_LicenseInfoFromFiles p = values "PackageLicenseInfoFromFiles" (snd seg);
  pk_decl : p_LicenseDeclared p = last_value "PackageLicenseDeclared" (snd seg);
  pk_lcom : p_LicenseComments p = last_value "PackageLicenseComments" (snd seg);
  pk_copy : p_CopyrightText p = last_value "PackageCopyrightText" (snd seg);
  pk_summ : p_Summary p = last_value "PackageSummary" (snd seg);
  pk_desc : p_Description p = last_value "PackageDescription" (snd seg);
  pk_com : p_Comment p = last_value "PackageComment" (snd seg);
  pk_refs : Forall2 external_ref_den (parts_of "ExternalRef" (snd seg)) (p_ExternalReferences p);
  pk_attr : p_AttributionTexts p = match v with V21 => [] | _ => values "PackageAttributionText" (snd seg) end;
  pk_purpose : p_PrimaryPackagePurpose p = v23_value v "PrimaryPackagePurpose" (snd seg);
  pk_release : p_ReleaseDate p = v23_value v "ReleaseDate" (snd seg);
  pk_built : p_BuiltDate p = v23_value v "BuiltDate" (snd seg);
  pk_valid : p_ValidUntilDate p = v23_value v "ValidUntilDate" (snd seg);
  pk_anns : p_Annotations p = []
}.
Definition package_den (v : version) (seg : string * pairs) (p : Package) : Prop :=
  package_fields v seg p /\ Forall2 (file_den v) (parts_of "FileName" (snd seg)) (p_Files p).

(** ** The document *)
Definition document_den (v : version) (l : pairs) (d : Document) : Prop :=
  globals_den v l d /\
  id_text_of (values "SPDXID" (head_of "FileName" (head_of "PackageName" l))) (d_SPDXIdentifier d) /\
  Forall2 (package_den v) (parts_of "PackageName" l) (d_Packages d) /\
  Forall2 (file_den v) (parts_of "FileName" (head_of "PackageName" l)) (d_Files d).

(** Inputs in which no element is described twice: package names are not empty,
    a package or file is given at most one identifier, and the snippets of a
    file have different identifiers. *)
Definition file_regular (seg : string * pairs) : Prop :=
  length (values "SPDXID" (snd seg)) <= 1 /\ NoDup (values "SnippetSPDXID" (snd seg)).
Definition package_regular (seg : string * pairs) : Prop :=
  fst seg <> "" /\
  length (values "SPDXID" (head_of "FileName" (snd seg))) <= 1 /\
  Forall file_regular (parts_of "FileName" (snd seg)).
Definition regular (l : pairs) : Prop :=
  Forall package_regular (parts_of "PackageName" l) /\
  Forall file_regular (parts_of "FileName" (head_of "PackageName" l)).
