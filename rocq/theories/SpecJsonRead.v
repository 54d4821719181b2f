(** * What a JSON value says: which member of which object carries which part of
    a document.

    Written from the SPDX JSON schema, without the codecs of the model.  Every
    relation [x_is j x] reads "the JSON value [j] stands for [x]". *)
From Verif Require Import GoStr Types TvUtil SpecTv SpecId SpecDoc Json SpecJson.
Local Open Scope string_scope.

(** ** Objects *)

(** No object, at any depth, has two members whose names differ at most in
    letter case. *)
Fixpoint clear (j : json) : Prop :=
  match j with
  | JArr l => fold_right and True (map clear l)
  | JObj ms =>
      NoDup (map (fun m => option_map fold_name (unescape (fst m))) ms) /\
      fold_right and True (map (fun m => clear (snd m)) ms)
  | _ => True
  end.
(** Every member has a well-formed name. *)
Definition named (ms : list (string * json)) : Prop :=
  Forall (fun m => exists n, unescape (fst m) = Some n) ms.
(** The part carried by member [k]: its default if there is no such member. *)
Definition at_member {X} (ms : list (string * json)) (k : string) (default : X)
  (R : json -> X -> Prop) (x : X) : Prop :=
  (Forall (fun m => ~ called k m) ms /\ x = default) \/
  (exists m, In m ms /\ called k m /\ R (snd m) x).
(** An object with the members described by [R], or null for [zero]. *)
Definition object_is {X} (zero : X) (R : list (string * json) -> Prop) (j : json) (x : X) : Prop :=
  (j = JNull /\ x = zero) \/ (exists ms, j = JObj ms /\ named ms /\ R ms).

(** ** Plain values *)
Definition text_is (j : json) (s : string) : Prop :=
  (j = JNull /\ s = "") \/ (exists r, j = JStr r /\ unescape r = Some s).
Definition flag_is (j : json) (b : bool) : Prop := (j = JNull /\ b = false) \/ j = JBool b.
Definition number_is (j : json) (z : Z) : Prop :=
  (j = JNull /\ z = 0%Z) \/ (exists t, j = JNum t /\ atoi t = Ok z).
Definition list_is {X} (R : json -> X -> Prop) (j : json) (l : list X) : Prop :=
  (j = JNull /\ l = []) \/ (exists js, j = JArr js /\ Forall2 R js l).
(** null for nil *)
Definition nullable {X} (R : json -> X -> Prop) (j : json) (o : option X) : Prop :=
  match o with
  | None => j = JNull
  | Some x => j <> JNull /\ R j x
  end.

(** ** Values that the library parses itself, from the text of the value without
    the quotation marks around it.  Escape sequences are not decoded. *)
Inductive quotes : string -> Prop :=
| quotes_nil : quotes ""
| quotes_more s : quotes s -> quotes (String dquote s).
Definition bare (j : json) (s : string) : Prop :=
  exists a b, text j = a ++ s ++ b /\ quotes a /\ quotes b /\
    ~ (exists r, s = String dquote r) /\ ~ (exists r, s = r ++ String dquote "").
Definition id_is (prefix : string) (j : json) (x : string) : Prop :=
  x <> "" /\ bare j (prefix ++ x).
Definition reference_is (j : json) (d : DocElementID) : Prop :=
  exists s, bare j s /\ ref_meaning s d.
Definition creator_is (j : json) (c : Creator) : Prop :=
  exists s, bare j s /\ actor_meaning s (cr_CreatorType c) (cr_Creator c).
Definition annotator_is (j : json) (c : Annotator) : Prop :=
  exists s, bare j s /\ actor_meaning s (an_AnnotatorType c) (an_Annotator c).
Definition supplier_is (j : json) (c : Supplier) : Prop :=
  (bare j "NOASSERTION" /\ c = MkSupplier "NOASSERTION" "") \/
  (exists s, bare j s /\ s <> "NOASSERTION" /\ actor_meaning s (su_SupplierType c) (su_Supplier c)).
(** Blanks and tabs at the start removed. *)
Definition left_trimmed (s t : string) : Prop :=
  exists b, s = b ++ t /\ (forall c, occurs (String c "") b -> c = ch 32 \/ c = ch 9) /\
    ~ (exists c r, t = String c r /\ (c = ch 32 \/ c = ch 9)).
Definition originator_is (j : json) (c : Originator) : Prop :=
  (bare j "NOASSERTION" /\ c = MkOriginator "NOASSERTION" "") \/
  (exists s n, bare j s /\ s <> "NOASSERTION" /\ s = or_OriginatorType c ++ ":" ++ n /\
     ~ occurs ":" (or_OriginatorType c) /\ left_trimmed n (or_Originator c)).

(** ** Members by kind *)
Definition text_at ms k := at_member ms k "" text_is.
Definition texts_at ms k := at_member ms k [] (list_is text_is).
Definition flag_at ms k := at_member ms k false flag_is.
Definition number_at ms k := at_member ms k 0%Z number_is.
Definition id_at ms k := at_member ms k "" (id_is "SPDXRef-").
Definition list_at {X} ms k (R : json -> X -> Prop) := at_member ms k [] (list_is R).

(** ** Parts of a document *)
Definition checksum_is : json -> Checksum -> Prop := fun j c =>
  object_is zero_Checksum (fun ms =>
    text_at ms "algorithm" (ck_Algorithm c) /\
    text_at ms "checksumValue" (ck_Value c)) j c.
Definition code_is : json -> VerificationCode -> Prop := fun j c =>
  object_is zero_VerificationCode (fun ms =>
    text_at ms "packageVerificationCodeValue" (vc_Value c) /\
    texts_at ms "packageVerificationCodeExcludedFiles" (vc_ExcludedFiles c)) j c.
Definition pointer_is : json -> RangePointer -> Prop := fun j p =>
  object_is zero_RangePointer (fun ms =>
    number_at ms "offset" (rp_Offset p) /\
    number_at ms "lineNumber" (rp_LineNumber p) /\
    id_at ms "reference" (rp_FileSPDXIdentifier p)) j p.
Definition range_is : json -> SnippetRange -> Prop := fun j r =>
  object_is zero_SnippetRange (fun ms =>
    at_member ms "startPointer" zero_RangePointer pointer_is (sr_StartPointer r) /\
    at_member ms "endPointer" zero_RangePointer pointer_is (sr_EndPointer r)) j r.
Definition external_document_is : json -> ExternalDocumentRef -> Prop := fun j e =>
  object_is zero_ExternalDocumentRef (fun ms =>
    at_member ms "externalDocumentId" "" (id_is "DocumentRef-") (edr_DocumentRefID e) /\
    text_at ms "spdxDocument" (edr_URI e) /\
    at_member ms "checksum" zero_Checksum checksum_is (edr_Checksum e)) j e.
Definition creation_is : json -> CreationInfo -> Prop := fun j c =>
  object_is zero_CreationInfo (fun ms =>
    text_at ms "licenseListVersion" (ci_LicenseListVersion c) /\
    list_at ms "creators" creator_is (ci_Creators c) /\
    text_at ms "created" (ci_Created c) /\
    text_at ms "comment" (ci_CreatorComment c)) j c.
(** From 2.2 on the category is read with dashes for underscores. *)
Definition category_is (v : version) (s t : string) : Prop :=
  match v with
  | V21 => t = s
  | _ => String.length t = String.length s /\
         forall i c, get i s = Some c -> get i t = Some (if Ascii.eqb c "_" then "-"%char else c)
  end.
Definition external_ref_is (v : version) : json -> ExternalRef -> Prop := fun j r =>
  object_is zero_ExternalRef (fun ms =>
    (exists s, text_at ms "referenceCategory" s /\ category_is v s (er_Category r)) /\
    text_at ms "referenceType" (er_RefType r) /\
    text_at ms "referenceLocator" (er_Locator r) /\
    text_at ms "comment" (er_Comment r)) j r.
Definition relationship_is : json -> Relationship -> Prop := fun j r =>
  object_is zero_Relationship (fun ms =>
    at_member ms "spdxElementId" zero_DocElementID reference_is (r_RefA r) /\
    at_member ms "relatedSpdxElement" zero_DocElementID reference_is (r_RefB r) /\
    text_at ms "relationshipType" (r_Relationship r) /\
    text_at ms "comment" (r_Comment r)) j r.
(** The annotated element is not read. *)
Definition annotation_is : json -> Annotation -> Prop := fun j a =>
  object_is zero_Annotation (fun ms =>
    at_member ms "annotator" zero_Annotator annotator_is (a_Annotator a) /\
    text_at ms "annotationDate" (a_Date a) /\
    text_at ms "annotationType" (a_Type a) /\
    text_at ms "comment" (a_Comment a) /\
    a_SPDXIdentifier a = MkDEID "" "" "") j a.
Definition license_is : json -> OtherLicense -> Prop := fun j o =>
  object_is zero_OtherLicense (fun ms =>
    text_at ms "licenseId" (ol_LicenseIdentifier o) /\
    text_at ms "extractedText" (ol_ExtractedText o) /\
    text_at ms "name" (ol_LicenseName o) /\
    texts_at ms "seeAlsos" (ol_CrossReferences o) /\
    text_at ms "comment" (ol_Comment o)) j o.
(** Attribution texts of snippets are not read. *)
Definition snippet_is : json -> Snippet -> Prop := fun j s =>
  object_is zero_Snippet (fun ms =>
    id_at ms "SPDXID" (s_SPDXIdentifier s) /\
    id_at ms "snippetFromFile" (s_FromFile s) /\
    list_at ms "ranges" range_is (s_Ranges s) /\
    text_at ms "licenseConcluded" (s_LicenseConcluded s) /\
    texts_at ms "licenseInfoInSnippets" (s_LicenseInfoInSnippet s) /\
    text_at ms "licenseComments" (s_LicenseComments s) /\
    text_at ms "copyrightText" (s_CopyrightText s) /\
    text_at ms "comment" (s_Comment s) /\
    text_at ms "name" (s_Name s) /\
    s_AttributionTexts s = []) j s.
Definition artifact_is : json -> Artifact -> Prop := fun j a =>
  object_is zero_Artifact (fun ms =>
    text_at ms "name" (ar_Name a) /\
    text_at ms "homePage" (ar_HomePage a) /\
    text_at ms "URI" (ar_URI a)) j a.
Definition file_is (v : version) : json -> JFile -> Prop := fun j f =>
  object_is zero_FileOf (fun ms =>
    text_at ms "fileName" (f_FileName f) /\
    id_at ms "SPDXID" (f_SPDXIdentifier f) /\
    texts_at ms "fileTypes" (f_FileTypes f) /\
    list_at ms "checksums" checksum_is (f_Checksums f) /\
    text_at ms "licenseConcluded" (f_LicenseConcluded f) /\
    texts_at ms "licenseInfoInFiles" (f_LicenseInfoInFiles f) /\
    text_at ms "licenseComments" (f_LicenseComments f) /\
    text_at ms "copyrightText" (f_CopyrightText f) /\
    text_at ms "comment" (f_Comment f) /\
    text_at ms "noticeText" (f_Notice f) /\
    texts_at ms "fileContributors" (f_Contributors f) /\
    list_at ms "annotations" annotation_is (f_Annotations f) /\
    match v with
    | V21 => f_AttributionTexts f = []
    | _ => texts_at ms "attributionTexts" (f_AttributionTexts f)
    end /\
    match v with
    | V23 => list_at ms "artifactOfs" (nullable artifact_is) (f_Artifacts f) /\
             texts_at ms "fileDependencies" (f_Dependencies f)
    | _ => f_Artifacts f = [] /\ f_Dependencies f = []
    end /\
    f_Snippets f = []) j f.

(** Members of a package, except filesAnalyzed and hasFiles. *)
Definition package_members (v : version) (ms : list (string * json)) (p : JPackage) : Prop :=
  text_at ms "name" (p_PackageName p) /\
  id_at ms "SPDXID" (p_SPDXIdentifier p) /\
  text_at ms "versionInfo" (p_Version p) /\
  text_at ms "packageFileName" (p_FileName p) /\
  at_member ms "supplier" None (nullable supplier_is) (p_Supplier p) /\
  at_member ms "originator" None (nullable originator_is) (p_Originator p) /\
  text_at ms "downloadLocation" (p_DownloadLocation p) /\
  (* before 2.3 an empty code is the same as none *)
  match v with
  | V23 => at_member ms "packageVerificationCode" None (nullable code_is) (p_VerificationCode p)
  | _ => exists c, at_member ms "packageVerificationCode" zero_VerificationCode code_is c /\
           (c = MkVC "" [] -> p_VerificationCode p = None) /\
           (c <> MkVC "" [] -> p_VerificationCode p = Some c)
  end /\
  list_at ms "checksums" checksum_is (p_Checksums p) /\
  text_at ms "homepage" (p_HomePage p) /\
  text_at ms "sourceInfo" (p_SourceInfo p) /\
  text_at ms "licenseConcluded" (p_LicenseConcluded p) /\
  texts_at ms "licenseInfoFromFiles" (p_LicenseInfoFromFiles p) /\
  text_at ms "licenseDeclared" (p_LicenseDeclared p) /\
  text_at ms "licenseComments" (p_LicenseComments p) /\
  text_at ms "copyrightText" (p_CopyrightText p) /\
  text_at ms "summary" (p_Summary p) /\
  text_at ms "description" (p_Description p) /\
  text_at ms "comment" (p_Comment p) /\
  list_at ms "externalRefs" (nullable (external_ref_is v)) (p_ExternalReferences p) /\
  match v with
  | V21 => p_AttributionTexts p = []
  | _ => texts_at ms "attributionTexts" (p_AttributionTexts p)
  end /\
  match v with
  | V23 => text_at ms "primaryPackagePurpose" (p_PrimaryPackagePurpose p) /\
           text_at ms "releaseDate" (p_ReleaseDate p) /\
           text_at ms "builtDate" (p_BuiltDate p) /\
           text_at ms "validUntilDate" (p_ValidUntilDate p)
  | _ => p_PrimaryPackagePurpose p = "" /\ p_ReleaseDate p = "" /\
         p_BuiltDate p = "" /\ p_ValidUntilDate p = ""
  end /\
  list_at ms "files" (nullable (file_is v)) (p_Files p) /\
  list_at ms "annotations" annotation_is (p_Annotations p) /\
  p_IsUnpackaged p = false.
(** A package and the identifiers of its hasFiles member. *)
Definition package_is (v : version) : json -> JPackage * list DocElementID -> Prop := fun j pf =>
  let (p, files) := pf in
  exists ms, j = JObj ms /\ named ms /\ package_members v ms p /\
    (* from 2.2 on, files are analyzed unless the document says otherwise *)
    match v with
    | V21 => flag_at ms "filesAnalyzed" (p_FilesAnalyzed p) /\ p_IsFilesAnalyzedTagPresent p = false
    | _ => exists o, at_member ms "filesAnalyzed" None (nullable flag_is) o /\
             match o with
             | None => p_FilesAnalyzed p = true /\ p_IsFilesAnalyzedTagPresent p = false
             | Some b => p_FilesAnalyzed p = b /\ p_IsFilesAnalyzedTagPresent p = true
             end
    end /\
    match v with
    | V21 => files = []
    | _ => list_at ms "hasFiles" reference_is files
    end.

(** ** Documents *)

(** Relationships without the nil ones. *)
Definition proper {X} (l : list (option X)) : list X :=
  flat_map (fun o => match o with Some x => [x] | None => [] end) l.
(** Two relationships count as the same when their statements are written the
    same way. *)
Definition written (r : Relationship) : string :=
  let '(a, type, b) := statement_of r in a ++ "-" ++ type ++ "->" ++ b.
(** [added] is what remains of [wanted] after leaving out, from left to right,
    everything already stated. *)
Inductive adds : list Relationship -> list Relationship -> list Relationship -> Prop :=
| adds_nil known : adds known [] []
| adds_known known r w added :
    (exists k, In k known /\ written k = written r) ->
    adds known w added -> adds known (r :: w) added
| adds_new known r w added :
    ~ (exists k, In k known /\ written k = written r) ->
    adds (known ++ [r]) w added -> adds known (r :: w) (r :: added).

(** Reviews are not read. *)
Definition document_is (v : version) (j : json) (d : JDocument) : Prop :=
  exists ms, j = JObj ms /\ named ms /\
    text_at ms "spdxVersion" (d_SPDXVersion d) /\
    text_at ms "dataLicense" (d_DataLicense d) /\
    id_at ms "SPDXID" (d_SPDXIdentifier d) /\
    text_at ms "name" (d_DocumentName d) /\
    text_at ms "documentNamespace" (d_DocumentNamespace d) /\
    list_at ms "externalDocumentRefs" external_document_is (d_ExternalDocumentReferences d) /\
    text_at ms "comment" (d_DocumentComment d) /\
    at_member ms "creationInfo" None (nullable creation_is) (d_CreationInfo d) /\
    list_at ms "files" (nullable (file_is v)) (d_Files d) /\
    list_at ms "hasExtractedLicensingInfos" (nullable license_is) (d_OtherLicenses d) /\
    list_at ms "annotations" (nullable annotation_is) (d_Annotations d) /\
    list_at ms "snippets" snippet_is (d_Snippets d) /\
    d_Reviews d = [] /\
    exists packages relationships,
      list_at ms "packages" (nullable (package_is v)) packages /\
      list_at ms "relationships" (nullable relationship_is) relationships /\
      d_Packages d = map (option_map fst) packages /\
      match v with
      | V21 => d_Relationships d = relationships
      | _ =>
          (* shortcuts for DESCRIBES and CONTAINS relationships *)
          exists describes added,
            list_at ms "documentDescribes" reference_is describes /\
            adds (proper relationships)
              (implied (d_SPDXIdentifier d) describes
                 (map (fun p => (p_SPDXIdentifier (fst p), snd p)) (proper packages))) added /\
            d_Relationships d = map Some (proper relationships ++ added)%list
      end.

(** The version that decides how a document is read: a member called exactly
    spdxVersion. *)
Definition version_is (j : json) (v : version) : Prop :=
  exists ms m r, j = JObj ms /\ In m ms /\ unescape (fst m) = Some "spdxVersion" /\
    snd m = JStr r /\
    unescape r = Some (match v with V21 => "SPDX-2.1" | V22 => "SPDX-2.2" | V23 => "SPDX-2.3" end).
