(** * The JSON form of SPDX documents: struct tags and MarshalJSON/UnmarshalJSON
    methods of /repo/spdx/v2/common, v2_1, v2_2, v2_3 and /repo/json.

    The three versions are one definition with a [version] argument; line
    numbers are those of v2_3 unless said otherwise.  v2_2 and v2_1 store
    PackageVerificationCode by value, here [None] stands for its zero value.
    A null element in a slice of pointers is a nil pointer in Go: the slices of
    packages, files, relationships, annotations, licenses, external references
    and artifacts hold options, and [None] is the nil pointer.  Slices reached
    only by the tag-value reader and writer hold the records themselves. *)
From Verif Require Import GoStr Types TvState TvUtil TvParser Json.
Local Open Scope string_scope.

(** ** Identifiers: common/identifier.go *)

(** strings.Trim(string(data), <double quote>) at the head of every UnmarshalJSON below *)
Definition unquote_trim (data : string) : string := trim_byte dquote data.

(** prefixDocumentId 42-48, prefixElementId 86-92 *)
Definition with_prefix (prefix id : string) : string :=
  if has_prefix prefix id then id else prefix ++ id.
(** trimDocumentIdPrefix 52-58, trimElementIdPrefix 96-102 *)
Definition trim_id_prefix (prefix id : string) : res string :=
  match strip_prefix prefix id with
  | Some "" => Err "id"
  | Some r => Ok r
  | None => Err "id"
  end.

(** DocumentID 23-25, 28-39 *)
Definition c_document_id : codec string :=
  c_text (fun d => Ok (with_prefix document_ref d))
         (fun data _ => trim_id_prefix document_ref (unquote_trim data)).
(** ElementID 67-69, 72-83 *)
Definition c_element_id : codec string :=
  c_text (fun d => Ok (with_prefix spdx_ref d))
         (fun data _ => trim_id_prefix spdx_ref (unquote_trim data)).

(** DocElementID.MarshalJSON 126-138 *)
Definition marshal_doc_element_id (d : DocElementID) : res string :=
  if nonempty (de_DocumentRefID d) && nonempty (de_ElementRefID d)
  then Ok (with_prefix document_ref (de_DocumentRefID d) ++ ":" ++
           with_prefix spdx_ref (de_ElementRefID d))
  else if nonempty (de_ElementRefID d) then Ok (with_prefix spdx_ref (de_ElementRefID d))
  else if nonempty (de_SpecialID d) then Ok (de_SpecialID d)
  else Err "empty DocElementID".
(** DocElementID.UnmarshalJSON 142-177 *)
Definition unmarshal_doc_element_id (data : string) (d : DocElementID) : res DocElementID :=
  let s := unquote_trim data in
  if String.eqb s "NONE" || String.eqb s "NOASSERTION" then Ok (set_de_SpecialID s d)
  else if has_prefix document_ref s then
    match cut ":" s with
    | Some (first, rest) =>
        let* doc := trim_id_prefix document_ref first in
        let* elt := trim_id_prefix spdx_ref rest in
        Ok (set_de_ElementRefID elt (set_de_DocumentRefID doc d))
    | None =>
        let* doc := trim_id_prefix document_ref s in
        Ok (set_de_DocumentRefID doc d)
    end
  else
    let* elt := trim_id_prefix spdx_ref s in
    Ok (set_de_ElementRefID elt d).
Definition c_doc_element_id : codec DocElementID :=
  c_text marshal_doc_element_id unmarshal_doc_element_id.

(** ** Actors *)

(** MarshalJSON returns no bytes for an empty name, which json.Marshal refuses. *)
Definition marshal_actor (type name : string) : res string :=
  if nonempty name then Ok (type ++ ": " ++ name) else Err "unexpected end of JSON input".
(** SplitN(str, ":", 2), both parts trimmed *)
Definition unmarshal_actor (data : string) : res (string * string) :=
  match cut ":" (unquote_trim data) with
  | Some (type, name) => Ok (trim_space type, trim_space name)
  | None => Err "actor"
  end.
(** common/creation_info.go 22-35, 39-45 *)
Definition c_creator : codec Creator :=
  c_text (fun c => marshal_actor (cr_CreatorType c) (cr_Creator c))
         (fun data _ => let* (t, n) := unmarshal_actor data in Ok (MkCreator n t)).
(** common/annotation.go 20-35, 39-45 *)
Definition c_annotator : codec Annotator :=
  c_text (fun a => marshal_actor (an_AnnotatorType a) (an_Annotator a))
         (fun data _ => let* (t, n) := unmarshal_actor data in Ok (MkAnnotator n t)).

(** common/package.go 45-53, 86-94 *)
Definition marshal_agent (type name : string) : res string :=
  if String.eqb name "NOASSERTION" then Ok name
  else if nonempty type && nonempty name then Ok (type ++ ": " ++ name)
  else Err "invalid agent".
(** common/package.go 21-41, 45-53 *)
Definition c_supplier : codec Supplier :=
  c_text (fun s => marshal_agent (su_SupplierType s) (su_Supplier s))
         (fun data s =>
            let str := unquote_trim data in
            if String.eqb str "NOASSERTION" then Ok (set_su_Supplier str s)
            else let* (t, n) := unmarshal_actor data in Ok (MkSupplier n t)).
(** strings.TrimLeft(s, " \t") *)
Fixpoint trim_left_blanks (s : string) : string :=
  match s with
  | "" => ""
  | String a r => if is 32 a || is 9 a then trim_left_blanks r else s
  end.
(** common/package.go 64-82, 86-94 *)
Definition c_originator : codec Originator :=
  c_text (fun o => marshal_agent (or_OriginatorType o) (or_Originator o))
         (fun data o =>
            let str := unquote_trim data in
            if String.eqb str "NOASSERTION" then Ok (set_or_Originator str o)
            else match cut ":" str with
                 | Some (t, n) => Ok (MkOriginator (trim_left_blanks n) t)
                 | None => Err "originator"
                 end).

(** ** Slices of pointers *)
Definition c_ptrs {X} (c : codec X) (zero : X) : codec (list (option X)) := c_slice (c_ptr c zero) None.

Definition c_strings : codec (list string) := c_slice c_string "".

(** ** Structs *)

(** common/checksum.go 31-34 *)
Definition c_checksum : codec Checksum := c_struct
  [req "algorithm" c_string ck_Algorithm set_ck_Algorithm;
   req "checksumValue" c_string ck_Value set_ck_Value].

(** common/package.go 96-104 *)
Definition c_verification_code : codec VerificationCode := c_struct
  [req "packageVerificationCodeValue" c_string vc_Value set_vc_Value;
   opt "packageVerificationCodeExcludedFiles" c_strings vc_ExcludedFiles set_vc_ExcludedFiles].
Definition zero_code (c : VerificationCode) : bool :=
  String.eqb (vc_Value c) "" && match vc_ExcludedFiles c with [] => true | _ => false end.
(** The field type: a pointer in v2_3 (57-58), a struct in v2_2 and v2_1. *)
Definition c_package_code (v : version) : codec (option VerificationCode) :=
  match v with
  | V23 => c_ptr c_verification_code zero_VerificationCode
  | _ =>
      let get o := match o with Some c => c | None => zero_VerificationCode end in
      Codec (fun o => enc c_verification_code (get o))
            (fun j o => let* c := dec c_verification_code j (get o) in
                        Ok (if zero_code c then None else Some c))
            (fun _ => false)
  end.

(** common/snippet.go 5-15, 17-20 *)
Definition c_range_pointer : codec RangePointer := c_struct
  [opt "offset" c_int rp_Offset set_rp_Offset;
   opt "lineNumber" c_int rp_LineNumber set_rp_LineNumber;
   req "reference" c_element_id rp_FileSPDXIdentifier set_rp_FileSPDXIdentifier].
Definition c_range : codec SnippetRange := c_struct
  [req "startPointer" c_range_pointer sr_StartPointer set_sr_StartPointer;
   req "endPointer" c_range_pointer sr_EndPointer set_sr_EndPointer].

(** document.go 18-29 *)
Definition c_external_document_ref : codec ExternalDocumentRef := c_struct
  [req "externalDocumentId" c_document_id edr_DocumentRefID set_edr_DocumentRefID;
   req "spdxDocument" c_string edr_URI set_edr_URI;
   req "checksum" c_checksum edr_Checksum set_edr_Checksum].

(** creation_info.go 10-27 *)
Definition c_creation_info : codec CreationInfo := c_struct
  [opt "licenseListVersion" c_string ci_LicenseListVersion set_ci_LicenseListVersion;
   req "creators" (c_slice c_creator zero_Creator) ci_Creators set_ci_Creators;
   req "created" c_string ci_Created set_ci_Created;
   opt "comment" c_string ci_CreatorComment set_ci_CreatorComment].

(** package.go 179-194; UnmarshalJSON 198-209 and MarshalJSON 213-222 (v2_2:
    206-217, 223-231; v2_1 has neither) *)
Definition external_ref_fields : list (field ExternalRef) :=
  [req "referenceCategory" c_string er_Category set_er_Category;
   req "referenceType" c_string er_RefType set_er_RefType;
   req "referenceLocator" c_string er_Locator set_er_Locator;
   opt "comment" c_string er_Comment set_er_Comment].
Definition dash : ascii := ch 45.
Definition underscore : ascii := ch 95.
Definition c_external_ref (v : version) : codec ExternalRef :=
  let c := c_struct external_ref_fields in
  match v with
  | V21 => c
  | _ =>
      Codec (fun r => enc c (set_er_Category
                (match v with
                 | V22 => replace_byte dash underscore (er_Category r)
                 | _ => replace_byte underscore dash (er_Category r)
                 end) r))
            (fun j _ => let* r := dec c j zero_ExternalRef in
                        Ok (set_er_Category (replace_byte underscore dash (er_Category r)) r))
            (fun _ => false)
  end.

(** relationship.go 10-24 *)
Definition c_relationship : codec Relationship := c_struct
  [req "spdxElementId" c_doc_element_id r_RefA set_r_RefA;
   req "relatedSpdxElement" c_doc_element_id r_RefB set_r_RefB;
   req "relationshipType" c_string r_Relationship set_r_Relationship;
   opt "comment" c_string r_Comment set_r_Comment].

(** annotation.go 10-31; AnnotationSPDXIdentifier is not serialised *)
Definition c_annotation : codec Annotation := c_struct
  [req "annotator" c_annotator a_Annotator set_a_Annotator;
   req "annotationDate" c_string a_Date set_a_Date;
   req "annotationType" c_string a_Type set_a_Type;
   req "comment" c_string a_Comment set_a_Comment].

(** other_license.go 6-30 *)
Definition c_other_license : codec OtherLicense := c_struct
  [req "licenseId" c_string ol_LicenseIdentifier set_ol_LicenseIdentifier;
   req "extractedText" c_string ol_ExtractedText set_ol_ExtractedText;
   opt "name" c_string ol_LicenseName set_ol_LicenseName;
   opt "seeAlsos" c_strings ol_CrossReferences set_ol_CrossReferences;
   opt "comment" c_string ol_Comment set_ol_Comment].

(** `omitempty` in v2_3 only *)
Definition opt_in_23 {A X} (v : version) (name : string) (c : codec X)
  (get : A -> X) (set : X -> A -> A) : field A :=
  match v with V23 => opt name c get set | _ => req name c get set end.

(** snippet.go 10-50; SnippetAttributionTexts is not serialised *)
Definition c_snippet (v : version) : codec Snippet := c_struct
  [req "SPDXID" c_element_id s_SPDXIdentifier set_s_SPDXIdentifier;
   req "snippetFromFile" c_element_id s_FromFile set_s_FromFile;
   req "ranges" (c_slice c_range zero_SnippetRange) s_Ranges set_s_Ranges;
   opt_in_23 v "licenseConcluded" c_string s_LicenseConcluded set_s_LicenseConcluded;
   opt "licenseInfoInSnippets" c_strings s_LicenseInfoInSnippet set_s_LicenseInfoInSnippet;
   opt "licenseComments" c_string s_LicenseComments set_s_LicenseComments;
   req "copyrightText" c_string s_CopyrightText set_s_CopyrightText;
   opt "comment" c_string s_Comment set_s_Comment;
   opt "name" c_string s_Name set_s_Name].

(** file.go 82-98 *)
Definition c_artifact : codec Artifact := c_struct
  [req "name" c_string ar_Name set_ar_Name;
   req "homePage" c_string ar_HomePage set_ar_HomePage;
   req "URI" c_string ar_URI set_ar_URI].

(** file.go 10-76; the Snippets map is not serialised; ArtifactOfProjects and
    FileDependencies only in v2_3, FileAttributionTexts not in v2_1 *)
Definition c_file (v : version) : codec JFile := c_struct
  ([req "fileName" c_string f_FileName set_f_FileName;
    req "SPDXID" c_element_id f_SPDXIdentifier set_f_SPDXIdentifier;
    opt "fileTypes" c_strings f_FileTypes set_f_FileTypes;
    req "checksums" (c_slice c_checksum zero_Checksum) f_Checksums set_f_Checksums;
    opt_in_23 v "licenseConcluded" c_string f_LicenseConcluded set_f_LicenseConcluded;
    opt_in_23 v "licenseInfoInFiles" c_strings f_LicenseInfoInFiles set_f_LicenseInfoInFiles;
    opt "licenseComments" c_string f_LicenseComments set_f_LicenseComments;
    req "copyrightText" c_string f_CopyrightText set_f_CopyrightText]
   ++ match v with
      | V23 => [opt "artifactOfs" (c_ptrs c_artifact zero_Artifact) f_Artifacts set_f_Artifacts]
      | _ => []
      end
   ++ [opt "comment" c_string f_Comment set_f_Comment;
       opt "noticeText" c_string f_Notice set_f_Notice;
       opt "fileContributors" c_strings f_Contributors set_f_Contributors]
   ++ match v with
      | V21 => []
      | _ => [opt "attributionTexts" c_strings f_AttributionTexts set_f_AttributionTexts]
      end
   ++ match v with
      | V23 => [opt "fileDependencies" c_strings f_Dependencies set_f_Dependencies]
      | _ => []
      end
   ++ [opt "annotations" (c_slice c_annotation zero_Annotation) f_Annotations set_f_Annotations])%list.

Definition zero_file : JFile := zero_FileOf.
Definition zero_package : JPackage := zero_PackageOf.

(** package.go 14-142 (v2_2: 14-124, v2_1: 10-103) *)
Definition package_fields (v : version) : list (field JPackage) :=
  ([req "name" c_string p_PackageName set_p_PackageName;
    req "SPDXID" c_element_id p_SPDXIdentifier set_p_SPDXIdentifier;
    opt "versionInfo" c_string p_Version set_p_Version;
    opt "packageFileName" c_string p_FileName set_p_FileName;
    opt "supplier" (c_ptr c_supplier zero_Supplier) p_Supplier set_p_Supplier;
    opt "originator" (c_ptr c_originator zero_Originator) p_Originator set_p_Originator;
    req "downloadLocation" c_string p_DownloadLocation set_p_DownloadLocation;
    match v with
    | V21 => opt "filesAnalyzed" c_bool p_FilesAnalyzed set_p_FilesAnalyzed
    | _ => req "filesAnalyzed" c_bool p_FilesAnalyzed set_p_FilesAnalyzed
    end;
    opt "packageVerificationCode" (c_package_code v) p_VerificationCode set_p_VerificationCode;
    opt "checksums" (c_slice c_checksum zero_Checksum) p_Checksums set_p_Checksums;
    opt "homepage" c_string p_HomePage set_p_HomePage;
    opt "sourceInfo" c_string p_SourceInfo set_p_SourceInfo;
    opt_in_23 v "licenseConcluded" c_string p_LicenseConcluded set_p_LicenseConcluded;
    match v with
    | V21 => req "licenseInfoFromFiles" c_strings p_LicenseInfoFromFiles set_p_LicenseInfoFromFiles
    | _ => opt "licenseInfoFromFiles" c_strings p_LicenseInfoFromFiles set_p_LicenseInfoFromFiles
    end;
    opt_in_23 v "licenseDeclared" c_string p_LicenseDeclared set_p_LicenseDeclared;
    opt "licenseComments" c_string p_LicenseComments set_p_LicenseComments;
    opt_in_23 v "copyrightText" c_string p_CopyrightText set_p_CopyrightText;
    opt "summary" c_string p_Summary set_p_Summary;
    opt "description" c_string p_Description set_p_Description;
    opt "comment" c_string p_Comment set_p_Comment;
    opt "externalRefs" (c_ptrs (c_external_ref v) zero_ExternalRef)
        p_ExternalReferences set_p_ExternalReferences]
   ++ match v with
      | V21 => []
      | _ => [opt "attributionTexts" c_strings p_AttributionTexts set_p_AttributionTexts]
      end
   ++ match v with
      | V23 => [opt "primaryPackagePurpose" c_string p_PrimaryPackagePurpose set_p_PrimaryPackagePurpose;
                opt "releaseDate" c_string p_ReleaseDate set_p_ReleaseDate;
                opt "builtDate" c_string p_BuiltDate set_p_BuiltDate;
                opt "validUntilDate" c_string p_ValidUntilDate set_p_ValidUntilDate]
      | _ => []
      end
   ++ [opt "files" (c_ptrs (c_file v) zero_file) p_Files set_p_Files;
       opt "annotations" (c_slice c_annotation zero_Annotation) p_Annotations set_p_Annotations])%list.

(** A package with its unexported hasFiles field (package.go 139-141). *)
Definition jpackage : Type := (JPackage * list DocElementID)%type.
Definition zero_jpackage : jpackage := (zero_package, []).

(** package.go 146-149 *)
Record extras := Extras { ex_HasFiles : list DocElementID; ex_FilesAnalyzed : option bool }.
Definition c_extras : codec extras := c_struct
  [req "hasFiles" (c_slice c_doc_element_id zero_DocElementID) ex_HasFiles
       (fun x e => Extras x (ex_FilesAnalyzed e));
   req "filesAnalyzed" (c_ptr c_bool false) ex_FilesAnalyzed
       (fun x e => Extras (ex_HasFiles e) x)].

(** Package.UnmarshalJSON, package.go 144-173 (v2_2: 152-180) *)
Definition unmarshal_package (v : version) (j : json) : res jpackage :=
  let* p := dec (c_struct (package_fields v)) j zero_package in
  let* e := dec c_extras j (Extras [] None) in
  Ok (match ex_FilesAnalyzed e with
      | None => set_p_FilesAnalyzed true p
      | Some _ => set_p_IsFilesAnalyzedTagPresent true p
      end, ex_HasFiles e).
(** v2_2 Package.MarshalJSON, v2_2/package.go 126-150 *)
Definition marshal_package_22 (p : JPackage) : res json :=
  let* j := enc (c_struct (package_fields V22)) p in
  match p_VerificationCode p with
  | Some c => if zero_code c then Ok (delete_member "packageVerificationCode" (through_any j)) else Ok j
  | None => Ok (delete_member "packageVerificationCode" (through_any j))
  end.
Definition c_package (v : version) : codec jpackage :=
  Codec (fun p => match v with
                  | V22 => marshal_package_22 (fst p)
                  | _ => enc (c_struct (package_fields v)) (fst p)
                  end)
        (fun j p => match v with
                    | V21 => let* q := dec (c_struct (package_fields v)) j (fst p) in Ok (q, snd p)
                    | _ => unmarshal_package v j
                    end)
        (fun _ => false).

(** ** Document *)

(** The document while it is being decoded: packages with hasFiles. *)
Definition jdocument : Type :=
  DocumentOf (option jpackage) (option JFile) (option OtherLicense) (option Relationship) (option Annotation).
Definition zero_jdocument : jdocument := zero_DocumentOf.

(** document.go 33-73; Reviews is not serialised *)
Definition c_document_struct (v : version) : codec jdocument := c_struct
  [req "spdxVersion" c_string d_SPDXVersion set_d_SPDXVersion;
   req "dataLicense" c_string d_DataLicense set_d_DataLicense;
   req "SPDXID" c_element_id d_SPDXIdentifier set_d_SPDXIdentifier;
   req "name" c_string d_DocumentName set_d_DocumentName;
   req "documentNamespace" c_string d_DocumentNamespace set_d_DocumentNamespace;
   opt "externalDocumentRefs" (c_slice c_external_document_ref zero_ExternalDocumentRef)
       d_ExternalDocumentReferences set_d_ExternalDocumentReferences;
   opt "comment" c_string d_DocumentComment set_d_DocumentComment;
   req "creationInfo" (c_ptr c_creation_info zero_CreationInfo)
       d_CreationInfo set_d_CreationInfo;
   opt "packages" (c_slice (c_ptr (c_package v) zero_jpackage) None)
       d_Packages set_d_Packages;
   opt "files" (c_ptrs (c_file v) zero_file) d_Files set_d_Files;
   opt "hasExtractedLicensingInfos" (c_ptrs c_other_license zero_OtherLicense)
       d_OtherLicenses set_d_OtherLicenses;
   opt "relationships" (c_ptrs c_relationship zero_Relationship)
       d_Relationships set_d_Relationships;
   opt "annotations" (c_ptrs c_annotation zero_Annotation)
       d_Annotations set_d_Annotations;
   opt "snippets" (c_slice (c_snippet v) zero_Snippet) d_Snippets set_d_Snippets].

(** serializeRel, document.go 102-121 *)
Definition serialize_rel (r : Relationship) : string :=
  let key a rel b := render_doc_element_id a ++ "-" ++ rel ++ "->" ++ render_doc_element_id b in
  if String.eqb (r_Relationship r) "CONTAINED_BY" then key (r_RefB r) "CONTAINS" (r_RefA r)
  else if String.eqb (r_Relationship r) "DESCRIBED_BY" then key (r_RefB r) "DESCRIBES" (r_RefA r)
  else key (r_RefA r) (r_Relationship r) (r_RefB r).

(** remove null relationships, document.go 123-129 *)
Fixpoint drop_nil {X} (l : list (option X)) : list X :=
  match l with
  | [] => []
  | Some x :: r => x :: drop_nil r
  | None :: r => drop_nil r
  end.

(** `if !relationshipExists[serializeRel(r)] { append; mark }`, document.go
    146-149 and 164-167.  [seen] are the keys of the map that are set. *)
Definition add_rel (st : list Relationship * list string) (r : Relationship)
  : list Relationship * list string :=
  let key := serialize_rel r in
  if existsb (String.eqb key) (snd st) then st
  else ((fst st ++ [r])%list, key :: snd st).

Definition mk_rel (a : string) (type : string) (b : DocElementID) : Relationship :=
  MkRln (MkDEID "" a "") b type "".

(** document.go 123-172 *)
Definition complete_relationships (id : string) (rels : list (option Relationship))
  (describes : list DocElementID) (pkgs : list (option jpackage)) : list Relationship :=
  let kept := drop_nil rels in
  let st0 := (kept, map serialize_rel kept) in
  let st1 := fold_left add_rel (map (mk_rel id "DESCRIBES") describes) st0 in
  let st2 := fold_left (fun st p => match p with
                         | None => st
                         | Some (q, files) =>
                             fold_left add_rel (map (mk_rel (p_SPDXIdentifier q) "CONTAINS") files) st
                         end) pkgs st1 in
  fst st2.

Definition with_packages {P Q F L R S A} (pk : list Q) (rels : list S) (d : DocumentOf P F L R A)
  : DocumentOf Q F L S A :=
  MkDoc (d_SPDXVersion d) (d_DataLicense d) (d_SPDXIdentifier d) (d_DocumentName d)
        (d_DocumentNamespace d) (d_ExternalDocumentReferences d) (d_DocumentComment d)
        (d_CreationInfo d) pk (d_Files d) (d_OtherLicenses d) rels (d_Annotations d)
        (d_Snippets d) (d_Reviews d).
Definition drop_has_files (p : option jpackage) : option JPackage :=
  match p with Some (q, _) => Some q | None => None end.

(** A document none of whose pointers to elements is nil, as one whose pointers
    may be. *)
Definition jfile (f : File) : JFile :=
  MkFile (f_FileName f) (f_SPDXIdentifier f) (f_FileTypes f) (f_Checksums f) (f_LicenseConcluded f)
    (f_LicenseInfoInFiles f) (f_LicenseComments f) (f_CopyrightText f) (map Some (f_Artifacts f))
    (f_Comment f) (f_Notice f) (f_Contributors f) (f_AttributionTexts f) (f_Dependencies f) (f_Snippets f)
    (f_Annotations f).
Definition jpkg (p : Package) : JPackage :=
  MkPackage (p_IsUnpackaged p) (p_PackageName p) (p_SPDXIdentifier p) (p_Version p) (p_FileName p)
    (p_Supplier p) (p_Originator p) (p_DownloadLocation p) (p_FilesAnalyzed p) (p_IsFilesAnalyzedTagPresent p)
    (p_VerificationCode p) (p_Checksums p) (p_HomePage p) (p_SourceInfo p) (p_LicenseConcluded p)
    (p_LicenseInfoFromFiles p) (p_LicenseDeclared p) (p_LicenseComments p) (p_CopyrightText p) (p_Summary p)
    (p_Description p) (p_Comment p) (map Some (p_ExternalReferences p)) (p_AttributionTexts p)
    (p_PrimaryPackagePurpose p) (p_ReleaseDate p) (p_BuiltDate p) (p_ValidUntilDate p)
    (map (fun f => Some (jfile f)) (p_Files p)) (p_Annotations p).
Definition jdoc (d : Document) : JDocument :=
  MkDoc (d_SPDXVersion d) (d_DataLicense d) (d_SPDXIdentifier d) (d_DocumentName d) (d_DocumentNamespace d)
    (d_ExternalDocumentReferences d) (d_DocumentComment d) (d_CreationInfo d)
    (map (fun p => Some (jpkg p)) (d_Packages d)) (map (fun f => Some (jfile f)) (d_Files d))
    (map Some (d_OtherLicenses d)) (map Some (d_Relationships d)) (map Some (d_Annotations d)) (d_Snippets d)
    (d_Reviews d).

(** document.go 85-87 *)
Definition c_describes : codec (list DocElementID) := c_struct
  [req "documentDescribes" (c_slice c_doc_element_id zero_DocElementID)
       (fun x => x) (fun x _ => x)].

(** Document.UnmarshalJSON, document.go 83-175 (v2_2: 84-175); v2_1 has none *)
Definition unmarshal_document (v : version) (j : json) : res JDocument :=
  let* d := dec (c_document_struct v) j zero_jdocument in
  let pkgs := map drop_has_files (d_Packages d) in
  match v with
  | V21 => Ok (with_packages pkgs (d_Relationships d) d)
  | _ =>
      let* describes := dec c_describes j [] in
      Ok (with_packages pkgs
            (map Some (complete_relationships (d_SPDXIdentifier d) (d_Relationships d) describes (d_Packages d))) d)
  end.

(** json.Encoder.Encode(doc), json/writer.go 27-33, before the text layer.  The
    encoder escapes HTML characters in the strings it quotes itself exactly as
    [html] does in the output of MarshalJSON methods (see [escape_html]). *)
Definition marshal_document (v : version) (escape_html : bool) (d : JDocument) : res json :=
  let add (p : option JPackage) : option jpackage := match p with Some q => Some (q, []) | None => None end in
  let* j := enc (c_document_struct v) (with_packages (map add (d_Packages d)) (d_Relationships d) d) in
  Ok (if escape_html then html j else j).

(** ** ReadInto, json/reader.go 29-83, after the text layer.  The version
    decides which struct is filled; converting it to another version's struct
    (convert.Document) is done by a library outside /repo. *)
Fixpoint last_member (k : string) (ms : list (string * json)) : option json :=
  match ms with
  | [] => None
  | (k', j) :: r =>
      match last_member k r with
      | Some x => Some x
      | None => if String.eqb (requote k') k then Some j else None
      end
  end.
Definition read_value (j : json) : res (version * JDocument) :=
  match j with
  | JObj ms =>
      match last_member "spdxVersion" ms with
      | None => Err "no spdxVersion"
      | Some (JStr r) =>
          let ver := requote r in
          if String.eqb ver (version_string V21) then let* d := unmarshal_document V21 j in Ok (V21, d)
          else if String.eqb ver (version_string V22) then let* d := unmarshal_document V22 j in Ok (V22, d)
          else if String.eqb ver (version_string V23) then let* d := unmarshal_document V23 j in Ok (V23, d)
          else Err "unsupported version"
      | Some _ => Err "unsupported version"
      end
  | _ => Err "not an object"
  end.
