(** * Tag-value writer: /repo/spdx/v2/v2_3/tagvalue/writer/*.go
    (and v2_2, v2_1, selected by the [version] argument).

    Each call [fmt.Fprintf(w, "Tag: %s\n", x)] is one [chunk]; the bytes written
    are the concatenation of the chunks.  Errors of the underlying io.Writer are
    ignored by the Go code: see Stream.v. *)
From Verif Require Import GoStr Types TvUtil Sorting.

Inductive chunk :=
| Field (tag value : string)      (* fmt.Fprintf(w, "Tag: %s\n", value) *)
| TextField (tag value : string)  (* fmt.Fprintf(w, "Tag: %s\n", textify(value)) *)
| Raw (s : string).               (* any other text: section headers, blank lines *)

(** writer/util.go 10-16 (textify) *)
Definition textify (s : string) : string :=
  if contains LF s then "<text>" ++ s ++ "</text>" else s.

Definition chunk_bytes (c : chunk) : string :=
  match c with
  | Field t x => t ++ ": " ++ x ++ LF
  | TextField t x => t ++ ": " ++ textify x ++ LF
  | Raw s => s
  end.
Fixpoint bytes (l : list chunk) : string :=
  match l with [] => "" | c :: r => chunk_bytes c ++ bytes r end.

(** [if x != "" { Fprintf }] *)
Definition opt (t x : string) : list chunk := if nonempty x then [Field t x] else [].
Definition opt_text (t x : string) : list chunk := if nonempty x then [TextField t x] else [].
(** [for _, s := range l { Fprintf }] *)
Definition each (t : string) (l : list string) : list chunk := map (Field t) l.
Definition each_text (t : string) (l : list string) : list chunk := map (TextField t) l.

(** save_creation_info.go 12-30 *)
Definition render_creation_info (ci : CreationInfo) : list chunk :=
  opt "LicenseListVersion" (ci_LicenseListVersion ci)
  ++ map (fun c => Field "Creator" (cr_CreatorType c ++ ": " ++ cr_Creator c)) (ci_Creators ci)
  ++ opt "Created" (ci_Created ci)
  ++ opt_text "CreatorComment" (ci_CreatorComment ci)
  ++ [Raw LF].

(** save_annotation.go 13-32 *)
Definition render_annotation (a : Annotation) : list chunk :=
  (if nonempty (an_Annotator (a_Annotator a)) && nonempty (an_AnnotatorType (a_Annotator a))
   then [Field "Annotator" (an_AnnotatorType (a_Annotator a) ++ ": " ++ an_Annotator (a_Annotator a))]
   else [])
  ++ opt "AnnotationDate" (a_Date a)
  ++ opt "AnnotationType" (a_Type a)
  ++ (let id := render_doc_element_id (a_SPDXIdentifier a) in
      if String.eqb id "SPDXRef-" then [] else [Field "SPDXREF" id])
  ++ opt_text "AnnotationComment" (a_Comment a).

(** save_relationship.go 13-24 *)
Definition render_relationship (r : Relationship) : list chunk :=
  (let a := render_doc_element_id (r_RefA r) in
   let b := render_doc_element_id (r_RefB r) in
   if negb (String.eqb a "SPDXRef-") && negb (String.eqb b "SPDXRef-") && nonempty (r_Relationship r)
   then [Field "Relationship" (a ++ " " ++ r_Relationship r ++ " " ++ b)] else [])
  ++ opt_text "RelationshipComment" (r_Comment r).

(** save_review.go 12-26 *)
Definition render_review (r : Review) : list chunk :=
  (if nonempty (rv_Reviewer r) && nonempty (rv_ReviewerType r)
   then [Field "Reviewer" (rv_ReviewerType r ++ ": " ++ rv_Reviewer r)] else [])
  ++ opt "ReviewDate" (rv_Date r)
  ++ opt_text "ReviewComment" (rv_Comment r)
  ++ [Raw LF].

(** save_other_license.go 12-32 *)
Definition render_other_license (o : OtherLicense) : list chunk :=
  opt "LicenseID" (ol_LicenseIdentifier o)
  ++ opt_text "ExtractedText" (ol_ExtractedText o)
  ++ opt "LicenseName" (ol_LicenseName o)
  ++ each "LicenseCrossReference" (ol_CrossReferences o)
  ++ opt_text "LicenseComment" (ol_Comment o)
  ++ [Raw LF].

(** save_snippet.go 22-29 *)
Definition render_range (r : SnippetRange) : list chunk :=
  let s := sr_StartPointer r in let e := sr_EndPointer r in
  (if negb (rp_Offset s =? 0)%Z && negb (rp_Offset e =? 0)%Z
   then [Field "SnippetByteRange" (show_Z (rp_Offset s) ++ ":" ++ show_Z (rp_Offset e))] else [])
  ++ (if negb (rp_LineNumber s =? 0)%Z && negb (rp_LineNumber e =? 0)%Z
      then [Field "SnippetLineRange" (show_Z (rp_LineNumber s) ++ ":" ++ show_Z (rp_LineNumber e))] else []).

(** save_snippet.go 13-55; the rendered FromFile identifier is never "" *)
Definition render_snippet (v : version) (s : Snippet) : list chunk :=
  (if nonempty (s_SPDXIdentifier s)
   then [Field "SnippetSPDXID" (render_element_id (s_SPDXIdentifier s))] else [])
  ++ (let f := render_element_id (s_FromFile s) in
      if nonempty f then [Field "SnippetFromFileSPDXID" f] else [])
  ++ flat_map render_range (s_Ranges s)
  ++ opt "SnippetLicenseConcluded" (s_LicenseConcluded s)
  ++ each "LicenseInfoInSnippet" (s_LicenseInfoInSnippet s)
  ++ opt_text "SnippetLicenseComments" (s_LicenseComments s)
  ++ opt_text "SnippetCopyrightText" (s_CopyrightText s)
  ++ opt_text "SnippetComment" (s_Comment s)
  ++ opt "SnippetName" (s_Name s)
  ++ match v with V21 => [] | _ => each_text "SnippetAttributionText" (s_AttributionTexts s) end
  ++ [Raw LF].

(** save_file.go 38-46 *)
Definition render_artifact (a : Artifact) : list chunk :=
  Field "ArtifactOfProjectName" (ar_Name a)
  :: opt "ArtifactOfProjectHomePage" (ar_HomePage a)
  ++ opt "ArtifactOfProjectURI" (ar_URI a).

(** map lookup, save_file.go 75 *)
Fixpoint map_get {A} (k : string) (m : list (string * A)) : option A :=
  match m with
  | [] => None
  | (k', x) :: r => if String.eqb k k' then Some x else map_get k r
  end.

Section Writer.
  Variable so : sorter.
  Variable v : version.

  (** save_file.go 67-78: keys of the map in any order, sorted, then looked up *)
  Definition render_snippets (m : list (string * Snippet)) : list chunk :=
    flat_map (fun k => match map_get k m with Some s => render_snippet v s | None => [] end)
             (sort_by so (fun k => k) (map fst m)).

  (** save_file.go 14-81 *)
  Definition render_file (f : File) : list chunk :=
    opt "FileName" (f_FileName f)
    ++ (if nonempty (f_SPDXIdentifier f) then [Field "SPDXID" (render_element_id (f_SPDXIdentifier f))] else [])
    ++ each "FileType" (f_FileTypes f)
    ++ map (fun c => Field "FileChecksum" (ck_Algorithm c ++ ": " ++ ck_Value c)) (f_Checksums f)
    ++ opt "LicenseConcluded" (f_LicenseConcluded f)
    ++ each "LicenseInfoInFile" (f_LicenseInfoInFiles f)
    ++ opt_text "LicenseComments" (f_LicenseComments f)
    ++ opt_text "FileCopyrightText" (f_CopyrightText f)
    ++ flat_map render_artifact (f_Artifacts f)
    ++ opt_text "FileComment" (f_Comment f)
    ++ opt_text "FileNotice" (f_Notice f)
    ++ each "FileContributor" (f_Contributors f)
    ++ match v with V21 => [] | _ => each_text "FileAttributionText" (f_AttributionTexts f) end
    ++ each "FileDependency" (f_Dependencies f)
    ++ [Raw LF]
    ++ render_snippets (f_Snippets f).

  (** save_package.go 31-37 and 38-44 *)
  Definition render_supplier (s : option Supplier) : list chunk :=
    match s with
    | Some x =>
        if nonempty (su_Supplier x) then
          if nonempty (su_SupplierType x)
          then [Field "PackageSupplier" (su_SupplierType x ++ ": " ++ su_Supplier x)]
          else [Field "PackageSupplier" (su_Supplier x)]
        else []
    | None => []
    end.
  Definition render_originator (s : option Originator) : list chunk :=
    match s with
    | Some x =>
        if nonempty (or_Originator x) then
          if nonempty (or_OriginatorType x)
          then [Field "PackageOriginator" (or_OriginatorType x ++ ": " ++ or_Originator x)]
          else [Field "PackageOriginator" (or_Originator x)]
        else []
    | None => []
    end.
  (** save_package.go 60-66 *)
  Definition render_files_analyzed (p : Package) : list chunk :=
    if p_FilesAnalyzed p then
      if p_IsFilesAnalyzedTagPresent p then [Field "FilesAnalyzed" "true"] else []
    else [Field "FilesAnalyzed" "false"].
  (** save_package.go 67-73 *)
  Definition render_verification_code (p : Package) : list chunk :=
    match p_VerificationCode p with
    | Some c =>
        if nonempty (vc_Value c) && p_FilesAnalyzed p then
          match vc_ExcludedFiles c with
          | [] => [Field "PackageVerificationCode" (vc_Value c)]
          | l => [Field "PackageVerificationCode"
                    (vc_Value c ++ " (excludes: " ++ join ", " l ++ ")")]
          end
        else []
    | None => []
    end.
  (** save_package.go 108-113 *)
  Definition render_external_ref (e : ExternalRef) : list chunk :=
    Field "ExternalRef" (er_Category e ++ " " ++ er_RefType e ++ " " ++ er_Locator e)
    :: opt_text "ExternalRefComment" (er_Comment e).

  (** save_package.go 15-117: the fields of the package itself *)
  Definition render_package_fields (p : Package) : list chunk :=
    opt "PackageName" (p_PackageName p)
    ++ (if nonempty (p_SPDXIdentifier p) then [Field "SPDXID" (render_element_id (p_SPDXIdentifier p))] else [])
    ++ opt "PackageVersion" (p_Version p)
    ++ opt "PackageFileName" (p_FileName p)
    ++ render_supplier (p_Supplier p)
    ++ render_originator (p_Originator p)
    ++ opt "PackageDownloadLocation" (p_DownloadLocation p)
    ++ match v with
       | V23 => opt "PrimaryPackagePurpose" (p_PrimaryPackagePurpose p)
                ++ opt "ReleaseDate" (p_ReleaseDate p)
                ++ opt "BuiltDate" (p_BuiltDate p)
                ++ opt "ValidUntilDate" (p_ValidUntilDate p)
       | _ => []
       end
    ++ render_files_analyzed p
    ++ render_verification_code p
    ++ map (fun c => Field "PackageChecksum" (ck_Algorithm c ++ ": " ++ ck_Value c)) (p_Checksums p)
    ++ opt "PackageHomePage" (p_HomePage p)
    ++ opt_text "PackageSourceInfo" (p_SourceInfo p)
    ++ opt "PackageLicenseConcluded" (p_LicenseConcluded p)
    ++ (if p_FilesAnalyzed p then each "PackageLicenseInfoFromFiles" (p_LicenseInfoFromFiles p) else [])
    ++ opt "PackageLicenseDeclared" (p_LicenseDeclared p)
    ++ opt_text "PackageLicenseComments" (p_LicenseComments p)
    ++ opt_text "PackageCopyrightText" (p_CopyrightText p)
    ++ opt_text "PackageSummary" (p_Summary p)
    ++ opt_text "PackageDescription" (p_Description p)
    ++ opt_text "PackageComment" (p_Comment p)
    ++ flat_map render_external_ref (p_ExternalReferences p)
    ++ match v with V21 => [] | _ => each_text "PackageAttributionText" (p_AttributionTexts p) end
    ++ [Raw LF].

  (** save_package.go 119-125: sort.Slice(pkg.Files) in place *)
  Definition sort_package (p : Package) : Package :=
    set_p_Files (sort_by so f_SPDXIdentifier (p_Files p)) p.
  (** save_package.go 15-129 (the files are rendered after having been sorted) *)
  Definition render_package (p : Package) : list chunk :=
    render_package_fields p ++ flat_map render_file (sort_by so f_SPDXIdentifier (p_Files p)).

  (** save_document.go 42-45 *)
  Definition render_edr (e : ExternalDocumentRef) : list chunk :=
    [Field "ExternalDocumentRef"
       ("DocumentRef-" ++ edr_DocumentRefID e ++ " " ++ edr_URI e ++ " "
        ++ ck_Algorithm (edr_Checksum e) ++ ":" ++ ck_Value (edr_Checksum e))].

  (** The caller's document after the call: the slices are sorted in place. *)
  Definition sorted_document (d : Document) : Document :=
    set_d_ExternalDocumentReferences (sort_by so edr_DocumentRefID (d_ExternalDocumentReferences d))
      (set_d_Files (sort_by so f_SPDXIdentifier (d_Files d))
        (set_d_Packages (map sort_package (sort_by so p_SPDXIdentifier (d_Packages d))) d)).

  (** save_document.go 24-48: header fields *)
  Definition render_header (d : Document) : list chunk :=
    opt "SPDXVersion" (d_SPDXVersion d)
    ++ opt "DataLicense" (d_DataLicense d)
    ++ (if nonempty (d_SPDXIdentifier d) then [Field "SPDXID" (render_element_id (d_SPDXIdentifier d))] else [])
    ++ opt "DocumentName" (d_DocumentName d)
    ++ opt "DocumentNamespace" (d_DocumentNamespace d)
    ++ flat_map render_edr (sort_by so edr_DocumentRefID (d_ExternalDocumentReferences d))
    ++ opt_text "DocumentComment" (d_DocumentComment d).

  (** a section with a header line, printed only if the list is not empty *)
  Definition section {A} (title : string) (l : list A) (body : list chunk) : list chunk :=
    match l with [] => [] | _ => Raw ("##### " ++ title ++ LF ++ LF) :: body end.

  (** save_document.go 52-103: everything after the creation info *)
  Definition render_sections (d : Document) : list chunk :=
    section "Unpackaged files" (d_Files d) (flat_map render_file (sort_by so f_SPDXIdentifier (d_Files d)))
    ++ flat_map (fun p => Raw ("##### Package: " ++ p_PackageName p ++ LF ++ LF) :: render_package p)
                (sort_by so p_SPDXIdentifier (d_Packages d))
    ++ section "Other Licenses" (d_OtherLicenses d) (flat_map render_other_license (d_OtherLicenses d))
    ++ section "Relationships" (d_Relationships d)
         (flat_map render_relationship (d_Relationships d) ++ [Raw LF])
    ++ section "Annotations" (d_Annotations d)
         (flat_map (fun a => (render_annotation a ++ [Raw LF])%list) (d_Annotations d))
    ++ section "Reviews" (d_Reviews d) (flat_map render_review (d_Reviews d)).

  (** save_document.go 19-103 (RenderDocument): the chunks written *)
  Definition render_document_chunks (d : Document) : res (list chunk) :=
    match d_CreationInfo d with
    | None => Err "Document had nil CreationInfo section"
    | Some ci => Ok (render_header d ++ render_creation_info ci ++ render_sections d)%list
    end.
  (** the bytes written and the document afterwards *)
  Definition render_document (d : Document) : res (string * Document) :=
    let* l := render_document_chunks d in Ok (bytes l, sorted_document d).
End Writer.
