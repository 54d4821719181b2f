(** * The documents of the other models as Go structures.

    [Types.v] has one record for the documents of all three versions. Here is the
    Go structure of version [v] that such a record stands for, with the fields of
    the type tables of [Convert.v] in their order. An empty list stands for the
    nil slice, and for the nil map. *)
From Verif Require Import GoStr Types TvUtil TvReader TvParser Convert.

(** slices, strings, pointers and maps of the structures below *)
Definition go_list {A} (f : A -> gval) (l : list A) : gval := match l with [] => VNil | _ => VSlice (map f l) end.
Definition go_strs : list string -> gval := go_list VStr.
Definition go_ptr {A} (f : A -> gval) (o : option A) : gval := match o with Some x => VPtr (f x) | None => VNil end.
Definition go_ptrs {A} (f : A -> gval) : list A -> gval := go_list (fun x => VPtr (f x)).
Definition go_map {A} (f : A -> gval) (m : list (string * A)) : gval :=
  match m with [] => VNil | _ => VMap (map (fun e => (fst e, VPtr (f (snd e)))) m) end.

(** spdx/v2/common/identifier.go 118-122 *)
Definition go_ref (r : DocElementID) : gval :=
  VStruct [("DocumentRefID", VStr (de_DocumentRefID r)); ("ElementRefID", VStr (de_ElementRefID r)); ("SpecialID", VStr (de_SpecialID r))].
(** spdx/v2/common/checksum.go 31-34 *)
Definition go_checksum (c : Checksum) : gval := VStruct [("Algorithm", VStr (ck_Algorithm c)); ("Value", VStr (ck_Value c))].
(** spdx/v2/common/creation_info.go 14-18 *)
Definition go_creator (c : Creator) : gval := VStruct [("Creator", VStr (cr_Creator c)); ("CreatorType", VStr (cr_CreatorType c))].
(** spdx/v2/common/annotation.go 12-16 *)
Definition go_annotator (c : Annotator) : gval :=
  VStruct [("Annotator", VStr (an_Annotator c)); ("AnnotatorType", VStr (an_AnnotatorType c))].
(** spdx/v2/common/package.go 12-17 *)
Definition go_supplier (c : Supplier) : gval := VStruct [("Supplier", VStr (su_Supplier c)); ("SupplierType", VStr (su_SupplierType c))].
(** spdx/v2/common/package.go 55-60 *)
Definition go_originator (c : Originator) : gval :=
  VStruct [("Originator", VStr (or_Originator c)); ("OriginatorType", VStr (or_OriginatorType c))].
(** spdx/v2/common/package.go 96-104 *)
Definition go_code (c : VerificationCode) : gval :=
  VStruct [("Value", VStr (vc_Value c)); ("ExcludedFiles", go_strs (vc_ExcludedFiles c))].
(** spdx/v2/common/snippet.go 5-15 *)
Definition go_pointer (p : RangePointer) : gval :=
  VStruct [("Offset", VInt (rp_Offset p)); ("LineNumber", VInt (rp_LineNumber p)); ("FileSPDXIdentifier", VStr (rp_FileSPDXIdentifier p))].
(** spdx/v2/common/snippet.go 17-20 *)
Definition go_range (r : SnippetRange) : gval :=
  VStruct [("StartPointer", go_pointer (sr_StartPointer r)); ("EndPointer", go_pointer (sr_EndPointer r))].
(** spdx/v2/v2_{1,2,3}/annotation.go 10-31 *)
Definition go_annotation (a : Annotation) : gval :=
  VStruct [("Annotator", go_annotator (a_Annotator a)); ("AnnotationDate", VStr (a_Date a)); ("AnnotationType", VStr (a_Type a));
           ("AnnotationSPDXIdentifier", go_ref (a_SPDXIdentifier a)); ("AnnotationComment", VStr (a_Comment a))].
(** spdx/v2/v2_3/creation_info.go 10-27 and its v2_1, v2_2 counterparts *)
Definition go_creation_info (c : CreationInfo) : gval :=
  VStruct [("LicenseListVersion", VStr (ci_LicenseListVersion c)); ("Creators", go_list go_creator (ci_Creators c));
           ("Created", VStr (ci_Created c)); ("CreatorComment", VStr (ci_CreatorComment c))].
(** spdx/v2/v2_3/document.go 18-29 and its v2_1, v2_2 counterparts *)
Definition go_external_document (e : ExternalDocumentRef) : gval :=
  VStruct [("DocumentRefID", VStr (edr_DocumentRefID e)); ("URI", VStr (edr_URI e)); ("Checksum", go_checksum (edr_Checksum e))].
(** spdx/v2/v2_3/other_license.go 6-30 and its v2_1, v2_2 counterparts *)
Definition go_license (l : OtherLicense) : gval :=
  VStruct [("LicenseIdentifier", VStr (ol_LicenseIdentifier l)); ("ExtractedText", VStr (ol_ExtractedText l));
           ("LicenseName", VStr (ol_LicenseName l)); ("LicenseCrossReferences", go_strs (ol_CrossReferences l));
           ("LicenseComment", VStr (ol_Comment l))].
(** spdx/v2/v2_3/relationship.go 10-24 and its v2_1, v2_2 counterparts *)
Definition go_relationship (r : Relationship) : gval :=
  VStruct [("RefA", go_ref (r_RefA r)); ("RefB", go_ref (r_RefB r)); ("Relationship", VStr (r_Relationship r));
           ("RelationshipComment", VStr (r_Comment r))].
(** spdx/v2/v2_{1,2,3}/review.go 7-25 *)
Definition go_review (r : Review) : gval :=
  VStruct [("Reviewer", VStr (rv_Reviewer r)); ("ReviewerType", VStr (rv_ReviewerType r)); ("ReviewDate", VStr (rv_Date r));
           ("ReviewComment", VStr (rv_Comment r))].
(** spdx/v2/v2_3/file.go 82-98 and its v2_1, v2_2 counterparts *)
Definition go_artifact (a : Artifact) : gval :=
  VStruct [("Name", VStr (ar_Name a)); ("HomePage", VStr (ar_HomePage a)); ("URI", VStr (ar_URI a))].
(** spdx/v2/v2_3/package.go 179-194 and its v2_1, v2_2 counterparts *)
Definition go_external_ref (e : ExternalRef) : gval :=
  VStruct [("Category", VStr (er_Category e)); ("RefType", VStr (er_RefType e)); ("Locator", VStr (er_Locator e));
           ("ExternalRefComment", VStr (er_Comment e))].
(** spdx/v2/v2_1/snippet.go 10-46, v2_{2,3}/snippet.go 10-50 *)
Definition go_snippet (v : version) (s : Snippet) : gval :=
  VStruct ([("SnippetSPDXIdentifier", VStr (s_SPDXIdentifier s)); ("SnippetFromFileSPDXIdentifier", VStr (s_FromFile s));
            ("Ranges", go_list go_range (s_Ranges s)); ("SnippetLicenseConcluded", VStr (s_LicenseConcluded s));
            ("LicenseInfoInSnippet", go_strs (s_LicenseInfoInSnippet s)); ("SnippetLicenseComments", VStr (s_LicenseComments s));
            ("SnippetCopyrightText", VStr (s_CopyrightText s)); ("SnippetComment", VStr (s_Comment s)); ("SnippetName", VStr (s_Name s))]
           ++ match v with V21 => [] | _ => [("SnippetAttributionTexts", go_strs (s_AttributionTexts s))] end).
(** spdx/v2/v2_1/file.go 10-72, v2_{2,3}/file.go 10-76; [artifact] is the
    element of the slice, a pointer, for what stands for it *)
Definition go_file_of {A} (artifact : A -> gval) (v : version) (f : FileOf Snippet A) : gval :=
  VStruct ([("FileName", VStr (f_FileName f)); ("FileSPDXIdentifier", VStr (f_SPDXIdentifier f)); ("FileTypes", go_strs (f_FileTypes f));
            ("Checksums", go_list go_checksum (f_Checksums f)); ("LicenseConcluded", VStr (f_LicenseConcluded f));
            ("LicenseInfoInFiles", go_strs (f_LicenseInfoInFiles f)); ("LicenseComments", VStr (f_LicenseComments f));
            ("FileCopyrightText", VStr (f_CopyrightText f)); ("ArtifactOfProjects", go_list artifact (f_Artifacts f));
            ("FileComment", VStr (f_Comment f)); ("FileNotice", VStr (f_Notice f)); ("FileContributors", go_strs (f_Contributors f))]
           ++ match v with V21 => [] | _ => [("FileAttributionTexts", go_strs (f_AttributionTexts f))] end
           ++ [("FileDependencies", go_strs (f_Dependencies f)); ("Snippets", go_map (go_snippet v) (f_Snippets f));
               ("Annotations", go_list go_annotation (f_Annotations f))]).
Definition go_file : version -> File -> gval := go_file_of (fun a => VPtr (go_artifact a)).
(** spdx/v2/v2_1/package.go 10-103, v2_2/package.go 14-124, v2_3/package.go 14-142 *)
Definition go_package_of {F E} (file : F -> gval) (ref : E -> gval) (v : version) (p : PackageOf F E) : gval :=
  VStruct (match v with V21 => [] | _ => [("IsUnpackaged", VBool (p_IsUnpackaged p))] end
           ++ [("PackageName", VStr (p_PackageName p)); ("PackageSPDXIdentifier", VStr (p_SPDXIdentifier p));
               ("PackageVersion", VStr (p_Version p)); ("PackageFileName", VStr (p_FileName p));
               ("PackageSupplier", go_ptr go_supplier (p_Supplier p)); ("PackageOriginator", go_ptr go_originator (p_Originator p));
               ("PackageDownloadLocation", VStr (p_DownloadLocation p)); ("FilesAnalyzed", VBool (p_FilesAnalyzed p));
               ("IsFilesAnalyzedTagPresent", VBool (p_IsFilesAnalyzedTagPresent p));
               ("PackageVerificationCode", match v with
                                           | V23 => go_ptr go_code (p_VerificationCode p)
                                           | _ => go_code (match p_VerificationCode p with Some c => c | None => zero_VerificationCode end)
                                           end);
               ("PackageChecksums", go_list go_checksum (p_Checksums p)); ("PackageHomePage", VStr (p_HomePage p));
               ("PackageSourceInfo", VStr (p_SourceInfo p)); ("PackageLicenseConcluded", VStr (p_LicenseConcluded p));
               ("PackageLicenseInfoFromFiles", go_strs (p_LicenseInfoFromFiles p)); ("PackageLicenseDeclared", VStr (p_LicenseDeclared p));
               ("PackageLicenseComments", VStr (p_LicenseComments p)); ("PackageCopyrightText", VStr (p_CopyrightText p));
               ("PackageSummary", VStr (p_Summary p)); ("PackageDescription", VStr (p_Description p));
               ("PackageComment", VStr (p_Comment p)); ("PackageExternalReferences", go_list ref (p_ExternalReferences p))]
           ++ match v with V21 => [] | _ => [("PackageAttributionTexts", go_strs (p_AttributionTexts p))] end
           ++ match v with
              | V23 => [("PrimaryPackagePurpose", VStr (p_PrimaryPackagePurpose p)); ("ReleaseDate", VStr (p_ReleaseDate p));
                        ("BuiltDate", VStr (p_BuiltDate p)); ("ValidUntilDate", VStr (p_ValidUntilDate p))]
              | _ => []
              end
           ++ [("Files", go_list file (p_Files p)); ("Annotations", go_list go_annotation (p_Annotations p))]).
Definition go_package (v : version) : Package -> gval :=
  go_package_of (fun f => VPtr (go_file v f)) (fun e => VPtr (go_external_ref e)) v.
(** spdx/v2/v2_1/document.go 30-70, v2_2/document.go 34-74, v2_3/document.go 33-73 *)
Definition go_document_of {P F L R A} (package : P -> gval) (file : F -> gval) (license : L -> gval) (relationship : R -> gval)
    (annotation : A -> gval) (v : version) (d : DocumentOf P F L R A) : gval :=
  VStruct [("SPDXVersion", VStr (d_SPDXVersion d)); ("DataLicense", VStr (d_DataLicense d)); ("SPDXIdentifier", VStr (d_SPDXIdentifier d));
           ("DocumentName", VStr (d_DocumentName d)); ("DocumentNamespace", VStr (d_DocumentNamespace d));
           ("ExternalDocumentReferences", go_list go_external_document (d_ExternalDocumentReferences d));
           ("DocumentComment", VStr (d_DocumentComment d)); ("CreationInfo", go_ptr go_creation_info (d_CreationInfo d));
           ("Packages", go_list package (d_Packages d)); ("Files", go_list file (d_Files d));
           ("OtherLicenses", go_list license (d_OtherLicenses d)); ("Relationships", go_list relationship (d_Relationships d));
           ("Annotations", go_list annotation (d_Annotations d)); ("Snippets", go_list (go_snippet v) (d_Snippets d));
           ("Reviews", go_ptrs go_review (d_Reviews d))].
Definition go_document (v : version) : Document -> gval :=
  go_document_of (fun p => VPtr (go_package v p)) (fun f => VPtr (go_file v f)) (fun l => VPtr (go_license l))
    (fun r => VPtr (go_relationship r)) (fun a => VPtr (go_annotation a)) v.

(** tagvalue/reader.go 25-71 (Read, ReadInto): the document of the version found
    in the text, converted to the one asked for ([Read] asks for 2.3) *)
Definition tagvalue_read (dz : bool) (to : version) (content : string) : res gval :=
  let* (from, d) := read_into content in
  match d with
  | Some d => convert_document dz from to (go_document from d)
  | None => Panic (* reflect.Value.Type of the zero Value *)
  end.
