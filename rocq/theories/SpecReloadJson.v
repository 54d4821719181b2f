(** * Loading JSON, saving it and loading it again: which parts need care *)
From Verif Require Import GoStr Types TvUtil SpecTv SpecId SpecDoc SpecJson.
Local Open Scope string_scope.

(** Identifiers, references and the names of people, organizations and tools can
    be written in JSON and read back.  Nothing is asked of other texts. *)
Section Settled.
  Variable h : bool.
  Definition annotation_settled (a : Annotation) : Prop :=
    json_actor h (an_AnnotatorType (a_Annotator a)) (an_Annotator (a_Annotator a)).
  Definition pointer_settled (p : RangePointer) : Prop := json_id h "SPDXRef-" (rp_FileSPDXIdentifier p).
  Definition snippet_settled (s : Snippet) : Prop :=
    json_id h "SPDXRef-" (s_SPDXIdentifier s) /\ json_id h "SPDXRef-" (s_FromFile s) /\
    Forall (fun r => pointer_settled (sr_StartPointer r) /\ pointer_settled (sr_EndPointer r)) (s_Ranges s).
  Definition file_settled (f : JFile) : Prop :=
    json_id h "SPDXRef-" (f_SPDXIdentifier f) /\ Forall annotation_settled (f_Annotations f).
  Definition package_settled (p : JPackage) : Prop :=
    json_id h "SPDXRef-" (p_SPDXIdentifier p) /\
    opt_ok (fun s => json_agent h (su_SupplierType s) (su_Supplier s)) (p_Supplier p) /\
    opt_ok (fun s => json_agent h (or_OriginatorType s) (or_Originator s)) (p_Originator p) /\
    Forall (opt_ok file_settled) (p_Files p) /\ Forall annotation_settled (p_Annotations p).
  Definition settled (d : JDocument) : Prop :=
    json_id h "SPDXRef-" (d_SPDXIdentifier d) /\
    Forall (fun e => json_id h "DocumentRef-" (edr_DocumentRefID e)) (d_ExternalDocumentReferences d) /\
    opt_ok (fun c => Forall (fun c => json_actor h (cr_CreatorType c) (cr_Creator c)) (ci_Creators c)) (d_CreationInfo d) /\
    Forall (opt_ok package_settled) (d_Packages d) /\ Forall (opt_ok file_settled) (d_Files d) /\
    Forall (opt_ok (fun r => json_ref h (r_RefA r) /\ json_ref h (r_RefB r))) (d_Relationships d) /\
    Forall (opt_ok annotation_settled) (d_Annotations d) /\ Forall snippet_settled (d_Snippets d).
End Settled.

(** The only difference after loading again: from 2.2 on, every package is marked
    as having a filesAnalyzed member. *)
Definition mark (v : version) (p : JPackage) : JPackage :=
  MkPackage (p_IsUnpackaged p) (p_PackageName p) (p_SPDXIdentifier p) (p_Version p) (p_FileName p) (p_Supplier p) (p_Originator p)
    (p_DownloadLocation p) (p_FilesAnalyzed p) (match v with V21 => p_IsFilesAnalyzedTagPresent p | _ => true end)
    (p_VerificationCode p) (p_Checksums p) (p_HomePage p) (p_SourceInfo p) (p_LicenseConcluded p) (p_LicenseInfoFromFiles p)
    (p_LicenseDeclared p) (p_LicenseComments p) (p_CopyrightText p) (p_Summary p) (p_Description p) (p_Comment p)
    (p_ExternalReferences p) (p_AttributionTexts p) (p_PrimaryPackagePurpose p) (p_ReleaseDate p) (p_BuiltDate p) (p_ValidUntilDate p)
    (p_Files p) (p_Annotations p).
Definition marked (v : version) (d : JDocument) : JDocument :=
  MkDoc (d_SPDXVersion d) (d_DataLicense d) (d_SPDXIdentifier d) (d_DocumentName d) (d_DocumentNamespace d)
    (d_ExternalDocumentReferences d) (d_DocumentComment d) (d_CreationInfo d) (map (option_map (mark v)) (d_Packages d))
    (d_Files d) (d_OtherLicenses d) (d_Relationships d) (d_Annotations d) (d_Snippets d) (d_Reviews d).
