(** From one format to another: the programs examples/8-jsontotv and
    examples/9-tvtojson of /repo, and tagvalue.Write for a document whose
    pointers to elements may be nil. *)
From Verif Require Import GoStr Sorting Types TvUtil TvReader TvParser TvWriter Json JsonSpdx JsonText.

(** The document without pointers, if none of them is nil. *)
Fixpoint all_some {A} (l : list (option A)) : option (list A) :=
  match l with
  | [] => Some []
  | Some x :: l => option_map (cons x) (all_some l)
  | None :: _ => None
  end.

Definition pointee {A B} (f : A -> option B) (o : option A) : option B := match o with Some x => f x | None => None end.
Definition plain_file (f : JFile) : option File :=
  match all_some (f_Artifacts f) with
  | None => None
  | Some artifacts => Some
    (MkFile (f_FileName f) (f_SPDXIdentifier f) (f_FileTypes f) (f_Checksums f) (f_LicenseConcluded f)
      (f_LicenseInfoInFiles f) (f_LicenseComments f) (f_CopyrightText f) artifacts (f_Comment f) (f_Notice f)
      (f_Contributors f) (f_AttributionTexts f) (f_Dependencies f) (f_Snippets f) (f_Annotations f))
  end.
Definition plain_package (p : JPackage) : option Package :=
  match all_some (p_ExternalReferences p), all_some (map (pointee plain_file) (p_Files p)) with
  | Some refs, Some files => Some
    (MkPackage (p_IsUnpackaged p) (p_PackageName p) (p_SPDXIdentifier p) (p_Version p) (p_FileName p)
      (p_Supplier p) (p_Originator p) (p_DownloadLocation p) (p_FilesAnalyzed p) (p_IsFilesAnalyzedTagPresent p)
      (p_VerificationCode p) (p_Checksums p) (p_HomePage p) (p_SourceInfo p) (p_LicenseConcluded p)
      (p_LicenseInfoFromFiles p) (p_LicenseDeclared p) (p_LicenseComments p) (p_CopyrightText p) (p_Summary p)
      (p_Description p) (p_Comment p) refs (p_AttributionTexts p) (p_PrimaryPackagePurpose p) (p_ReleaseDate p)
      (p_BuiltDate p) (p_ValidUntilDate p) files (p_Annotations p))
  | _, _ => None
  end.
Definition plain_document (d : JDocument) : option Document :=
  match all_some (map (pointee plain_package) (d_Packages d)), all_some (map (pointee plain_file) (d_Files d)),
        all_some (d_OtherLicenses d), all_some (d_Relationships d), all_some (d_Annotations d) with
  | Some packages, Some files, Some licenses, Some relationships, Some annotations => Some
    (MkDoc (d_SPDXVersion d) (d_DataLicense d) (d_SPDXIdentifier d) (d_DocumentName d) (d_DocumentNamespace d)
      (d_ExternalDocumentReferences d) (d_DocumentComment d) (d_CreationInfo d) packages files licenses
      relationships annotations (d_Snippets d) (d_Reviews d))
  | _, _, _, _, _ => None
  end.

(** Write, tagvalue/writer.go 23-34, which calls RenderDocument,
    spdx/v2/v2_1/tagvalue/writer/save_document.go 20-104, v2_2 20-104, v2_3
    19-103: a nil pointer is dereferenced by the comparison function that sorts
    the packages or files, or by the statements that print the element
    (save_package.go 108-127, save_file.go 41-48, save_other_license.go,
    save_relationship.go, save_annotation.go).  What was printed before is not
    modelled in that case. *)
Definition tagvalue_write (so : sorter) (v : version) (d : JDocument) : res (string * JDocument) :=
  match d_CreationInfo d, plain_document d with
  | None, _ => Err "Document had nil CreationInfo section"
  | Some _, None => Panic
  | Some _, Some d =>
      let* (t, d') := render_document so v d in
      Ok (t, jdoc d')
  end.

(** examples/9-tvtojson/exampletvtojson.go 38-72, without files and messages:
    the text is read and written as JSON.  The program reads into a 2.3
    document; here the document has the version of the text, as with ReadInto
    (tagvalue/reader.go 33-71) and a document of that version. *)
Definition tv_to_json (h : bool) (ind : string) (text : string) : res string :=
  let* (v, d) := read_into text in
  match d with
  | Some d => json_write v h ind (jdoc d)
  | None => Panic
  end.
(** examples/8-jsontotv/examplejsontotv.go 38-64, in the same way *)
Definition json_to_tv (so : sorter) (text : string) : res string :=
  let* (v, d) := json_read_into text in
  let* (t, _) := tagvalue_write so v d in Ok t.
