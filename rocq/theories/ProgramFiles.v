(** * The programs examples/5-report and examples/6-licensediff from their arguments on.

    The texts of errors are left out.  Where a package, a file of a package or a
    relationship is nil the model breaks off at once, the programs where they come
    to it; no document read from tag-value text has one (proved). *)
From Verif Require Import GoStr Sorting Types TvUtil TvReader TvParser TvState SpdxLib LicenseTools Convert ConvertGo Json JsonSpdx JsonText Formats Stream Transfer TabWriter Report Programs.
Local Open Scope string_scope.

(** How a run ends, and what was printed before the message about that. *)
Inductive ending := Finished | Usage | Unopened (path : string) | Unloaded (path : string) | Undescribed (path : string) | BrokeOff.
Record tool_run := MkTool { said : string; ended : ending }.

(** The document as the programs see it: they do not look at other lists of pointers,
    in which nil elements are left out here. *)
Definition present {A} (l : list (option A)) : list A := flat_map (fun o => match o with Some x => [x] | None => [] end) l.
Definition seen_file (f : JFile) : File :=
  MkFile (f_FileName f) (f_SPDXIdentifier f) (f_FileTypes f) (f_Checksums f) (f_LicenseConcluded f)
    (f_LicenseInfoInFiles f) (f_LicenseComments f) (f_CopyrightText f) (present (f_Artifacts f)) (f_Comment f) (f_Notice f)
    (f_Contributors f) (f_AttributionTexts f) (f_Dependencies f) (f_Snippets f) (f_Annotations f).
Definition seen_package (p : JPackage) : Package :=
  MkPackage (p_IsUnpackaged p) (p_PackageName p) (p_SPDXIdentifier p) (p_Version p) (p_FileName p)
    (p_Supplier p) (p_Originator p) (p_DownloadLocation p) (p_FilesAnalyzed p) (p_IsFilesAnalyzedTagPresent p)
    (p_VerificationCode p) (p_Checksums p) (p_HomePage p) (p_SourceInfo p) (p_LicenseConcluded p)
    (p_LicenseInfoFromFiles p) (p_LicenseDeclared p) (p_LicenseComments p) (p_CopyrightText p) (p_Summary p)
    (p_Description p) (p_Comment p) (present (p_ExternalReferences p)) (p_AttributionTexts p) (p_PrimaryPackagePurpose p) (p_ReleaseDate p)
    (p_BuiltDate p) (p_ValidUntilDate p) (map seen_file (present (p_Files p))) (p_Annotations p).
Definition seen_document (d : JDocument) : Document :=
  MkDoc (d_SPDXVersion d) (d_DataLicense d) (d_SPDXIdentifier d) (d_DocumentName d) (d_DocumentNamespace d)
    (d_ExternalDocumentReferences d) (d_DocumentComment d) (d_CreationInfo d) (map seen_package (present (d_Packages d)))
    (map seen_file (present (d_Files d))) (present (d_OtherLicenses d)) (present (d_Relationships d)) (present (d_Annotations d)) (d_Snippets d) (d_Reviews d).
Definition is_nil {A} (o : option A) : bool := match o with None => true | Some _ => false end.
Definition has_nil (d : JDocument) : bool :=
  existsb (fun o => match o with None => true | Some p => existsb is_nil (p_Files p) end) (d_Packages d) || existsb is_nil (d_Relationships d).

(** example_report.go 40-44, example_licensediff.go 45-49, 70-74 *)
Definition load_seen (dz : bool) (s : stream) : res Document :=
  let* g := tagvalue_read_from dz V23 s in
  match of_document g with
  | None => Panic
  | Some d => if has_nil d then Panic else Ok (seen_document d)
  end.

(** examples/5-report/example_report.go 20-98 *)
Definition report_file (srt : sorter) (cs : count_sorter) (dz : bool) (h : host) (args : list string) : tool_run :=
  match args with
  | [_; path] =>
      match opens h path with
      | None => MkTool "" (Unopened path)
      | Some s =>
          match load_seen dz s with
          | Err _ => MkTool "" (Unloaded path)
          | Panic => MkTool "" BrokeOff
          | Ok d =>
              let text := "Successfully loaded " ++ path ++ LF ++ LF in
              match get_described_package_ids srt d with
              | Err _ => MkTool text (Undescribed path)
              | Panic => MkTool text BrokeOff
              | Ok ids =>
                  match report_packages cs ids (d_Packages d) with
                  | Ok t => MkTool (text ++ t) Finished
                  | _ => MkTool text BrokeOff
                  end
              end
          end
      end
  | _ => MkTool "" Usage
  end.

(** example_licensediff.go 36-59 and 61-83: the loading of one of the two documents *)
Definition load_described (srt : sorter) (dz : bool) (h : host) (path : string) : (Document * list string) + ending :=
  match opens h path with
  | None => inr (Unopened path)
  | Some s =>
      match load_seen dz s with
      | Err _ => inr (Unloaded path)
      | Panic => inr BrokeOff
      | Ok d =>
          match get_described_package_ids srt d with
          | Err _ => inr (Undescribed path)
          | Panic => inr BrokeOff
          | Ok ids => inl (d, ids)
          end
      end
  end.
(** examples/6-licensediff/example_licensediff.go 24-169 *)
Definition diff_files (srt : sorter) iter (dz : bool) (h : host) (args : list string) : tool_run :=
  match args with
  | [_; first; second] =>
      match load_described srt dz h first with
      | inr e => MkTool "" e
      | inl (d1, ids1) =>
          let text := "Successfully loaded first SPDX file " ++ first ++ LF in
          match load_described srt dz h second with
          | inr e => MkTool text e
          | inl (d2, ids2) =>
              MkTool (text ++ "Successfully loaded second SPDX file " ++ second ++ LF ++ LF
                      ++ String.concat "" (map (diff_first iter d1 d2) ids1) ++ String.concat "" (map (diff_second d1 d2) ids2)) Finished
          end
      end
  | _ => MkTool "" Usage
  end.
