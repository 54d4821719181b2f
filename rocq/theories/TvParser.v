(** * Tag-value parser: /repo/spdx/v2/v2_3/tagvalue/reader/*.go
    (and v2_2, v2_1, selected by the [version] argument).

    Simplifications: an error aborts the parse, so the partial updates the Go
    code makes before returning an error are not modelled; nil and empty slices
    are identified; v2_2 and v2_1 store PackageVerificationCode by value, here
    [None] stands for its zero value. *)
From Verif Require Import GoStr Types TvState TvUtil TvReader.

(** Update through a pointer. *)
Fixpoint update_nth {A} (i : nat) (f : A -> A) (l : list A) {struct l} : option (list A) :=
  match l, i with
  | [], _ => None
  | x :: r, O => Some (f x :: r)
  | x :: r, S j => match update_nth j f r with Some r' => Some (x :: r') | None => None end
  end.

(** Assignment to a map: replace the entry, or add one. *)
Fixpoint map_put {A} (k : string) (x : A) (m : list (string * A)) : list (string * A) :=
  match m with
  | [] => [(k, x)]
  | (k', y) :: r => if String.eqb k k' then (k, x) :: r else (k', y) :: map_put k x r
  end.

(** Writes through the parser's pointers; a nil pointer panics. *)
Definition upd_doc (f : DocumentArena -> DocumentArena) (s : pstate) : res pstate :=
  match ps_doc s with None => Panic | Some d => Ok (set_ps_doc (Some (f d)) s) end.

Definition upd_ptr {A} (ptr : option nat) (arena : list A) (f : A -> A)
  (store : list A -> pstate) : res pstate :=
  match ptr with
  | None => Panic
  | Some i => match update_nth i f arena with Some l => Ok (store l) | None => Panic end
  end.
Definition upd_pkg (f : PackageArena -> PackageArena) (s : pstate) : res pstate :=
  upd_ptr (ps_pkg s) (ps_pkgs s) f (fun l => set_ps_pkgs l s).
Definition upd_file (f : FileArena -> FileArena) (s : pstate) : res pstate :=
  upd_ptr (ps_file s) (ps_files s) f (fun l => set_ps_files l s).
Definition upd_snip (f : Snippet -> Snippet) (s : pstate) : res pstate :=
  upd_ptr (ps_snip s) (ps_snips s) f (fun l => set_ps_snips l s).
(** otherLic, rln, ann and rev point into lists of the document. *)
Definition upd_in_doc {A} (ptr : option nat) (get : DocumentArena -> list A)
  (put : list A -> DocumentArena -> DocumentArena) (f : A -> A) (s : pstate) : res pstate :=
  match ptr, ps_doc s with
  | Some i, Some d =>
      match update_nth i f (get d) with
      | Some l => Ok (set_ps_doc (Some (put l d)) s)
      | None => Panic
      end
  | _, _ => Panic
  end.
Definition upd_lic f s := upd_in_doc (ps_lic s) d_OtherLicenses set_d_OtherLicenses f s.
Definition upd_rln f s := upd_in_doc (ps_rln s) d_Relationships set_d_Relationships f s.
Definition upd_ann f s := upd_in_doc (ps_ann s) d_Annotations set_d_Annotations f s.
Definition upd_rev f s := upd_in_doc (ps_rev s) d_Reviews set_d_Reviews f s.

(** Reads through pointers: [Ok None] for nil. *)
Definition get_ptr {A} (ptr : option nat) (arena : list A) : res (option A) :=
  match ptr with
  | None => Ok None
  | Some i => match nth_error arena i with Some x => Ok (Some x) | None => Panic end
  end.
Definition cur_file (s : pstate) := get_ptr (ps_file s) (ps_files s).
Definition cur_pkg (s : pstate) := get_ptr (ps_pkg s) (ps_pkgs s).

(** [parser.file != nil && parser.file.FileSPDXIdentifier == nullSpdxElementId]
    returns an error, e.g. parse_file.go 23-25 *)
Definition check_file_id (s : pstate) : res unit :=
  let* f := cur_file s in
  match f with
  | Some fl => if String.eqb (f_SPDXIdentifier fl) ""
               then Err "file does not have SPDX identifier" else Ok tt
  | None => Ok tt
  end.
(** the same for packages, parse_package.go 25-27 *)
Definition check_pkg_id (s : pstate) : res unit :=
  let* p := cur_pkg s in
  match p with
  | Some pk => if String.eqb (p_SPDXIdentifier pk) ""
               then Err "package does not have SPDX identifier" else Ok tt
  | None => Ok tt
  end.

Definition action := string -> pstate -> res pstate.

(** ** Relationships and annotations, parse_relationship.go, parse_annotation.go *)

(** [parser.rln = &Relationship{}; append to doc.Relationships], e.g.
    parse_package.go 184-187, then parse_relationship.go 10-48 *)
Definition do_relationship (v : version) : action := fun value s =>
  match ps_doc s with
  | None => Panic
  | Some d =>
      let s1 := set_ps_rln (Some (length (d_Relationships d)))
                 (set_ps_doc (Some (set_d_Relationships (d_Relationships d ++ [zero_Relationship]) d)) s) in
      let* (a, r, b) := extract_relationship v value in
      upd_rln (fun x => set_r_RefB b (set_r_Relationship r (set_r_RefA a x))) s1
  end.
(** parse_relationship.go 11-13, 50-53 *)
Definition do_relationship_comment : action := fun value s =>
  match ps_rln s with
  | None => Err "no relationship struct created in parser rln pointer"
  | Some _ => upd_rln (set_r_Comment value) s
  end.

(** parse_annotation.go 14-26, after [parser.ann = &Annotation{}] *)
Definition do_annotator : action := fun value s =>
  match ps_doc s with
  | None => Panic
  | Some d =>
      let s1 := set_ps_ann (Some (length (d_Annotations d)))
                 (set_ps_doc (Some (set_d_Annotations (d_Annotations d ++ [zero_Annotation]) d)) s) in
      let* (k, x) := extract_actor ["Person"; "Organization"; "Tool"] value in
      upd_ann (set_a_Annotator (MkAnnotator x k)) s1
  end.
(** parse_annotation.go 10-12: the nil check common to the other annotation tags *)
Definition with_ann (f : Annotation -> Annotation) (s : pstate) : res pstate :=
  match ps_ann s with
  | None => Err "no annotation struct created in parser ann pointer"
  | Some _ => upd_ann f s
  end.
Definition do_annotation_date : action := fun value => with_ann (set_a_Date value).
Definition do_annotation_type : action := fun value => with_ann (set_a_Type value).
Definition do_annotation_comment : action := fun value => with_ann (set_a_Comment value).
(** parse_annotation.go 31-36 *)
Definition do_spdxref : action := fun value s =>
  match ps_ann s with
  | None => Err "no annotation struct created in parser ann pointer"
  | Some _ => let* d := extract_doc_element_id value in upd_ann (set_a_SPDXIdentifier d) s
  end.

(** Cases present in every state but Start: e.g. parse_package.go 183-203 *)
Definition rel_ann_cases (v : version) : list (string * action) :=
  [("Relationship", do_relationship v);
   ("RelationshipComment", do_relationship_comment);
   ("Annotator", do_annotator);
   ("AnnotationDate", do_annotation_date);
   ("AnnotationType", do_annotation_type);
   ("SPDXREF", do_spdxref);
   ("AnnotationComment", do_annotation_comment)].

(** ** Reviews, parse_review.go *)
(** parse_review.go 14-34 *)
Definition do_reviewer : action := fun value s =>
  match ps_doc s with
  | None => Panic
  | Some d =>
      let s1 := set_ps_rev (Some (length (d_Reviews d)))
                 (set_ps_doc (Some (set_d_Reviews (d_Reviews d ++ [zero_Review]) d)) s) in
      let* (k, x) := extract_actor ["Person"; "Organization"; "Tool"] value in
      upd_rev (fun r => set_rv_ReviewerType k (set_rv_Reviewer x r)) s1
  end.
(** entering the review section, e.g. parse_package.go 205-207 *)
Definition enter_review : action := fun value s => do_reviewer value (set_ps_st PsReview s).
(** parse_review.go 11-63 (parsePairFromReview) *)
Definition review_cases (v : version) : list (string * action) :=
  [("Reviewer", do_reviewer);
   ("ReviewDate", fun value => upd_rev (set_rv_Date value));
   ("ReviewComment", fun value => upd_rev (set_rv_Comment value))] ++ rel_ann_cases v.

(** ** Other licenses, parse_other_license.go *)
(** parse_other_license.go 14-17 *)
Definition do_license_id : action := fun value s =>
  match ps_doc s with
  | None => Panic
  | Some d =>
      let s1 := set_ps_lic (Some (length (d_OtherLicenses d)))
                 (set_ps_doc (Some (set_d_OtherLicenses (d_OtherLicenses d ++ [zero_OtherLicense]) d)) s) in
      upd_lic (set_ol_LicenseIdentifier value) s1
  end.
(** entering the section, e.g. parse_package.go 38-40 *)
Definition enter_license : action := fun value s => do_license_id value (set_ps_st PsOtherLicense s).
(** parse_other_license.go 11-55 (parsePairFromOtherLicense) *)
Definition license_cases (v : version) : list (string * action) :=
  [("LicenseID", do_license_id);
   ("ExtractedText", fun value => upd_lic (set_ol_ExtractedText value));
   ("LicenseName", fun value => upd_lic (set_ol_LicenseName value));
   ("LicenseCrossReference", fun value =>
      upd_lic (fun o => set_ol_CrossReferences (ol_CrossReferences o ++ [value]) o));
   ("LicenseComment", fun value => upd_lic (set_ol_Comment value))]
  ++ rel_ann_cases v ++ [("Reviewer", enter_review)].

(** ** Packages, files, snippets: entering tags *)

(** [&Package{FilesAnalyzed: true}], parse_package.go 28-31 *)
Definition new_package : PackageArena := set_p_FilesAnalyzed true zero_PackageOf.

(** allocate a package and point to it *)
Definition alloc_pkg (s : pstate) : pstate :=
  set_ps_pkg (Some (length (ps_pkgs s))) (set_ps_pkgs (ps_pkgs s ++ [new_package]) s).

(** parsePairFromPackage with tag PackageName: parse_package.go 16-33 *)
Definition do_package_name : action := fun value s0 =>
  let s := set_ps_extref None s0 in
  let* p := cur_pkg s in
  match p with
  | None => upd_pkg (set_p_PackageName value) (alloc_pkg s)
  | Some pk =>
      if nonempty (p_PackageName pk) then
        let* _ := check_pkg_id s in
        upd_pkg (set_p_PackageName value) (alloc_pkg s)
      else upd_pkg (set_p_PackageName value) s
  end.

(** parsePairFromFile with tag FileName: parse_file.go 15-27 *)
Definition do_file_name : action := fun value s0 =>
  let s := set_ps_aop None s0 in
  let* _ := check_file_id s in
  Ok (set_ps_file (Some (length (ps_files s)))
       (set_ps_files (ps_files s ++ [set_f_FileName value zero_FileOf]) s)).

(** parsePairFromSnippet with tag SnippetSPDXID: parse_snippet.go 16-34 *)
Definition do_snippet_id : action := fun value s =>
  let* _ := check_file_id s in
  let* eid := extract_element_id value in
  let n := length (ps_snips s) in
  let s1 := set_ps_snip (Some n)
             (set_ps_snips (ps_snips s ++ [set_s_SPDXIdentifier eid zero_Snippet]) s) in
  match ps_file s1 with
  | None => Ok s1
  | Some _ => upd_file (fun f => set_f_Snippets (map_put eid n (f_Snippets f)) f) s1
  end.

(** ** Snippet section, parse_snippet.go *)
(** parse_snippet.go 36-39 *)
Definition snippet_to_file : action := fun value s =>
  do_file_name value (set_ps_snip None (set_ps_st PsFile s)).
(** parse_snippet.go 41-45 *)
Definition snippet_to_package : action := fun value s =>
  do_package_name value (set_ps_snip None (set_ps_file None (set_ps_st PsPackage s))).

Definition offset_range (a b : Z) : SnippetRange := MkRange (MkRP a 0 "") (MkRP b 0 "").
Definition line_range (a b : Z) : SnippetRange := MkRange (MkRP 0 a "") (MkRP 0 b "").

(** parse_snippet.go 13-137 (parsePairFromSnippet) *)
Definition snippet_cases (v : version) : list (string * action) :=
  [("SnippetSPDXID", do_snippet_id);
   ("FileName", snippet_to_file);
   ("PackageName", snippet_to_package);
   ("LicenseID", enter_license);
   ("SnippetFromFileSPDXID", fun value s =>
      let* d := extract_doc_element_id value in upd_snip (set_s_FromFile (de_ElementRefID d)) s);
   ("SnippetByteRange", fun value s =>
      let* (a, b) := extract_range value in
      upd_snip (fun x => set_s_Ranges (s_Ranges x ++ [offset_range a b]) x) s);
   ("SnippetLineRange", fun value s =>
      let* (a, b) := extract_range value in
      upd_snip (fun x => set_s_Ranges (s_Ranges x ++ [line_range a b]) x) s);
   ("SnippetLicenseConcluded", fun value => upd_snip (set_s_LicenseConcluded value));
   ("LicenseInfoInSnippet", fun value =>
      upd_snip (fun x => set_s_LicenseInfoInSnippet (s_LicenseInfoInSnippet x ++ [value]) x));
   ("SnippetLicenseComments", fun value => upd_snip (set_s_LicenseComments value));
   ("SnippetCopyrightText", fun value => upd_snip (set_s_CopyrightText value));
   ("SnippetComment", fun value => upd_snip (set_s_Comment value));
   ("SnippetName", fun value => upd_snip (set_s_Name value))]
  ++ match v with
     | V21 => []
     | _ => [("SnippetAttributionText", fun value =>
                upd_snip (fun x => set_s_AttributionTexts (s_AttributionTexts x ++ [value]) x))]
     end
  ++ rel_ann_cases v ++ [("Reviewer", enter_review)].

(** ** File section, parse_file.go *)
(** parse_file.go 29-36 *)
Definition file_to_package : action := fun value s0 =>
  let s := set_ps_st PsPackage s0 in
  let* _ := check_file_id s in
  do_package_name value (set_ps_file None s).
(** parse_file.go 38-40 *)
Definition file_to_snippet : action := fun value s => do_snippet_id value (set_ps_st PsSnippet s).
(** parse_file.go 46-63 *)
Definition do_file_spdxid : action := fun value s =>
  let* eid := extract_element_id value in
  let* s1 := upd_file (set_f_SPDXIdentifier eid) s in
  match ps_file s1 with
  | None => Panic
  | Some fi =>
      match ps_pkg s1 with
      | None => upd_doc (fun d => set_d_Files (d_Files d ++ [fi]) d) s1
      | Some _ => upd_pkg (fun p => set_p_Files (p_Files p ++ [fi]) p) s1
      end
  end.
(** parse_file.go 103-106 *)
Definition do_aop_name : action := fun value s =>
  match ps_file s with
  | None => Panic
  | Some fi =>
      match nth_error (ps_files s) fi with
      | None => Panic
      | Some f =>
          let* s1 := upd_file (fun x => set_f_Artifacts (f_Artifacts x ++ [MkArtifact value "" ""]) x) s in
          Ok (set_ps_aop (Some (fi, length (f_Artifacts f))) s1)
      end
  end.
(** parse_file.go 107-116 *)
Definition upd_aop (g : Artifact -> Artifact) (s : pstate) : res pstate :=
  match ps_aop s with
  | None => Err "no current ArtifactOfProject found"
  | Some (fi, ai) =>
      match nth_error (ps_files s) fi with
      | None => Panic
      | Some f =>
          match update_nth ai g (f_Artifacts f) with
          | None => Panic
          | Some l =>
              match update_nth fi (set_f_Artifacts l) (ps_files s) with
              | Some fs => Ok (set_ps_files fs s)
              | None => Panic
              end
          end
      end
  end.

(** parse_file.go 20-154: the cases of parsePairFromFile *)
Definition file_cases (v : version) : list (string * action) :=
  [("FileName", do_file_name);
   ("PackageName", file_to_package);
   ("SnippetSPDXID", file_to_snippet);
   ("LicenseID", enter_license);
   ("SPDXID", do_file_spdxid);
   ("FileType", fun value => upd_file (fun f => set_f_FileTypes (f_FileTypes f ++ [value]) f));
   ("FileChecksum", fun value s =>
      let* c := extract_checksum v value in
      upd_file (fun f => set_f_Checksums (f_Checksums f ++ [c]) f) s);
   ("LicenseConcluded", fun value => upd_file (set_f_LicenseConcluded value));
   ("LicenseInfoInFile", fun value =>
      upd_file (fun f => set_f_LicenseInfoInFiles (f_LicenseInfoInFiles f ++ [value]) f));
   ("LicenseComments", fun value => upd_file (set_f_LicenseComments value));
   ("FileCopyrightText", fun value => upd_file (set_f_CopyrightText value));
   ("ArtifactOfProjectName", do_aop_name);
   ("ArtifactOfProjectHomePage", fun value => upd_aop (set_ar_HomePage value));
   ("ArtifactOfProjectURI", fun value => upd_aop (set_ar_URI value));
   ("FileComment", fun value => upd_file (set_f_Comment value));
   ("FileNotice", fun value => upd_file (set_f_Notice value));
   ("FileContributor", fun value =>
      upd_file (fun f => set_f_Contributors (f_Contributors f ++ [value]) f));
   ("FileDependency", fun value =>
      upd_file (fun f => set_f_Dependencies (f_Dependencies f ++ [value]) f))]
  ++ match v with
     | V21 => []
     | _ => [("FileAttributionText", fun value =>
                upd_file (fun f => set_f_AttributionTexts (f_AttributionTexts f ++ [value]) f))]
     end
  ++ rel_ann_cases v ++ [("Reviewer", enter_review)].

(** ** Package section, parse_package.go *)
(** parse_package.go 34-36 *)
Definition package_to_file : action := fun value s => do_file_name value (set_ps_st PsFile s).
(** parse_package.go 42-50 *)
Definition do_pkg_spdxid : action := fun value s =>
  let* eid := extract_element_id value in
  let* s1 := upd_pkg (set_p_SPDXIdentifier eid) s in
  match ps_pkg s1 with
  | None => Panic
  | Some pi => upd_doc (fun d => set_d_Packages (d_Packages d ++ [pi]) d) s1
  end.
(** parse_package.go 55-74 *)
Definition do_supplier : action := fun value s =>
  if String.eqb value "NOASSERTION" then upd_pkg (set_p_Supplier (Some (MkSupplier value ""))) s
  else let* (k, x) := extract_actor ["Person"; "Organization"] value in
       upd_pkg (set_p_Supplier (Some (MkSupplier x k))) s.
(** parse_package.go 75-94 *)
Definition do_originator : action := fun value s =>
  if String.eqb value "NOASSERTION" then upd_pkg (set_p_Originator (Some (MkOriginator value ""))) s
  else let* (k, x) := extract_actor ["Person"; "Organization"] value in
       upd_pkg (set_p_Originator (Some (MkOriginator x k))) s.
(** parse_package.go 97-103 *)
Definition do_files_analyzed : action := fun value =>
  upd_pkg (fun p =>
    let p1 := set_p_IsFilesAnalyzedTagPresent true p in
    if String.eqb value "false" then set_p_FilesAnalyzed false p1
    else if String.eqb value "true" then set_p_FilesAnalyzed true p1 else p1).
(** parse_package.go 166-175 *)
Definition do_external_ref : action := fun value s =>
  match ps_pkg s with
  | None => Panic
  | Some pi =>
      match nth_error (ps_pkgs s) pi with
      | None => Panic
      | Some p =>
          let* (c, t, l) := extract_package_external_reference value in
          let* s1 := upd_pkg (fun x => set_p_ExternalReferences
                                 (p_ExternalReferences x ++ [MkER c t l ""]) x) s in
          Ok (set_ps_extref (Some (pi, length (p_ExternalReferences p))) s1)
      end
  end.
(** parse_package.go 176-182 *)
Definition do_external_ref_comment : action := fun value s =>
  match ps_extref s with
  | None => Err "no current ExternalRef found"
  | Some (pi, ei) =>
      match nth_error (ps_pkgs s) pi with
      | None => Panic
      | Some p =>
          match update_nth ei (set_er_Comment value) (p_ExternalReferences p) with
          | None => Panic
          | Some l =>
              match update_nth pi (set_p_ExternalReferences l) (ps_pkgs s) with
              | Some ps => Ok (set_ps_extref None (set_ps_pkgs ps s))
              | None => Panic
              end
          end
      end
  end.

(** parse_package.go 20-209: the cases of parsePairFromPackage *)
Definition package_cases (v : version) : list (string * action) :=
  [("PackageName", do_package_name);
   ("FileName", package_to_file);
   ("LicenseID", enter_license);
   ("SPDXID", do_pkg_spdxid);
   ("PackageVersion", fun value => upd_pkg (set_p_Version value));
   ("PackageFileName", fun value => upd_pkg (set_p_FileName value));
   ("PackageSupplier", do_supplier);
   ("PackageOriginator", do_originator);
   ("PackageDownloadLocation", fun value => upd_pkg (set_p_DownloadLocation value));
   ("FilesAnalyzed", do_files_analyzed);
   ("PackageVerificationCode", fun value =>
      upd_pkg (set_p_VerificationCode (Some (extract_code_and_excludes value))));
   ("PackageChecksum", fun value s =>
      let* c := extract_checksum v value in
      upd_pkg (fun p => set_p_Checksums (p_Checksums p ++ [c]) p) s);
   ("PackageHomePage", fun value => upd_pkg (set_p_HomePage value));
   ("PackageSourceInfo", fun value => upd_pkg (set_p_SourceInfo value));
   ("PackageLicenseConcluded", fun value => upd_pkg (set_p_LicenseConcluded value));
   ("PackageLicenseInfoFromFiles", fun value =>
      upd_pkg (fun p => set_p_LicenseInfoFromFiles (p_LicenseInfoFromFiles p ++ [value]) p));
   ("PackageLicenseDeclared", fun value => upd_pkg (set_p_LicenseDeclared value));
   ("PackageLicenseComments", fun value => upd_pkg (set_p_LicenseComments value));
   ("PackageCopyrightText", fun value => upd_pkg (set_p_CopyrightText value));
   ("PackageSummary", fun value => upd_pkg (set_p_Summary value));
   ("PackageDescription", fun value => upd_pkg (set_p_Description value));
   ("PackageComment", fun value => upd_pkg (set_p_Comment value))]
  ++ match v with
     | V23 =>
         [("PrimaryPackagePurpose", fun value => upd_pkg (set_p_PrimaryPackagePurpose value));
          ("ReleaseDate", fun value => upd_pkg (set_p_ReleaseDate value));
          ("BuiltDate", fun value => upd_pkg (set_p_BuiltDate value));
          ("ValidUntilDate", fun value => upd_pkg (set_p_ValidUntilDate value))]
     | _ => []
     end
  ++ match v with
     | V21 => []
     | _ => [("PackageAttributionText", fun value =>
                upd_pkg (fun p => set_p_AttributionTexts (p_AttributionTexts p ++ [value]) p))]
     end
  ++ [("ExternalRef", do_external_ref); ("ExternalRefComment", do_external_ref_comment)]
  ++ rel_ann_cases v ++ [("Reviewer", enter_review)].

(** ** Start and creation info, parser.go 53-99, parse_creation_info.go *)
(** parser.go 66-67 *)
Definition do_document_comment : action := fun value => upd_doc (set_d_DocumentComment value).
(** parser.go 81-92 *)
Definition do_external_document_ref : action := fun value s =>
  let* e := extract_external_document_reference value in
  upd_doc (fun d => set_d_ExternalDocumentReferences (d_ExternalDocumentReferences d ++ [e]) d) s.

(** writes through doc.CreationInfo, created on demand: parse_creation_info.go 19-23 *)
Definition upd_ci (f : CreationInfo -> CreationInfo) (s : pstate) : res pstate :=
  match ps_doc s with
  | None => Panic
  | Some d =>
      match d_CreationInfo d with
      | None => Panic
      | Some ci => Ok (set_ps_doc (Some (set_d_CreationInfo (Some (f ci)) d)) s)
      end
  end.
(** parse_creation_info.go 27-42 *)
Definition do_creator : action := fun value s =>
  let* (k, x) := extract_actor ["Person"; "Organization"; "Tool"] value in
  upd_ci (fun c => set_ci_Creators (ci_Creators c ++ [MkCreator x k]) c) s.
(** parse_creation_info.go 49-62 *)
Definition ci_to_package : action := fun value s =>
  let* _ := check_file_id s in
  do_package_name value (alloc_pkg (set_ps_st PsPackage s)).
(** parse_creation_info.go 64-68 *)
Definition ci_to_file : action := fun value s =>
  do_file_name value (set_ps_pkg None (set_ps_st PsFile s)).

(** parse_creation_info.go 24-105: the cases of parsePairFromCreationInfo; the
    last two set the state back to Start and are handled there *)
Definition ci_cases (v : version) : list (string * action) :=
  [("LicenseListVersion", fun value => upd_ci (set_ci_LicenseListVersion value));
   ("Creator", do_creator);
   ("Created", fun value => upd_ci (set_ci_Created value));
   ("CreatorComment", fun value => upd_ci (set_ci_CreatorComment value));
   ("PackageName", ci_to_package);
   ("FileName", ci_to_file);
   ("LicenseID", enter_license);
   ("Reviewer", enter_review)]
  ++ rel_ann_cases v
  ++ match v with
     | V21 => []
     | _ => [("DocumentComment", fun value s => do_document_comment value (set_ps_st PsStart s))]
     end
  ++ [("ExternalDocumentRef", fun value s => do_external_document_ref value (set_ps_st PsStart s))].

(** parse_creation_info.go 13-108 (parsePairFromCreationInfo) *)
Definition parse_creation_info (v : version) (tag value : string) (s : pstate) : res pstate :=
  match ps_doc s with
  | None => Panic
  | Some d =>
      let s1 := match d_CreationInfo d with
                | Some _ => s
                | None => set_ps_doc (Some (set_d_CreationInfo (Some zero_CreationInfo) d)) s
                end in
      switch tag (ci_cases v) (fun _ _ => Err "received unknown tag in CreationInfo section") value s1
  end.

(** parser.go 65-92: the cases of parsePairFromStart *)
Definition start_cases : list (string * action) :=
  [("DocumentComment", do_document_comment);
   ("SPDXVersion", fun value => upd_doc (set_d_SPDXVersion value));
   ("DataLicense", fun value => upd_doc (set_d_DataLicense value));
   ("SPDXID", fun value s =>
      let* eid := extract_element_id value in upd_doc (set_d_SPDXIdentifier eid) s);
   ("DocumentName", fun value => upd_doc (set_d_DocumentName value));
   ("DocumentNamespace", fun value => upd_doc (set_d_DocumentNamespace value));
   ("ExternalDocumentRef", do_external_document_ref)].

(** parser.go 53-99 (parsePairFromStart).  The test of the state (v2.1 57-59, v2.2 56-58,
    v2.3 55-57) is left out: [parse_pair] calls this only in [PsStart]. *)
Definition parse_start (v : version) (tag value : string) (s : pstate) : res pstate :=
  let s1 := match ps_doc s with Some _ => s | None => set_ps_doc (Some zero_DocumentOf) s end in
  switch tag start_cases
    (fun value s => parse_creation_info v tag value (set_ps_st PsCreationInfo s)) value s1.

(** parse_package.go 13-18: pkgExtRef expires for any other tag *)
Definition parse_package (v : version) (tag value : string) (s : pstate) : res pstate :=
  let s1 := if String.eqb tag "ExternalRefComment" then s else set_ps_extref None s in
  switch tag (package_cases v) (fun _ _ => Err "received unknown tag in Package section") value s1.

(** parse_file.go 12-17: fileAOP expires for any other tag *)
Definition parse_file (v : version) (tag value : string) (s : pstate) : res pstate :=
  let s1 := if String.eqb tag "ArtifactOfProjectHomePage" || String.eqb tag "ArtifactOfProjectURI"
            then s else set_ps_aop None s in
  switch tag (file_cases v) (fun _ _ => Err "received unknown tag in File section") value s1.

Definition parse_snippet (v : version) (tag value : string) (s : pstate) : res pstate :=
  switch tag (snippet_cases v) (fun _ _ => Err "received unknown tag in Snippet section") value s.
Definition parse_license (v : version) (tag value : string) (s : pstate) : res pstate :=
  switch tag (license_cases v) (fun _ _ => Err "received unknown tag in OtherLicense section") value s.
Definition parse_review (v : version) (tag value : string) (s : pstate) : res pstate :=
  switch tag (review_cases v) (fun _ _ => Err "received unknown tag in Review section") value s.

(** parser.go 32-51 (parsePair) *)
Definition parse_pair (v : version) (s : pstate) (pair : string * string) : res pstate :=
  let (tag, value) := pair in
  match ps_st s with
  | PsStart => parse_start v tag value s
  | PsCreationInfo => parse_creation_info v tag value s
  | PsPackage => parse_package v tag value s
  | PsFile => parse_file v tag value s
  | PsSnippet => parse_snippet v tag value s
  | PsOtherLicense => parse_license v tag value s
  | PsReview => parse_review v tag value s
  end.

(** parser.go 17-22: the loop *)
Fixpoint parse_pairs (v : version) (s : pstate) (pairs : list (string * string)) : res pstate :=
  match pairs with
  | [] => Ok s
  | p :: rest => let* s' := parse_pair v s p in parse_pairs v s' rest
  end.

(** The document as the caller sees it: follow the references.  [None] if a
    reference dangles (never happens, see the theorems). *)
Fixpoint mapO {A B} (f : A -> option B) (l : list A) : option (list B) :=
  match l with
  | [] => Some []
  | x :: r => match f x, mapO f r with Some y, Some t => Some (y :: t) | _, _ => None end
  end.
Definition deref_file (snips : list Snippet) (f : FileArena) : option File :=
  match mapO (fun '(k, i) => match nth_error snips i with Some x => Some (k, x) | None => None end)
             (f_Snippets f) with
  | Some sn => Some (MkFile (f_FileName f) (f_SPDXIdentifier f) (f_FileTypes f) (f_Checksums f)
                 (f_LicenseConcluded f) (f_LicenseInfoInFiles f) (f_LicenseComments f)
                 (f_CopyrightText f) (f_Artifacts f) (f_Comment f) (f_Notice f) (f_Contributors f)
                 (f_AttributionTexts f) (f_Dependencies f) sn (f_Annotations f))
  | None => None
  end.
Definition deref_file_at (s : pstate) (i : nat) : option File :=
  match nth_error (ps_files s) i with Some f => deref_file (ps_snips s) f | None => None end.
Definition deref_pkg (s : pstate) (p : PackageArena) : option Package :=
  match mapO (deref_file_at s) (p_Files p) with
  | Some fs => Some (MkPackage (p_IsUnpackaged p) (p_PackageName p) (p_SPDXIdentifier p) (p_Version p)
                 (p_FileName p) (p_Supplier p) (p_Originator p) (p_DownloadLocation p)
                 (p_FilesAnalyzed p) (p_IsFilesAnalyzedTagPresent p) (p_VerificationCode p)
                 (p_Checksums p) (p_HomePage p) (p_SourceInfo p) (p_LicenseConcluded p)
                 (p_LicenseInfoFromFiles p) (p_LicenseDeclared p) (p_LicenseComments p)
                 (p_CopyrightText p) (p_Summary p) (p_Description p) (p_Comment p)
                 (p_ExternalReferences p) (p_AttributionTexts p) (p_PrimaryPackagePurpose p)
                 (p_ReleaseDate p) (p_BuiltDate p) (p_ValidUntilDate p) fs (p_Annotations p))
  | None => None
  end.
Definition deref_pkg_at (s : pstate) (i : nat) : option Package :=
  match nth_error (ps_pkgs s) i with Some p => deref_pkg s p | None => None end.
Definition deref_doc (s : pstate) (d : DocumentArena) : option Document :=
  match mapO (deref_pkg_at s) (d_Packages d), mapO (deref_file_at s) (d_Files d) with
  | Some ps, Some fs =>
      Some (MkDoc (d_SPDXVersion d) (d_DataLicense d) (d_SPDXIdentifier d) (d_DocumentName d)
              (d_DocumentNamespace d) (d_ExternalDocumentReferences d) (d_DocumentComment d)
              (d_CreationInfo d) ps fs (d_OtherLicenses d) (d_Relationships d) (d_Annotations d)
              (d_Snippets d) (d_Reviews d))
  | _, _ => None
  end.

(** parser.go 15-30 (ParseTagValues); [Ok None] is the nil document returned for
    an empty list of pairs *)
Definition parse_tag_values (v : version) (pairs : list (string * string)) : res (option Document) :=
  let* s := parse_pairs v zero_pstate pairs in
  let* _ := check_file_id s in
  let* _ := check_pkg_id s in
  match ps_doc s with
  | None => Ok None
  | Some d => match deref_doc s d with Some x => Ok (Some x) | None => Panic end
  end.

(** /repo/spdx/v2/v2_{1,2,3}/document.go (Version) *)
Definition version_string (v : version) : string :=
  match v with V21 => "SPDX-2.1" | V22 => "SPDX-2.2" | V23 => "SPDX-2.3" end.
(** /repo/tagvalue/reader.go 46-65: dispatch on the first SPDXVersion tag.
    Conversion to another document version (71) is not included here. *)
Definition first_version (pairs : list (string * string)) : string :=
  match find (fun p => String.eqb (fst p) "SPDXVersion") pairs with
  | Some (_, v) => v
  | None => ""
  end.
Definition read_into (content : string) : res (version * option Document) :=
  let* pairs := read_tag_values content in
  match pairs with
  | [] => Err "no tag values found"
  | _ =>
      let ver := first_version pairs in
      if String.eqb ver "SPDX-2.1" then let* d := parse_tag_values V21 pairs in Ok (V21, d)
      else if String.eqb ver "SPDX-2.2" then let* d := parse_tag_values V22 pairs in Ok (V22, d)
      else if String.eqb ver "SPDX-2.3" then let* d := parse_tag_values V23 pairs in Ok (V23, d)
      else Err "unsupported SPDX version"
  end.
