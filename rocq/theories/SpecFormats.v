(** * What each format carries.

    The part of a document that has a place in JSON, and the part that has a
    place in tag-value text: everything else is reset to its zero value. *)
From Verif Require Import GoStr Types TvUtil Json JsonSpdx.

(** ** JSON *)
(** The annotated element is not part of an annotation. *)
Definition json_annotation (a : Annotation) : Annotation := set_a_SPDXIdentifier zero_DocElementID a.
Definition json_snippet (s : Snippet) : Snippet := set_s_AttributionTexts [] s.
(** The snippets of a file are not written; artifacts and dependencies only in
    2.3, attribution texts from 2.2 on. *)
Definition json_file {A} (v : version) (f : FileOf Snippet A) : FileOf Snippet A :=
  set_f_Snippets [] (set_f_Annotations (map json_annotation (f_Annotations f))
    match v with
    | V23 => f
    | V22 => set_f_Artifacts [] (set_f_Dependencies [] f)
    | V21 => set_f_Artifacts [] (set_f_Dependencies [] (set_f_AttributionTexts [] f))
    end).
Definition json_code (v : version) (c : option VerificationCode) : option VerificationCode :=
  match v, c with
  | V23, _ => c
  | _, Some (MkVC "" []) => None
  | _, _ => c
  end.
Definition json_package {F E} (file : F -> F) (v : version) (p : PackageOf F E) : PackageOf F E :=
  set_p_IsUnpackaged false (set_p_IsFilesAnalyzedTagPresent (match v with V21 => false | _ => true end)
    (set_p_VerificationCode (json_code v (p_VerificationCode p))
    (set_p_Files (map file (p_Files p)) (set_p_Annotations (map json_annotation (p_Annotations p))
    match v with
    | V23 => p
    | V22 => set_p_PrimaryPackagePurpose "" (set_p_ReleaseDate "" (set_p_BuiltDate "" (set_p_ValidUntilDate "" p)))
    | V21 => set_p_AttributionTexts [] (set_p_PrimaryPackagePurpose "" (set_p_ReleaseDate "" (set_p_BuiltDate "" (set_p_ValidUntilDate "" p))))
    end)))).
(** Reviews are not written. *)
Definition json_part (v : version) (d : JDocument) : JDocument :=
  set_d_Reviews [] (set_d_Packages (map (option_map (json_package (option_map (json_file v)) v)) (d_Packages d))
    (set_d_Files (map (option_map (json_file v)) (d_Files d)) (set_d_Annotations (map (option_map json_annotation) (d_Annotations d))
    (set_d_Snippets (map json_snippet (d_Snippets d)) d)))).

(** The same for a document without nil pointers to elements. *)
Definition json_doc (v : version) (d : Document) : Document :=
  set_d_Reviews [] (set_d_Packages (map (json_package (json_file v) v) (d_Packages d))
    (set_d_Files (map (json_file v) (d_Files d)) (set_d_Annotations (map json_annotation (d_Annotations d))
    (set_d_Snippets (map json_snippet (d_Snippets d)) d)))).

(** ** Pointers *)
(** one of the pointers to elements is nil, at any depth *)
Definition file_nil (f : JFile) : Prop := In None (f_Artifacts f).
Definition some_nil {A} (P : A -> Prop) (l : list (option A)) : Prop := In None l \/ exists x, In (Some x) l /\ P x.
Definition package_nil (p : JPackage) : Prop := In None (p_ExternalReferences p) \/ some_nil file_nil (p_Files p).
Definition document_nil (d : JDocument) : Prop :=
  some_nil package_nil (d_Packages d) \/ some_nil file_nil (d_Files d) \/ In None (d_OtherLicenses d) \/
  In None (d_Relationships d) \/ In None (d_Annotations d).

(** ** Tag-value text *)
(** A range is written as a byte range and as a line range, each only if it has
    two bounds. *)
Definition tag_range (r : SnippetRange) : list SnippetRange :=
  let s := sr_StartPointer r in let e := sr_EndPointer r in
  ((if negb (rp_Offset s =? 0)%Z && negb (rp_Offset e =? 0)%Z then [MkRange (MkRP (rp_Offset s) 0 "") (MkRP (rp_Offset e) 0 "")] else []) ++
   (if negb (rp_LineNumber s =? 0)%Z && negb (rp_LineNumber e =? 0)%Z then [MkRange (MkRP 0 (rp_LineNumber s) "") (MkRP 0 (rp_LineNumber e) "")] else []))%list.
Definition from_22 {A} (v : version) (l : list A) : list A := match v with V21 => [] | _ => l end.
Definition from_23 (v : version) (x : string) : string := match v with V23 => x | _ => "" end.
Definition tag_snippet (v : version) (s : Snippet) : Snippet :=
  set_s_Ranges (flat_map tag_range (s_Ranges s)) (set_s_AttributionTexts (from_22 v (s_AttributionTexts s)) s).
(** The annotations inside files and packages are not written, and the document's
    own list of snippets is not. *)
Definition tag_file (v : version) (f : File) : File :=
  set_f_Annotations [] (set_f_AttributionTexts (from_22 v (f_AttributionTexts f))
    (set_f_Snippets (map (fun e => (fst e, tag_snippet v (snd e))) (f_Snippets f)) f)).
(** Several excluded files become one text. *)
Definition tag_code (c : option VerificationCode) : option VerificationCode :=
  match c with
  | Some (MkVC "" _) => None
  | Some (MkVC x ((_ :: _) as l)) => Some (MkVC x [join ", " l])
  | _ => c
  end.
Definition tag_supplier (s : option Supplier) : option Supplier := match s with Some (MkSupplier "" _) => None | _ => s end.
Definition tag_originator (s : option Originator) : option Originator := match s with Some (MkOriginator "" _) => None | _ => s end.
(** Without analysis of the files, nothing is said about them. *)
Definition tag_package (v : version) (p : Package) : Package :=
  let q := set_p_IsUnpackaged false (set_p_Annotations [] (set_p_AttributionTexts (from_22 v (p_AttributionTexts p))
    (set_p_Supplier (tag_supplier (p_Supplier p)) (set_p_Originator (tag_originator (p_Originator p))
    (set_p_PrimaryPackagePurpose (from_23 v (p_PrimaryPackagePurpose p)) (set_p_ReleaseDate (from_23 v (p_ReleaseDate p))
    (set_p_BuiltDate (from_23 v (p_BuiltDate p)) (set_p_ValidUntilDate (from_23 v (p_ValidUntilDate p))
    (set_p_Files (map (tag_file v) (p_Files p)) p))))))))) in
  if p_FilesAnalyzed p then set_p_VerificationCode (tag_code (p_VerificationCode p)) q
  else set_p_IsFilesAnalyzedTagPresent true (set_p_VerificationCode None (set_p_LicenseInfoFromFiles [] q)).
Definition tag_part (v : version) (d : Document) : Document :=
  set_d_Snippets [] (set_d_Packages (map (tag_package v) (d_Packages d)) (set_d_Files (map (tag_file v) (d_Files d)) d)).

(** ** Both *)
(** the document has something besides its own fields that JSON carries *)
Definition lasting_elements (d : Document) : Prop :=
  d_Files d <> [] \/ d_Packages d <> [] \/ d_OtherLicenses d <> [] \/ d_Relationships d <> [] \/ d_Annotations d <> [].
