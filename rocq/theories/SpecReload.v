(** * Inputs whose document can be saved again.

    Conditions on the (tag, value) pairs of a tag-value text, tag by tag. *)
From Verif Require Import GoStr Types TvUtil TvParser SpecTv SpecId SpecDoc SpecRead SpecWrite.

(** tags whose value may have several lines when it is written *)
Definition text_tags : list string :=
  ["DocumentComment"; "CreatorComment"; "PackageSourceInfo"; "PackageLicenseComments"; "PackageCopyrightText"; "PackageSummary";
   "PackageDescription"; "PackageComment"; "ExternalRefComment"; "PackageAttributionText"; "LicenseComments"; "FileCopyrightText";
   "FileComment"; "FileNotice"; "FileAttributionText"; "SnippetLicenseComments"; "SnippetCopyrightText"; "SnippetComment";
   "SnippetAttributionText"; "ExtractedText"; "LicenseComment"; "RelationshipComment"; "AnnotationComment"; "ReviewComment"].

(** A reference whose identifiers are words. *)
Definition ref_clean (x : string) : Prop := forall d, plain_ref d -> ref_text d x ->
  word (de_ElementRefID d) /\ (de_DocumentRefID d = "" \/ word (de_DocumentRefID d)).
Definition edr_clean (x : string) : Prop := forall e, edr_text x e ->
  word (edr_DocumentRefID e) /\ word (ck_Algorithm (edr_Checksum e)) /\ ~ occurs ":" (ck_Algorithm (edr_Checksum e)) /\ word (ck_Value (edr_Checksum e)).

Record clean (v : version) (p : string * string) : Prop := {
  (* one line without surrounding white space, except where several lines can be written *)
  cl_value : if existsb (String.eqb (fst p)) text_tags then text_ok (snd p) else line_ok (snd p);
  cl_version : fst p = "SPDXVersion" -> snd p = version_string v;
  cl_names : In (fst p) ["FileName"; "LicenseID"] -> snd p <> "";
  (* "kind: name" with a name *)
  cl_kinds : In (fst p) ["Creator"; "Annotator"; "Reviewer"; "PackageChecksum"; "FileChecksum"] -> forall k n, kind_name (snd p) k n -> n <> "";
  cl_ids : In (fst p) ["SPDXID"; "SnippetSPDXID"; "SnippetFromFileSPDXID"; "SPDXREF"] -> ref_clean (snd p);
  cl_rels : fst p = "Relationship" -> Forall ref_clean (words (snd p));
  cl_edrs : fst p = "ExternalDocumentRef" -> edr_clean (snd p)
}.

(** every snippet says which file it is from *)
Definition snippets_placed (d : Document) : Prop :=
  let placed f := Forall (fun e => s_FromFile (snd e) <> "") (f_Snippets f) in
  Forall placed (d_Files d) /\ Forall (fun p => Forall placed (p_Files p)) (d_Packages d).
(** the document says something about its creation, or has elements *)
Definition created (d : Document) : Prop :=
  exists ci, d_CreationInfo d = Some ci /\ (ci <> zero_CreationInfo \/ has_elements d).

(** The document has nothing that the writer leaves out: bounds of ranges are not
    zero, and a package whose files were not analyzed says nothing about them. *)
Definition ranges_kept (f : File) : Prop := Forall (fun e => Forall (fun r =>
  let a := sr_StartPointer r in let b := sr_EndPointer r in
  (rp_Offset a <> 0%Z /\ rp_Offset b <> 0%Z) \/ (rp_LineNumber a <> 0%Z /\ rp_LineNumber b <> 0%Z)) (s_Ranges (snd e))) (f_Snippets f).
Definition package_kept (p : Package) : Prop :=
  (p_FilesAnalyzed p = false -> p_VerificationCode p = None /\ p_LicenseInfoFromFiles p = []) /\
  opt_ok (fun c => vc_Value c <> "") (p_VerificationCode p) /\ opt_ok (fun s => su_Supplier s <> "") (p_Supplier p) /\
  opt_ok (fun s => or_Originator s <> "") (p_Originator p) /\ Forall ranges_kept (p_Files p).
Definition whole (d : Document) : Prop := Forall ranges_kept (d_Files d) /\ Forall package_kept (d_Packages d).
