(** * Property C40: conversion between the document versions.

    [dz] says whether the reflection library takes a pointer to a zero value for
    nil; every theorem holds for both answers. *)
From Verif Require Import GoStr Types TvUtil TvReader TvParser Convert ConvertGo SpecConvert SpecUpgrade ConvertDoc ConvertGoFacts ConvertRecord.

(** Converting a document never fails and gives a document of the target version. *)
Theorem C40_total : forall dz from to d, typed (T_Document from) d ->
  exists d', convert_document dz from to d = Ok d' /\ typed (T_Document to) d'.
Proof. exact convert_ok. Qed.
Print Assumptions C40_total.

(** Every value both versions have a place for is carried over. *)
Theorem C40_carried : forall dz from to d d' p, typed (T_Document from) d -> convert_document dz from to d = Ok d' ->
  path_of (T_Document from) p = true -> path_of (T_Document to) p = true -> p <> [Fld "SPDXVersion"] ->
  get (T_Document to) d' p = get (T_Document from) d p.
Proof. exact convert_get. Qed.
Print Assumptions C40_carried.

(** What only the target version has is left at its zero value. *)
Theorem C40_new : forall dz from to d d' p z, typed (T_Document from) d -> convert_document dz from to d = Ok d' ->
  path_of (T_Document from) p = false -> path_of (T_Document to) p = true -> get (T_Document to) d' p = Some z -> is_zero z = true.
Proof. exact convert_new. Qed.
Print Assumptions C40_new.

(** The document says which version it is now; a document of the version asked for is left alone. *)
Theorem C40_version : forall dz from to d d', typed (T_Document from) d -> convert_document dz from to d = Ok d' -> from <> to ->
  get (T_Document to) d' [Fld "SPDXVersion"] = Some (VStr (version_string to)).
Proof. exact convert_version. Qed.
Print Assumptions C40_version.
Theorem C40_same : forall dz v d, convert_document dz v v d = Ok d.
Proof. now intros dz []. Qed.
Print Assumptions C40_same.

(** A document converted to a later version and back is the same document. *)
Theorem C40_round_trip : forall dz v v' d, older v v' -> typed (T_Document v) d -> solid d ->
  get (T_Document v) d [Fld "SPDXVersion"] = Some (VStr (version_string v)) ->
  exists d', convert_document dz v v' d = Ok d' /\ convert_document dz v' v d' = Ok d.
Proof. exact convert_back. Qed.
Print Assumptions C40_round_trip.

(** The documents of the other theorems, converted. *)
Theorem C40_upgrade : forall dz v w d, older v w -> solid (go_document v d) -> keys_distinct d ->
  convert_document dz v w (go_document v d) = Ok (go_document w (in_version v w d)).
Proof. exact upgrade_record. Qed.
Print Assumptions C40_upgrade.
Theorem C40_downgrade : forall dz v w d, older w v -> (forall u, solid (go_document u d)) -> keys_distinct d ->
  convert_document dz v w (go_document v d) = Ok (go_document w (set_d_SPDXVersion (version_string w) d)).
Proof. exact downgrade_record. Qed.
Print Assumptions C40_downgrade.

(** Reading text of any version into a document of any version: a document or an
    error, and the document holds what the text of its own version says. *)
Theorem C40_read_total : forall dz to text,
  (exists d, tagvalue_read dz to text = Ok d /\ typed (T_Document to) d) \/ (exists e, tagvalue_read dz to text = Err e).
Proof. exact public_read_total. Qed.
Print Assumptions C40_read_total.
Theorem C40_read_carried : forall dz to text v d p, read_into text = Ok (v, Some d) ->
  path_of (T_Document v) p = true -> path_of (T_Document to) p = true -> p <> [Fld "SPDXVersion"] ->
  exists d', tagvalue_read dz to text = Ok d' /\ get (T_Document to) d' p = get (T_Document v) (go_document v d) p.
Proof. exact public_read_get. Qed.
Print Assumptions C40_read_carried.
Theorem C40_read : forall dz text v d, read_into text = Ok (v, Some d) -> solid (go_document v d) ->
  tagvalue_read dz V23 text = Ok (go_document V23 (in_version v V23 d)).
Proof. exact public_read. Qed.
Print Assumptions C40_read.

(** A 2.1 document with every kind of part. *)
Definition C40_text : string := String.concat LF
  ["SPDXVersion: SPDX-2.1"; "SPDXID: SPDXRef-DOCUMENT"; "Creator: Tool: x";
   "PackageName: p"; "SPDXID: SPDXRef-p"; "PackageSupplier: NOASSERTION"; "ExternalRef: SECURITY a b";
   "FileName: f"; "SPDXID: SPDXRef-f"; "FileChecksum: SHA1: aa"; "ArtifactOfProjectName: q";
   "SnippetSPDXID: SPDXRef-s"; "SnippetByteRange: 1:2"; "LicenseID: LicenseRef-1"; "ExtractedText: t";
   "Relationship: SPDXRef-DOCUMENT DESCRIBES SPDXRef-p";
   "Annotator: Person: a"; "Reviewer: Organization: o"; ""].
Definition C40_snippet : list step := [Fld "Packages"; Idx 0; Fld "Files"; Idx 0; Fld "Snippets"; Key "s"].
Example C40_witness : exists d, read_into C40_text = Ok (V21, Some d) /\ solid (go_document V21 d) /\
  get (T_Document V21) (go_document V21 d) (C40_snippet ++ [Fld "Ranges"; Idx 0; Fld "EndPointer"; Fld "Offset"]) = Some (VInt 2) /\
  path_of (T_Document V21) (C40_snippet ++ [Fld "SnippetAttributionTexts"; Idx 0]) = false /\
  path_of (T_Document V23) (C40_snippet ++ [Fld "SnippetAttributionTexts"; Idx 0]) = true /\
  path_of (T_Document V22) [Fld "Packages"; Idx 0; Fld "PrimaryPackagePurpose"] = false /\
  get (T_Document V23) (go_document V23 (in_version V21 V23 d)) [Fld "Packages"; Idx 0; Fld "PrimaryPackagePurpose"] = Some (VStr "").
Proof.
  eexists. split; [vm_compute; reflexivity|]. split; [apply solidb_solid; vm_compute; reflexivity|]. repeat split; vm_compute; reflexivity.
Qed.
Example C40_round_trip_witness : exists d, typed (T_Document V21) d /\ solid d /\
  get (T_Document V21) d [Fld "SPDXVersion"] = Some (VStr (version_string V21)) /\
  get (T_Document V21) d [Fld "OtherLicenses"; Idx 0; Fld "ExtractedText"] = Some (VStr "t").
Proof.
  destruct (read_into C40_text) as [[v [d|]]| |] eqn:R; [|vm_compute in R; discriminate..].
  assert (v = V21) as -> by (vm_compute in R; congruence).
  exists (go_document V21 d). split; [exact (typed_document V21 d (read_keys _ _ _ R))|]. vm_compute in R. inversion R. subst. clear R.
  split; [apply solidb_solid; vm_compute; reflexivity|]. split; vm_compute; reflexivity.
Qed.
Example C40_downgrade_witness : (forall u, solid (go_document u (set_d_OtherLicenses [MkOL "LicenseRef-1" "t" "" ["u"] ""] zero_DocumentOf))) /\
  keys_distinct (set_d_OtherLicenses [MkOL "LicenseRef-1" "t" "" ["u"] ""] zero_DocumentOf).
Proof. split; [intros []; apply solidb_solid; vm_compute; reflexivity|split; constructor]. Qed.

(** Without [solid] the round trip fails: if a pointer to a zero value counts as nil,
    an entry with nothing in it comes back as a nil pointer, in the list of licenses ... *)
Theorem C40_empty_entry_refuted : exists d d', typed (T_Document V22) d /\ convert_document true V22 V23 d = Ok d' /\
  d = go_document V22 (set_d_OtherLicenses [zero_OtherLicense] zero_DocumentOf) /\
  d' = set_version V23 (VStruct (put "OtherLicenses" (VSlice [VNil]) (match zero (T_Document V23) with VStruct fs => fs | _ => [] end))).
Proof.
  eexists. eexists. split; [|split; [|split; [reflexivity|reflexivity]]].
  - apply typed_document. split; constructor.
  - vm_compute. reflexivity.
Qed.
Print Assumptions C40_empty_entry_refuted.
(** ... and in both cases a package without verification code has an empty one, not none, in version 2.3. *)
Theorem C40_no_code_refuted : forall dz, exists d d', convert_document dz V22 V23 (go_document V22 d) = Ok (go_document V23 d') /\
  map (@p_VerificationCode _ _) (d_Packages d) = [None] /\ map (@p_VerificationCode _ _) (d_Packages d') = [Some zero_VerificationCode].
Proof.
  intros dz. exists (set_d_Packages [set_p_PackageName "p" zero_PackageOf] zero_DocumentOf). eexists. split; [|split; [reflexivity|]].
  - apply upgrade_record; [constructor|apply solidb_solid; vm_compute; reflexivity|]. split; repeat constructor.
  - vm_compute. reflexivity.
Qed.
Print Assumptions C40_no_code_refuted.
(** A document converted to an earlier version and back has lost what the earlier version has no place for. *)
Theorem C40_back_and_forth_refuted : forall dz, exists d d1 d2, typed (T_Document V23) d /\ solid d /\
  convert_document dz V23 V22 d = Ok d1 /\ convert_document dz V22 V23 d1 = Ok d2 /\
  get (T_Document V23) d [Fld "Packages"; Idx 0; Fld "ReleaseDate"] = Some (VStr "today") /\
  get (T_Document V23) d2 [Fld "Packages"; Idx 0; Fld "ReleaseDate"] = Some (VStr "").
Proof.
  intros dz. exists (go_document V23 (set_d_Packages [set_p_ReleaseDate "today" (set_p_PackageName "p" zero_PackageOf)] zero_DocumentOf)).
  eexists. eexists. split; [apply typed_document; split; repeat constructor|]. split; [apply solidb_solid; vm_compute; reflexivity|].
  split; [destruct dz; vm_compute; reflexivity|]. split; [destruct dz; vm_compute; reflexivity|]. split; vm_compute; reflexivity.
Qed.
Print Assumptions C40_back_and_forth_refuted.
