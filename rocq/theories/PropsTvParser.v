(** * Properties C02, C07, C10: the tag-value reader on arbitrary input. *)
From Verif Require Import GoStr Types TvReader TvUtil TvParser SpecTv SpecId SpecDoc TvParserFacts.

(** C02: on every byte string the reader returns a document or an error. *)
Theorem C02_read_total : forall content,
  (exists v d, read_into content = Ok (v, Some d)) \/ (exists e, read_into content = Err e).
Proof. exact read_total. Qed.
Print Assumptions C02_read_total.

(** C02 for the version specific parsers, on every non-empty list of pairs. *)
Theorem C02_parse_total : forall v pairs, pairs <> [] ->
  (exists d, parse_tag_values v pairs = Ok (Some d)) \/ (exists e, parse_tag_values v pairs = Err e).
Proof. exact parse_total. Qed.
Print Assumptions C02_parse_total.
(** They return a nil document, without error, for the empty list. *)
Theorem C02_parse_empty_refuted : forall v, parse_tag_values v [] = Ok None.
Proof. exact parse_nil. Qed.
Print Assumptions C02_parse_empty_refuted.

(** C07: whatever the reader returns is well formed. *)
Theorem C07_well_formed : forall content v d, read_into content = Ok (v, Some d) -> well_formed v d.
Proof. exact read_well_formed. Qed.
Print Assumptions C07_well_formed.

Definition C07_text : string := String.concat LF
  ["SPDXVersion: SPDX-2.3"; "SPDXID: SPDXRef-DOCUMENT"; "Creator: Tool: x";
   "PackageName: p"; "SPDXID: SPDXRef-p"; "PackageSupplier: NOASSERTION";
   "FileName: f"; "SPDXID: SPDXRef-f"; "FileChecksum: SHA1: aa";
   "SnippetSPDXID: SPDXRef-s"; "SnippetByteRange: 1:2";
   "Relationship: SPDXRef-DOCUMENT DESCRIBES SPDXRef-p";
   "Annotator: Person: a"; "Reviewer: Organization: o"; ""].
Example C07_witness : exists d, read_into C07_text = Ok (V23, Some d) /\
  length (d_Packages d) = 1 /\ map (fun p => length (p_Files p)) (d_Packages d) = [1] /\
  length (d_Relationships d) = 1 /\ length (d_Annotations d) = 1 /\ length (d_Reviews d) = 1.
Proof. eexists. split; [vm_compute; reflexivity|]. repeat split. Qed.

(** C10: the version named by the first SPDXVersion pair selects the parser. *)
Theorem C10_dispatch : forall content a b v,
  read_tag_values content = Ok (a ++ ("SPDXVersion", version_string v) :: b)%list ->
  Forall (fun p => fst p <> "SPDXVersion") a ->
  read_into content =
  match parse_tag_values v (a ++ ("SPDXVersion", version_string v) :: b) with
  | Ok d => Ok (v, d) | Err e => Err e | Panic => Panic
  end.
Proof. exact dispatch. Qed.
Print Assumptions C10_dispatch.

Example C10_witness :
  read_tag_values ("Creator: Tool: x" ++ LF ++ "SPDXVersion: SPDX-2.2" ++ LF ++ "SPDXVersion: SPDX-2.1") =
    Ok ([("Creator", "Tool: x")] ++ ("SPDXVersion", version_string V22) :: [("SPDXVersion", "SPDX-2.1")])%list.
Proof. reflexivity. Qed.

(** ... and nothing is read otherwise. *)
Theorem C10_only : forall content v d, read_into content = Ok (v, d) ->
  exists a b, read_tag_values content = Ok (a ++ ("SPDXVersion", version_string v) :: b)%list /\
  Forall (fun p => fst p <> "SPDXVersion") a /\
  parse_tag_values v (a ++ ("SPDXVersion", version_string v) :: b) = Ok d.
Proof. exact dispatch_inv. Qed.
Print Assumptions C10_only.

(** No pair at all, no SPDXVersion pair, or an unsupported first one: an error. *)
Theorem C10_rejects : forall content ps,
  read_tag_values content = Ok ps ->
  (forall a b v, ps = (a ++ ("SPDXVersion", version_string v) :: b)%list ->
                 Exists (fun p => fst p = "SPDXVersion") a) ->
  exists e, read_into content = Err e.
Proof. exact read_rejects_version. Qed.
Print Assumptions C10_rejects.

Example C10_rejects_witness :
  read_tag_values ("SPDXVersion: SPDX-2.0" ++ LF ++ "SPDXVersion: SPDX-2.3") =
    Ok [("SPDXVersion", "SPDX-2.0"); ("SPDXVersion", "SPDX-2.3")] /\
  (forall a b v, [("SPDXVersion", "SPDX-2.0"); ("SPDXVersion", "SPDX-2.3")] =
                 (a ++ ("SPDXVersion", version_string v) :: b)%list ->
                 Exists (fun p => fst p = "SPDXVersion") a).
Proof.
  split; [reflexivity|]. intros [|x [|y a]] b v E.
  - destruct v; discriminate.
  - constructor. now inversion E.
  - destruct a; discriminate.
Qed.
