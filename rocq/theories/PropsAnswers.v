(** * Property C61: what the helper packages say about a document is the same after it was saved, loaded or converted.

    Validation, the described packages, license reports, verification codes and license comparisons. *)
From Verif Require Import GoStr GoStrFacts Sorting Types TvUtil TvReader TvParser TvWriter SpecTv SpecId SpecDoc SpecWrite Json JsonSpdx JsonText SpecJson SpecJsonText
  Utils SpdxLib LicenseTools SpecFormats Formats FormatsFacts Convert ConvertGo SpecConvert SpecUpgrade ConvertRecord SpecTransfer SpecAnswers AnswersFacts PropsTools PropsTvWrite PropsJsonText PropsFormats.
From Verif Require RdfReader SpecRdfLoad PropsRdfLoad.
Local Open Scope string_scope.
Local Open Scope list_scope.

(** Saving as tag-value text (which also reorders the document that is saved), and loading that text. *)
Theorem C61_tag_value : forall so v d, representable v (tag_part v d) ->
  exists t d' e, render_document so v d = Ok (t, d') /\ same_answers d d' /\ same_answers d e /\
    (Forall short (stream_lines t) -> read_into t = Ok (v, Some e)).
Proof.
  intros so v d R. destruct (C42_tag so v d R) as (t & d' & e & W & O & S & L). exists t, d', e. split; [exact W|].
  split; [apply alike_answers; now apply reordered_alike|]. split; [|exact L].
  apply alike_answers. apply alike_trans with (tag_part v d); [apply tag_alike|now apply same_alike].
Qed.
Print Assumptions C61_tag_value.

(** Saving as JSON and loading that. *)
Theorem C61_json : forall v h ind d, blank ind -> document_json v h (json_part v (jdoc d)) ->
  exists s e, json_write v h ind (jdoc d) = Ok s /\ json_read_into s = Ok (v, jdoc e) /\ same_answers d e.
Proof.
  intros v h ind d B D. destruct (C42_json v h ind (jdoc d) B D) as (s & W & R). rewrite json_part_jdoc in R. exists s, (json_doc v d).
  split; [exact W|]. split; [exact R|]. apply alike_answers, json_alike.
Qed.
Print Assumptions C61_json.

(** Converting tag-value text to JSON, and JSON to tag-value text. *)
Theorem C61_to_json : forall v h ind text d, blank ind -> read_into text = Ok (v, Some d) -> document_json v h (json_part v (jdoc d)) ->
  exists s e, tv_to_json h ind text = Ok s /\ json_read_into s = Ok (v, jdoc e) /\ same_answers d e.
Proof.
  intros v h ind text d B R D. destruct (C42_to_json v h ind text d B R D) as (s & W & L). rewrite json_part_jdoc in L. exists s, (json_doc v d).
  split; [exact W|]. split; [exact L|]. apply alike_answers, json_alike.
Qed.
Print Assumptions C61_to_json.
Theorem C61_to_tag_value : forall so v text d, json_read_into text = Ok (v, jdoc d) -> representable v (tag_part v d) ->
  exists t e, json_to_tv so text = Ok t /\ same_answers d e /\ (Forall short (stream_lines t) -> read_into t = Ok (v, Some e)).
Proof.
  intros so v text d R D. destruct (C42_to_tag so v text d R D) as (t & e & W & S & L). exists t, e. split; [exact W|]. split; [|exact L].
  apply alike_answers. apply alike_trans with (tag_part v d); [apply tag_alike|now apply same_alike].
Qed.
Print Assumptions C61_to_tag_value.

(** There and back. *)
Theorem C61_there_and_back : forall so v h ind text d, blank ind -> read_into text = Ok (v, Some d) -> document_json v h (json_part v (jdoc d)) ->
  representable v d -> d_CreationInfo d <> Some zero_CreationInfo \/ lasting_elements d ->
  exists s t e, tv_to_json h ind text = Ok s /\ json_to_tv so s = Ok t /\ same_answers d e /\ (Forall short (stream_lines t) -> read_into t = Ok (v, Some e)).
Proof.
  intros so v h ind text d B R D P L. destruct (C42_there_and_back so v h ind text d B R D P L) as (s & t & e & W & W' & S & Rt). exists s, t, e.
  split; [exact W|]. split; [exact W'|]. split; [|exact Rt]. apply alike_answers.
  apply alike_trans with (json_doc v d); [apply json_alike|]. apply alike_trans with (tag_part v (json_doc v d)); [apply tag_alike|now apply same_alike].
Qed.
Print Assumptions C61_there_and_back.
(** Reading an RDF graph, where Go leaves the order of the files open. *)
Theorem C61_rdf : forall v g iter iter' d d', SpecRdfLoad.shuffle iter -> SpecRdfLoad.shuffle iter' -> RdfReader.load v g iter = Ok d -> RdfReader.load v g iter' = Ok d' -> same_answers d d'.
Proof.
  intros v g iter iter' d d' S S' L L'. pose proof (PropsRdfLoad.C34_order v g iter iter' S S') as H. rewrite L, L' in H. destruct H as [P E].
  apply alike_answers. assert (R : d_Relationships d' = d_Relationships d) by (apply (f_equal (fun x => d_Relationships x)) in E; symmetry; exact E).
  assert (K : d_Packages d' = d_Packages d) by (apply (f_equal (fun x => d_Packages x)) in E; symmetry; exact E).
  split; [exact R|]. split; [now apply Permutation_map|]. exists (d_Packages d). split; [reflexivity|]. rewrite K.
  clear. induction (d_Packages d); constructor; [|assumption]. repeat split; reflexivity.
Qed.
Print Assumptions C61_rdf.

(** Reading text of any version as a 2.3 document. *)
Theorem C61_read : forall dz text v d, read_into text = Ok (v, Some d) -> comes_along v d ->
  exists e, tagvalue_read dz V23 text = Ok (go_document V23 e) /\ same_answers d e.
Proof.
  intros dz text v d R C. exists (in_version v V23 d). split; [|apply alike_answers, version_alike].
  destruct C as [->|S]; [|now apply public_read]. unfold tagvalue_read. rewrite R. reflexivity.
Qed.
Print Assumptions C61_read.
Theorem C61_read_json : forall dz text v d, json_read_into text = Ok (v, jdoc d) -> solid (go_document v d) ->
  exists e, json_read dz V23 text = Ok (go_document V23 e) /\ same_answers d e.
Proof. intros dz text v d R S. exists (in_version v V23 d). split; [now apply C41_read|apply alike_answers, version_alike]. Qed.
Print Assumptions C61_read_json.
(** Converting to any version. *)
Theorem C61_version : forall v w d, same_answers d (in_version v w d).
Proof. intros. apply alike_answers, version_alike. Qed.
Print Assumptions C61_version.

(** A document with a described package that has two files, not in the order in which they are written, and
    another package; the second file has the name that is given. *)
Definition C61_file (id name lic : string) : File := set_f_LicenseConcluded lic (set_f_FileName name (w_file id)).
Definition C61_package (name : string) : Package := w_package "p" [C61_file "b" "a.c" "MIT"; C61_file "a" name "GPL-2.0"].
Definition C61_document (name : string) : Document :=
  set_d_Packages [w_package "q" []; C61_package name] (set_d_Relationships [MkRln (MkDEID "" "DOCUMENT" "") (MkDEID "" "p" "") "DESCRIBES" ""] w_document).
Example C61_witness : representable V23 (tag_part V23 (C61_document "b.c")) /\ document_json V23 true (json_part V23 (jdoc (C61_document "b.c"))) /\
  validate_document (C61_document "b.c") = Ok tt /\ get_described_package_ids insertion_sorter (C61_document "b.c") = Ok ["p"] /\
  NoDup (map f_FileName (p_Files (C61_package "b.c"))) /\
  map_get "b.c" (make_pairs (C61_package "b.c") (C61_package "c.c")) = Some (MkLP "GPL-2.0" "") /\
  exists t d' e, render_document insertion_sorter V23 (C61_document "b.c") = Ok (t, d') /\ Forall short (stream_lines t) /\ read_into t = Ok (V23, Some e) /\
    map (fun p => map f_FileName (p_Files p)) (d_Packages e) = [["b.c"; "a.c"]; []].
Proof.
  split; [decide_rep|]. split; [decide_json|]. split; [vm_compute; reflexivity|]. split; [vm_compute; reflexivity|]. split; [decide_rep|].
  split; [vm_compute; reflexivity|]. eexists _, _, _. split; [vm_compute; reflexivity|]. split; [apply shortb_all; vm_compute; reflexivity|].
  split; vm_compute; reflexivity.
Qed.
(** With two files of the same name, which of their licenses is compared changes when the document is saved. *)
Theorem C61_names_refuted : exists d t d' e, representable V23 d /\ render_document insertion_sorter V23 d = Ok (t, d') /\ read_into t = Ok (V23, Some e) /\
  map (fun p => map_get "a.c" (make_pairs p p)) (d_Packages d) = [None; Some (MkLP "GPL-2.0" "GPL-2.0")] /\
  map (fun p => map_get "a.c" (make_pairs p p)) (d_Packages e) = [Some (MkLP "MIT" "MIT"); None].
Proof.
  exists (C61_document "a.c"). eexists _, _, _. split; [decide_rep|]. split; [vm_compute; reflexivity|]. split; [vm_compute; reflexivity|]. split; vm_compute; reflexivity.
Qed.
Print Assumptions C61_names_refuted.
