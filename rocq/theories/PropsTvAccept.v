(** * Property C39: which tag-value documents the reader accepts. *)
From Verif Require Import GoStr Types TvReader TvUtil TvParser SpecTv SpecId SpecDoc SpecRead TvReaderFacts TvUtilFacts TvParserFacts
  DenoteGlobal DenoteDeref DenoteUnique AcceptBase AcceptFacts PropsTvContent.
From Verif Require SpecTags SpecAccept.
Import SpecAccept.

(** C39, on pairs: a list of pairs is read as a document exactly when its
    sections come in order, its values have the form of their tags, the entries
    that depend on an earlier one come after it, and every package and file is
    identified. *)
Theorem C39_accepts : forall v l, l <> [] -> Forall (fun n => n <> "") (values "PackageName" l) ->
  (exists d, parse_tag_values v l = Ok (Some d)) <-> acceptable v l.
Proof. exact parse_accepts. Qed.
Print Assumptions C39_accepts.

(** Everything else is an error. *)
Theorem C39_rejects : forall v l, l <> [] -> Forall (fun n => n <> "") (values "PackageName" l) ->
  ~ acceptable v l -> exists e, parse_tag_values v l = Err e.
Proof.
  intros v l NN N A. destruct (parse_total v l NN) as [D|E]; [|exact E]. now apply C39_accepts in D.
Qed.
Print Assumptions C39_rejects.

(** C38 and C39 together: the reader is determined, on regular lists, by the
    two specifications. *)
Theorem C39_exact : forall v l d, l <> [] -> regular l ->
  parse_tag_values v l = Ok (Some d) <-> acceptable v l /\ document_den v l d.
Proof.
  intros v l d NN R. split.
  - intros H. split; [|now apply parse_document]. apply C39_accepts; [exact NN|now apply regular_names|eauto].
  - intros [A D]. apply C39_accepts in A as (d' & H); [|exact NN|now apply regular_names].
    rewrite H. do 2 f_equal. eapply document_unique; [|exact D]. now apply parse_document.
Qed.
Print Assumptions C39_exact.

(** C39, on text: the lines must fit the reader's buffer and the first
    SPDXVersion must name a supported version. *)
Theorem C39_text : forall content l v, tokens (map drop_cr (stream_lines content)) l ->
  Forall (fun n => n <> "") (values "PackageName" l) ->
  (exists d, read_into content = Ok (v, Some d)) <->
  Forall short (stream_lines content) /\ hd_error (values "SPDXVersion" l) = Some (version_string v) /\ acceptable v l.
Proof. exact text_accepts. Qed.
Print Assumptions C39_text.

Theorem C39_text_exact : forall content l v d, tokens (map drop_cr (stream_lines content)) l -> regular l ->
  read_into content = Ok (v, Some d) <->
  Forall short (stream_lines content) /\ hd_error (values "SPDXVersion" l) = Some (version_string v) /\
  acceptable v l /\ document_den v l d.
Proof.
  intros content l v d T R. split.
  - intros H. destruct (proj1 (C39_text content l v T (regular_names l R))) as (S & V & A); [eauto|].
    split; [exact S|]. split; [exact V|]. split; [exact A|]. eapply C38_read_text; eauto.
  - intros (S & V & A & D). destruct (proj2 (C39_text content l v T (regular_names l R))) as (d' & H); [auto|].
    rewrite H. do 2 f_equal. f_equal. eapply document_unique; [|exact D]. eapply C38_read_text; eauto.
Qed.
Print Assumptions C39_text_exact.

(** The document of C38 is acceptable. *)
Example C39_witness : acceptable V23 C38_pairs.
Proof.
  apply C39_accepts; [discriminate|apply regular_names, C38_witness|]. destruct C38_witness as (_ & d & H & _). eauto.
Qed.
(** A file after the reviews, a snippet outside a file, an unknown tag, a
    malformed checksum, a comment without its relationship, a file without an
    identifier: none is accepted, whatever surrounds them. *)
Example C39_late_file v h x r :
  ~ acceptable v (h ++ [("Reviewer", "Person: a"); ("FileName", x)] ++ r).
Proof.
  intros [O _ _ _ _]. rewrite map_app in O. cbn [map fst app] in O. revert O. generalize Header.
  induction (map fst h) as [|t ts IH]; cbn [app]; intros sec O.
  - inversion O as [|? ? s1 ? L1 O1]; subst. inversion O1 as [|? ? s2 ? L2 _]; subst.
    assert (s1 = ReviewSec) as ->.
    { apply leads_next in L1. destruct sec, v; cbn in L1; congruence. }
    apply leads_next in L2. discriminate.
  - inversion O; subst. eapply IH; eassumption.
Qed.
Example C39_unreadable v h x r : words x = [] -> ~ acceptable v (h ++ ("ExternalRef", x) :: r).
Proof.
  intros W [_ R _ _ _]. apply Forall_app in R as [_ R]. inversion R as [|? ? R1 _]; subst.
  destruct R1 as (_ & _ & _ & _ & _ & _ & _ & _ & R1). destruct R1 as (c & k & l & E); [now left|]. cbn [snd] in E. congruence.
Qed.
Example C39_orphan v h x r : ~ In "Relationship" (map fst h) -> ~ acceptable v (h ++ ("RelationshipComment", x) :: r).
Proof. intros N [_ _ C _ _]. apply N. eapply C; [reflexivity|now left]. Qed.
Example C39_no_identifier v h x : ~ acceptable v (h ++ [("FileName", x)]).
Proof.
  intros [_ _ _ _ F]. unfold every_file in F. change (Forall DenoteRead.has_fid (DenoteElems.files (h ++ [("FileName", x)]))) in F.
  rewrite DenoteElems.files_snoc in F. simpl String.eqb in F. cbv iota in F. apply Forall_app in F as [_ F].
  inversion F as [|? ? F1 _]; subst. now apply F1.
Qed.

(** A package with an empty name escapes the check of its identifier. *)
Theorem C39_empty_name_refuted :
  let l := [("SPDXVersion", "SPDX-2.3"); ("Creator", "Tool: x"); ("PackageName", ""); ("PackageVersion", "1");
            ("PackageName", "q"); ("SPDXID", "SPDXRef-q")] in
  (exists d, parse_tag_values V23 l = Ok (Some d)) /\ ~ acceptable V23 l.
Proof.
  split; [eexists; vm_compute; reflexivity|]. intros [_ _ _ P _]. inversion P as [|? ? P1 _]; subst. now apply P1.
Qed.
Print Assumptions C39_empty_name_refuted.
