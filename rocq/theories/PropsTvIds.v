(** * Properties C09 and C30: identifiers and one-line sub-formats. *)
From Verif Require Import GoStr Types TvUtil SpdxLib SpecTv SpecId SpecDoc GoStrFacts TvReaderFacts TvUtilFacts TvParserFacts.

(** C09: exact acceptance. *)
Theorem C09_element_id_exact : forall s e,
  extract_element_id s = Ok e <-> s = "SPDXRef-" ++ e /\ id_ok e.
Proof. exact extract_element_id_iff. Qed.
Print Assumptions C09_element_id_exact.

Theorem C09_doc_element_id_exact : forall s d,
  extract_doc_element_id s = Ok d <-> plain_ref d /\ ref_text d s.
Proof. exact extract_doc_element_id_iff. Qed.
Print Assumptions C09_doc_element_id_exact.

Theorem C09_special_exact : forall permitted s d,
  extract_doc_element_special s permitted = Ok d <->
  (In s permitted /\ d = MkDEID "" "" s) \/
  (~ In s permitted /\ plain_ref d /\ ref_text d s).
Proof. exact extract_special_iff. Qed.
Print Assumptions C09_special_exact.

(** C09: round trips. *)
Theorem C09_render_element_id : forall e, id_ok e -> extract_element_id (render_element_id e) = Ok e.
Proof. exact extract_render_elt. Qed.
Print Assumptions C09_render_element_id.

Theorem C09_render_doc_element_id : forall d,
  plain_ref d -> extract_doc_element_id (render_doc_element_id d) = Ok d.
Proof. exact extract_render. Qed.
Print Assumptions C09_render_doc_element_id.

Theorem C09_render_special : forall permitted d,
  ~ In "" permitted -> special_ref permitted d ->
  extract_doc_element_special (render_doc_element_id d) permitted = Ok d.
Proof. exact extract_render_special. Qed.
Print Assumptions C09_render_special.

(** C09: the references a program makes are those that are read. *)
Theorem C09_made : forall doc elt, id_ok elt -> (doc = "" \/ id_ok doc) ->
  let s := match doc with "" => "SPDXRef-" ++ elt | _ => "DocumentRef-" ++ doc ++ ":SPDXRef-" ++ elt end in
  render_doc_element_id (make_doc_element_id doc elt) = s /\ extract_doc_element_id s = Ok (make_doc_element_id doc elt).
Proof.
  intros doc elt E D. cbv zeta. split; [destruct doc; unfold render_doc_element_id, make_doc_element_id; cbn; [reflexivity|now rewrite app_assoc_s]|]. apply C09_doc_element_id_exact. split; [split; [reflexivity|split; assumption]|].
  destruct doc; [left|right; split; [discriminate|]]; easy.
Qed.
Print Assumptions C09_made.
Theorem C09_made_special : forall permitted s, In s permitted -> s <> "" ->
  render_doc_element_id (make_doc_element_special s) = s /\ extract_doc_element_special s permitted = Ok (make_doc_element_special s).
Proof.
  intros permitted s I N. split; [destruct s; [congruence|reflexivity]|]. apply C09_special_exact. now left.
Qed.
Print Assumptions C09_made_special.

Example C09_witness :
  id_ok "a.b-1" /\ plain_ref (MkDEID "ext" "x" "") /\ plain_ref (MkDEID "" "x" "") /\
  special_ref ["NONE"; "NOASSERTION"] (MkDEID "" "" "NONE") /\
  render_doc_element_id (MkDEID "ext" "x" "") = "DocumentRef-ext:SPDXRef-x".
Proof.
  unfold id_ok, plain_ref, special_ref, id_ok. simpl.
  repeat split; try discriminate; auto; try (apply not_occurs_byte; reflexivity).
  right. split; [discriminate|apply not_occurs_byte; reflexivity].
Qed.

(** The reader rejects what the writer prints for a special value on the left
    of a relationship, or anywhere in version 2.1. *)
Theorem C09_special_left_refuted : exists d,
  special_ref ["NONE"; "NOASSERTION"] d /\
  (exists e, extract_doc_element_id (render_doc_element_id d) = Err e).
Proof. exists (MkDEID "" "" "NONE"). repeat split; [simpl; auto|eexists; reflexivity]. Qed.

(** C30: type and name of creators, annotators, reviewers, suppliers, originators. *)
Theorem C30_actor : forall kinds k x,
  In k kinds -> ~ occurs ":" k -> trimmed k -> trimmed x ->
  extract_actor kinds (k ++ ": " ++ x) = Ok (k, x).
Proof. exact extract_actor_app. Qed.
Print Assumptions C30_actor.

Theorem C30_checksum : forall v alg x,
  In alg (algorithms v) -> trimmed x -> extract_checksum v (alg ++ ": " ++ x) = Ok (MkChecksum alg x).
Proof. intros v alg x H. rewrite <- algs_algorithms in H. now apply extract_checksum_app. Qed.
Print Assumptions C30_checksum.
(** No other algorithm is accepted. *)
Theorem C30_checksum_only : forall v s c, extract_checksum v s = Ok c -> In (ck_Algorithm c) (algorithms v).
Proof. intros v s c H. rewrite <- algs_algorithms. exact (extract_checksum_alg v s c H). Qed.
Print Assumptions C30_checksum_only.

Theorem C30_external_document_ref : forall d u a c,
  word ("DocumentRef-" ++ d) -> d <> "" -> word u -> ~ occurs ":" a -> word (a ++ ":" ++ c) ->
  extract_external_document_reference ("DocumentRef-" ++ d ++ " " ++ u ++ " " ++ a ++ ":" ++ c)
  = Ok (MkEDR d u (MkChecksum a c)).
Proof. exact extract_edr_app. Qed.
Print Assumptions C30_external_document_ref.

Theorem C30_external_ref : forall c t l, word c -> word t -> word l ->
  extract_package_external_reference (c ++ " " ++ t ++ " " ++ l) = Ok (c, t, l).
Proof. exact extract_external_ref_app. Qed.
Print Assumptions C30_external_ref.

Theorem C30_verification_code : forall c, ~ occurs "(excludes:" c ->
  extract_code_and_excludes c = MkVC c [].
Proof. exact extract_code_plain. Qed.
Print Assumptions C30_verification_code.

Theorem C30_verification_code_excludes : forall c f,
  ~ occurs "(excludes:" c -> trimmed c -> ~ occurs ")" f -> trimmed f ->
  extract_code_and_excludes (c ++ " (excludes: " ++ f ++ ")") = MkVC c [f].
Proof. exact extract_code_excl. Qed.
Print Assumptions C30_verification_code_excludes.

Theorem C30_range : forall a b, in_int a = true -> in_int b = true ->
  extract_range (show_Z a ++ ":" ++ show_Z b) = Ok (a, b).
Proof. exact extract_range_app. Qed.
Print Assumptions C30_range.

Theorem C30_relationship : forall v a r b,
  plain_ref a -> rel_right v b -> word r ->
  word (render_doc_element_id a) -> word (render_doc_element_id b) ->
  extract_relationship v (render_doc_element_id a ++ " " ++ r ++ " " ++ render_doc_element_id b)
  = Ok (a, r, b).
Proof. exact extract_relationship_app. Qed.
Print Assumptions C30_relationship.

Example C30_witness :
  trimmed "Jane Doe (jane@x)" /\ word ("DocumentRef-" ++ "d1") /\ word "http://x#y" /\
  word ("SHA1" ++ ":" ++ "abc") /\ ~ occurs "(excludes:" "d6a7" /\ ~ occurs ")" "./p.spdx" /\
  in_int (-5) = true /\ word (render_doc_element_id (MkDEID "e" "x" "")).
Proof.
  unfold word. repeat split; try discriminate; try reflexivity;
    try (apply not_occurs; reflexivity).
Qed.

(** Several excluded files are printed but read back as one (writer joins them
    with ", "; the reader keeps the text as a single name). *)
Theorem C30_two_excludes_refuted : exists c f g,
  extract_code_and_excludes (c ++ " (excludes: " ++ join ", " [f; g] ++ ")") <> MkVC c [f; g].
Proof. exists "c", "f", "g". vm_compute. discriminate. Qed.
