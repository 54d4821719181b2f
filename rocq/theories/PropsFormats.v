(** * Property C42: what survives writing in a format, and going from one format to the other. *)
From Verif Require Import GoStr Sorting Types TvUtil TvReader TvParser TvWriter SpecTv SpecId SpecDoc SpecWrite Json JsonSpdx JsonText SpecJson SpecJsonText
  SpecFormats Formats GoStrFacts TvUtilFacts JsonCodec JsonRound JsonPart TagPart FormatsFacts PropsTvWrite PropsJson PropsJsonText.

(** Writing any document as JSON and reading the text gives the part of it that
    JSON carries, if that part is good JSON. *)
Theorem C42_json : forall v h ind d, blank ind -> document_json v h (json_part v d) ->
  exists s, json_write v h ind d = Ok s /\ json_read_into s = Ok (v, json_part v d).
Proof. exact json_part_read. Qed.
Print Assumptions C42_json.
(** Two documents have the same JSON text exactly if they agree in that part. *)
Theorem C42_json_exactly : forall v h ind d e, blank ind -> document_json v h (json_part v d) -> document_json v h (json_part v e) ->
  (json_write v h ind d = json_write v h ind e <-> json_part v d = json_part v e).
Proof. exact json_same. Qed.
Print Assumptions C42_json_exactly.

(** Writing any document as tag-value text and reading that gives the part of it
    that tag-value text carries, up to the order the writer sorts into. *)
Theorem C42_tag : forall so v d, representable v (tag_part v d) ->
  exists t d' e, render_document so v d = Ok (t, d') /\ document_reordered d d' /\ document_same (tag_part v d) e /\
    (Forall short (stream_lines t) -> read_into t = Ok (v, Some e)).
Proof. exact round_trip_part. Qed.
Print Assumptions C42_tag.

(** Two documents with the same tag-value text agree in that part, up to order. *)
Theorem C42_tag_determined : forall so so' v d e t d' e', representable v (tag_part v d) -> representable v (tag_part v e) ->
  render_document so v d = Ok (t, d') -> render_document so' v e = Ok (t, e') -> Forall short (stream_lines t) ->
  exists x, document_same (tag_part v d) x /\ document_same (tag_part v e) x.
Proof. exact tag_same. Qed.
Print Assumptions C42_tag_determined.

(** From tag-value text to JSON. *)
Theorem C42_to_json : forall v h ind text d, blank ind -> read_into text = Ok (v, Some d) -> document_json v h (json_part v (jdoc d)) ->
  exists s, tv_to_json h ind text = Ok s /\ json_read_into s = Ok (v, json_part v (jdoc d)).
Proof. exact to_json. Qed.
Print Assumptions C42_to_json.
(** From JSON to tag-value text. *)
Theorem C42_to_tag : forall so v text d, json_read_into text = Ok (v, jdoc d) -> representable v (tag_part v d) ->
  exists t e, json_to_tv so text = Ok t /\ document_same (tag_part v d) e /\
    (Forall short (stream_lines t) -> read_into t = Ok (v, Some e)).
Proof. exact to_tv. Qed.
Print Assumptions C42_to_tag.
(** From tag-value text to JSON and back: what both formats carry remains. *)
Theorem C42_there_and_back : forall so v h ind text d, blank ind -> read_into text = Ok (v, Some d) -> document_json v h (json_part v (jdoc d)) ->
  representable v d -> d_CreationInfo d <> Some zero_CreationInfo \/ lasting_elements d ->
  exists s t e, tv_to_json h ind text = Ok s /\ json_to_tv so s = Ok t /\ document_same (tag_part v (json_doc v d)) e /\
    (Forall short (stream_lines t) -> read_into t = Ok (v, Some e)).
Proof. exact common_part. Qed.
Print Assumptions C42_there_and_back.
(** The tag-value writer panics exactly on documents with creation information
    and a nil pointer to a package, file, license, relationship, annotation,
    external reference or artifact, at any depth. *)
Theorem C42_nil_pointer : forall so v d, tagvalue_write so v d = Panic <-> d_CreationInfo d <> None /\ document_nil d.
Proof. exact tagvalue_write_nil. Qed.
Print Assumptions C42_nil_pointer.
(** The documents without nil pointers are those the other theorems speak of. *)
Theorem C42_nil_free : forall d, ~ document_nil d <-> exists e, d = jdoc e.
Proof. exact no_nil_jdoc. Qed.
Print Assumptions C42_nil_free.

(** ** Witnesses *)
Ltac decide_json :=
  lazymatch goal with
  | |- True => exact I
  | |- utf8_ok _ => apply asciib_ok; vm_compute; reflexivity
  | |- plain _ _ => apply plain_lit; vm_compute; reflexivity
  | |- texts _ => hnf; decide_json
  | |- json_id _ _ _ => split; [discriminate|split; [decide_json|intros K; apply has_prefix_spec in K; vm_compute in K; discriminate K]]
  | |- trimmed _ => vm_compute; reflexivity
  | |- ~ occurs _ _ => apply not_occurs_contains; vm_compute; reflexivity
  | |- ~ In None _ => cbn; intros ?; repeat match goal with H : _ \/ _ |- _ => destruct H end; first [contradiction | discriminate]
  | |- _ /\ _ => split; decide_json
  | |- Forall _ ?l => let l' := eval hnf in l in change l with l'; first [apply Forall_nil | apply Forall_cons; decide_json]
  | |- _ <> _ => discriminate
  | |- _ = _ -> _ => intros ?; first [discriminate | decide_json]
  | |- _ <> _ -> _ => intros ?; first [congruence | decide_json]
  | |- _ = _ => vm_compute; reflexivity
  | |- In _ _ => cbn; tauto
  | |- _ \/ _ => first [solve [left; decide_json] | right; decide_json]
  | |- _ => progress hnf; decide_json
  end.
(** a document with snippets in its files, an annotation of a package and a review *)
Definition C42_document : Document :=
  MkDoc "SPDX-2.3" "CC0-1.0" "DOCUMENT" "doc" "http://ns"
    [MkEDR "r1" "http://a" (MkChecksum "SHA1" "11"); MkEDR "r2" "http://b" (MkChecksum "SHA1" "22")] ""
    (Some (MkCI "3.9" [MkCreator "t" "Tool"; MkCreator "p q" "Person"] "2020-01-01T00:00:00Z" ""))
    [w_package "p1" []; w_package "p2" [set_f_Snippets [("s1", w_snippet "s1"); ("s2", w_snippet "s2")] (w_file "f2")]]
    [set_f_Snippets [] (w_file "f1")]
    [MkOL "LicenseRef-1" ("text" ++ LF ++ LF ++ "end ") "" ["http://x"] ""]
    [MkRln (MkDEID "" "DOCUMENT" "") (MkDEID "" "p1" "") "DESCRIBES" "";
     MkRln (MkDEID "r1" "x" "") (MkDEID "" "" "NOASSERTION") "CONTAINS" "cm"]
    [MkAnn (MkAnnotator "ann" "Person") "2020-01-01T00:00:00Z" "REVIEW" (MkDEID "" "p1" "") "note"] []
    [MkRev "rev" "Person" "2020-01-01T00:00:00Z" "ok"].
Definition C42_text : string := match render_document insertion_sorter V23 C42_document with Ok (t, _) => t | _ => "" end.
Example C42_witness : read_into C42_text = Ok (V23, Some C42_document) /\ document_json V23 true (json_part V23 (jdoc C42_document)) /\
  representable V23 C42_document /\ lasting_elements C42_document /\
  json_part V23 (jdoc C42_document) <> jdoc C42_document /\
  d_Files (tag_part V23 (json_doc V23 C42_document)) = d_Files C42_document /\
  map (fun p => map f_SPDXIdentifier (p_Files p)) (d_Packages (tag_part V23 (json_doc V23 C42_document))) = [[]; ["f2"]].
Proof.
  split; [vm_compute; reflexivity|]. split; [decide_json|]. split; [decide_rep|]. split; [now left|].
  split; [discriminate|]. split; vm_compute; reflexivity.
Qed.
(** a document tag-value text carries only in part *)
Definition C42_rich : Document := set_d_Snippets [w_snippet "s9"] (set_d_Packages (map (set_p_Annotations (d_Annotations C42_document)) (d_Packages C42_document)) C42_document).
Example C42_tag_witness : representable V23 (tag_part V23 C42_rich) /\ tag_part V23 C42_rich <> C42_rich.
Proof. split; [decide_rep|discriminate]. Qed.

(** ** What does not hold *)

(** Going from tag-value text to JSON keeps the document: refuted by snippets,
    the targets of annotations, and reviews. *)
Theorem C42_lossless_refuted : exists text d s d', read_into text = Ok (V23, Some d) /\ representable V23 d /\
  tv_to_json true "" text = Ok s /\ json_read_into s = Ok (V23, jdoc d') /\
  (exists p f, In p (d_Packages d) /\ In f (p_Files p) /\ f_Snippets f <> []) /\
  (forall p f, In p (d_Packages d') -> In f (p_Files p) -> f_Snippets f = []) /\ d_Snippets d' = [] /\
  map a_SPDXIdentifier (d_Annotations d) = [MkDEID "" "p1" ""] /\ map a_SPDXIdentifier (d_Annotations d') = [MkDEID "" "" ""] /\
  length (d_Reviews d) = 1 /\ d_Reviews d' = [].
Proof.
  destruct C42_witness as (R & J & P & _). destruct (C42_to_json V23 true "" _ _ ltac:(constructor) R J) as (s & W & Rs). rewrite json_part_jdoc in Rs.
  exists C42_text, C42_document, s, (json_doc V23 C42_document). repeat (apply conj; [assumption|]). apply conj.
  { eexists _, _. split; [right; left; reflexivity|]. split; [left; reflexivity|discriminate]. }
  apply conj; [|repeat (apply conj; [reflexivity|]); reflexivity].
  intros p f Ip If. cbn in Ip. destruct Ip as [<-|[<-|[]]]; cbn in If; [contradiction|]. destruct If as [<-|[]]. reflexivity.
Qed.
Print Assumptions C42_lossless_refuted.
(** Going from JSON to tag-value text never panics: refuted by a null package. *)
Definition C42_null : string := "{" ++ q "'spdxVersion':'SPDX-2.3','creationInfo':{'created':'x'},'packages':[null]" ++ "}".
Theorem C42_panics_refuted : exists text, forall so, json_to_tv so text = Panic.
Proof. exists C42_null. intros so. vm_compute. reflexivity. Qed.
Print Assumptions C42_panics_refuted.
