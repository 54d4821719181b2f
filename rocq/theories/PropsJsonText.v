(** * Properties of JSON as text (C41) *)
From Verif Require Import GoStr GoStrFacts Types TvUtil TvParser SpecTv SpecId SpecDoc Json JsonSpdx SpecJson SpecJsonRead SpecJsonWrite JsonReadDoc JsonWriteDoc JsonWriteOk
  Convert SpecConvert SpecUpgrade ConvertGo JsonText Formats SpecJsonText JsonTextFacts JsonTextParse JsonTextWrite JsonTextCodec JsonTextMeans JsonTextRead JsonTextLaws ConvertRecord PropsJson.
Local Open Scope string_scope.

(** ** C41: the bytes read and written are JSON text *)

(** A text is accepted exactly when it is a JSON text (RFC 8259), at most 10000
    levels deep and with no number out of the range of a float64, of a value
    that is a document. *)
Theorem C41_accepted : forall s v d, json_read_into s = Ok (v, d) <->
  exists j, json_text j s /\ (nesting j <= 10000)%N /\ all_fit j /\ read_value j = Ok (v, d).
Proof. exact read_into_iff. Qed.
Print Assumptions C41_accepted.
(** With what C36 says about values: the document read is the one described by
    the value that the text stands for. *)
Theorem C41_described : forall s j v d, json_text j s -> clear j ->
  (json_read_into s = Ok (v, d) <-> (nesting j <= 10000)%N /\ all_fit j /\ version_is j v /\ document_is v j d).
Proof.
  intros s j v d T C. rewrite C41_accepted. split.
  - intros (j' & T' & N & F & R). pose proof (json_text_unique s _ _ T T'). subst j'. apply (read_exact j v d C) in R. tauto.
  - intros (N & F & R). exists j. repeat apply conj; auto. now apply (read_exact j v d C).
Qed.
Print Assumptions C41_described.
(** A text stands for at most one value. *)
Theorem C41_unambiguous : forall s j j', json_text j s -> json_text j' s -> j = j'.
Proof. exact json_text_unique. Qed.
Print Assumptions C41_unambiguous.
(** White space between the tokens does not matter. *)
Theorem C41_white_space : forall j s s', json_text j s -> json_text j s' -> json_read_into s = json_read_into s'.
Proof. exact same_value_same_result. Qed.
Print Assumptions C41_white_space.
(** What literals, numbers and member names stand for. *)
Theorem C41_literals : forall r s, unescape r = Some s <-> means r s.
Proof. exact unescape_iff. Qed.
Print Assumptions C41_literals.
Theorem C41_every_literal : forall r, chars r <-> exists s, means r s.
Proof. exact chars_iff. Qed.
Print Assumptions C41_every_literal.
Theorem C41_integers : forall t z, atoi t = Ok z <-> integer t z.
Proof. exact atoi_iff. Qed.
Print Assumptions C41_integers.
Theorem C41_names : forall k m, Forall (fun c => (c < 128)%N) (bytes k) ->
  (called k m <-> exists n, means (fst m) n /\ same_name k n).
Proof.
  intros k m A. unfold called. split; intros (n & U & F); exists n.
  - split; [now apply unescape_iff|now apply same_name_iff].
  - split; [now apply unescape_iff|now apply same_name_iff].
Qed.
Print Assumptions C41_names.

(** What is written is a JSON text, for every indentation made of white space,
    and stands for the value that C37 describes. *)
Theorem C41_written : forall v ind d s, blank ind -> json_write v false ind d = Ok s ->
  exists j, json_text j s /\ document_form v d j.
Proof.
  intros v ind d s B W. destruct (write_text v false ind d s B W) as (j & M & T & _). exists j. split; [exact T|]. now apply writes_document.
Qed.
Print Assumptions C41_written.
Theorem C41_written_safe : forall v ind d s, blank ind -> json_write v true ind d = Ok s ->
  exists j0 j, json_text j s /\ document_form v d j0 /\ safe_form j0 j.
Proof.
  intros v ind d s B W. destruct (write_text v true ind d s B W) as (j & M & T & _). apply writes_document_safe in M as (j0 & D & S). eauto.
Qed.
Print Assumptions C41_written_safe.
Theorem C41_writable : forall v h ind d, (exists s, json_write v h ind d = Ok s) <-> document_writable d.
Proof. intros v h ind d. rewrite write_ok. apply takes_document. Qed.
Print Assumptions C41_writable.
(** Its layout: one line without indentation; with it, a line for every value
    and every closing bracket, indented by the depth. *)
Theorem C41_layout : forall v h ind d s, json_write v h ind d = Ok s <->
  exists j, marshal_document v h d = Ok j /\ ((ind = "" /\ s = text j ++ LF) \/ (ind <> "" /\ s = page ind (rows 0 "" j ""))).
Proof. exact write_layout. Qed.
Print Assumptions C41_layout.
(** What is written is read back, byte for byte through the text. *)
Theorem C41_round_trip : forall v h ind d, blank ind -> document_json v h d ->
  exists s, json_write v h ind d = Ok s /\ json_read_into s = Ok (v, d).
Proof. exact round_trip_bytes. Qed.
Print Assumptions C41_round_trip.
(** ... also after another program has laid the text out afresh and ordered the
    members of its objects differently. *)
Theorem C41_rewritten : forall v h d, document_json v h d ->
  exists j, marshal_document v h d = Ok j /\ forall j' s, shuffled j j' -> json_text j' s -> json_read_into s = Ok (v, d).
Proof. exact rewritten_bytes. Qed.
Print Assumptions C41_rewritten.

(** The public reader, for every sequence of bytes: a well-typed document of the
    version asked for, or an error. *)
Theorem C41_read_total : forall dz to s,
  (exists d, json_read dz to s = Ok d /\ typed (T_Document to) d) \/ (exists e, json_read dz to s = Err e).
Proof. exact json_read_total. Qed.
Print Assumptions C41_read_total.
Theorem C41_read_carried : forall dz to s v d p, json_read_into s = Ok (v, d) ->
  path_of (T_Document v) p = true -> path_of (T_Document to) p = true -> p <> [Fld "SPDXVersion"] ->
  exists d', json_read dz to s = Ok d' /\ get (T_Document to) d' p = get (T_Document v) (go_jdocument v d) p.
Proof. exact json_read_get. Qed.
Print Assumptions C41_read_carried.
Theorem C41_read_same : forall dz s v d, json_read_into s = Ok (v, d) -> json_read dz v s = Ok (go_jdocument v d).
Proof. exact json_read_same. Qed.
Print Assumptions C41_read_same.
(** With Read, a text of an older version whose arrays have no null elements
    becomes the 2.3 document with the same content. *)
Theorem C41_read : forall dz s v d, json_read_into s = Ok (v, jdoc d) ->
  solid (go_document v d) -> json_read dz V23 s = Ok (go_document V23 (in_version v V23 d)).
Proof. exact json_read_23. Qed.
Print Assumptions C41_read.

(** A text with ' for the quotation mark. *)
Fixpoint q (s : string) : string :=
  match s with "" => "" | String a r => String (if Ascii.eqb a "'" then dquote else a) (q r) end.
Definition w_text : string :=
  LF ++ q "{ 'SPDXID' :'SPDXRef-DOCUMENT' , 'x':[ -1.5e+3,{},[true ,null]]," ++ LF
  ++ q " 'spdxVersion':'SPDX-2.1', '" ++ String bslash (q "u006eAME': 'a") ++ String bslash "ud83d" ++ String bslash "ude00"
  ++ q "','hasExtractedLicensingInfos': [{'licenseId':'LicenseRef-1','extractedText':'t'}]} ".
Example C41_witness : exists j d, json_text j w_text /\ (nesting j <= 10000)%N /\ all_fit j /\ clear j /\
  json_read_into w_text = Ok (V21, jdoc d) /\
  d_DocumentName d = "a" ++ String (ch 240) (String (ch 159) (String (ch 152) (String (ch 128) ""))) /\
  solid (go_document V21 d) /\ length (d_OtherLicenses d) = 1%nat.
Proof.
  destruct (parse_text w_text) as [j|] eqn:P; [|vm_compute in P; discriminate P].
  destruct (json_read_into w_text) as [[v d]|e|] eqn:R; [|vm_compute in R; discriminate R..].
  pose proof P as P0. apply parse_text_iff in P0 as [T N]. exists j.
  destruct (plain_document d) as [e|] eqn:E; [|vm_compute in R; injection R as <- <-; vm_compute in E; discriminate E].
  exists e. split; [exact T|]. split; [exact N|].
  split. { apply all_fit_iff; [exact (json_text_lit _ _ T)|]. vm_compute in P. injection P as <-. vm_compute. reflexivity. }
  split. { vm_compute in P. injection P as <-. vm_compute.
    repeat (split; [|exact I] || split || constructor || (intros K; repeat destruct K as [K|K]; try discriminate K; try contradiction)). }
  vm_compute in R. injection R as <- <-. vm_compute in E. injection E as <-. split; [vm_compute; reflexivity|]. split; [vm_compute; reflexivity|].
  split; [apply solidb_solid; vm_compute; reflexivity|reflexivity].
Qed.
Example C41_round_trip_witness : forall v h, blank (String (ch 9) "  ") /\ document_json v h (wj_document v) /\ document_writable (wj_document v) /\
  Forall (fun c => (c < 128)%N) (bytes "licenseListVersion") /\ same_name "sk" (long_s ++ kelvin).
Proof.
  intros v h. split; [repeat (apply Forall_cons; [cbn; tauto|]); apply Forall_nil|]. split; [apply C31_witness|]. split.
  - apply (proj1 (C41_writable v h "" (wj_document v))). destruct (C41_round_trip v h "" _ blank_nil (C31_witness v h)) as (s & W & _). eauto.
  - split; [repeat constructor|]. apply same_name_s; [now left|]. rewrite <- (app_nil_r_s kelvin). apply same_name_k; [now left|constructor].
Qed.

Example C41_layout_witness : (exists s, json_write V23 true "  " (wj_document V23) = Ok s) /\
  page "  " (rows 0 "" (JObj [("a", JArr [JNum "1"; JArr []]); ("b", JObj [])]) "") =
  "{" ++ LF ++ q "  'a': [" ++ LF ++ "    1," ++ LF ++ "    []" ++ LF ++ "  ]," ++ LF ++ q "  'b': {}" ++ LF ++ "}" ++ LF.
Proof. split; [eexists; vm_compute; reflexivity|reflexivity]. Qed.

(** ** What does not hold *)

(** A member that no document has must be ignored, but a number in it that no
    float64 can hold makes the whole text unreadable. *)
Theorem C41_large_number_refuted : exists j s v d, json_text j s /\ read_value j = Ok (v, d) /\
  forall x, json_read_into s <> Ok x.
Proof.
  set (s := q "{'spdxVersion':'SPDX-2.3','x-vendor':1e400}").
  destruct (parse_text s) as [j|] eqn:P; [|vm_compute in P; discriminate P]. pose proof P as P0. apply parse_text_iff in P0 as [T N].
  vm_compute in P. injection P as <-. eexists. exists s. eexists. eexists. split; [exact T|]. split; [vm_compute; reflexivity|].
  intros x. vm_compute. discriminate.
Qed.
Print Assumptions C41_large_number_refuted.
(** An indentation that is not white space: the text written is refused by the
    reader. *)
Theorem C41_indent_refuted : exists ind d s e, document_json V23 true d /\ json_write V23 true ind d = Ok s /\ json_read_into s = Err e.
Proof.
  exists "--", (wj_document V23). destruct (json_write V23 true "--" (wj_document V23)) as [s|e|] eqn:W; [|vm_compute in W; discriminate W..].
  exists s, "invalid JSON". split; [apply C31_witness|]. split; [reflexivity|]. vm_compute in W. injection W as <-. vm_compute. reflexivity.
Qed.
Print Assumptions C41_indent_refuted.
