(** * What a document must satisfy to survive JSON unchanged.

    Independent of the codecs: UTF-8, characters that JSON leaves alone, and per
    structure what the JSON form can carry. *)
From Coq Require Import Permutation.
From Verif Require Import GoStr Types TvUtil SpecTv SpecId SpecDoc SpecWrite Json.
Local Open Scope string_scope.

(** Well-formed UTF-8 (Unicode 3.9, table 3-7). *)
Inductive utf8_ok : string -> Prop :=
| utf8_nil : utf8_ok ""
| utf8_one a s : (code a < 128)%N -> utf8_ok s -> utf8_ok (String a s)
| utf8_two a b s : utf8_2 a b = true -> utf8_ok s -> utf8_ok (String a (String b s))
| utf8_three a b c s : utf8_3 a b c = true -> utf8_ok s ->
    utf8_ok (String a (String b (String c s)))
| utf8_four a b c d s : utf8_4 a b c d = true -> utf8_ok s ->
    utf8_ok (String a (String b (String c (String d s)))).

(** Bytes JSON text must escape: control characters, the quote and the backslash;
    with HTML escaping (the default of the writer) also <, > and &. *)
Definition special (h : bool) (a : ascii) : Prop :=
  (code a < 32)%N \/ code a = 34%N \/ code a = 92%N \/
  (h = true /\ (code a = 60%N \/ code a = 62%N \/ code a = 38%N)).
(** Text without characters to escape: well-formed UTF-8 without special bytes
    and without U+2028 and U+2029. *)
Inductive plain (h : bool) : string -> Prop :=
| plain_nil : plain h ""
| plain_one a s : (code a < 128)%N -> ~ special h a -> plain h s -> plain h (String a s)
| plain_two a b s : utf8_2 a b = true -> plain h s -> plain h (String a (String b s))
| plain_three a b c s : utf8_3 a b c = true -> line_sep a b c = false -> plain h s ->
    plain h (String a (String b (String c s)))
| plain_four a b c d s : utf8_4 a b c d = true -> plain h s ->
    plain h (String a (String b (String c (String d s)))).

Definition texts (l : list string) : Prop := Forall utf8_ok l.

(** An identifier without its prefix. *)
Definition json_id (h : bool) (prefix id : string) : Prop :=
  id <> "" /\ plain h id /\ ~ (exists r, id = prefix ++ r).
Definition json_ref (h : bool) (d : DocElementID) : Prop :=
  (de_SpecialID d = "" /\ json_id h "SPDXRef-" (de_ElementRefID d) /\
   (de_DocumentRefID d = "" \/
    json_id h "DocumentRef-" (de_DocumentRefID d) /\ ~ occurs ":" (de_DocumentRefID d)))
  \/ (de_DocumentRefID d = "" /\ de_ElementRefID d = "" /\
      In (de_SpecialID d) ["NONE"; "NOASSERTION"]).

(** "type: name" on one line. *)
Definition json_actor (h : bool) (type name : string) : Prop :=
  name <> "" /\ plain h name /\ trimmed name /\
  plain h type /\ trimmed type /\ ~ occurs ":" type.
(** The same, or NOASSERTION. *)
Definition json_agent (h : bool) (type name : string) : Prop :=
  (type = "" /\ name = "NOASSERTION") \/
  (type <> "" /\ name <> "NOASSERTION" /\ json_actor h type name).

Section Rep.
  Variable v : version.
  Variable h : bool.

  Definition checksum_json (c : Checksum) : Prop := utf8_ok (ck_Algorithm c) /\ utf8_ok (ck_Value c).
  Definition code_json (c : VerificationCode) : Prop :=
    utf8_ok (vc_Value c) /\ texts (vc_ExcludedFiles c) /\
    (* v2_2 and v2_1 store the struct by value; its zero value is [None] here *)
    (v <> V23 -> vc_Value c <> "" \/ vc_ExcludedFiles c <> []).
  Definition pointer_json (p : RangePointer) : Prop :=
    in_int (rp_Offset p) = true /\ in_int (rp_LineNumber p) = true /\
    json_id h "SPDXRef-" (rp_FileSPDXIdentifier p).
  Definition range_json (r : SnippetRange) : Prop :=
    pointer_json (sr_StartPointer r) /\ pointer_json (sr_EndPointer r).
  Definition external_document_json (e : ExternalDocumentRef) : Prop :=
    json_id h "DocumentRef-" (edr_DocumentRefID e) /\ utf8_ok (edr_URI e) /\
    checksum_json (edr_Checksum e).
  Definition creation_json (c : CreationInfo) : Prop :=
    utf8_ok (ci_LicenseListVersion c) /\
    Forall (fun c => json_actor h (cr_CreatorType c) (cr_Creator c)) (ci_Creators c) /\
    utf8_ok (ci_Created c) /\ utf8_ok (ci_CreatorComment c).
  Definition external_ref_json (r : ExternalRef) : Prop :=
    utf8_ok (er_Category r) /\ utf8_ok (er_RefType r) /\ utf8_ok (er_Locator r) /\
    utf8_ok (er_Comment r) /\ (v <> V21 -> ~ occurs "_" (er_Category r)).
  Definition relationship_json (r : Relationship) : Prop :=
    json_ref h (r_RefA r) /\ json_ref h (r_RefB r) /\ utf8_ok (r_Relationship r) /\
    utf8_ok (r_Comment r).
  (** The annotated element is not part of the JSON form. *)
  Definition annotation_json (a : Annotation) : Prop :=
    json_actor h (an_AnnotatorType (a_Annotator a)) (an_Annotator (a_Annotator a)) /\
    utf8_ok (a_Date a) /\ utf8_ok (a_Type a) /\ utf8_ok (a_Comment a) /\
    a_SPDXIdentifier a = MkDEID "" "" "".
  Definition other_license_json (o : OtherLicense) : Prop :=
    utf8_ok (ol_LicenseIdentifier o) /\ utf8_ok (ol_ExtractedText o) /\
    utf8_ok (ol_LicenseName o) /\ texts (ol_CrossReferences o) /\ utf8_ok (ol_Comment o).
  Definition snippet_json (s : Snippet) : Prop :=
    json_id h "SPDXRef-" (s_SPDXIdentifier s) /\ json_id h "SPDXRef-" (s_FromFile s) /\
    Forall range_json (s_Ranges s) /\ utf8_ok (s_LicenseConcluded s) /\
    texts (s_LicenseInfoInSnippet s) /\ utf8_ok (s_LicenseComments s) /\
    utf8_ok (s_CopyrightText s) /\ utf8_ok (s_Comment s) /\ utf8_ok (s_Name s) /\
    s_AttributionTexts s = [].
  Definition artifact_json (a : Artifact) : Prop :=
    utf8_ok (ar_Name a) /\ utf8_ok (ar_HomePage a) /\ utf8_ok (ar_URI a).
  (** A file's snippet map is not part of the JSON form; artifacts and
      dependencies only in 2.3, attribution texts from 2.2 on. *)
  Definition file_json (f : JFile) : Prop :=
    utf8_ok (f_FileName f) /\ json_id h "SPDXRef-" (f_SPDXIdentifier f) /\
    texts (f_FileTypes f) /\ Forall checksum_json (f_Checksums f) /\
    utf8_ok (f_LicenseConcluded f) /\ texts (f_LicenseInfoInFiles f) /\
    utf8_ok (f_LicenseComments f) /\ utf8_ok (f_CopyrightText f) /\
    Forall (opt_ok artifact_json) (f_Artifacts f) /\ (v <> V23 -> f_Artifacts f = []) /\
    utf8_ok (f_Comment f) /\ utf8_ok (f_Notice f) /\ texts (f_Contributors f) /\
    texts (f_AttributionTexts f) /\ (v = V21 -> f_AttributionTexts f = []) /\
    texts (f_Dependencies f) /\ (v <> V23 -> f_Dependencies f = []) /\
    f_Snippets f = [] /\ Forall annotation_json (f_Annotations f).
  Definition package_json (p : JPackage) : Prop :=
    p_IsUnpackaged p = false /\
    utf8_ok (p_PackageName p) /\ json_id h "SPDXRef-" (p_SPDXIdentifier p) /\
    utf8_ok (p_Version p) /\ utf8_ok (p_FileName p) /\
    opt_ok (fun s => json_agent h (su_SupplierType s) (su_Supplier s)) (p_Supplier p) /\
    opt_ok (fun s => json_agent h (or_OriginatorType s) (or_Originator s)) (p_Originator p) /\
    utf8_ok (p_DownloadLocation p) /\
    (* filesAnalyzed is always written from 2.2 on, and reading it marks it as
       present; 2.1 has no such mark *)
    p_IsFilesAnalyzedTagPresent p = (match v with V21 => false | _ => true end) /\
    opt_ok code_json (p_VerificationCode p) /\ Forall checksum_json (p_Checksums p) /\
    utf8_ok (p_HomePage p) /\ utf8_ok (p_SourceInfo p) /\ utf8_ok (p_LicenseConcluded p) /\
    texts (p_LicenseInfoFromFiles p) /\ utf8_ok (p_LicenseDeclared p) /\
    utf8_ok (p_LicenseComments p) /\ utf8_ok (p_CopyrightText p) /\ utf8_ok (p_Summary p) /\
    utf8_ok (p_Description p) /\ utf8_ok (p_Comment p) /\
    Forall (opt_ok external_ref_json) (p_ExternalReferences p) /\
    texts (p_AttributionTexts p) /\ (v = V21 -> p_AttributionTexts p = []) /\
    utf8_ok (p_PrimaryPackagePurpose p) /\ utf8_ok (p_ReleaseDate p) /\
    utf8_ok (p_BuiltDate p) /\ utf8_ok (p_ValidUntilDate p) /\
    (v <> V23 -> p_PrimaryPackagePurpose p = "" /\ p_ReleaseDate p = "" /\
                 p_BuiltDate p = "" /\ p_ValidUntilDate p = "") /\
    Forall (opt_ok file_json) (p_Files p) /\ Forall annotation_json (p_Annotations p).
  (** A document; reviews are not part of the JSON form. *)
  Definition document_json (d : JDocument) : Prop :=
    d_SPDXVersion d = (match v with V21 => "SPDX-2.1" | V22 => "SPDX-2.2" | V23 => "SPDX-2.3" end) /\
    utf8_ok (d_DataLicense d) /\ json_id h "SPDXRef-" (d_SPDXIdentifier d) /\
    utf8_ok (d_DocumentName d) /\ utf8_ok (d_DocumentNamespace d) /\
    Forall external_document_json (d_ExternalDocumentReferences d) /\
    utf8_ok (d_DocumentComment d) /\ opt_ok creation_json (d_CreationInfo d) /\
    Forall (opt_ok package_json) (d_Packages d) /\ Forall (opt_ok file_json) (d_Files d) /\
    Forall (opt_ok other_license_json) (d_OtherLicenses d) /\
    Forall (opt_ok relationship_json) (d_Relationships d) /\
    (* from 2.2 on, nil relationships are not read *)
    (v <> V21 -> ~ In None (d_Relationships d)) /\ Forall (opt_ok annotation_json) (d_Annotations d) /\
    Forall snippet_json (d_Snippets d) /\ d_Reviews d = [].
End Rep.

(** ** Reading references and actors *)

(** String literals without a quotation mark inside. *)
Definition no_quote (s : string) : Prop := ~ occurs (String dquote "") s.
(** What a reference literal means. *)
Definition ref_meaning (s : string) (d : DocElementID) : Prop :=
  (In s ["NONE"; "NOASSERTION"] /\ d = MkDEID "" "" s) \/
  (exists e, e <> "" /\ s = "SPDXRef-" ++ e /\ d = MkDEID "" e "") \/
  (exists doc e, doc <> "" /\ ~ occurs ":" doc /\ e <> "" /\
     s = "DocumentRef-" ++ doc ++ ":SPDXRef-" ++ e /\ d = MkDEID doc e "") \/
  (exists doc, doc <> "" /\ ~ occurs ":" doc /\ s = "DocumentRef-" ++ doc /\ d = MkDEID doc "" "").
(** "type: name", split at the first colon. *)
Definition actor_meaning (s type name : string) : Prop :=
  exists a b, s = a ++ ":" ++ b /\ ~ occurs ":" a /\ type = trim_space a /\ name = trim_space b.

(** ** Relationships implied by documentDescribes and hasFiles *)

(** The statement a relationship makes, with inverse forms turned round. *)
Definition statement_of (r : Relationship) : string * string * string :=
  let a := render_doc_element_id (r_RefA r) in
  let b := render_doc_element_id (r_RefB r) in
  if String.eqb (r_Relationship r) "CONTAINED_BY" then (b, "CONTAINS", a)
  else if String.eqb (r_Relationship r) "DESCRIBED_BY" then (b, "DESCRIBES", a)
  else (a, r_Relationship r, b).
(** Relationships whose statements can be told apart in the reader's map keys:
    identifiers without ">", types without "-" and ">". *)
Definition tellable (r : Relationship) : Prop :=
  ~ occurs ">" (render_doc_element_id (r_RefA r)) /\
  ~ occurs ">" (render_doc_element_id (r_RefB r)) /\
  ~ occurs ">" (r_Relationship r) /\ ~ occurs "-" (r_Relationship r).

(** The relationships the two shortcuts stand for. *)
Definition implied (id : string) (describes : list DocElementID)
  (pkgs : list (string * list DocElementID)) : list Relationship :=
  (map (fun e => MkRln (MkDEID "" id "") e "DESCRIBES" "") describes ++
   flat_map (fun p => map (fun f => MkRln (MkDEID "" (fst p) "") f "CONTAINS" "") (snd p)) pkgs)%list.

(** [added] is what remains of [wanted] after leaving out, from left to right,
    everything already stated. *)
Inductive completes : list Relationship -> list Relationship -> list Relationship -> Prop :=
| completes_nil known : completes known [] []
| completes_known known r w added :
    (exists k, In k known /\ statement_of k = statement_of r) ->
    completes known w added -> completes known (r :: w) added
| completes_new known r w added :
    ~ (exists k, In k known /\ statement_of k = statement_of r) ->
    completes (known ++ [r]) w added -> completes known (r :: w) (r :: added).

(** ** The same JSON value with object members in another order *)
Inductive shuffled : json -> json -> Prop :=
| shuffled_null : shuffled JNull JNull
| shuffled_bool b : shuffled (JBool b) (JBool b)
| shuffled_num t : shuffled (JNum t) (JNum t)
| shuffled_str r : shuffled (JStr r) (JStr r)
| shuffled_arr l l' : Forall2 shuffled l l' -> shuffled (JArr l) (JArr l')
| shuffled_obj ms ms' ms'' :
    Forall2 (fun m m' => fst m = fst m' /\ shuffled (snd m) (snd m')) ms ms' ->
    Permutation ms' ms'' -> shuffled (JObj ms) (JObj ms'').

(** Members of an object called [k], whatever the case of its letters. *)
Definition called (k : string) (m : string * json) : Prop :=
  exists n, unescape (fst m) = Some n /\ fold_name n = fold_name k.
(** The members a document may have. *)
Definition document_members : list string :=
  ["spdxVersion"; "dataLicense"; "SPDXID"; "name"; "documentNamespace"; "externalDocumentRefs"; "comment";
   "creationInfo"; "packages"; "files"; "hasExtractedLicensingInfos"; "relationships"; "annotations"; "snippets";
   "documentDescribes"].
