(** Built documents saved as JSON. *)
From Verif Require Import GoStr GoStrFacts Sorting Types TvUtil SpecTv SpecId SpecDoc SpecWrite SpecUtils SpecTools
  TvReaderFacts TvUtilFacts TvWriterFacts Utils UtilsFacts SpdxLib LicenseTools ToolsFacts Builder IdSearcher BuilderFacts
  Json JsonSpdx JsonText SpecJson SpecJsonText SpecSave SpecFormats Formats JsonFacts JsonCodec JsonRound JsonPart FormatsFacts SaveFacts.
Local Open Scope string_scope.

Lemma utf8_app a b : utf8_ok a -> utf8_ok b -> utf8_ok (a ++ b).
Proof. intros Ha Hb. induction Ha; cbn; [exact Hb|apply utf8_one|apply utf8_two|apply utf8_three|apply utf8_four]; auto. Qed.
Lemma asc_utf8 s : asc s -> utf8_ok s.
Proof.
  induction s as [|c s IH]; intros H; constructor; [apply H; cbn; now rewrite Ascii.eqb_refl|]. apply IH. intros b B. apply H. cbn. rewrite B. apply orb_true_r.
Qed.
Lemma hex_asc s : hex s -> asc s.
Proof. intros H c B. apply (hex_byte _ _ H) in B. apply (asc_const "0123456789abcdef"); [reflexivity|now apply has_byte_list]. Qed.
Lemma hex_utf8 s : hex s -> utf8_ok s.
Proof. intros H. now apply asc_utf8, hex_asc. Qed.
Lemma const_utf8 s : forallb (fun c => code c <? 128)%N (list_ascii_of_string s) = true -> utf8_ok s.
Proof. intros H. now apply asc_utf8, asc_const. Qed.
Lemma show_N_plain html k : plain html (show_N k).
Proof.
  assert (P : forall s, (forall c, has_byte c s = true -> (45 <= code c <= 57)%N) -> plain html s).
  { induction s as [|c s IH]; intros H; [constructor|]. assert (X : (45 <= code c <= 57)%N) by (apply H; cbn; now rewrite Ascii.eqb_refl).
    apply plain_one; [lia|unfold special; lia|]. apply IH. intros b B. apply H. cbn. rewrite B. apply orb_true_r. }
  apply P. intros c B. destruct (((code c <? 48) || (57 <? code c))%N) eqn:E.
  - destruct (Ascii.eqb "-" c) eqn:M; [apply Ascii.eqb_eq in M; subst c; cbn; lia|]. rewrite show_N_Z, show_Z_byte in B by assumption. discriminate.
  - apply orb_false_iff in E as [E1 E2]. apply N.ltb_ge in E1, E2. lia.
Qed.
Lemma other_id html p id : id <> "" -> plain html id -> (forall r, id <> p ++ r) -> json_id html p id.
Proof. intros N P H. split; [exact N|]. split; [exact P|]. intros (r & E). now apply (H r). Qed.
Lemma file_json_form html h info concluded c k x : hex_hashes h -> utf8_ok (rooted c) -> texts info -> utf8_ok concluded ->
  file_json V23 html (jfile (file_form h info concluded c k x)).
Proof.
  intros H R I C. destruct (H x) as (H1 & H2 & H3). unfold file_json, jfile, file_form.
  cbn [f_FileName f_SPDXIdentifier f_FileTypes f_Checksums f_LicenseConcluded f_LicenseInfoInFiles f_LicenseComments f_CopyrightText f_Artifacts f_Comment f_Notice
    f_Contributors f_AttributionTexts f_Dependencies f_Snippets f_Annotations].
  assert (S : forall n x, n = "SHA1" \/ n = "SHA256" \/ n = "MD5" -> hex x -> checksum_json (MkChecksum n x)).
  { intros n y N Hy; split; cbn; [destruct N as [-> | [-> | ->]]; now apply const_utf8|now apply hex_utf8]. }
  split; [apply utf8_app; [now apply const_utf8|exact R]|].
  split; [apply other_id; [discriminate|apply plain_app; [now apply plain_lit|apply show_N_plain]|discriminate]|].
  split; [constructor|]. split; [repeat constructor; apply S; auto|].
  repeat match goal with |- _ /\ _ => apply conj end; first [assumption|now apply const_utf8|now constructor|congruence|reflexivity].
Qed.
Lemma form_json html h tree cfg name code info files : hex_hashes h -> build_json_ok html tree name cfg -> hex_code h code -> texts info -> Forall (fun f => file_json V23 html (jfile f)) files ->
  document_json V23 html (jdoc (document_form cfg name (vc_Value code) (package_form name code info files))).
Proof.
  intros H (B1 & B2 & B3 & B4 & _) (C1 & (t & C2)) I F. assert (Hc : hex (vc_Value code)) by (rewrite C2; apply H).
  assert (P : plain html ("Package-" ++ name)) by (apply plain_app; [now apply plain_lit|exact B1]).
  assert (U : utf8_ok name) by exact (plain_utf8 _ _ B1).
  unfold document_json, jdoc, document_form.
  cbn [d_SPDXVersion d_DataLicense d_SPDXIdentifier d_DocumentName d_DocumentNamespace d_ExternalDocumentReferences d_DocumentComment d_CreationInfo d_Packages
    d_Files d_OtherLicenses d_Relationships d_Annotations d_Snippets d_Reviews map].
  split; [reflexivity|]. split; [now apply const_utf8|]. split; [apply other_id; [discriminate|now apply plain_lit|discriminate]|]. split; [exact U|].
  split. { repeat apply utf8_app; try assumption; try now apply const_utf8. now apply hex_utf8. }
  split; [constructor|]. split; [constructor|]. split.
  { cbn [opt_ok build_creation_info creation_json ci_LicenseListVersion ci_Creators ci_Created ci_CreatorComment]. split; [constructor|]. split; [|split; [exact B4|constructor]].
    constructor; [|constructor; [exact B3|constructor]]. cbn. split; [discriminate|]. split; [now apply plain_lit|]. split; [reflexivity|].
    split; [now apply plain_lit|]. split; [reflexivity|]. now apply not_occurs_byte. }
  split.
  { constructor; [|constructor]. cbn [opt_ok]. unfold package_json, jpkg, package_form.
    cbn [p_IsUnpackaged p_PackageName p_SPDXIdentifier p_Version p_FileName p_Supplier p_Originator p_DownloadLocation p_FilesAnalyzed p_IsFilesAnalyzedTagPresent
      p_VerificationCode p_Checksums p_HomePage p_SourceInfo p_LicenseConcluded p_LicenseInfoFromFiles p_LicenseDeclared p_LicenseComments p_CopyrightText p_Summary
      p_Description p_Comment p_ExternalReferences p_AttributionTexts p_PrimaryPackagePurpose p_ReleaseDate p_BuiltDate p_ValidUntilDate p_Files p_Annotations].
    assert (G : opt_ok (code_json V23) (Some code)).
    { cbn. split; [now apply hex_utf8|]. rewrite C1. split; [constructor|congruence]. }
    assert (F' : Forall (opt_ok (file_json V23 html)) (map (fun f => Some (jfile f)) files)) by (apply Forall_map; exact F).
    assert (D : json_id html "SPDXRef-" ("Package-" ++ name)) by (apply other_id; [discriminate|exact P|discriminate]).
    repeat match goal with |- _ /\ _ => apply conj end; first [assumption|now apply const_utf8|now constructor|exact Logic.I|congruence|reflexivity]. }
  split; [constructor|]. split; [constructor|]. split; [|split; [now intros _ [K|[]]|split; [constructor|split; [constructor|reflexivity]]]].
  constructor; [|constructor]. cbn [opt_ok]. unfold relationship_json, build_relationship. cbn [r_RefA r_RefB r_Relationship r_Comment].
  assert (J : forall id, id <> "" -> plain html id -> (forall r, id <> "SPDXRef-" ++ r) -> json_ref html (make_doc_element_id "" id)).
  { intros id N Q R. left. unfold make_doc_element_id. cbn. split; [reflexivity|]. split; [now apply other_id|now left]. }
  split; [apply J; [discriminate|now apply plain_lit|discriminate]|]. split; [apply J; [discriminate|exact P|discriminate]|]. split; now apply const_utf8.
Qed.
Lemma form_part cfg name code info files :
  Forall (fun f => exists h i o c k x, f = file_form h i o c k x) files ->
  json_part V23 (jdoc (document_form cfg name (vc_Value code) (package_form name code info files))) =
  jdoc (document_form cfg name (vc_Value code) (package_form name code info files)).
Proof.
  intros F. rewrite json_part_jdoc. f_equal. unfold json_doc, document_form, package_form, json_package.
  cbn [set_d_Reviews set_d_Packages set_d_Files set_d_Annotations set_d_Snippets d_SPDXVersion d_DataLicense d_SPDXIdentifier d_DocumentName d_DocumentNamespace d_ExternalDocumentReferences d_DocumentComment d_CreationInfo d_Packages
    d_Files d_OtherLicenses d_Relationships d_Annotations d_Snippets d_Reviews map option_map p_VerificationCode json_code p_Files p_Annotations].
  assert (E : map (json_file V23) files = files).
  { induction F as [|f l (h & i & o & c & k & x & ->) F IH]; [reflexivity|]. cbn [map]. rewrite IH. reflexivity. }
  rewrite E. reflexivity.
Qed.
Lemma quiet_utf8 s : quiet s -> utf8_ok s.
Proof. intros (_ & _ & H). now apply asc_utf8. Qed.
Lemma build_json srt h tree root name cfg doc html ind : clean_root root -> wf_tree tree -> hex_hashes h -> blank ind -> build_json_ok html tree name cfg ->
  build srt h tree root name cfg = Ok doc -> exists s, json_write V23 html ind (jdoc doc) = Ok s /\ json_read_into s = Ok (V23, jdoc doc).
Proof.
  intros Hr Hw Hh Hi Hb E. destruct (build_form _ _ _ _ _ _ _ Hr Hw E) as (code & files & -> & C1 & C2 & _ & _ & F).
  assert (P := form_part cfg name code [] files).
  enough (X : document_json V23 html (json_part V23 (jdoc (document_form cfg name (vc_Value code) (package_form name code [] files))))).
  - destruct (json_part_read _ _ _ _ Hi X) as (s & W & R). exists s. split; [exact W|]. rewrite P in R; [exact R|].
    eapply Forall_impl; [|exact F]. intros f (c & k & x & L & ->). eauto 8.
  - rewrite P.
    + apply (form_json html h tree); auto; [now split|constructor|]. eapply Forall_impl; [|exact F]. intros f (c & k & x & L & ->).
      apply file_json_form; auto; [now apply Hb|constructor; [|constructor]|]; now apply const_utf8.
    + eapply Forall_impl; [|exact F]. intros f (c & k & x & L & ->). eauto 8.
Qed.
Lemma search_json srt h tree root name cfg doc html ind : clean_root root -> wf_tree tree -> hex_hashes h -> blank ind -> search_json_ok html tree name cfg ->
  build_ids_document srt h tree root cfg name = Ok doc -> exists s, json_write V23 html ind (jdoc doc) = Ok s /\ json_read_into s = Ok (V23, jdoc doc).
Proof.
  intros Hr Hw Hh Hi (B1 & B2 & B3 & B4) E. destruct (search_form _ _ _ _ _ _ _ Hr Hw E) as (code & info & files & -> & C & I & _ & _ & F).
  assert (T : forall l, Forall good l -> texts l) by (intros l; apply Forall_impl; intros y [_ Q]; now apply quiet_utf8).
  match goal with |- context [document_form ?c _ _ _] => set (cfg' := c) end.
  assert (P := form_part cfg' name code info files).
  enough (X : document_json V23 html (json_part V23 (jdoc (document_form cfg' name (vc_Value code) (package_form name code info files))))).
  - destruct (json_part_read _ _ _ _ Hi X) as (s & W & R). exists s. split; [exact W|]. rewrite P in R; [exact R|].
    eapply Forall_impl; [|exact F]. intros f (c & k & x & i & o & L & -> & _). eauto 8.
  - rewrite P.
    + apply (form_json html h tree); auto.
      * split; [exact B1|]. split; [exact B2|]. split; [|split; [exact B3|exact B4]]. cbn. split; [discriminate|]. split; [now apply plain_lit|]. split; [reflexivity|].
        split; [now apply plain_lit|]. split; [reflexivity|]. now apply not_occurs_byte.
      * eapply Forall_impl; [|exact F]. intros f (c & k & x & i & o & L & -> & G & Q). apply file_json_form; auto. now apply quiet_utf8.
    + eapply Forall_impl; [|exact F]. intros f (c & k & x & i & o & L & -> & _). eauto 8.
Qed.
