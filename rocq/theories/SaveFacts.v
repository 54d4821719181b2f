(** Built documents can be saved. *)
From Verif Require Import GoStr GoStrFacts Sorting Types TvReader TvUtil TvParser TvWriter SpecTv SpecId SpecDoc SpecWrite SpecUtils SpecTools SpecSave
  TvReaderFacts TvUtilFacts TvWriterFacts TvCanon TvRoundTrip Utils UtilsFacts SpdxLib LicenseTools ToolsFacts Builder IdSearcher BuilderFacts.
Local Open Scope string_scope.

(** ** Strings *)
Lemma has_byte_list c s : has_byte c s = true <-> In c (list_ascii_of_string s).
Proof.
  induction s as [|a s IH]; cbn; [split; [discriminate|tauto]|]. rewrite orb_true_iff, IH, Ascii.eqb_eq. tauto.
Qed.
Lemma contains_first c p s : has_byte c s = false -> contains (String c p) s = false.
Proof.
  intros H. apply not_occurs_contains. intros (x & y & ->). rewrite has_byte_app in H. apply orb_false_iff in H as [_ H]. cbn in H.
  now rewrite Ascii.eqb_refl in H.
Qed.
Lemma hex_byte s c : hex s -> has_byte c s = true -> In c (list_ascii_of_string "0123456789abcdef").
Proof. intros [_ H] B. apply H. now apply has_byte_list. Qed.
Lemma hex_no s c : hex s -> existsb (Ascii.eqb c) (list_ascii_of_string "0123456789abcdef") = false -> has_byte c s = false.
Proof.
  intros H E. destruct (has_byte c s) eqn:B; [|reflexivity]. apply (hex_byte s c H) in B.
  assert (existsb (Ascii.eqb c) (list_ascii_of_string "0123456789abcdef") = true) as K; [|congruence].
  apply existsb_exists. exists c. split; [exact B|apply Ascii.eqb_refl].
Qed.
Lemma hex_trimmed s : hex s -> trimmed s.
Proof.
  intros H. apply trimmed_ascii. intros c B. apply (hex_byte s c H) in B. cbn in B.
  repeat (destruct B as [<-|B]; [split; reflexivity|]). destruct B.
Qed.
Lemma hex_line s : hex s -> line_ok s.
Proof.
  intros H. split; [rewrite has_byte_lf; apply (hex_no s _ H); reflexivity|]. split; [now apply hex_trimmed|].
  apply contains_first, (hex_no s _ H). reflexivity.
Qed.
Lemma hex_name s : hex s -> name_ok s.
Proof. intros H. split; [apply H|now apply hex_line]. Qed.

Lemma line_const x : negb (contains LF x) && (trim_space x =? x)%string && negb (contains "<text>" x) = true -> line_ok x.
Proof.
  intros H. apply andb_true_iff in H as [H H3]. apply andb_true_iff in H as [H1 H2]. apply negb_true_iff in H1, H3.
  apply String.eqb_eq in H2. now repeat split.
Qed.
Lemma show_N_Z n : show_N n = show_Z (Z.of_N n).
Proof. unfold show_Z. destruct (Z.of_N n <? 0)%Z eqn:E; [apply Z.ltb_lt in E; lia|]. now rewrite Zabs2N.id. Qed.
(** text after a separator *)
Lemma line_after a c b : a <> "" -> ascii7 c = true -> has_byte c "<text>" = false -> has_byte c LF = false -> line_ok a -> b <> "" -> line_ok b -> line_ok (a ++ String c b).
Proof.
  intros Na Hc H1 H2 (A1 & A2 & A3) Nb (B1 & B2 & B3). split; [now apply contains_sep|]. split; [now apply trimmed_app|now apply contains_sep].
Qed.
Lemma package_ident name : ident_ok name -> ident_ok ("Package-" ++ name).
Proof.
  intros [[(N & B & T) L] C]. change ("Package-" ++ name) with ("Package" ++ String "-" name).
  assert (line_ok ("Package" ++ String "-" name)) as K by (apply line_after; [discriminate|reflexivity..|apply line_const; reflexivity|exact N|exact L]).
  split; [split; [|exact K]|].
  - split; [cbn; discriminate|]. split; [|apply K]. rewrite not_occurs_byte in *. rewrite has_byte_app. cbn [has_byte]. now rewrite B.
  - rewrite not_occurs_byte in *. rewrite has_byte_app. cbn [has_byte]. now rewrite C.
Qed.
Lemma file_ident k : ident_ok ("File" ++ show_N k).
Proof.
  assert (D : forall c, ((code c <? 48) || (57 <? code c))%N = true -> Ascii.eqb "-" c = false -> has_byte c (show_N k) = false).
  { intros c H M. rewrite show_N_Z. now apply show_Z_byte. }
  assert (T : trimmed ("File" ++ show_N k)).
  { apply trimmed_ascii. intros c. rewrite has_byte_app. intros H. apply orb_true_iff in H as [H|H].
    - apply has_byte_list in H. cbn in H. repeat (destruct H as [<-|H]; [split; reflexivity|]). destruct H.
    - destruct (((code c <? 48) || (57 <? code c))%N) eqn:E.
      + destruct (Ascii.eqb "-" c) eqn:M; [|rewrite (D c E M) in H; discriminate]. apply Ascii.eqb_eq in M. subst. split; reflexivity.
      + apply orb_false_iff in E as [E1 E2]. apply N.ltb_ge in E1, E2. split.
        * unfold ascii7. apply N.ltb_lt. lia.
        * unfold is_space1. rewrite ?orb_false_iff, ?andb_false_iff, ?N.eqb_neq, ?N.leb_gt. lia. }
  assert (B : forall c, has_byte c "File" = false -> ((code c <? 48) || (57 <? code c))%N = true -> Ascii.eqb "-" c = false -> has_byte c ("File" ++ show_N k) = false).
  { intros c H1 H2 H3. now rewrite has_byte_app, H1, D. }
  split; [split; [split; [discriminate|]|]|].
  - split; [|exact T]. apply not_occurs_byte, B; reflexivity.
  - split; [rewrite has_byte_lf; apply B; reflexivity|]. split; [exact T|]. apply contains_first, B; reflexivity.
  - apply not_occurs_byte, B; reflexivity.
Qed.
Lemma namespace_line a code : a <> "" -> line_ok a -> hex code -> line_ok (a ++ "-{" ++ code ++ " []}").
Proof.
  intros N L H. change (a ++ "-{" ++ code ++ " []}") with (a ++ String "-" (String "{" (code ++ String " " "[]}"))).
  apply line_after; try reflexivity; try discriminate; try assumption. change (String "{" (code ++ String " " "[]}")) with (String "{" code ++ String " " "[]}").
  apply line_after; try reflexivity; try discriminate; [|now apply line_const].
  assert (B : forall c, Ascii.eqb "{" c = false -> existsb (Ascii.eqb c) (list_ascii_of_string "0123456789abcdef") = false -> has_byte c (String "{" code) = false).
  { intros c H1 H2. cbn [has_byte]. rewrite H1. now apply hex_no. }
  split; [rewrite has_byte_lf; apply B; reflexivity|]. split; [|apply contains_first, B; reflexivity].
  apply trimmed_ascii. intros c. cbn [has_byte]. intros X. apply orb_true_iff in X as [X|X]; [apply Ascii.eqb_eq in X; subst; split; reflexivity|].
  apply (hex_byte code c H) in X. cbn in X. repeat (destruct X as [<-|X]; [split; reflexivity|]). destruct X.
Qed.

(** ** Built documents *)
(** a file section as the builder makes it, up to the license fields *)
Definition file_form (h : hashes) (info : list string) (concluded : string) (c : list string) (k : N) (x : string) : File :=
  MkFile ("." ++ rooted c) ("File" ++ show_N k) []
    [MkChecksum "SHA1" (h_sha1 h x); MkChecksum "SHA256" (h_sha256 h x); MkChecksum "MD5" (h_md5 h x)]
    concluded info "" "NOASSERTION" [] "" "" [] [] [] [] [].
Lemma build_files_form h tree cs n fs : build_files h tree (map rooted cs) n = Ok fs ->
  Forall (fun f => exists c k x, In c cs /\ f = file_form h ["NOASSERTION"] "NOASSERTION" c k x) fs.
Proof.
  revert n fs. induction cs as [|p cs IH]; intros n fs H; cbn [map build_files] in H; [injection H as <-; constructor|].
  destruct (build_file_section h tree ("." ++ rooted p) n) as [f| |] eqn:E; cbn [bindR] in H; try discriminate.
  destruct (build_files h tree (map rooted cs) (n + 1)) as [gs| |] eqn:G; cbn [bindR] in H; try discriminate. injection H as <-.
  constructor.
  - unfold build_file_section, get_hashes_for_file_path in E. destruct (open_file tree ("." ++ rooted p)) as [x|]; cbn [bindR] in E; [|discriminate].
    injection E as <-. exists p, n, x. split; [now left|reflexivity].
  - eapply Forall_impl; [|exact (IH _ _ G)]. intros g (c & k & x & I & F). exists c, k, x. split; [now right|exact F].
Qed.
Definition package_form (name : string) (code : VerificationCode) (info : list string) (fs : list File) : Package :=
  MkPackage false name ("Package-" ++ name) "" "" None None "NOASSERTION" true true (Some code) [] "" "" "NOASSERTION" info "NOASSERTION" "" "NOASSERTION" "" "" ""
    [] [] "" "" "" "" fs [].
Definition document_form (cfg : BuildConfig) (name : string) (code : string) (p : Package) : Document :=
  MkDoc "SPDX-2.3" "CC0-1.0" "DOCUMENT" name ((bc_NamespacePrefix cfg ++ name) ++ "-{" ++ code ++ " []}") [] ""
    (Some (build_creation_info cfg)) [p] [] [] [build_relationship name] [] [] [].
Lemma build_form srt h tree root name cfg doc : clean_root root -> wf_tree tree -> build srt h tree root name cfg = Ok doc ->
  exists code files, doc = document_form cfg name (vc_Value code) (package_form name code [] files) /\ vc_ExcludedFiles code = [] /\
    (exists t, vc_Value code = h_sha1 h t) /\
    get_verification_code srt (h_sha1 h) (map Some files) "" = Ok code /\ NoDup (map f_SPDXIdentifier files) /\
    Forall (fun f => exists c k x, listed tree (bc_PathsIgnored cfg) c /\ f = file_form h ["NOASSERTION"] "NOASSERTION" c k x) files.
Proof.
  intros Hr Hwf. unfold build, build_package_section.
  destruct (get_all_spec srt root tree (bc_PathsIgnored cfg) Hr Hwf) as [[_ ->]|(Hb & cs & -> & Hs & Hin)]; cbn [bindR]; [discriminate|].
  destruct (build_files h tree (map rooted cs) 0) as [files| |] eqn:Ef; cbn [bindR]; try discriminate.
  assert (built_files h tree 0 cs files) as Hbf.
  { eapply build_files_ok; [assumption| |exact Ef]. intros c Hc. now apply Hin. }
  destruct (verification_code_ok srt (h_sha1 h) files "") as (t & _ & Hcode). rewrite Hcode. cbn [bindR].
  intros E. eexists _, files. split; [|split; [|split; [|split; [exact Hcode|split; [exact (built_files_nodup _ _ _ _ _ Hbf)|]]]]].
  - apply (f_equal (fun r => match r with Ok x => x | _ => doc end)) in E. cbv beta iota in E. rewrite <- E. unfold document_form, package_form, show_code.
    cbn [p_VerificationCode vc_Value vc_ExcludedFiles nonempty join]. rewrite !app_assoc_s. reflexivity.
  - reflexivity.
  - cbn [vc_Value]. eauto.
  - eapply Forall_impl; [|exact (build_files_form _ _ _ _ _ Ef)]. intros f (c & k & x & I & F). exists c, k, x. split; [|exact F].
    apply Hin in I as [I1 I2]. split; [exact I2|exact I1].
Qed.
Definition hex_code (h : hashes) (c : VerificationCode) : Prop := vc_ExcludedFiles c = [] /\ exists t, vc_Value c = h_sha1 h t.
Lemma form_file h info concluded c k x : hex_hashes h -> line_ok ("." ++ rooted c) -> Forall line_ok info -> line_ok concluded ->
  file_rep V23 (file_form h info concluded c k x).
Proof.
  intros H L I C. destruct (H x) as (H1 & H2 & H3). unfold file_rep, file_form.
  cbn [f_FileName f_SPDXIdentifier f_FileTypes f_Checksums f_LicenseConcluded f_LicenseInfoInFiles f_LicenseComments f_CopyrightText f_Artifacts f_Comment f_Notice
    f_Contributors f_AttributionTexts f_Dependencies f_Snippets f_Annotations map].
  assert (T : text_ok "" /\ text_ok "NOASSERTION") by (split; split; reflexivity). destruct T as [T0 T1].
  split; [split; [discriminate|exact L]|]. split; [apply file_ident|]. split; [constructor|].
  split. { repeat (apply Forall_cons; [split; [cbn; tauto|now apply hex_name]|]). constructor. }
  split; [exact C|]. split; [exact I|]. repeat (split; [first [exact T0|exact T1|split; [constructor|discriminate]|constructor]|]).
  reflexivity.
Qed.
Lemma form_representable h tree cfg name code info files : hex_hashes h -> build_ok tree name cfg -> hex_code h code -> Forall line_ok info -> Forall (file_rep V23) files ->
  representable V23 (document_form cfg name (vc_Value code) (package_form name code info files)).
Proof.
  intros H (B1 & B2 & B3 & B4 & B5 & _) (C1 & (t & C2)) I F.
  assert (Hc : hex (vc_Value code)) by (rewrite C2; apply H).
  assert (Nm : name_ok name) by (destruct B1 as [[(N & _) L] _]; now split).
  assert (P : ident_ok ("Package-" ++ name)) by now apply package_ident.
  assert (T : text_ok "" /\ text_ok "NOASSERTION") by (split; split; reflexivity). destruct T as [T0 T1].
  assert (L : line_ok "" /\ line_ok "NOASSERTION") by (split; apply line_const; reflexivity). destruct L as [L0 L1].
  assert (D : ident_ok "DOCUMENT").
  { split; [split; [split; [discriminate|split; [apply not_occurs_byte; reflexivity|reflexivity]]|now apply line_const]|apply not_occurs_byte; reflexivity]. }
  unfold representable, document_form.
  cbn [d_SPDXVersion d_DataLicense d_SPDXIdentifier d_DocumentName d_DocumentNamespace d_ExternalDocumentReferences d_DocumentComment d_CreationInfo d_Packages
    d_Files d_OtherLicenses d_Relationships d_Annotations d_Snippets d_Reviews].
  split; [reflexivity|]. split; [now apply line_const|]. split; [now right|]. split; [apply Nm|].
  split. { apply namespace_line; [|exact B2|exact Hc]. destruct Nm as [N _]. destruct (bc_NamespacePrefix cfg); [exact N|discriminate]. }
  split; [constructor|]. split; [exact T0|].
  split. { eexists. split; [reflexivity|]. split; [|left; discriminate]. split; [exact L0|]. split; [|split; [exact B5|exact T0]].
    apply Forall_cons; [split; [cbn; tauto|apply name_const; reflexivity]|]. apply Forall_cons; [split; [cbn in *; tauto|exact B4]|constructor]. }
  split.
  { apply Forall_cons; [|constructor]. unfold package_rep, package_form.
    cbn [p_IsUnpackaged p_PackageName p_SPDXIdentifier p_Version p_FileName p_Supplier p_Originator p_DownloadLocation p_FilesAnalyzed
      p_IsFilesAnalyzedTagPresent p_VerificationCode p_Checksums p_HomePage p_SourceInfo p_LicenseConcluded p_LicenseInfoFromFiles p_LicenseDeclared
      p_LicenseComments p_CopyrightText p_Summary p_Description p_Comment p_ExternalReferences p_AttributionTexts p_PrimaryPackagePurpose p_ReleaseDate
      p_BuiltDate p_ValidUntilDate p_Files p_Annotations opt_ok].
    assert (O : only_v23 V23 "") by (split; [exact L0|reflexivity]).
    repeat match goal with |- _ /\ _ => apply conj end; try first [exact Nm|exact P|exact L0|exact L1|exact T0|exact T1|exact I|exact F|exact O|reflexivity|exact Logic.I|constructor; fail|discriminate].
    - split; [now apply hex_name|]. split; [|now left]. apply not_occurs_contains, contains_first, (hex_no _ _ Hc). reflexivity.
    - split; [constructor|discriminate]. }
  split; [constructor|]. split; [constructor|]. split.
  { apply Forall_cons; [|constructor]. split; [split; [reflexivity|split; [exact D|now left]]|]. split; [left; split; [reflexivity|split; [exact P|now left]]|].
    split; [|exact T0]. split; [split; [discriminate|split; [apply not_occurs_byte; reflexivity|reflexivity]]|now apply line_const]. }
  split; [constructor|]. split; [constructor|reflexivity].
Qed.
Lemma build_representable srt h tree root name cfg doc : clean_root root -> wf_tree tree -> hex_hashes h -> build_ok tree name cfg ->
  build srt h tree root name cfg = Ok doc -> representable V23 doc.
Proof.
  intros Hr Hw Hh Hb E. destruct (build_form _ _ _ _ _ _ _ Hr Hw E) as (code & files & -> & C1 & C2 & _ & _ & F).
  apply (form_representable h tree); auto; [now split|]. eapply Forall_impl; [|exact F]. intros f (c & k & x & L & ->).
  apply form_file; auto; [now apply Hb| |]; [constructor; [|constructor]|]; now apply line_const.
Qed.

(** ** Documents of the identifier search *)
Definition asc (s : string) : Prop := forall c, has_byte c s = true -> (code c < 128)%N.
Lemma asc_app a b : asc (a ++ b) <-> asc a /\ asc b.
Proof.
  unfold asc. split.
  - intros H. split; intros c B; apply H; rewrite has_byte_app, B; [reflexivity|apply orb_true_r].
  - intros [H1 H2] c. rewrite has_byte_app. intros B. apply orb_true_iff in B as [B|B]; auto.
Qed.
Lemma asc_const s : forallb (fun c => code c <? 128)%N (list_ascii_of_string s) = true -> asc s.
Proof. intros H c B. apply has_byte_list in B. rewrite forallb_forall in H. now apply N.ltb_lt, H. Qed.
Definition quiet (s : string) : Prop := has_byte (byte 10) s = false /\ has_byte "<" s = false /\ asc s.
Lemma quiet_app a b : quiet (a ++ b) <-> quiet a /\ quiet b.
Proof. unfold quiet. rewrite !has_byte_app, !orb_false_iff, asc_app. tauto. Qed.
Lemma quiet_const s : has_byte (byte 10) s = false -> has_byte "<" s = false -> forallb (fun c => code c <? 128)%N (list_ascii_of_string s) = true -> quiet s.
Proof. intros A B C. split; [exact A|]. split; [exact B|now apply asc_const]. Qed.
Lemma quiet_trim s : quiet s -> quiet (trim_space s).
Proof.
  intros H. unfold trim_space. destruct (trim_left_suffix s) as (p & E). destruct (trim_right_prefix (trim_left s)) as (q & E').
  rewrite E in H. apply quiet_app in H as [_ H]. rewrite E' in H. now apply quiet_app in H as [H _].
Qed.
Lemma quiet_line s : quiet s -> trimmed s -> line_ok s.
Proof. intros (H1 & H2 & _) T. split; [now rewrite has_byte_lf|]. split; [exact T|now apply contains_first]. Qed.
Lemma kept_bytes s t c : kept_of s t -> has_byte c t = true -> has_byte c s = true /\ keep_char c.
Proof.
  induction 1 as [|a s t K _ IH|a s t K _ IH]; cbn [has_byte]; [discriminate| |].
  - intros H. apply orb_true_iff in H as [H|H]; [apply Ascii.eqb_eq in H; subst; rewrite Ascii.eqb_refl; now split|].
    destruct (IH H) as [-> ?]. now rewrite orb_true_r.
  - intros H. destruct (IH H) as [-> ?]. now rewrite orb_true_r.
Qed.
Lemma kept_quiet s t : has_byte (byte 10) s = false -> kept_of s t -> quiet t.
Proof.
  intros H K. split; [|split].
  - destruct (has_byte (byte 10) t) eqn:E; [|reflexivity]. destruct (kept_bytes _ _ _ K E). congruence.
  - destruct (has_byte "<" t) eqn:E; [|reflexivity]. destruct (kept_bytes _ _ _ K E) as [_ [C|C]].
    + assert (X : existsb (Ascii.eqb "<") (list_ascii_of_string "ABCDEFGHIJKLMNOPQRSTUVWXYZabcdefghijklmnopqrstuvwxyz0123456789_.-+() ") = true).
      { apply existsb_exists. exists "<"%char. split; [exact C|reflexivity]. }
      discriminate X.
    + cbn in C. intuition discriminate.
  - intros c B. destruct (kept_bytes _ _ _ K B) as [_ [C|C]].
    + refine (asc_const "ABCDEFGHIJKLMNOPQRSTUVWXYZabcdefghijklmnopqrstuvwxyz0123456789_.-+() " _ c _); [reflexivity|]. now apply has_byte_list.
    + unfold code, N_of_ascii in *. change (N_of_ascii c < 128)%N. unfold nat_of_ascii in C. cbn in C. lia.
Qed.
Lemma searched_no_lf content line : searched_line content line -> has_byte (byte 10) line = false.
Proof.
  intros (b & raw & a & E & _ & _ & ->). assert (I : In raw (raw_lines content)) by (rewrite raw_lines_spec, E; apply in_or_app; right; now left).
  assert (D : forall l x, In x (drop_last_empty l) -> In x l).
  { induction l as [|y l IH]; intros x H; [exact H|]. cbn [drop_last_empty] in H. destruct l; [destruct (nonempty y); [exact H|destruct H]|].
    destruct H as [H|H]; [now left|right; now apply IH]. }
  apply D, split_on_no_byte in I. unfold drop_return.
  destruct (has_suffix (String (ascii_of_nat 13) "") raw) eqn:S; [|unfold trim_suffix; now rewrite S].
  apply has_suffix_spec in S as (r & ->). rewrite trim_suffix_app. rewrite has_byte_app in I. now apply orb_false_iff in I as [I _].
Qed.
Lemma id_quiet srt content lid : In lid (search_file_ids srt content) -> quiet lid.
Proof.
  intros H. apply search_spec in H as (line & S & M). apply searched_no_lf in S. destruct M as (before & after & prefix & text & (E & _) & _ & _ & T & K).
  rewrite E, !has_byte_app, !orb_false_iff in S. destruct S as (_ & _ & S).
  refine (kept_quiet _ _ _ K). destruct (trim_left_suffix text) as (p & E1). destruct (trim_right_prefix (trim_left text)) as (q & E2).
  assert (X : has_byte (byte 10) text = false).
  { destruct T as [(junk & E3 & _)|[_ ->]]; [|exact S]. rewrite E3, has_byte_app in S. now apply orb_false_iff in S as [S _]. }
  unfold trim_space. rewrite E1, has_byte_app in X. apply orb_false_iff in X as [_ X]. rewrite E2, has_byte_app in X. now apply orb_false_iff in X as [X _].
Qed.
Definition good (s : string) : Prop := line_ok s /\ quiet s.
Lemma individual_line srt lid lic : quiet lid -> In lic (get_individual_licenses srt lid) -> good lic.
Proof.
  intros Q H. apply individual_spec in H as (t & (a & b & E & _) & -> & _). enough (X : quiet (trim_space t)) by (split; [apply quiet_line; [exact X|apply trim_space_trimmed]|exact X]).
  apply quiet_trim. rewrite E in Q. apply quiet_app in Q as [_ Q]. now apply quiet_app in Q as [Q _].
Qed.
Lemma ids_quiet srt tree cfg f lid : In lid (ids_of_file srt tree cfg f) -> quiet lid.
Proof.
  unfold ids_of_file. destruct (should_ignore _ _); [intros []|]. destruct (open_file tree (f_FileName f)) as [c|]; [|intros []]. apply id_quiet.
Qed.
Lemma elements_line srt tree cfg f lic : In lic (elements_of_file srt tree cfg f) -> good lic.
Proof. unfold elements_of_file. rewrite in_flat_map. intros (lid & I & H). apply ids_quiet in I. exact (individual_line _ _ _ I H). Qed.
Lemma join_quiet sep l : quiet sep -> Forall quiet l -> quiet (join sep l).
Proof.
  intros Hs F. induction F as [|x l Hx F IH]; [now apply quiet_const|]. destruct l as [|y l]; [exact Hx|].
  change (join sep (x :: y :: l)) with (x ++ sep ++ join sep (y :: l)). rewrite !quiet_app. split; [exact Hx|]. split; [exact Hs|exact IH].
Qed.
Lemma element_quiet x : quiet x -> quiet (make_element x).
Proof. intros H. unfold make_element. destruct (_ || _); [|exact H]. rewrite !quiet_app. split; [now apply quiet_const|]. split; [exact H|now apply quiet_const]. Qed.
Lemma sorted_set_Forall srt l (P : string -> Prop) : (forall x, In x l -> P x) -> Forall P (sorted_set srt l).
Proof. intros H. apply Forall_forall. intros x I. apply H. now apply (proj2 (proj2 (sorted_set_spec srt l))). Qed.
Lemma noassertion_good : good "NOASSERTION".
Proof. split; [now apply line_const|now apply quiet_const]. Qed.
Lemma fill_form srt h tree cfg c k x : exists info concluded,
  fill_file srt tree cfg (file_form h ["NOASSERTION"] "NOASSERTION" c k x) = file_form h info concluded c k x /\ Forall good info /\ quiet concluded.
Proof.
  unfold fill_file. set (f := file_form h ["NOASSERTION"] "NOASSERTION" c k x).
  destruct (elements_of_file srt tree cfg f) as [|e es] eqn:E.
  - exists ["NOASSERTION"], "NOASSERTION". split; [reflexivity|]. split; [constructor; [exact noassertion_good|constructor]|now apply quiet_const].
  - eexists _, _. split; [reflexivity|]. split.
    + apply sorted_set_Forall. rewrite <- E. apply elements_line.
    + assert (Q : Forall quiet (ids_of_file srt tree cfg f)) by (apply Forall_forall; apply ids_quiet).
      assert (J : quiet (join " AND " (map make_element (ids_of_file srt tree cfg f)))).
      { apply join_quiet; [now apply quiet_const|]. apply Forall_map. eapply Forall_impl; [|exact Q]. apply element_quiet. }
      destruct (ids_of_file srt tree cfg f) as [|i [|j l]]; [exact J| |exact J]. now inversion Q.
Qed.
Lemma search_form srt h tree root cfg name doc : clean_root root -> wf_tree tree -> build_ids_document srt h tree root cfg name = Ok doc ->
  exists code info files, doc = document_form (MkBC (ic_NamespacePrefix cfg) "Tool" "github.com/spdx/tools-golang/idsearcher" (ic_BuilderPathsIgnored cfg) (ic_Created cfg))
      name (vc_Value code) (package_form name code info files) /\ hex_code h code /\ Forall good info /\ NoDup (map f_SPDXIdentifier files) /\
    get_verification_code srt (h_sha1 h) (map Some files) "" = Ok code /\
    Forall (fun f => exists c k x i o, listed tree (ic_BuilderPathsIgnored cfg) c /\ f = file_form h i o c k x /\ Forall good i /\ quiet o) files.
Proof.
  intros Hr Hw. unfold build_ids_document. set (bcfg := MkBC _ _ _ _ _).
  destruct (build srt h tree root name bcfg) as [built| |] eqn:Eb; cbn [bindR]; try discriminate.
  destruct (build_form _ _ _ _ _ _ _ Hr Hw Eb) as (code & files & -> & C1 & C2 & C3 & C4 & F). cbn [document_form d_Packages]. intros E.
  exists code, (match flat_map (elements_of_file srt tree cfg) files with [] => ["NOASSERTION"] | _ => sorted_set srt (flat_map (elements_of_file srt tree cfg) files) end),
    (map (fill_file srt tree cfg) files).
  split; [now injection E as <-|]. split; [now split|]. split.
  { destruct (flat_map (elements_of_file srt tree cfg) files) as [|y l] eqn:G; [constructor; [exact noassertion_good|constructor]|]. rewrite <- G.
    apply sorted_set_Forall. intros z. rewrite in_flat_map. intros (f & _ & I). exact (elements_line _ _ _ _ _ I). }
  assert (S : forall f, f_SPDXIdentifier (fill_file srt tree cfg f) = f_SPDXIdentifier f /\ f_FileName (fill_file srt tree cfg f) = f_FileName f /\
                        f_Checksums (fill_file srt tree cfg f) = f_Checksums f).
  { intros f. unfold fill_file. destruct (elements_of_file srt tree cfg f); repeat split. }
  split. { rewrite map_map. erewrite map_ext; [exact C4|]. intros f. apply S. }
  split.
  { rewrite <- C3. unfold get_verification_code. f_equal. clear -S. induction files as [|f l IH]; [reflexivity|].
    cbn [map collect_shas]. destruct (S f) as (_ & -> & ->). now rewrite IH. }
  apply Forall_map. eapply Forall_impl; [|exact F]. intros f (c & k & x & L & ->). destruct (fill_form srt h tree cfg c k x) as (i & o & -> & I & O).
  exists c, k, x, i, o. split; [exact L|]. split; [reflexivity|]. split; [exact I|exact O].
Qed.
Lemma search_representable srt h tree root cfg name doc : clean_root root -> wf_tree tree -> hex_hashes h -> search_ok tree name cfg ->
  build_ids_document srt h tree root cfg name = Ok doc ->
  (forall p f, In p (d_Packages doc) -> In f (p_Files p) -> trimmed (f_LicenseConcluded f)) -> representable V23 doc.
Proof.
  intros Hr Hw Hh (S1 & S2 & S3 & S4) E T. destruct (search_form _ _ _ _ _ _ _ Hr Hw E) as (code & info & files & -> & C & I & _ & _ & F).
  assert (GL : forall l, Forall good l -> Forall line_ok l) by (intros l; apply Forall_impl; intros y G; apply G).
  apply (form_representable h tree); auto.
  - repeat (split; [assumption|]). cbn [bc_CreatorType bc_Creator bc_Created bc_PathsIgnored]. split; [cbn; tauto|]. split; [now apply name_const|]. split; assumption.
  - apply Forall_forall. intros f Hf. rewrite Forall_forall in F. destruct (F f Hf) as (c & k & x & i & o & L & -> & J & O).
    apply form_file; auto. apply quiet_line; [exact O|]. exact (T _ _ (or_introl eq_refl) Hf).
Qed.

(** ** After saving and loading *)
Lemma file_same_sha f g : file_same f g -> sha1_values g = sha1_values f /\ f_FileName g = f_FileName f.
Proof. intros (sn & _ & ->). split; reflexivity. Qed.
Lemma form_same cfg name code info files e : document_same (document_form cfg name (vc_Value code) (package_form name code info files)) e ->
  exists files', e = document_form cfg name (vc_Value code) (package_form name code info files') /\ files_same files files'.
Proof.
  intros (refs & fs & ps & P1 & (k1 & P2 & F2) & (k & P3 & F3) & ->). cbn in P1, P2, P3.
  apply Permutation_nil in P1. apply Permutation_nil in P2. subst. inversion F2; subst.
  apply Permutation_length_1_inv in P3. subst. inversion F3 as [|p q ? ? (fs' & S & ->) F4]; subst. inversion F4; subst.
  exists fs'. split; [reflexivity|exact S].
Qed.
Lemma same_code srt srt' sha1 files files' : files_same files files' ->
  get_verification_code srt sha1 (map Some files) "" = get_verification_code srt' sha1 (map Some files') "".
Proof.
  intros (k & P & F).
  destruct (verification_code_ok srt sha1 files "") as (t & H1 & ->). destruct (verification_code_ok srt' sha1 files' "") as (t' & H1' & ->).
  rewrite (digest_input_unique _ _ _ _ _ _ H1 H1'); [reflexivity|].
  transitivity (flat_map sha1_values (filter (fun f => negb (f_FileName f =? "")%string) k)).
  - apply Permutation_flat_map. clear -P. induction P; cbn [filter]; [constructor| | |]; [destruct (negb _); [now constructor|assumption]| |eapply perm_trans; eassumption].
    destruct (negb _), (negb _); try apply perm_swap; reflexivity.
  - clear -F. induction F as [|f g a b S F IH]; [constructor|]. destruct (file_same_sha _ _ S) as [E1 E2]. cbn [filter]. rewrite E2.
    destruct (negb _); [|exact IH]. cbn [flat_map]. rewrite E1. now apply Permutation_app_head.
Qed.
Lemma form_intact srt h cfg name code info files : get_verification_code srt (h_sha1 h) (map Some files) "" = Ok code ->
  forall files', files_same files files' -> intact (h_sha1 h) (document_form cfg name (vc_Value code) (package_form name code info files')).
Proof.
  intros C files' S. eexists _, code. split; [reflexivity|]. split; [reflexivity|]. split.
  { intros srt'. rewrite <- C. symmetry. exact (same_code _ _ _ _ _ S). }
  split; [reflexivity|]. unfold validate_document, valid_element_ids, document_form.
  cbn [d_Packages d_Files d_Relationships map app p_SPDXIdentifier package_form check_relationships build_relationship r_RefA r_RefB make_doc_element_id de_ElementRefID existsb].
  change ("Package-" ++ name) with ("Package-" ++ name)%string. cbn [append].
  rewrite ?String.eqb_refl, ?orb_true_r. cbn [orb negb]. rewrite ?String.eqb_refl. reflexivity.
Qed.
Lemma files_same_refl l : files_same l l.
Proof.
  exists l. split; [reflexivity|]. induction l as [|f l IH]; constructor; [|exact IH]. exists (f_Snippets f). split; [reflexivity|now destruct f].
Qed.
Lemma form_distinct h cfg name code info files ign tree : NoDup (map f_SPDXIdentifier files) ->
  Forall (fun f => exists c k x i o, listed tree ign c /\ f = file_form h i o c k x) files ->
  distinct_ids (document_form cfg name code (package_form name (MkVC code []) info files)) .
Proof.
  intros N F. assert (S : files_distinct files).
  { split; [exact N|]. eapply Forall_impl; [|exact F]. intros f (c & k & x & i & o & _ & ->). constructor. }
  split; [constructor|]. split; [split; constructor|]. split; [constructor; [intros []|constructor]|]. constructor; [exact S|constructor].
Qed.
(** representable documents of the form: saved and loaded *)
Lemma save_load srt so h tree cfg name code info files ign :
  representable V23 (document_form cfg name (vc_Value code) (package_form name code info files)) ->
  vc_ExcludedFiles code = [] -> get_verification_code srt (h_sha1 h) (map Some files) "" = Ok code -> NoDup (map f_SPDXIdentifier files) ->
  Forall (fun f => exists c k x i o, listed tree ign c /\ f = file_form h i o c k x) files ->
  exists t d' e, render_document so V23 (document_form cfg name (vc_Value code) (package_form name code info files)) = Ok (t, d') /\
    document_same (document_form cfg name (vc_Value code) (package_form name code info files)) e /\ intact (h_sha1 h) e /\
    (Forall short (stream_lines t) -> read_into t = Ok (V23, Some e) /\ forall so', exists e', render_document so' V23 e = Ok (t, e')).
Proof.
  intros R X C N F. destruct (round_trip so V23 _ R) as (t & d' & e & E & _ & _ & S & L). exists t, d', e.
  split; [exact E|]. split; [exact S|]. split.
  { destruct (form_same _ _ _ _ _ _ S) as (files' & -> & S'). exact (form_intact _ _ _ _ _ _ _ C _ S'). }
  intros Hs. split; [exact (L Hs)|]. intros so'.
  assert (D : distinct_ids (document_form cfg name (vc_Value code) (package_form name code info files))).
  { destruct code as [v l]. cbn in X. subst l. eapply form_distinct; eassumption. }
  destruct (write_read_write so so' V23 _ _ _ _ _ R D E Hs (L Hs)) as [_ W]. exact W.
Qed.
