(** * Properties of builder and idsearcher (C24, C25) *)
From Verif Require Import GoStr GoStrFacts Sorting Types TvReader SpecTv TvReaderFacts
  Utils SpecUtils UtilsFacts PropsUtils SpdxLib LicenseTools SpecTools ToolsFacts PropsTools
  Builder IdSearcher BuilderFacts.
Local Open Scope string_scope.

(** ** C24: built documents *)
Theorem C24_build : forall srt h tree root name cfg doc,
  clean_root root -> wf_tree tree ->
  build srt h tree root name cfg = Ok doc ->
  exists pkg cs,
    d_Packages doc = [pkg] /\ p_PackageName pkg = name /\
    (* the files are the enumerated ones, in the order of the walk *)
    StronglySorted walk_before cs /\
    (forall c, In c cs <-> (exists x, file_at tree c x) /\
       ~ exists pats pat, bc_PathsIgnored cfg = Some pats /\ In pat pats /\ matches pat (rooted c)) /\
    Forall2 (fun c f => exists content, file_at tree c (Some content) /\ f_FileName f = "." ++ rooted c /\
       f_Checksums f = [MkChecksum "SHA1" (h_sha1 h content); MkChecksum "SHA256" (h_sha256 h content);
                        MkChecksum "MD5" (h_md5 h content)]) cs (p_Files pkg) /\
    (* all identifiers of the document differ *)
    NoDup (d_SPDXIdentifier doc :: p_SPDXIdentifier pkg :: map f_SPDXIdentifier (p_Files pkg)) /\
    (* the verification code is that of the files *)
    (exists code, get_verification_code srt (h_sha1 h) (map Some (p_Files pkg)) "" = Ok code /\
       p_VerificationCode pkg = Some code /\ p_FilesAnalyzed pkg = true) /\
    (* the document describes the package, and all references resolve *)
    described doc (p_SPDXIdentifier pkg) /\
    get_described_package_ids srt doc = Ok [p_SPDXIdentifier pkg] /\
    validate_document doc = Ok tt.
Proof.
  intros srt h tree root name cfg doc Hr Hwf.
  unfold build, build_package_section.
  destruct (get_all_spec srt root tree (bc_PathsIgnored cfg) Hr Hwf) as [[_ ->]|(Hb & cs & -> & Hs & Hin)];
    cbn [bindR]; [discriminate|].
  destruct (build_files h tree (map rooted cs) 0) as [files| |] eqn:Ef; cbn [bindR]; try discriminate.
  assert (built_files h tree 0 cs files) as Hbf.
  { eapply build_files_ok; [assumption| |exact Ef]. intros c Hc. now apply Hin. }
  destruct (verification_code_ok srt (h_sha1 h) files "") as (t & _ & Hcode). rewrite Hcode. cbn [bindR].
  intros E. inversion E; subst doc. clear E. cbn [p_VerificationCode].
  eexists _, cs. split; [reflexivity|]. split; [reflexivity|]. split; [assumption|].
  split; [intros c; rewrite Hin; unfold ignored_by; tauto|].
  split; [exact (built_files_forall2 _ _ _ _ _ Hbf)|].
  split.
  { cbn [d_SPDXIdentifier p_SPDXIdentifier p_Files]. constructor; [|constructor].
    - intros [H|H]; [discriminate|]. apply in_map_iff in H as (f & Hf1 & Hf2).
      destruct (built_files_ids _ _ _ _ _ _ Hbf Hf2) as (k & _ & Hk). rewrite Hk in Hf1. discriminate.
    - intros H. apply in_map_iff in H as (f & Hf1 & Hf2).
      destruct (built_files_ids _ _ _ _ _ _ Hbf Hf2) as (k & _ & Hk). rewrite Hk in Hf1. discriminate.
    - exact (built_files_nodup _ _ _ _ _ Hbf). }
  split; [eexists; split; [exact Hcode|split; reflexivity]|].
  split; [|split].
  - eexists. split; [left; reflexivity|]. left. repeat split.
  - reflexivity.
  - unfold validate_document, valid_element_ids. cbn [d_Packages d_Files d_Relationships map app
      p_SPDXIdentifier check_relationships build_relationship r_RefA r_RefB make_doc_element_id de_ElementRefID
      existsb].
    change ("Package-" ++ name) with ("Package-" ++ name)%string. cbn [append].
    rewrite ?String.eqb_refl, ?orb_true_r. cbn [orb negb]. rewrite ?String.eqb_refl. reflexivity.
Qed.
Print Assumptions C24_build.

(** What a built document says besides its files: the header, the two creators,
    one DESCRIBES relationship, and no claim about any license or copyright. *)
Theorem C24_values : forall srt h tree root name cfg doc,
  build srt h tree root name cfg = Ok doc ->
  d_SPDXVersion doc = "SPDX-2.3" /\ d_DataLicense doc = "CC0-1.0" /\ d_SPDXIdentifier doc = "DOCUMENT" /\
  d_DocumentName doc = name /\
  (exists ci, d_CreationInfo doc = Some ci /\ ci_Created ci = bc_Created cfg /\
     ci_Creators ci = [MkCreator "github.com/spdx/tools-golang/builder" "Tool";
                       MkCreator (bc_Creator cfg) (bc_CreatorType cfg)]) /\
  d_Relationships doc =
    [MkRln (MkDEID "" "DOCUMENT" "") (MkDEID "" ("Package-" ++ name) "") "DESCRIBES" ""] /\
  d_Files doc = [] /\ d_OtherLicenses doc = [] /\ d_Annotations doc = [] /\ d_Snippets doc = [] /\
  (forall pkg, In pkg (d_Packages doc) ->
     p_SPDXIdentifier pkg = "Package-" ++ name /\
     (exists code, p_VerificationCode pkg = Some code /\
        d_DocumentNamespace doc = bc_NamespacePrefix cfg ++ name ++ "-{" ++ vc_Value code ++ " []}") /\
     p_DownloadLocation pkg = "NOASSERTION" /\ p_LicenseConcluded pkg = "NOASSERTION" /\
     p_LicenseDeclared pkg = "NOASSERTION" /\ p_CopyrightText pkg = "NOASSERTION" /\
     p_LicenseInfoFromFiles pkg = [] /\
     forall i f, nth_error (p_Files pkg) i = Some f ->
       f_SPDXIdentifier f = "File" ++ show_N (N.of_nat i) /\
       f_LicenseConcluded f = "NOASSERTION" /\ f_LicenseInfoInFiles f = ["NOASSERTION"] /\
       f_CopyrightText f = "NOASSERTION").
Proof.
  intros srt h tree root name cfg doc. unfold build, build_package_section.
  destruct (get_all_file_paths srt root tree (bc_PathsIgnored cfg)) as [paths| |]; cbn [bindR]; try discriminate.
  destruct (build_files h tree paths 0) as [files| |] eqn:Ef; cbn [bindR]; try discriminate.
  destruct (verification_code_ok srt (h_sha1 h) files "") as (t & _ & ->). cbn [bindR].
  intros E. inversion E; subst doc. clear E. repeat (split; [reflexivity|]).
  split; [eexists; repeat split|]. repeat (split; [reflexivity|]).
  intros pkg [<-|[]]. split; [reflexivity|]. split; [eexists; split; reflexivity|]. repeat (split; [reflexivity|]).
  cbn [p_Files]. intros i f Hi.
  assert (forall n, build_files h tree paths n = Ok files -> f_SPDXIdentifier f = "File" ++ show_N (n + N.of_nat i) /\
       f_LicenseConcluded f = "NOASSERTION" /\ f_LicenseInfoInFiles f = ["NOASSERTION"] /\
       f_CopyrightText f = "NOASSERTION") as G; [|exact (G 0%N Ef)].
  clear Ef. revert paths files Hi. induction i as [|i IH]; intros paths files Hi n Ef.
  - destruct paths as [|p r]; cbn [build_files] in Ef; [injection Ef as <-; discriminate|].
    apply bindR_some in Ef as (f0 & E0 & Ef). apply bindR_some in Ef as (fs & _ & Ef). injection Ef as <-.
    cbn in Hi. injection Hi as ->. unfold build_file_section in E0. apply bindR_some in E0 as (((s1, s256), m5) & _ & E0).
    injection E0 as <-. cbn. rewrite N.add_0_r. repeat split.
  - destruct paths as [|p r]; cbn [build_files] in Ef; [injection Ef as <-; discriminate|].
    apply bindR_some in Ef as (f0 & E0 & Ef). apply bindR_some in Ef as (fs & Ef' & Ef). injection Ef as <-.
    cbn in Hi. specialize (IH r fs Hi _ Ef'). replace (n + N.of_nat (S i))%N with (n + 1 + N.of_nat i)%N by lia. exact IH.
Qed.
Print Assumptions C24_values.

(** Nothing else is said: the document has no other field than those above, and so
    has its creation information, its package and each of its files. *)
Theorem C24_nothing_else : forall srt h tree root name cfg doc,
  build srt h tree root name cfg = Ok doc ->
  doc = set_d_SPDXVersion (d_SPDXVersion doc) (set_d_DataLicense (d_DataLicense doc) (set_d_SPDXIdentifier (d_SPDXIdentifier doc)
          (set_d_DocumentName (d_DocumentName doc) (set_d_DocumentNamespace (d_DocumentNamespace doc) (set_d_CreationInfo (d_CreationInfo doc)
          (set_d_Packages (d_Packages doc) (set_d_Relationships (d_Relationships doc) zero_DocumentOf))))))) /\
  (forall ci, d_CreationInfo doc = Some ci -> ci = set_ci_Creators (ci_Creators ci) (set_ci_Created (ci_Created ci) zero_CreationInfo)) /\
  forall pkg, In pkg (d_Packages doc) ->
    pkg = set_p_PackageName (p_PackageName pkg) (set_p_SPDXIdentifier (p_SPDXIdentifier pkg) (set_p_DownloadLocation (p_DownloadLocation pkg)
            (set_p_FilesAnalyzed true (set_p_IsFilesAnalyzedTagPresent true (set_p_VerificationCode (p_VerificationCode pkg)
            (set_p_LicenseConcluded (p_LicenseConcluded pkg) (set_p_LicenseDeclared (p_LicenseDeclared pkg) (set_p_CopyrightText (p_CopyrightText pkg)
            (set_p_Files (p_Files pkg) zero_PackageOf))))))))) /\
    forall f, In f (p_Files pkg) ->
      f = set_f_FileName (f_FileName f) (set_f_SPDXIdentifier (f_SPDXIdentifier f) (set_f_Checksums (f_Checksums f)
            (set_f_LicenseConcluded (f_LicenseConcluded f) (set_f_LicenseInfoInFiles (f_LicenseInfoInFiles f)
            (set_f_CopyrightText (f_CopyrightText f) zero_FileOf))))).
Proof.
  intros srt h tree root name cfg doc. unfold build, build_package_section.
  destruct (get_all_file_paths srt root tree (bc_PathsIgnored cfg)) as [paths| |]; cbn [bindR]; try discriminate.
  destruct (build_files h tree paths 0) as [files| |] eqn:Ef; cbn [bindR]; try discriminate.
  destruct (verification_code_ok srt (h_sha1 h) files "") as (t & _ & ->). cbn [bindR].
  intros E. inversion E; subst doc. clear E. split; [reflexivity|].
  split; [intros ci E; cbn [d_CreationInfo] in E; injection E as <-; reflexivity|].
  intros pkg [<-|[]]. split; [reflexivity|]. cbn [p_Files]. clear t.
  revert files Ef. generalize 0%N. induction paths as [|p r IH]; intros n files Ef f Hf; cbn [build_files] in Ef; [injection Ef as <-; destruct Hf|].
  apply bindR_some in Ef as (f0 & E0 & Ef). apply bindR_some in Ef as (fs & E1 & Ef). injection Ef as <-.
  destruct Hf as [<-|Hf]; [|exact (IH _ _ E1 _ Hf)].
  unfold build_file_section in E0. apply bindR_some in E0 as (((s1, s256), m5) & _ & E0). injection E0 as <-. reflexivity.
Qed.
Print Assumptions C24_nothing_else.

(** Building succeeds exactly when the tree can be walked and every file that is
    not ignored can be read. *)
Theorem C24_total : forall srt h tree root name cfg,
  clean_root root -> wf_tree tree ->
  let readable := ~ bad_at tree /\
    forall c, file_at tree c None ->
      exists pats pat, bc_PathsIgnored cfg = Some pats /\ In pat pats /\ matches pat (rooted c) in
  (readable -> exists doc, build srt h tree root name cfg = Ok doc) /\
  (~ readable -> exists m, build srt h tree root name cfg = Err m).
Proof.
  intros srt h tree root name cfg Hr Hwf readable. subst readable.
  unfold build, build_package_section.
  destruct (get_all_spec srt root tree (bc_PathsIgnored cfg) Hr Hwf) as [[Hb ->]|(Hb & cs & -> & Hs & Hin)];
    cbn [bindR].
  { split; [intros [H _]; contradiction|eauto]. }
  destruct (build_files_total h tree cs 0 Hwf) as [[[files Hf] Hno]|[[m Hm] (c & Hc & Hx)]].
  { intros c Hc. now apply Hin. }
  - rewrite Hf. cbn [bindR].
    destruct (verification_code_ok srt (h_sha1 h) files "") as (t & _ & ->). cbn [bindR].
    split; [eauto|]. intros H. exfalso. apply H. split; [assumption|].
    intros c Hc.
    assert (ignored_by (bc_PathsIgnored cfg) (rooted c) \/ ~ ignored_by (bc_PathsIgnored cfg) (rooted c)) as [Hi|Hi].
    { unfold ignored_by. destruct (bc_PathsIgnored cfg) as [pats|].
      - destruct (should_ignore (rooted c) pats) eqn:E.
        + left. apply should_ignore_spec in E as (p & H1 & H2). eauto.
        + right. intros (pats' & p & H1 & H2 & H3). inversion H1; subst pats'.
          assert (should_ignore (rooted c) pats = true) by (apply should_ignore_spec; eauto). congruence.
      - right. intros (? & ? & H1 & _). discriminate. }
    + exact Hi.
    + exfalso. apply (Hno c); [|assumption]. apply Hin. split; [assumption|eauto].
  - rewrite Hm. cbn [bindR]. split; [|eauto]. intros [_ H].
    apply Hin in Hc as [Hn _]. exfalso. apply Hn. now apply H.
Qed.
Print Assumptions C24_total.

(** The package identifier is the package name behind a prefix, unchecked: the
    SPDX rule for identifiers (letters, digits, dot and dash) is not enforced. *)
Definition id_char (a : ascii) : Prop :=
  In a (list_ascii_of_string "ABCDEFGHIJKLMNOPQRSTUVWXYZabcdefghijklmnopqrstuvwxyz0123456789.-").
Theorem C24_identifier_syntax_refuted : forall srt h,
  ~ forall tree root name cfg doc pkg a,
      build srt h tree root name cfg = Ok doc -> In pkg (d_Packages doc) ->
      In a (list_ascii_of_string (p_SPDXIdentifier pkg)) -> id_char a.
Proof.
  intros srt h H.
  set (cfg := MkBC "" "" "" None "").
  assert (build srt h (NDir []) "/r" "my pkg" cfg =
          build insertion_sorter h (NDir []) "/r" "my pkg" cfg) as E.
  { unfold build, build_package_section, get_all_file_paths. cbn [walk map].
    assert (forall s, sort_by s fst (@nil (string * res (list string))) = []) as Hnil.
    { intros s. apply Permutation_nil. symmetry. apply sort_by_perm. }
    rewrite !Hnil. cbn [map gather bindR build_files]. unfold get_verification_code. cbn [map collect_shas bindR].
    assert (forall s, sort_by s (fun x : string => x) [] = []) as Hnil2.
    { intros s. apply Permutation_nil. symmetry. apply sort_by_perm. }
    now rewrite !Hnil2. }
  specialize (H (NDir []) "/r" "my pkg" cfg _ _ " "%char E (or_introl eq_refl)).
  assert (id_char " ") as Hc by (apply H; cbn; tauto).
  unfold id_char in Hc. apply (in_split " "%char) in Hc as (l1 & l2 & Hc).
  apply (f_equal (existsb (Ascii.eqb " "))) in Hc. rewrite existsb_app in Hc. cbn in Hc.
  rewrite orb_true_r in Hc. discriminate.
Qed.
Print Assumptions C24_identifier_syntax_refuted.

Definition w_tree : node :=
  NDir [("b.c", NFile (Some "int b; // SPDX-License-Identifier: MIT"));
        ("a.c", NFile (Some ("/* SPDX-License-Identifier: (GPL-2.0+ OR MIT) */" ++ LF)))].
Definition w_hashes : hashes := MkHashes (fun x => "1" ++ x) (fun x => "2" ++ x) (fun x => "5" ++ x).
Lemma w_tree_wf : wf_tree w_tree.
Proof.
  constructor.
  - cbn. repeat constructor; cbn; intuition discriminate.
  - intros name n H. cbn in H. destruct H as [H|[H|[]]]; inversion H; subst;
      repeat split; try discriminate; try (apply no_slash_byte; reflexivity); constructor.
Qed.
Example C24_witness :
  wf_tree w_tree /\ clean_root "/tmp/p" /\
  match build insertion_sorter w_hashes w_tree "/tmp/p" "demo" (MkBC "https://x/" "Person" "me" None "now") with
  | Ok doc => map (fun p => map f_FileName (p_Files p)) (d_Packages doc) = [["./a.c"; "./b.c"]]
  | _ => False
  end.
Proof.
  split; [exact w_tree_wf|]. split.
  - right. intros H. apply has_suffix_spec in H. discriminate.
  - reflexivity.
Qed.

(** ** C25: search for license identifiers *)

(** Splitting a license expression: exactly the pieces between blanks,
    parentheses and plus signs that are not operators, in increasing order. *)
Theorem C25_individual : forall srt expr,
  ordered (fun x => x) (get_individual_licenses srt expr) /\
  forall lic, In lic (get_individual_licenses srt expr) <-> individual expr lic.
Proof.
  intros. split; [apply sort_by_ordered|]. intros. apply individual_spec.
Qed.
Print Assumptions C25_individual.

(** The identifiers found in the contents of one file. *)
Theorem C25_file : forall srt content,
  ordered (fun x => x) (search_file_ids srt content) /\ NoDup (search_file_ids srt content) /\
  forall lid, In lid (search_file_ids srt content) <->
    exists line, searched_line content line /\ line_mentions line lid.
Proof.
  intros. destruct (sorted_set_spec srt (flat_map line_id (until_too_long (raw_lines content)))) as (H1 & H2 & _).
  split; [exact H1|]. split; [exact H2|]. intros. apply search_spec.
Qed.
Print Assumptions C25_file.

(** The whole document: every file of the built document gets the licenses
    found in it, the package the union over its files, and nothing else of the
    built document changes. *)
Theorem C25_document : forall srt h tree root cfg name doc,
  clean_root root -> wf_tree tree ->
  build_ids_document srt h tree root cfg name = Ok doc ->
  exists built pkg0 pkg cs,
    build srt h tree root name
      (MkBC (ic_NamespacePrefix cfg) "Tool" "github.com/spdx/tools-golang/idsearcher"
            (ic_BuilderPathsIgnored cfg) (ic_Created cfg)) = Ok built /\
    d_Packages built = [pkg0] /\ d_Packages doc = [pkg] /\ set_d_Packages [pkg0] doc = built /\
    (* the files, with where they are stored *)
    Forall2 (fun c f0 => f_FileName f0 = "." ++ rooted c /\ exists content, file_at tree c (Some content)) cs (p_Files pkg0) /\
    let found c lic := exists content, file_at tree c (Some content) /\
                         found_in (ic_SearcherPathsIgnored cfg) ("." ++ rooted c) content lic in
    Forall2 (fun c f =>
        set_or_noassertion (found c) (f_LicenseInfoInFiles f) /\
        ((forall lic, ~ found c lic) -> f_LicenseConcluded f = "NOASSERTION") /\
        ((exists lic, found c lic) -> exists ids content,
           file_at tree c (Some content) /\ ordered (fun x => x) ids /\ NoDup ids /\
           (forall lid, In lid ids <->
              mentioned (ic_SearcherPathsIgnored cfg) ("." ++ rooted c) content lid) /\
           conclusion ids (f_LicenseConcluded f))) cs (p_Files pkg) /\
    Forall2 (fun f0 f => exists info concluded,
        f = set_f_LicenseConcluded concluded (set_f_LicenseInfoInFiles info f0))
      (p_Files pkg0) (p_Files pkg) /\
    set_or_noassertion (fun lic => exists c, In c cs /\ found c lic) (p_LicenseInfoFromFiles pkg) /\
    set_p_LicenseInfoFromFiles (p_LicenseInfoFromFiles pkg0) (set_p_Files (p_Files pkg0) pkg) = pkg0.
Proof.
  intros srt h tree root cfg name doc Hr Hwf H. unfold build_ids_document in H.
  set (bcfg := MkBC _ _ _ _ _) in *.
  destruct (build srt h tree root name bcfg) as [built| |] eqn:Eb; cbn [bindR] in H; try discriminate.
  destruct (C24_build _ _ _ _ _ _ _ Hr Hwf Eb) as (pkg0 & cs & Hpk & _ & _ & _ & Hfs & _).
  rewrite Hpk in H. inversion H; subst doc. clear H.
  exists built, pkg0, (fill_package srt tree cfg pkg0), cs.
  split; [reflexivity|]. split; [assumption|]. split; [reflexivity|].
  split; [destruct built; cbn in *; now rewrite Hpk|].
  split.
  { clear - Hfs. induction Hfs as [|c f cs fs (x & Hc & Hn & _) Hfs IH]; constructor; eauto. }
  cbn zeta.
  set (found := fun c lic => exists content, file_at tree c (Some content) /\
                  found_in (ic_SearcherPathsIgnored cfg) ("." ++ rooted c) content lic).
  (* per file *)
  assert (forall c f0, f_FileName f0 = "." ++ rooted c -> forall content, file_at tree c (Some content) ->
            (forall lid, In lid (ids_of_file srt tree cfg f0) <->
               mentioned (ic_SearcherPathsIgnored cfg) ("." ++ rooted c) content lid) /\
            (forall lic, In lic (elements_of_file srt tree cfg f0) <-> found c lic) /\
            ordered (fun x => x) (ids_of_file srt tree cfg f0) /\ NoDup (ids_of_file srt tree cfg f0)) as Hfile.
  { intros c f0 Hn content Hc.
    assert ((forall lid, In lid (ids_of_file srt tree cfg f0) <->
               mentioned (ic_SearcherPathsIgnored cfg) ("." ++ rooted c) content lid) /\
            ordered (fun x => x) (ids_of_file srt tree cfg f0) /\ NoDup (ids_of_file srt tree cfg f0)) as [Hids Hsd].
    { unfold ids_of_file, mentioned. rewrite Hn, (open_file_at tree c _ Hwf Hc).
      destruct (should_ignore ("." ++ rooted c) (ic_SearcherPathsIgnored cfg)) eqn:Ei.
      - split; [|split; constructor]. intros lid. split; [intros []|]. intros [Hno _]. exfalso. apply Hno.
        now apply should_ignore_spec.
      - destruct (C25_file srt content) as (H1 & H2 & H3). split; [|auto]. intros lid. rewrite H3.
        split; [|now intros [_ ?]]. intros Hl. split; [|assumption].
        intros Hm. apply should_ignore_spec in Hm. congruence. }
    split; [assumption|]. split; [|assumption].
    intros lic. unfold elements_of_file. rewrite in_flat_map. split.
    - intros (lid & H1 & H2). exists content. split; [assumption|]. exists lid. split; [now apply Hids|].
      now apply individual_spec in H2.
    - intros (content' & Hc' & lid & H1 & H2).
      assert (content' = content) as ->.
      { pose proof (open_at_file _ _ _ Hwf Hc). pose proof (open_at_file _ _ _ Hwf Hc'). congruence. }
      exists lid. split; [now apply Hids|]. now apply individual_spec. }
  unfold fill_package. cbn [p_Files set_p_Files set_p_LicenseInfoFromFiles p_LicenseInfoFromFiles].
  split; [|split; [|split]].
  - clear Eb Hpk. induction Hfs as [|c f0 cs fs (content & Hc & Hn & _) Hfs IH]; cbn [map]; constructor; [|exact IH].
    destruct (Hfile c f0 Hn content Hc) as (Hids & Hel & Ho & Hnd).
    unfold fill_file. destruct (elements_of_file srt tree cfg f0) as [|e es] eqn:Ee.
    + assert (forall lic, ~ found c lic) as Hno by (intros lic Hl; now apply Hel in Hl).
      cbn. split; [right; auto|]. split; [auto|]. intros (lic & Hl). now apply Hno in Hl.
    + assert (exists lic, found c lic) as Hex by (exists e; apply Hel; now left).
      cbn. split.
      { left. split; [assumption|]. destruct (sorted_set_spec srt (e :: es)) as (S1 & S2 & S3).
        repeat split; auto; intros Hx; [apply Hel; now apply S3|apply S3; now apply Hel]. }
      split.
      { intros Hno. destruct Hex as [lic Hl]. now apply Hno in Hl. }
      intros _. exists (ids_of_file srt tree cfg f0), content.
      split; [assumption|]. split; [assumption|]. split; [assumption|]. split; [exact Hids|].
      unfold conclusion. destruct (ids_of_file srt tree cfg f0) as [|i1 [|i2 is]].
      * right. split; [discriminate|]. exists []. split; [reflexivity|constructor].
      * left. exists i1. auto.
      * right. split; [discriminate|]. exists (map make_element (i1 :: i2 :: is)). split; [reflexivity|].
        generalize (i1 :: i2 :: is). clear. intros l. induction l as [|i l IH]; cbn [map]; constructor; [|exact IH].
        unfold make_element. assert (forall x, contains x i = true <-> occurs x i) as Hco by (intros; apply contains_true).
        destruct (contains " AND " i) eqn:E1; cbn [orb].
        -- left. split; [left; now apply Hco|reflexivity].
        -- destruct (contains " OR " i) eqn:E2.
           ++ left. split; [right; now apply Hco|reflexivity].
           ++ right. rewrite <- !Hco, E1, E2. repeat split; discriminate.
  - clear. induction (p_Files pkg0) as [|f0 fs IH]; cbn [map]; constructor; [|exact IH].
    unfold fill_file. destruct (elements_of_file srt tree cfg f0).
    + exists ["NOASSERTION"], "NOASSERTION". reflexivity.
    + eexists _, _. destruct f0. reflexivity.
  - assert (forall lic, In lic (flat_map (elements_of_file srt tree cfg) (p_Files pkg0)) <->
             exists c, In c cs /\ found c lic) as Hall.
    { clear Eb Hpk. induction Hfs as [|c f0 cs fs (content & Hc & Hn & _) Hfs IH]; cbn [flat_map].
      - intros lic. split; [intros []|intros (c & [] & _)].
      - intros lic. rewrite in_app_iff, IH. destruct (Hfile c f0 Hn content Hc) as (_ & Hel & _). rewrite Hel.
        split.
        + intros [Hl|(c' & H1 & H2)]; [exists c|exists c']; cbn; auto.
        + intros (c' & [<-|H1] & H2); eauto. }
    destruct (flat_map (elements_of_file srt tree cfg) (p_Files pkg0)) as [|e es].
    + right. split; [|reflexivity]. intros lic Hl. now apply Hall in Hl.
    + left. split; [exists e; apply Hall; now left|].
      destruct (sorted_set_spec srt (e :: es)) as (S1 & S2 & S3).
      repeat split; auto; intros Hx; [apply Hall; now apply S3|apply S3; now apply Hall].
  - destruct pkg0. reflexivity.
Qed.
Print Assumptions C25_document.

(** The names of built files start with a dot, so an ignore pattern in the
    documented anchored form (starting with a slash) excludes no file from the search. *)
Theorem C25_anchored_patterns_inert : forall comps patterns,
  (forall p, In p patterns -> exists r, p = "/" ++ r) ->
  should_ignore ("." ++ rooted comps) patterns = false.
Proof.
  intros comps patterns H. destruct (should_ignore _ _) eqn:E; [|reflexivity].
  apply should_ignore_spec in E as (p & Hp & Hm). destruct (H p Hp) as [r ->].
  inversion Hm.
Qed.
Print Assumptions C25_anchored_patterns_inert.

(** An identifier comment without an identifier contributes an empty operand to
    the concluded license. *)
Theorem C25_no_empty_operand_refuted : forall srt,
  ~ forall content, ~ In "" (search_file_ids srt content).
Proof.
  intros srt H. apply (H ("# SPDX-License-Identifier:" ++ LF ++ "# SPDX-License-Identifier: MIT")).
  unfold search_file_ids, sorted_set. rewrite sort_by_in, nodup_In. now left.
Qed.
Print Assumptions C25_no_empty_operand_refuted.

Example C25_witness :
  get_individual_licenses insertion_sorter "(GPL-2.0+ or MIT) WITH Foo-exception" =
    ["Foo-exception"; "GPL-2.0"; "MIT"] /\
  match build_ids_document insertion_sorter w_hashes w_tree "/tmp/p" (MkIC "https://x/" None [] "now") "demo" with
  | Ok doc => map (fun p => (map f_LicenseConcluded (p_Files p), p_LicenseInfoFromFiles p)) (d_Packages doc)
              = [(["(GPL-2.0+ OR MIT)"; "NOASSERTION"], ["GPL-2.0"; "MIT"])]
  | _ => False
  end.
Proof. split; reflexivity. Qed.
