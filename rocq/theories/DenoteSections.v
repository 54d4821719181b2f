(** The element invariant, section by section. *)
From Verif Require Import GoStr GoStrFacts Types TvState TvUtil TvReader TvParser SpecTv SpecId SpecDoc SpecRead
  TvReaderFacts TvUtilFacts TvParserFacts DenoteBase DenoteGlobal DenoteElems DenoteSteps DenoteCases.

Definition eact (v : version) (h : pairs) (x : string) (s : pstate) (c : string * action) : Prop :=
  forall s', snd c x s = Ok s' -> einv v (h ++ [(fst c, x)]) s'.
Lemma switch_e v h s x tag cases dflt s' :
  Forall (eact v h x s) cases ->
  (forall s1, dflt x s = Ok s1 -> einv v (h ++ [(tag, x)]) s1) ->
  switch tag cases dflt x s = Ok s' -> einv v (h ++ [(tag, x)]) s'.
Proof.
  intros F D H. induction cases as [|[t a] r IH]; simpl in H; [auto|].
  inversion F; subst. destruct (String.eqb_spec tag t); [subst; now apply H2|auto].
Qed.

Section Common.
  Context (v : version) (h : pairs) (s s0 : pstate) (x : string) (I : einv v h s) (E : esame s s0)
    (St : ps_st s0 = ps_st s) (X : ps_extref s0 = None) (A : ps_aop s0 = None).
  Lemma eact_rel_ann : Forall (eact v h x s0) (rel_ann_cases v).
  Proof.
    apply Forall_forall. intros [t a] In s' H. cbn [fst snd] in *. apply (rel_ann_efull v t a x) in H as [H M]; [|exact In].
    apply (step_full v h s s0); auto. rewrite St. apply quiet_refl.
  Qed.
  Lemma eact_efull t (a : action) : mem t etags = false -> (forall s', a x s0 = Ok s' -> efull s0 s') -> eact v h x s0 (t, a).
  Proof. intros M F s' H. apply (step_full v h s s0); auto. cbn. rewrite St. apply quiet_refl. Qed.
  Lemma eact_enter_review : eact v h x s0 ("Reviewer", enter_review).
  Proof.
    intros s' H. cbn [snd fst] in *. unfold enter_review in H. apply reviewer_efull in H.
    apply (step_full v h s (set_ps_st PsReview s0)); auto. apply quiet_rev.
  Qed.
  Lemma eact_enter_license : eact v h x s0 ("LicenseID", enter_license).
  Proof.
    intros s' H. cbn [snd fst] in *. unfold enter_license in H. apply license_id_efull in H.
    apply (step_full v h s (set_ps_st PsOtherLicense s0)); auto. apply quiet_lic.
  Qed.
End Common.

Ltac cases tac := repeat first [(apply Forall_cons; [tac|]) | apply Forall_nil | (eapply eact_rel_ann; eauto using esame_refl; fail) | apply Forall_app; split].

(** ** Review and license sections *)
Lemma e_parse_review v h s t x s' : einv v h s -> ps_st s = PsReview -> parse_review v t x s = Ok s' -> einv v (h ++ [(t, x)]) s'.
Proof.
  intros I St. unfold parse_review.
  assert (X : ps_extref s = None) by (apply (ext_other h); [apply I|congruence]).
  assert (A : ps_aop s = None) by (apply (aop_other h); [apply I|congruence]).
  apply switch_e; [|discriminate].
  unfold review_cases. cases ltac:(eapply eact_efull; eauto using esame_refl; intros ? H; first [now apply reviewer_efull in H|now apply upd_rev_efull in H]).
Qed.
Lemma e_parse_license v h s t x s' : einv v h s -> ps_st s = PsOtherLicense -> parse_license v t x s = Ok s' -> einv v (h ++ [(t, x)]) s'.
Proof.
  intros I St. unfold parse_license.
  assert (X : ps_extref s = None) by (apply (ext_other h); [apply I|congruence]).
  assert (A : ps_aop s = None) by (apply (aop_other h); [apply I|congruence]).
  apply switch_e; [|discriminate].
  unfold license_cases. cases ltac:(first [now eapply eact_enter_review; eauto using esame_refl
   | eapply eact_efull; eauto using esame_refl; intros ? H; first [now apply license_id_efull in H|now apply upd_lic_efull in H]]).
Qed.

(** ** Snippet section *)
Lemma e_parse_snippet v h s t x s' : einv v h s -> ps_st s = PsSnippet ->
  Forall (fun g => fst g <> "") (parts_of "PackageName" h) ->
  parse_snippet v t x s = Ok s' -> einv v (h ++ [(t, x)]) s'.
Proof.
  intros I St NE. unfold parse_snippet.
  assert (X : ps_extref s = None) by (apply (ext_other h); [apply I|congruence]).
  assert (A : ps_aop s = None) by (apply (aop_other h); [apply I|congruence]).
  assert (C : cur_files h <> []) by (pose proof (e_st _ _ _ I) as Y; unfold st_inv in Y; rewrite St in Y; apply Y).
  apply switch_e; [|discriminate].
  unfold snippet_cases. apply Forall_app; split; [|apply Forall_app; split; [destruct v|]].
  all: cases ltac:(first [now eapply eact_enter_review; eauto using esame_refl|now eapply eact_enter_license; eauto using esame_refl
   | (intros s1 H; cbn [fst snd] in *; eapply open_snip; [exact I|exact C|..|exact H]; auto; fail)
   | (intros s1 H; cbn [fst snd] in *; unfold snippet_to_file in H; eapply open_file; [exact I|..|exact H]; auto; fail)
   | (intros s1 H; cbn [fst snd] in *; unfold snippet_to_package in H; apply package_name_shape in H;
      [subst s1; eapply open_pkg; [exact I|..]; auto|apply I|eapply named; [apply I|exact NE]])
   | (intros s1 H; cbn [fst snd] in *; (eapply step_snip; [exact I|exact St|reflexivity..|discriminate|exact H|]); snip_field; fail)
   | (intros s1 H; cbn [fst snd] in *; apply bindR_ok in H as (d & Y & H); try destruct d as [a b];
      (eapply step_snip; [exact I|exact St|reflexivity..|discriminate|exact H|]); intros;
      first [now apply snip_byte|now apply snip_line|now apply snip_from])
   ]).
Qed.

(** ** Package section *)
Ltac pkg_proj := cbn [fst snd add set_p_PackageName set_p_SPDXIdentifier set_p_Version set_p_FileName set_p_Supplier set_p_Originator
  set_p_DownloadLocation set_p_FilesAnalyzed set_p_IsFilesAnalyzedTagPresent set_p_VerificationCode set_p_Checksums
  set_p_HomePage set_p_SourceInfo set_p_LicenseConcluded set_p_LicenseInfoFromFiles set_p_LicenseDeclared
  set_p_LicenseComments set_p_CopyrightText set_p_Summary set_p_Description set_p_Comment set_p_ExternalReferences
  set_p_AttributionTexts set_p_PrimaryPackagePurpose set_p_ReleaseDate set_p_BuiltDate set_p_ValidUntilDate set_p_Files
  p_IsUnpackaged p_PackageName p_SPDXIdentifier p_Version p_FileName p_Supplier p_Originator
  p_DownloadLocation p_FilesAnalyzed p_IsFilesAnalyzedTagPresent p_VerificationCode p_Checksums
  p_HomePage p_SourceInfo p_LicenseConcluded p_LicenseInfoFromFiles p_LicenseDeclared p_LicenseComments p_CopyrightText
  p_Summary p_Description p_Comment p_ExternalReferences p_AttributionTexts p_PrimaryPackagePurpose p_ReleaseDate
  p_BuiltDate p_ValidUntilDate p_Annotations v23_value].
Ltac ref_same := apply Forall2_stable; [|assumption]; intros ? ?; apply external_ref_stable; discriminate.
Ltac pkg_field := let g := fresh "g" in let p := fresh "p" in
  intros g p []; constructor; pkg_proj; unfold v23_value in *; rewrite ?values_head_snoc by discriminate; views;
  try assumption; try reflexivity; try congruence; try ref_same.
Section PkgFields.
  Context (v : version) (x : string) (g : seg) (p : PackageArena) (K : package_fields v g p).
  Lemma pkg_supplier (y : Supplier) : supplier_text x y -> package_fields v (add ("PackageSupplier", x) g) (set_p_Supplier (Some y) p).
  Proof. intros E. revert g p K. pkg_field. now apply opt_text_snoc. Qed.
  Lemma pkg_originator (y : Originator) : originator_text x y -> package_fields v (add ("PackageOriginator", x) g) (set_p_Originator (Some y) p).
  Proof. intros E. revert g p K. pkg_field. now apply opt_text_snoc. Qed.
  Lemma pkg_code : package_fields v (add ("PackageVerificationCode", x) g) (set_p_VerificationCode (Some (extract_code_and_excludes x)) p).
  Proof. revert g p K. pkg_field. apply opt_text_snoc. now apply code_text_iff. Qed.
  Lemma pkg_checksum c : extract_checksum v x = Ok c ->
    package_fields v (add ("PackageChecksum", x) g) (set_p_Checksums (p_Checksums p ++ [c]) p).
  Proof. intros E. revert g p K. pkg_field. apply Forall2_snoc; [assumption|]. now apply checksum_text_iff. Qed.
  Lemma pkg_analyzed : package_fields v (add ("FilesAnalyzed", x) g)
    (let p1 := set_p_IsFilesAnalyzedTagPresent true p in
     if x =? "false" then set_p_FilesAnalyzed false p1 else if x =? "true" then set_p_FilesAnalyzed true p1 else p1).
  Proof.
    cbv zeta. destruct (x =? "false") eqn:F1; [|destruct (x =? "true") eqn:F2]; revert g p K; pkg_field;
      rewrite ?nonempty_snoc, ?flag_snoc, ?F1, ?F2; try reflexivity; assumption.
  Qed.
  Lemma pkg_ref c t l : words x = [c; t; l] -> package_fields v (add ("ExternalRef", x) g)
    (set_p_ExternalReferences (p_ExternalReferences p ++ [MkER c t l ""]) p).
  Proof. intros E. revert g p K. pkg_field. apply Forall2_snoc; [assumption|]. split; [exact E|reflexivity]. Qed.
  Lemma pkg_ref_comment : package_fields v (add ("ExternalRefComment", x) g)
    (set_p_ExternalReferences (update_last (set_er_Comment x) (p_ExternalReferences p)) p).
  Proof.
    revert g p K. pkg_field. apply Forall2_update; [|assumption]. intros a b [K1 K2]. split; [exact K1|].
    cbn [er_Comment set_er_Comment snd add]. now rewrite last_value_snoc.
  Qed.
  Lemma pkg_spdxid e : parts_of "FileName" (snd g) = [] -> x = "SPDXRef-" ++ e ->
    package_fields v (add ("SPDXID", x) g) (set_p_SPDXIdentifier e p).
  Proof.
    intros N E. revert g p K N. intros g0 p0 [] N. constructor; pkg_proj; unfold v23_value in *; views;
      try assumption; try reflexivity; try congruence; try ref_same.
    rewrite head_snoc. simpl String.eqb. cbv iota. rewrite N, values_snoc. simpl String.eqb. cbv iota. now apply id_text_snoc.
  Qed.
End PkgFields.

Lemma supplier_case x s s' : do_supplier x s = Ok s' -> exists y, supplier_text x y /\ upd_pkg (set_p_Supplier (Some y)) s = Ok s'.
Proof.
  unfold do_supplier, supplier_text. destruct (x =? "NOASSERTION"); [eauto|]. intros H.
  apply bindR_ok in H as ([k n] & E & H). apply actor_text_iff in E. exists (MkSupplier n k). auto.
Qed.
Lemma originator_case x s s' : do_originator x s = Ok s' -> exists y, originator_text x y /\ upd_pkg (set_p_Originator (Some y)) s = Ok s'.
Proof.
  unfold do_originator, originator_text. destruct (x =? "NOASSERTION"); [eauto|]. intros H.
  apply bindR_ok in H as ([k n] & E & H). apply actor_text_iff in E. exists (MkOriginator n k). auto.
Qed.

Section Package.
  Context (v : version) (h : pairs) (s : pstate) (x : string) (I : einv v h s) (St : ps_st s = PsPackage).

  (** the package being described *)
  Lemma cur_seg : exists P g, parts_of "PackageName" h = (P ++ [g])%list /\ parts_of "FileName" (snd g) = [].
  Proof.
    pose proof (e_st _ _ _ I) as Y. unfold st_inv in Y. rewrite St in Y. destruct Y as [Y1 Y2].
    destruct (list_last_case (parts_of "PackageName" h)) as [Z|(P & g & Z)]; [contradiction|]. exists P, g. split; [exact Z|].
    unfold cur_files, groups in Y2. rewrite Z, map_app in Y2. cbn [map] in Y2. now rewrite app_comm_cons, last_snoc in Y2.
  Qed.
  Lemma e_package_id s' : do_pkg_spdxid x (set_ps_extref None s) = Ok s' -> einv v (h ++ [("SPDXID", x)]) s'.
  Proof.
    unfold do_pkg_spdxid. intros H. apply bindR_ok in H as (e & E & H). apply extract_element_id_iff in E as [E _].
    apply bindR_ok in H as (s1 & H1 & H). apply upd_pkg_last in H1 as (P & p & Y & ->); [|apply I].
    cbn [ps_pkgs set_ps_extref ps_pkg set_ps_pkgs] in *. destruct cur_seg as (Q & g & Z1 & Z2).
    assert (C : cur_files h = []) by (pose proof (e_st _ _ _ I) as Y0; unfold st_inv in Y0; rewrite St in Y0; apply Y0).
    pose proof (e_pkg _ _ _ I) as PP. destruct (ps_pkg s) as [pi|] eqn:EP; [|discriminate].
    rewrite Y, ptr_snoc in PP. inversion PP; subst pi.
    apply upd_doc_inv in H as (d & D & ->). cbn [ps_doc set_ps_pkgs set_ps_extref] in D.
    pose proof (aop_other h s (e_aop _ _ _ I)) as A. rewrite St in A. specialize (A ltac:(discriminate)).
    destruct I. assert (LQ : length Q = length P).
    { rewrite Z1, Y in e_pkgs. apply Forall2_len in e_pkgs. rewrite !app_length in e_pkgs. cbn in e_pkgs. lia. }
    constructor; cbn [ps_doc ps_pkgs ps_files ps_snips ps_pkg ps_file set_ps_doc set_ps_pkgs set_ps_extref].
    - unfold doc_with in *. cbn [ps_doc set_ps_doc]. rewrite D in e_doc. destruct e_doc as [X1 X2 X3]. constructor; cbn [d_SPDXIdentifier d_Packages d_Files set_d_Packages].
      + rewrite doc_id_stable; [assumption|]. right. unfold groups. rewrite Z1, map_app. destruct Q; discriminate.
      + rewrite parts_snoc. simpl String.eqb. cbv iota. rewrite Z1 in *. rewrite update_last_app, listed_app in *. rewrite X2. cbn [listed].
        rewrite !app_nil_r, <- app_assoc. f_equal. unfold package_ids. cbn [snd add].
        rewrite head_snoc. simpl String.eqb. cbv iota. rewrite Z2, values_snoc. simpl String.eqb. cbv iota.
        rewrite app_length, repeat_app. f_equal. cbn [repeat length]. f_equal. symmetry. exact LQ.
      + rewrite idx_stable; [|reflexivity|now right]. rewrite <- X3, Y, !map_app. reflexivity.
    - rewrite parts_snoc. simpl String.eqb. cbv iota. rewrite Y in e_pkgs. eapply Forall2_update_snoc; [|exact e_pkgs].
      intros L' a EL K. rewrite Z1 in EL. apply app_inj_tail in EL as [<- <-]. now apply pkg_spdxid.
    - apply files_stable; auto.
    - apply snips_stable; auto.
    - now rewrite maps_stable.
    - rewrite Y, ptr_snoc in *. now rewrite EP.
    - rewrite (file_ptr_stable h "SPDXID" x) by reflexivity. assumption.
    - apply ext_none; [reflexivity|discriminate].
    - apply aop_none; [exact A|discriminate..].
    - now apply (st_inv_stable h "SPDXID" x s).
  Qed.

  Lemma step_pkg_gen s' t f P p : outside t openers -> outside t ftags -> outside t stags -> t <> "SPDXID" ->
    ps_pkgs s = (P ++ [p])%list ->
    ps_doc s' = ps_doc s -> ps_pkgs s' = (P ++ [f p])%list -> ps_files s' = ps_files s -> ps_snips s' = ps_snips s ->
    ps_pkg s' = ps_pkg s -> ps_file s' = ps_file s -> ps_snip s' = ps_snip s -> ps_st s' = ps_st s -> ps_aop s' = ps_aop s ->
    ext_inv (h ++ [(t, x)]) s' -> p_Files (f p) = p_Files p ->
    (forall g, package_fields v g p -> package_fields v (add (t, x) g) (f p)) ->
    einv v (h ++ [(t, x)]) s'.
  Proof.
    intros M1 M2 M3 N1 E D1 D2 D3 D4 D5 D6 D7 D8 D9 X Ff Fd.
    pose proof (aop_other h s (e_aop _ _ _ I)) as A. rewrite St in A. specialize (A ltac:(discriminate)).
    destruct I. unfold outside in *.
    constructor; rewrite ?D2, ?D3, ?D4, ?D5, ?D6.
    - unfold doc_with in *. rewrite D1. destruct (ps_doc s) as [d|]; [|easy].
      eapply edoc_stable; try eassumption; try reflexivity. rewrite E, !map_app. cbn [map]. now rewrite Ff.
    - rewrite parts_snoc. apply opener_no in M1 as (M1 & _). rewrite M1. rewrite E in e_pkgs.
      eapply Forall2_update_snoc; [|exact e_pkgs]. intros. now apply Fd.
    - apply files_stable; auto.
    - apply snips_stable; auto.
    - now rewrite maps_stable.
    - rewrite E in e_pkg. rewrite !app_length in *. exact e_pkg.
    - rewrite (file_ptr_stable h t x) by assumption. assumption.
    - exact X.
    - apply aop_none; [congruence|..]; now apply (mem_neq t ftags).
    - apply (st_inv_stable h t x s); auto. congruence.
  Qed.
  Lemma e_external_ref s' : do_external_ref x (set_ps_extref None s) = Ok s' -> einv v (h ++ [("ExternalRef", x)]) s'.
  Proof.
    unfold do_external_ref. cbn [ps_pkg ps_pkgs set_ps_extref]. pose proof (e_pkg _ _ _ I) as PP.
    destruct (ps_pkg s) as [pi|] eqn:EP; [|discriminate]. destruct (nth_error (ps_pkgs s) pi) as [p|] eqn:N; [|discriminate].
    intros H. apply bindR_ok in H as ([[c t] l] & E & H). apply external_ref_text_iff in E.
    apply bindR_ok in H as (s1 & H1 & H). inversion H; subst s'; clear H.
    apply upd_pkg_last in H1 as (P & q & Y & ->); [|cbn; congruence]. cbn [ps_pkgs set_ps_extref] in Y.
    rewrite Y, ptr_snoc in PP. inversion PP; subst pi. rewrite Y, nth_error_app2, Nat.sub_diag in N by lia.
    cbn in N. inversion N; subst q.
    eapply (step_pkg_gen _ "ExternalRef" (fun y => set_p_ExternalReferences (p_ExternalReferences y ++ [MkER c t l ""]) y) P p);
      try reflexivity; try discriminate; try assumption.
    - unfold ext_inv. cbn [ps_extref set_ps_extref ps_st set_ps_pkgs ps_pkgs]. rewrite prev_tag_snoc. repeat split; [exact St|].
      eexists P, _. split; [reflexivity|]. split; [reflexivity|]. cbn [p_ExternalReferences set_p_ExternalReferences]. apply ptr_snoc.
    - intros g K. now apply pkg_ref.
  Qed.
  Lemma e_external_ref_comment s' : do_external_ref_comment x s = Ok s' -> einv v (h ++ [("ExternalRefComment", x)]) s'.
  Proof.
    unfold do_external_ref_comment. pose proof (e_ext _ _ _ I) as X. unfold ext_inv in X.
    destruct (ps_extref s) as [[pi ei]|] eqn:EX; [|discriminate]. destruct X as (_ & _ & P & p & Y & -> & PE).
    rewrite Y, nth_error_app2, Nat.sub_diag by lia. cbn [nth_error].
    destruct (update_nth ei (set_er_Comment x) (p_ExternalReferences p)) as [l|] eqn:U; [|discriminate].
    apply update_nth_ptr in U; [|exact PE]. subst l. rewrite update_nth_last. intros H. inversion H; subst s'; clear H.
    eapply (step_pkg_gen _ "ExternalRefComment" (fun y => set_p_ExternalReferences (update_last (set_er_Comment x) (p_ExternalReferences p)) y) P p);
      try reflexivity; try discriminate; try assumption.
    - apply ext_none; [reflexivity|discriminate].
    - intros g K. now apply pkg_ref_comment.
  Qed.
  Lemma e_package_cases t s' : Forall (fun g => fst g <> "") (parts_of "PackageName" h) ->
    parse_package v t x s = Ok s' -> einv v (h ++ [(t, x)]) s'.
  Proof.
    intros NE. unfold parse_package. cbv zeta. destruct (String.eqb_spec t "ExternalRefComment") as [->|NT].
    { intros H. apply switch_in in H as [(a & In & H)|[_ H]]; [|discriminate].
      assert (a = do_external_ref_comment).
      { unfold package_cases in In. rewrite !in_app_iff in In. destruct v; cbn in In;
        repeat (destruct In as [In|In] || (try contradiction; congruence)); congruence. }
      subst a. now apply e_external_ref_comment. }
    assert (E : esame s (set_ps_extref None s)) by (repeat (split; [reflexivity|]); intros d D; exists d; auto).
    pose proof (aop_other h s (e_aop _ _ _ I)) as A. rewrite St in A. specialize (A ltac:(discriminate)).
    intros H. apply switch_in in H as [(a & In & H)|[_ H]]; [|discriminate].
    revert In s' H.
    assert (K : Forall (fun c => fst c <> "ExternalRefComment" -> eact v h x (set_ps_extref None s) c) (package_cases v)).
    { Ltac here := intros _ s1 H; cbn [fst snd] in *.
      Ltac fieldp := (eapply step_pkg; [eassumption|assumption|reflexivity..|discriminate|discriminate|eassumption|reflexivity|]).
      assert (R : Forall (fun c => fst c <> "ExternalRefComment" -> eact v h x (set_ps_extref None s) c) (rel_ann_cases v ++ [("Reviewer", enter_review)])).
      { eapply Forall_impl; [intros c Q _; exact Q|]. apply Forall_app. split; [eapply eact_rel_ann; eauto|].
        constructor; [eapply eact_enter_review; eauto|constructor]. }
      unfold package_cases. apply Forall_app; split; [|apply Forall_app; split; [destruct v|apply Forall_app; split; [destruct v|
        apply Forall_app; split; [|exact R]]]].
      all: repeat first [apply Forall_nil | apply Forall_cons; [first
       [ (intros _; eapply eact_enter_license; eauto; fail)
       | (here; apply package_name_shape in H; [subst s1; eapply open_pkg; [exact I|..]; auto; cbn;
            rewrite (e_file _ _ _ I); pose proof (e_st _ _ _ I) as Y; unfold st_inv in Y; rewrite St in Y; destruct Y as [_ ->]; reflexivity
            |apply I|eapply named; [apply I|exact NE]]; fail)
       | (here; unfold package_to_file in H; eapply open_file; [exact I|..|exact H]; auto; fail)
       | (here; now apply e_package_id)
       | (here; now apply e_external_ref)
       | (intros Q; now elim Q)
       | (here; apply supplier_case in H as (y & Y & H); fieldp; intros; now apply pkg_supplier)
       | (here; apply originator_case in H as (y & Y & H); fieldp; intros; now apply pkg_originator)
       | (here; unfold do_files_analyzed in H; eapply step_pkg; [eassumption|assumption|reflexivity..|discriminate|discriminate|eassumption| |];
           [intros p; cbv zeta; destruct (x =? "false"); [reflexivity|]; destruct (x =? "true"); reflexivity
           |intros; now apply pkg_analyzed])
       | (here; apply bindR_ok in H as (c & Y & H); fieldp; intros; now apply pkg_checksum)
       | (here; fieldp; intros; now apply pkg_code)
       | (here; fieldp; pkg_field; fail) ]|]]. }
    intros In s1 H. rewrite Forall_forall in K. exact (K _ In NT s1 H).
  Qed.
End Package.
