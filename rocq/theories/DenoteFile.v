(** The element invariant: the file section, the start of the document, whole inputs. *)
From Verif Require Import GoStr GoStrFacts Types TvState TvUtil TvReader TvParser SpecTv SpecId SpecDoc SpecRead
  TvReaderFacts TvUtilFacts TvParserFacts DenoteBase DenoteGlobal DenoteElems DenoteSteps DenoteCases DenoteSections.

Ltac file_proj := cbn [fst snd add set_f_FileName set_f_SPDXIdentifier set_f_FileTypes set_f_Checksums set_f_LicenseConcluded
  set_f_LicenseInfoInFiles set_f_LicenseComments set_f_CopyrightText set_f_Artifacts set_f_Comment set_f_Notice
  set_f_Contributors set_f_AttributionTexts set_f_Dependencies set_f_Snippets
  f_FileName f_SPDXIdentifier f_FileTypes f_Checksums f_LicenseConcluded f_LicenseInfoInFiles f_LicenseComments
  f_CopyrightText f_Artifacts f_Comment f_Notice f_Contributors f_AttributionTexts f_Dependencies f_Snippets f_Annotations].
Ltac art_same := apply Forall2_stable; [|assumption]; intros ? ?; apply artifact_stable; discriminate.
Ltac file_field := let g := fresh "g" in let p := fresh "p" in
  intros g p []; constructor; file_proj; views; try assumption; try reflexivity; try congruence; try art_same.
Section FileFields.
  Context (v : version) (x : string) (g : seg) (p : FileArena) (K : file_fields v g p).
  Lemma file_checksum c : extract_checksum v x = Ok c ->
    file_fields v (add ("FileChecksum", x) g) (set_f_Checksums (f_Checksums p ++ [c]) p).
  Proof. intros E. revert g p K. file_field. apply Forall2_snoc; [assumption|]. now apply checksum_text_iff. Qed.
  Lemma file_spdxid e : x = "SPDXRef-" ++ e -> file_fields v (add ("SPDXID", x) g) (set_f_SPDXIdentifier e p).
  Proof. intros E. revert g p K. file_field. now apply id_text_snoc. Qed.
  Lemma file_artifact : file_fields v (add ("ArtifactOfProjectName", x) g)
    (set_f_Artifacts (f_Artifacts p ++ [MkArtifact x "" ""]) p).
  Proof. revert g p K. file_field. apply Forall2_snoc; [assumption|]. repeat split. Qed.
  Lemma file_home : file_fields v (add ("ArtifactOfProjectHomePage", x) g)
    (set_f_Artifacts (update_last (set_ar_HomePage x) (f_Artifacts p)) p).
  Proof.
    revert g p K. file_field. apply Forall2_update; [|assumption]. intros a b (K1 & K2 & K3).
    unfold artifact_den. cbn [ar_Name ar_HomePage ar_URI set_ar_HomePage snd fst add]. rewrite !last_value_snoc. auto.
  Qed.
  Lemma file_uri : file_fields v (add ("ArtifactOfProjectURI", x) g)
    (set_f_Artifacts (update_last (set_ar_URI x) (f_Artifacts p)) p).
  Proof.
    revert g p K. file_field. apply Forall2_update; [|assumption]. intros a b (K1 & K2 & K3).
    unfold artifact_den. cbn [ar_Name ar_HomePage ar_URI set_ar_URI snd fst add]. rewrite !last_value_snoc. auto.
  Qed.
End FileFields.

Section FileSection.
  Context (v : version) (h : pairs) (s : pstate) (x : string) (I : einv v h s) (St : ps_st s = PsFile).
  Lemma in_file : cur_files h <> [] /\ cur_snips h = [].
  Proof. pose proof (e_st _ _ _ I) as Y. unfold st_inv in Y. now rewrite St in Y. Qed.
  Lemma file_ptr : ps_file s = ptr (length (ps_files s)).
  Proof. rewrite (e_file _ _ _ I). destruct in_file. now destruct (cur_files h). Qed.

  Lemma step_file_gen s' t f P p : outside t openers -> outside t ptags -> outside t stags -> t <> "SPDXID" ->
    ps_files s = (P ++ [p])%list ->
    ps_doc s' = ps_doc s -> ps_files s' = (P ++ [f p])%list -> ps_pkgs s' = ps_pkgs s -> ps_snips s' = ps_snips s ->
    ps_pkg s' = ps_pkg s -> ps_file s' = ps_file s -> ps_snip s' = ps_snip s -> ps_st s' = ps_st s -> ps_extref s' = ps_extref s ->
    aop_inv (h ++ [(t, x)]) s' -> f_Snippets (f p) = f_Snippets p ->
    (forall g, file_fields v g p -> file_fields v (add (t, x) g) (f p)) ->
    einv v (h ++ [(t, x)]) s'.
  Proof.
    intros M1 M2 M3 N1 E D1 D2 D3 D4 D5 D6 D7 D8 D9 X Ff Fd. destruct in_file as [C _].
    pose proof (ext_other h s (e_ext _ _ _ I)) as A. rewrite St in A. specialize (A ltac:(discriminate)).
    destruct I. unfold outside in *.
    constructor; rewrite ?D2, ?D3, ?D4, ?D5, ?D6.
    - unfold doc_with in *. rewrite D1. destruct (ps_doc s) as [d|]; [|easy].
      eapply edoc_stable; try eassumption; reflexivity.
    - apply pkgs_stable; auto.
    - rewrite files_snoc. pose proof (opener_no _ M1) as (M4 & M5 & _). rewrite M4, M5.
      destruct (cur_files h) eqn:Z; [contradiction|]. rewrite E in e_files.
      eapply Forall2_update_snoc; [|exact e_files]. intros. now apply Fd.
    - apply snips_stable; auto.
    - rewrite maps_stable by assumption. rewrite <- e_maps, E, !map_app. cbn [map]. now rewrite Ff.
    - assumption.
    - rewrite (file_ptr_stable h t x) by assumption. rewrite e_file, E, !app_length. reflexivity.
    - apply ext_none; [congruence|]. now apply (mem_neq t ptags).
    - exact X.
    - apply (st_inv_stable h t x s); auto. congruence.
  Qed.

  Lemma e_artifact s' : do_aop_name x (set_ps_aop None s) = Ok s' -> einv v (h ++ [("ArtifactOfProjectName", x)]) s'.
  Proof.
    unfold do_aop_name. cbn [ps_file ps_files set_ps_aop]. pose proof file_ptr as PP.
    destruct (ps_file s) as [pi|] eqn:EP; [|discriminate]. destruct (nth_error (ps_files s) pi) as [p|] eqn:N; [|discriminate].
    intros H. apply bindR_ok in H as (s1 & H1 & H). inversion H; subst s'; clear H.
    apply upd_file_last in H1 as (P & q & Y & ->); [|cbn; congruence]. cbn [ps_files set_ps_aop] in Y.
    rewrite Y, ptr_snoc in PP. inversion PP; subst pi. rewrite Y, nth_error_app2, Nat.sub_diag in N by lia.
    cbn in N. inversion N; subst q.
    eapply (step_file_gen _ "ArtifactOfProjectName" (fun y => set_f_Artifacts (f_Artifacts y ++ [MkArtifact x "" ""]) y) P p);
      try reflexivity; try discriminate; try assumption.
    - unfold aop_inv. cbn [ps_aop set_ps_aop ps_st set_ps_files ps_files]. rewrite artifact_open_snoc. repeat split; [exact St|].
      eexists P, _. split; [reflexivity|]. split; [reflexivity|]. cbn [f_Artifacts set_f_Artifacts]. apply ptr_snoc.
    - intros g K. now apply file_artifact.
  Qed.
  Lemma e_artifact_field t (f : Artifact -> Artifact) s' : In t ["ArtifactOfProjectHomePage"; "ArtifactOfProjectURI"] ->
    (forall g (p : FileArena), file_fields v g p -> file_fields v (add (t, x) g) (set_f_Artifacts (update_last f (f_Artifacts p)) p)) ->
    upd_aop f s = Ok s' -> einv v (h ++ [(t, x)]) s'.
  Proof.
    intros T Fd. unfold upd_aop. pose proof (e_aop _ _ _ I) as X. unfold aop_inv in X.
    destruct (ps_aop s) as [[pi ei]|] eqn:EX; [|discriminate]. destruct X as (O & _ & P & p & Y & -> & PE).
    rewrite Y, nth_error_app2, Nat.sub_diag by lia. cbn [nth_error].
    destruct (update_nth ei f (f_Artifacts p)) as [l|] eqn:U; [|discriminate].
    apply update_nth_ptr in U; [|exact PE]. subst l. rewrite update_nth_last. intros H. inversion H; subst s'; clear H.
    eapply (step_file_gen _ t (fun y => set_f_Artifacts (update_last f (f_Artifacts p)) y) P p);
      try reflexivity; try assumption.
    1-4: destruct T as [<-|[<-|[]]]; try reflexivity; discriminate.
    - unfold aop_inv. cbn [ps_aop set_ps_files]. rewrite EX. rewrite artifact_open_snoc, O. split.
      + destruct T as [<-|[<-|[]]]; reflexivity.
      + split; [exact St|]. eexists P, _. split; [reflexivity|]. split; [reflexivity|].
        cbn [f_Artifacts set_f_Artifacts]. now rewrite update_last_length.
    - intros g K. now apply Fd.
  Qed.
  Lemma e_file_id s' : do_file_spdxid x (set_ps_aop None s) = Ok s' -> einv v (h ++ [("SPDXID", x)]) s'.
  Proof.
    unfold do_file_spdxid. intros H. apply bindR_ok in H as (e & E & H). apply extract_element_id_iff in E as [E _].
    apply bindR_ok in H as (s1 & H1 & H). apply upd_file_last in H1 as (P & p & Y & ->); [|apply file_ptr].
    cbn [ps_files set_ps_aop ps_file set_ps_files ps_pkg] in *. destruct in_file as [C CS].
    pose proof file_ptr as PP. destruct (ps_file s) as [fi|] eqn:EP; [|discriminate].
    rewrite Y, ptr_snoc in PP. inversion PP; subst fi.
    pose proof (ext_other h s (e_ext _ _ _ I)) as A. rewrite St in A. specialize (A ltac:(discriminate)).
    destruct I.
    destruct (list_last_case (cur_files h)) as [Z|(g0 & a & Z)]; [contradiction|]. destruct (groups_split h) as [G EG].
    assert (LP : length P = length (concat G) + length g0).
    { rewrite Y in e_files. apply Forall2_len in e_files. unfold files in e_files.
      rewrite EG, concat_snoc, Z, !app_length in e_files. cbn in e_files. lia. }
    (* the listed files *)
    assert (LI : forall L o, (L ++ [o])%list = idx_groups file_ids 0 (groups h) ->
      (L ++ [o ++ [length P]])%list = idx_groups file_ids 0 (groups (h ++ [("SPDXID", x)]))).
    { intros L o EL. rewrite groups_snoc. simpl String.eqb. cbv iota. rewrite EG, idx_groups_app in EL. cbn [idx_groups] in EL.
      apply app_inj_tail in EL as [-> ->]. rewrite EG, update_last_app, idx_groups_app. cbn [idx_groups]. do 2 f_equal.
      rewrite Z, update_last_app, !listed_app. cbn [listed]. rewrite !app_nil_r, <- app_assoc. f_equal.
      unfold file_ids. cbn [snd add]. rewrite values_snoc. simpl String.eqb. cbv iota. rewrite app_length, repeat_app. f_equal.
      cbn [repeat length]. f_equal. exact LP. }
    assert (R : forall pk d s', ps_pkgs s' = pk -> ps_doc s' = Some d -> edoc (h ++ [("SPDXID", x)]) pk d ->
       Forall2 (package_fields v) (parts_of "PackageName" (h ++ [("SPDXID", x)])) pk ->
       ps_files s' = (P ++ [set_f_SPDXIdentifier e p])%list -> ps_snips s' = ps_snips s -> ps_pkg s' = ptr (length pk) ->
       ps_file s' = ps_file s -> ps_snip s' = ps_snip s -> ps_st s' = ps_st s -> ps_extref s' = None -> ps_aop s' = None ->
       einv v (h ++ [("SPDXID", x)]) s').
    { clear H s'. intros pk d s' D1 D2 D3 D4 D5 D6 D7 D8 D9 D10 D11 D12. constructor; rewrite ?D1, ?D5, ?D6, ?D7, ?D8.
      - unfold doc_with. now rewrite D2.
      - exact D4.
      - rewrite files_snoc. simpl String.eqb. cbv iota. destruct (cur_files h); [contradiction|]. rewrite Y in e_files.
        eapply Forall2_update_snoc; [|exact e_files]. intros. now apply file_spdxid.
      - now apply snips_stable.
      - rewrite maps_stable by reflexivity. rewrite <- e_maps, Y, !map_app. reflexivity.
      - reflexivity.
      - rewrite (file_ptr_stable h "SPDXID" x) by reflexivity. rewrite e_file, Y, !app_length. reflexivity.
      - apply ext_none; [exact D11|discriminate].
      - apply aop_none; [exact D12|discriminate..].
      - apply (st_inv_stable h "SPDXID" x s); auto. congruence. }
    assert (NG : groups h <> [[]]).
    { intros Q. unfold cur_files in C. rewrite Q in C. now apply C. }
    destruct (ps_pkg s) as [pi|] eqn:EPK.
    - apply upd_pkg_last in H as (Q & q & W & ->); [|cbn; congruence]. cbn [ps_pkgs set_ps_files set_ps_aop] in W.
      destruct (ps_doc s) as [d|] eqn:D; unfold doc_with in e_doc; rewrite D in e_doc; [|contradiction].
      destruct e_doc as [X1 X2 X3].
      apply (R (Q ++ [set_p_Files (p_Files q ++ [length P]) q])%list d); auto.
      + constructor.
        * rewrite doc_id_stable; auto.
        * rewrite listed_pkgs; auto.
        * rewrite W, map_app in X3. cbn [map] in X3. rewrite app_comm_cons in X3. apply LI in X3.
          rewrite map_app. exact X3.
      + rewrite W in e_pkgs. destruct (list_last_case (parts_of "PackageName" h)) as [V|(V & b & VE)].
        { rewrite V in e_pkgs. apply Forall2_len in e_pkgs. rewrite app_length in e_pkgs. cbn in e_pkgs. lia. }
        pose proof (pkgs_stable v h "SPDXID" x _ eq_refl eq_refl (or_intror C) e_pkgs) as F.
        apply Forall2_app_inv_r in F as (L1 & L2 & F1 & F2 & FE). rewrite FE. apply Forall2_app; [exact F1|].
        inversion F2 as [|u w l1 l2 K1 K2]; subst. constructor; [|exact K2]. destruct K1. constructor; assumption.
      + cbn [ps_pkg set_ps_pkgs set_ps_files set_ps_aop]. rewrite EPK, e_pkg, W, !app_length. reflexivity.
    - apply upd_doc_inv in H as (d & D & ->). cbn [ps_doc set_ps_files set_ps_aop] in D.
      unfold doc_with in e_doc. rewrite D in e_doc. destruct e_doc as [X1 X2 X3].
      assert (PN : ps_pkgs s = []) by (destruct (ps_pkgs s); [reflexivity|discriminate]).
      eapply (R (ps_pkgs s)); try reflexivity; auto.
      + rewrite PN in X3 |- *. cbn [map] in X3. constructor; cbn [d_SPDXIdentifier d_Packages d_Files set_d_Files].
        * rewrite doc_id_stable; auto.
        * rewrite listed_pkgs; auto.
        * apply (LI []). exact X3.
      + apply pkgs_stable; auto.
      + cbn [ps_pkg set_ps_doc set_ps_files set_ps_aop]. congruence.
  Qed.
  Lemma e_parse_file t s' : Forall (fun g => fst g <> "") (parts_of "PackageName" h) ->
    parse_file v t x s = Ok s' -> einv v (h ++ [(t, x)]) s'.
  Proof.
    intros NE. unfold parse_file. cbv zeta.
    destruct (String.eqb_spec t "ArtifactOfProjectHomePage") as [->|NT1].
    { cbn [orb]. intros H. apply switch_in in H as [(a & In & H)|[_ H]]; [|discriminate].
      assert (a = fun value => upd_aop (set_ar_HomePage value)).
      { unfold file_cases in In. rewrite !in_app_iff in In. destruct v; cbn in In;
        repeat (destruct In as [In|In] || (try contradiction; congruence)); congruence. }
      subst a. eapply e_artifact_field; [simpl; auto| |exact H]. intros. now apply file_home. }
    destruct (String.eqb_spec t "ArtifactOfProjectURI") as [->|NT2].
    { cbn [orb]. intros H. apply switch_in in H as [(a & In & H)|[_ H]]; [|discriminate].
      assert (a = fun value => upd_aop (set_ar_URI value)).
      { unfold file_cases in In. rewrite !in_app_iff in In. destruct v; cbn in In;
        repeat (destruct In as [In|In] || (try contradiction; congruence)); congruence. }
      subst a. eapply e_artifact_field; [simpl; auto| |exact H]. intros. now apply file_uri. }
    cbn [orb].
    assert (E : esame s (set_ps_aop None s)) by (repeat (split; [reflexivity|]); intros d D; exists d; auto).
    pose proof (ext_other h s (e_ext _ _ _ I)) as A. rewrite St in A. specialize (A ltac:(discriminate)).
    destruct in_file as [C CS].
    intros H. apply switch_in in H as [(a & In & H)|[_ H]]; [|discriminate].
    revert In s' H.
    assert (K : Forall (fun c => fst c <> "ArtifactOfProjectHomePage" -> fst c <> "ArtifactOfProjectURI" -> eact v h x (set_ps_aop None s) c) (file_cases v)).
    { Ltac here := intros _ _ s1 H; cbn [fst snd] in *.
      Ltac fieldf := (eapply step_file; [eassumption|assumption|reflexivity..|discriminate|discriminate|discriminate|discriminate|eassumption|reflexivity|]).
      assert (R : Forall (fun c => fst c <> "ArtifactOfProjectHomePage" -> fst c <> "ArtifactOfProjectURI" -> eact v h x (set_ps_aop None s) c) (rel_ann_cases v ++ [("Reviewer", enter_review)])).
      { eapply Forall_impl; [intros c Q _ _; exact Q|]. apply Forall_app. split; [eapply eact_rel_ann; eauto|].
        constructor; [eapply eact_enter_review; eauto|constructor]. }
      unfold file_cases. apply Forall_app; split; [|apply Forall_app; split; [destruct v|exact R]].
      all: repeat first [apply Forall_nil | apply Forall_cons; [first
       [ (intros _ _; eapply eact_enter_license; eauto; fail)
       | (here; eapply open_file; [exact I|..|exact H]; auto; fail)
       | (here; unfold file_to_snippet in H; eapply open_snip; [exact I|exact C|..|exact H]; auto; fail)
       | (here; unfold file_to_package in H; cbv zeta in H; apply bindR_ok in H as (_ & _ & H);
            apply package_name_shape in H; [subst s1; eapply open_pkg; [exact I|..]; auto
            |apply I|eapply named; [apply I|exact NE]]; fail)
       | (here; now apply e_file_id)
       | (here; now apply e_artifact)
       | (intros Q1 Q2; first [now elim Q1|now elim Q2])
       | (here; apply bindR_ok in H as (c & Y & H); fieldf; intros; now apply file_checksum)
       | (here; fieldf; file_field; fail) ]|]]. }
    intros In s1 H. rewrite Forall_forall in K. exact (K _ In NT1 NT2 s1 H).
  Qed.
End FileSection.
