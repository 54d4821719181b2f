(** The element invariant, tag by tag. *)
From Verif Require Import GoStr GoStrFacts Types TvState TvUtil TvReader TvParser SpecTv SpecId SpecDoc SpecRead
  TvReaderFacts TvUtilFacts TvParserFacts DenoteBase DenoteGlobal DenoteElems DenoteSteps.

(** ** Document-level tags leave the elements alone *)
Definition efull (s s' : pstate) : Prop :=
  esame s s' /\ ps_extref s' = ps_extref s /\ ps_aop s' = ps_aop s /\ ps_st s' = ps_st s.
Lemma efull_trans s1 s2 s3 : efull s1 s2 -> efull s2 s3 -> efull s1 s3.
Proof. intros (A & A1 & A2 & A3) (B & B1 & B2 & B3). split; [eapply esame_trans; eauto|]. repeat split; congruence. Qed.
Lemma efull_doc s d d' : ps_doc s = Some d -> d_SPDXIdentifier d' = d_SPDXIdentifier d ->
  d_Packages d' = d_Packages d -> d_Files d' = d_Files d -> efull s (set_ps_doc (Some d') s).
Proof.
  intros E E1 E2 E3. split; [|auto]. repeat (split; [reflexivity|]). intros d0 E0. exists d'. cbn.
  repeat split; congruence.
Qed.
Lemma upd_in_doc_efull {A} p (get : DocumentArena -> list A) put f s s' : upd_in_doc p get put f s = Ok s' ->
  (forall l d, d_SPDXIdentifier (put l d) = d_SPDXIdentifier d /\ d_Packages (put l d) = d_Packages d /\ d_Files (put l d) = d_Files d) ->
  efull s s'.
Proof.
  unfold upd_in_doc. destruct p; [|discriminate]. destruct (ps_doc s) as [d|] eqn:D; [|discriminate].
  destruct (update_nth _ _ _) as [l|]; [|discriminate]. intros H P. inversion H. destruct (P l d) as (P1 & P2 & P3).
  now apply (efull_doc s d).
Qed.
Lemma upd_lic_efull f s s' : upd_lic f s = Ok s' -> efull s s'.
Proof. intros H. apply upd_in_doc_efull in H; [exact H|]. intros. cbn. auto. Qed.
Lemma upd_rln_efull f s s' : upd_rln f s = Ok s' -> efull s s'.
Proof. intros H. apply upd_in_doc_efull in H; [exact H|]. intros. cbn. auto. Qed.
Lemma upd_ann_efull f s s' : upd_ann f s = Ok s' -> efull s s'.
Proof. intros H. apply upd_in_doc_efull in H; [exact H|]. intros. cbn. auto. Qed.
Lemma upd_rev_efull f s s' : upd_rev f s = Ok s' -> efull s s'.
Proof. intros H. apply upd_in_doc_efull in H; [exact H|]. intros. cbn. auto. Qed.
Lemma upd_ci_efull f s s' : upd_ci f s = Ok s' -> efull s s'.
Proof.
  unfold upd_ci. destruct (ps_doc s) as [d|] eqn:D; [|discriminate]. destruct (d_CreationInfo d); [|discriminate].
  intros H. inversion H. now apply (efull_doc s d).
Qed.
Lemma upd_doc_efull f s s' : upd_doc f s = Ok s' ->
  (forall d, d_SPDXIdentifier (f d) = d_SPDXIdentifier d /\ d_Packages (f d) = d_Packages d /\ d_Files (f d) = d_Files d) ->
  efull s s'.
Proof. intros H P. apply upd_doc_inv in H as (d & D & ->). destruct (P d) as (?&?&?). now apply (efull_doc s d). Qed.

Lemma relationship_efull v x s s' : do_relationship v x s = Ok s' -> efull s s'.
Proof.
  unfold do_relationship. destruct (ps_doc s) as [d|] eqn:D; [|discriminate]. cbv zeta. intros H.
  apply bindR_ok in H as ([[? ?] ?] & _ & H). apply upd_rln_efull in H. eapply efull_trans; [|exact H].
  split; [|auto]. repeat (split; [reflexivity|]). intros d9 E. rewrite D in E. inversion E; subst d9.
  eexists. split; [reflexivity|]. auto.
Qed.
Lemma annotator_efull x s s' : do_annotator x s = Ok s' -> efull s s'.
Proof.
  unfold do_annotator. destruct (ps_doc s) as [d|] eqn:D; [|discriminate]. cbv zeta. intros H.
  apply bindR_ok in H as ([? ?] & _ & H). apply upd_ann_efull in H. eapply efull_trans; [|exact H].
  split; [|auto]. repeat (split; [reflexivity|]). intros d9 E. rewrite D in E. inversion E; subst d9.
  eexists. split; [reflexivity|]. auto.
Qed.
Lemma reviewer_efull x s s' : do_reviewer x s = Ok s' -> efull s s'.
Proof.
  unfold do_reviewer. destruct (ps_doc s) as [d|] eqn:D; [|discriminate]. cbv zeta. intros H.
  apply bindR_ok in H as ([? ?] & _ & H). apply upd_rev_efull in H. eapply efull_trans; [|exact H].
  split; [|auto]. repeat (split; [reflexivity|]). intros d9 E. rewrite D in E. inversion E; subst d9.
  eexists. split; [reflexivity|]. auto.
Qed.
Lemma license_id_efull x s s' : do_license_id x s = Ok s' -> efull s s'.
Proof.
  unfold do_license_id. destruct (ps_doc s) as [d|] eqn:D; [|discriminate]. cbv zeta. intros H.
  apply upd_lic_efull in H. eapply efull_trans; [|exact H].
  split; [|auto]. repeat (split; [reflexivity|]). intros d9 E. rewrite D in E. inversion E; subst d9.
  eexists. split; [reflexivity|]. auto.
Qed.
Lemma rel_ann_efull v t a x s s' : In (t, a) (rel_ann_cases v) -> a x s = Ok s' -> efull s s' /\ mem t etags = false.
Proof.
  intros I H. simpl in I.
  destruct I as [I|[I|[I|[I|[I|[I|[I|[]]]]]]]]; inversion I; subst t a; clear I; (split; [|reflexivity]).
  - now apply relationship_efull in H.
  - unfold do_relationship_comment in H. destruct (ps_rln s); [|discriminate]. now apply upd_rln_efull in H.
  - now apply annotator_efull in H.
  - unfold do_annotation_date, with_ann in H. destruct (ps_ann s); [|discriminate]. now apply upd_ann_efull in H.
  - unfold do_annotation_type, with_ann in H. destruct (ps_ann s); [|discriminate]. now apply upd_ann_efull in H.
  - unfold do_spdxref in H. destruct (ps_ann s); [|discriminate]. apply bindR_ok in H as (? & _ & H). now apply upd_ann_efull in H.
  - unfold do_annotation_comment, with_ann in H. destruct (ps_ann s); [|discriminate]. now apply upd_ann_efull in H.
Qed.

(** a step that stays in the section *)
Lemma step_full v h s s0 s' t x : einv v h s -> mem t etags = false -> esame s s0 -> quiet (ps_st s) (ps_st s0) ->
  ps_extref s0 = None -> ps_aop s0 = None -> efull s0 s' -> einv v (h ++ [(t, x)]) s'.
Proof.
  intros I M E Q X A (F & F1 & F2 & F3). apply (step_none v h s); [assumption..| | | |].
  - eapply esame_trans; eauto.
  - now rewrite F3.
  - congruence.
  - congruence.
Qed.
Lemma quiet_refl st : quiet st st.
Proof. now left. Qed.
Lemma quiet_lic st : quiet st PsOtherLicense.
Proof. right. now left. Qed.
Lemma quiet_rev st : quiet st PsReview.
Proof. right. right. now left. Qed.

(** ** Snippet fields *)
Ltac snip_proj := cbn [fst snd add set_s_FromFile set_s_Ranges set_s_LicenseConcluded set_s_LicenseInfoInSnippet
  set_s_LicenseComments set_s_CopyrightText set_s_Comment set_s_Name set_s_AttributionTexts
  s_SPDXIdentifier s_FromFile s_Ranges s_LicenseConcluded s_LicenseInfoInSnippet s_LicenseComments s_CopyrightText
  s_Comment s_Name s_AttributionTexts].
Ltac views := rewrite ?last_value_snoc, ?values_snoc, ?parts_snoc, ?range_pairs_snoc; simpl String.eqb; cbn [orb]; cbv iota.
Ltac snip_field := let g := fresh "g" in let p := fresh "p" in
  intros g p []; constructor; snip_proj; views; try assumption; try reflexivity; try congruence.
Lemma snip_from v x g p d : extract_doc_element_id x = Ok d -> snippet_den v g p ->
  snippet_den v (add ("SnippetFromFileSPDXID", x) g) (set_s_FromFile (de_ElementRefID d) p).
Proof.
  intros E. revert g p. snip_field.
  destruct (values "SnippetFromFileSPDXID" (snd g) ++ [x])%list eqn:V; [now apply app_eq_nil in V|].
  rewrite <- V, last_snoc. exists d. apply extract_doc_element_id_iff in E. destruct E. auto.
Qed.
Lemma snip_byte v x g p a b : extract_range x = Ok (a, b) -> snippet_den v g p ->
  snippet_den v (add ("SnippetByteRange", x) g) (set_s_Ranges (s_Ranges p ++ [offset_range a b]) p).
Proof.
  intros E. revert g p. snip_field. apply Forall2_snoc; [assumption|]. exists a, b.
  split; [now apply range_text_iff|reflexivity].
Qed.
Lemma snip_line v x g p a b : extract_range x = Ok (a, b) -> snippet_den v g p ->
  snippet_den v (add ("SnippetLineRange", x) g) (set_s_Ranges (s_Ranges p ++ [line_range a b]) p).
Proof.
  intros E. revert g p. snip_field. apply Forall2_snoc; [assumption|]. exists a, b.
  split; [now apply range_text_iff|reflexivity].
Qed.

(** ** Tags that open an element *)
Lemma listed_pkgs' h t x : t <> "PackageName" -> t <> "SPDXID" ->
  listed package_ids 0 (parts_of "PackageName" (h ++ [(t, x)])) = listed package_ids 0 (parts_of "PackageName" h).
Proof.
  intros N1 N2. rewrite parts_snoc. neq t "PackageName". apply listed_add. intros a. unfold package_ids. cbn [snd add].
  now rewrite values_head_snoc.
Qed.
Lemma pkgs_stable' v h t x M : t <> "PackageName" -> t <> "SPDXID" -> mem t ptags = false ->
  Forall2 (package_fields v) (parts_of "PackageName" h) M ->
  Forall2 (package_fields (FI := nat) v) (parts_of "PackageName" (h ++ [(t, x)])) M.
Proof.
  intros N1 N2 P F. rewrite parts_snoc. neq t "PackageName". apply Forall2_stable; [|exact F]. intros.
  apply package_stable; auto.
Qed.
Lemma new_file_den v x : file_fields (SN := nat) v (x, []) (set_f_FileName x zero_FileOf).
Proof. constructor; try reflexivity; try constructor. now destruct v. Qed.
Lemma new_snippet_den v x e : x = "SPDXRef-" ++ e -> snippet_den v (x, []) (set_s_SPDXIdentifier e zero_Snippet).
Proof. intros E. constructor; try reflexivity; try constructor; try exact E. now destruct v. Qed.
Lemma new_package_den v x : package_fields (FI := nat) v (x, []) (set_p_PackageName x new_package).
Proof. constructor; try reflexivity; try constructor. all: now destruct v. Qed.

Lemma open_file v h s s0 s' x : einv v h s ->
  ps_doc s0 = ps_doc s -> ps_pkgs s0 = ps_pkgs s -> ps_files s0 = ps_files s -> ps_snips s0 = ps_snips s ->
  ps_pkg s0 = ps_pkg s -> ps_st s0 = PsFile -> ps_extref s0 = None ->
  do_file_name x s0 = Ok s' -> einv v (h ++ [("FileName", x)]) s'.
Proof.
  intros [] E1 E2 E3 E4 E5 E6 E7 H. unfold do_file_name in H. cbv zeta in H.
  apply bindR_ok in H as (_ & _ & H). inversion H; subst s'; clear H.
  constructor; cbn [ps_doc ps_pkgs ps_files ps_snips ps_pkg ps_file set_ps_files set_ps_file set_ps_aop];
    rewrite ?E1, ?E2, ?E3, ?E4, ?E5.
  - unfold doc_with in *. cbn [ps_doc set_ps_files set_ps_file set_ps_aop]. rewrite E1.
    destruct (ps_doc s) as [d|]; [|easy]. destruct e_doc as [X1 X2 X3]. constructor.
    + now rewrite doc_id_stable by (left; discriminate).
    + now rewrite listed_pkgs' by discriminate.
    + rewrite groups_snoc. simpl String.eqb. cbv iota. destruct (groups_split h) as [G E]. rewrite X3, E.
      rewrite update_last_app, !idx_groups_app. cbn [idx_groups]. do 2 f_equal. rewrite listed_app. cbn. now rewrite app_nil_r.
  - apply pkgs_stable'; [discriminate..|reflexivity|assumption].
  - rewrite files_snoc. simpl String.eqb. cbv iota. apply Forall2_snoc; [assumption|]. apply new_file_den.
  - rewrite sgroups_snoc. simpl String.eqb. cbv iota. rewrite concat_snoc, app_nil_r. assumption.
  - rewrite sgroups_snoc. simpl String.eqb. cbv iota. rewrite map_app, smaps_app, e_maps. reflexivity.
  - assumption.
  - rewrite cur_files_snoc. simpl String.eqb. cbv iota. rewrite ptr_snoc.
    destruct (cur_files h ++ [(x, [])])%list eqn:Y; [now apply app_eq_nil in Y|]. reflexivity.
  - apply ext_none; [exact E7|discriminate].
  - apply aop_none; [reflexivity|discriminate..].
  - unfold st_inv. cbn [ps_st set_ps_files set_ps_file set_ps_aop]. rewrite E6. split.
    + rewrite cur_files_snoc. simpl String.eqb. cbv iota. intros Y. now apply app_eq_nil in Y.
    + unfold cur_snips. rewrite sgroups_snoc. simpl String.eqb. cbv iota. apply last_snoc.
Qed.

Lemma snippet_id_of x e : x = "SPDXRef-" ++ e -> snippet_id x = e.
Proof. intros ->. reflexivity. Qed.
Lemma open_snip v h s s0 s' x : einv v h s -> cur_files h <> [] ->
  ps_doc s0 = ps_doc s -> ps_pkgs s0 = ps_pkgs s -> ps_files s0 = ps_files s -> ps_snips s0 = ps_snips s ->
  ps_pkg s0 = ps_pkg s -> ps_file s0 = ps_file s -> ps_st s0 = PsSnippet -> ps_extref s0 = None -> ps_aop s0 = None ->
  do_snippet_id x s0 = Ok s' -> einv v (h ++ [("SnippetSPDXID", x)]) s'.
Proof.
  intros [] C E1 E2 E3 E4 E5 E6 E7 E8 E9 H. unfold do_snippet_id in H. cbv zeta in H.
  apply bindR_ok in H as (_ & _ & H). apply bindR_ok in H as (e & X & H). apply extract_element_id_iff in X as [X _].
  assert (FP : ps_file s0 = ptr (length (ps_files s0))) by (rewrite E6, E3, e_file; destruct (cur_files h); congruence).
  cbn [ps_file set_ps_snip set_ps_snips] in H.
  assert (FN : ps_file s0 <> None).
  { rewrite FP, E3. destruct (files_cur h C) as (F & g & Y). rewrite Y in e_files. apply Forall2_len in e_files.
    rewrite app_length, Nat.add_comm in e_files. destruct (length (ps_files s)); discriminate. }
  destruct (ps_file s0) as [fi|] eqn:EF; [|contradiction].
  apply upd_file_last in H as (P & p & Y & ->); [|cbn [ps_file ps_files set_ps_snip set_ps_snips]; now rewrite EF].
  cbn [ps_files set_ps_snip set_ps_snips] in Y. rewrite E3 in Y.
  destruct (sgroups_split h C) as [S YS].
  assert (LS : length (ps_snips s) = length (concat S) + length (cur_snips h)).
  { apply Forall2_len in e_snips. now rewrite <- e_snips, YS, concat_snoc, app_length. }
  constructor; cbn [ps_doc ps_pkgs ps_files ps_snips ps_pkg ps_file set_ps_files set_ps_snip set_ps_snips];
    rewrite ?E1, ?E2, ?E4, ?E5.
  - unfold doc_with in *. cbn [ps_doc set_ps_files set_ps_snip set_ps_snips]. rewrite E1.
    destruct (ps_doc s) as [d|]; [|easy]. destruct e_doc as [X1 X2 X3]. constructor.
    + now rewrite doc_id_stable by (left; discriminate).
    + now rewrite listed_pkgs' by discriminate.
    + rewrite groups_snoc. simpl String.eqb. cbv iota. destruct (groups_split h) as [G E]. rewrite X3, E.
      rewrite update_last_app, !idx_groups_app. cbn [idx_groups]. do 2 f_equal. symmetry. apply listed_add.
      intros a. unfold file_ids. cbn [snd add]. now rewrite values_snoc.
  - apply pkgs_stable'; [discriminate..|reflexivity|assumption].
  - rewrite files_snoc. simpl String.eqb. cbv iota. destruct (cur_files h); [contradiction|].
    rewrite Y in e_files. eapply Forall2_update_snoc; [|exact e_files]. intros L' a _ K.
    apply (file_stable v "SnippetSPDXID" x) in K; [|reflexivity|discriminate]. destruct K. constructor; assumption.
  - rewrite sgroups_snoc. simpl String.eqb. cbv iota. destruct (cur_files h); [contradiction|].
    rewrite YS, concat_snoc in e_snips. rewrite YS, update_last_app, concat_snoc, app_assoc. apply Forall2_snoc; [assumption|].
    now apply new_snippet_den.
  - rewrite sgroups_snoc. simpl String.eqb. cbv iota. destruct (cur_files h); [contradiction|].
    rewrite YS, update_last_app, smaps_app. rewrite Y, YS, smaps_app, map_app in e_maps. cbn [smaps map] in *.
    apply app_inj_tail in e_maps as [M1 M2]. rewrite map_app, M1. cbn [map f_Snippets set_f_Snippets]. do 2 f_equal.
    rewrite M2, enter_app. cbn [enter fst]. rewrite LS, (snippet_id_of x e X). reflexivity.
  - assumption.
  - rewrite cur_files_snoc. simpl String.eqb. cbv iota. rewrite EF in *.
    destruct (update_last (add ("SnippetSPDXID", x)) (cur_files h)) eqn:Z; [apply update_last_nil in Z; contradiction|].
    rewrite FP, E3, Y, !app_length. reflexivity.
  - apply ext_none; [exact E8|discriminate].
  - apply aop_none; [exact E9|discriminate..].
  - unfold st_inv. cbn [ps_st ps_snip ps_snips set_ps_files set_ps_snip set_ps_snips]. rewrite E7. split; [|split].
    + rewrite cur_files_snoc. simpl String.eqb. cbv iota. now rewrite update_last_nil.
    + rewrite cur_snips_snoc by (assumption || reflexivity). simpl String.eqb. cbv iota. intros Z. now apply app_eq_nil in Z.
    + now rewrite ptr_snoc.
Qed.

Lemma open_pkg v h s s' x : einv v h s ->
  ps_doc s' = ps_doc s -> ps_pkgs s' = (ps_pkgs s ++ [set_p_PackageName x new_package])%list ->
  ps_files s' = ps_files s -> ps_snips s' = ps_snips s -> ps_pkg s' = Some (length (ps_pkgs s)) ->
  ps_file s' = None -> ps_st s' = PsPackage -> ps_extref s' = None -> ps_aop s' = None ->
  einv v (h ++ [("PackageName", x)]) s'.
Proof.
  intros [] E1 E2 E3 E4 E5 E6 E7 E8 E9.
  constructor; rewrite ?E2, ?E3, ?E4, ?E5, ?E6.
  - unfold doc_with in *. rewrite E1. destruct (ps_doc s) as [d|]; [|easy]. destruct e_doc as [X1 X2 X3]. constructor.
    + now rewrite doc_id_stable by (left; discriminate).
    + rewrite parts_snoc. simpl String.eqb. cbv iota. rewrite listed_app, X2. cbn. now rewrite app_nil_r.
    + rewrite groups_snoc. simpl String.eqb. cbv iota. rewrite map_app, app_comm_cons, X3, idx_groups_app. reflexivity.
  - rewrite parts_snoc. simpl String.eqb. cbv iota. apply Forall2_snoc; [assumption|]. apply new_package_den.
  - rewrite files_snoc. assumption.
  - rewrite sgroups_snoc. assumption.
  - rewrite sgroups_snoc. assumption.
  - now rewrite ptr_snoc.
  - now rewrite cur_files_snoc.
  - apply ext_none; [exact E8|discriminate].
  - apply aop_none; [exact E9|discriminate..].
  - unfold st_inv. rewrite E7. split; [|now rewrite cur_files_snoc].
    rewrite parts_snoc. simpl String.eqb. cbv iota. intros Z. now apply app_eq_nil in Z.
Qed.

Lemma package_name_shape x s s' : do_package_name x s = Ok s' -> ps_pkg s = ptr (length (ps_pkgs s)) ->
  Forall (fun p => p_PackageName p <> "") (ps_pkgs s) ->
  s' = set_ps_pkgs (ps_pkgs s ++ [set_p_PackageName x new_package]) (set_ps_pkg (Some (length (ps_pkgs s))) (set_ps_extref None s)).
Proof.
  intros H E F.
  assert (A : forall s', upd_pkg (set_p_PackageName x) (alloc_pkg (set_ps_extref None s)) = Ok s' ->
     s' = set_ps_pkgs (ps_pkgs s ++ [set_p_PackageName x new_package]) (set_ps_pkg (Some (length (ps_pkgs s))) (set_ps_extref None s))).
  { intros s1 H1. apply upd_pkg_last in H1 as (P & p & Y & ->).
    - cbn in Y. apply app_inj_tail in Y as [<- <-]. reflexivity.
    - cbn. now rewrite ptr_snoc. }
  unfold do_package_name in H. cbv zeta in H. apply bindR_ok in H as (p & G & H).
  unfold cur_pkg, get_ptr in G. cbn [ps_pkg ps_pkgs set_ps_extref] in G.
  destruct (ps_pkg s) as [i|]; [|inversion G; subst; auto].
  destruct (nth_error (ps_pkgs s) i) as [pk|] eqn:N; [|discriminate]. inversion G; subst p.
  apply nth_error_In in N. rewrite Forall_forall in F. apply F in N.
  replace (nonempty (p_PackageName pk)) with true in H.
  - apply bindR_ok in H as (_ & _ & H). auto.
  - symmetry. now apply nonempty_true.
Qed.
Lemma named v h (M : list PackageArena) : Forall2 (package_fields v) (parts_of "PackageName" h) M ->
  Forall (fun g => fst g <> "") (parts_of "PackageName" h) -> Forall (fun p => p_PackageName p <> "") M.
Proof.
  intros F. induction F as [|g p L M K F IH]; intros N; [constructor|]. inversion N; subst.
  constructor; [|auto]. now rewrite (pk_name _ _ _ K).
Qed.
