(** Steps of the parser and the element invariant. *)
From Verif Require Import GoStr GoStrFacts Types TvState TvUtil TvReader TvParser SpecTv SpecId SpecDoc SpecRead
  TvReaderFacts TvUtilFacts TvParserFacts DenoteBase DenoteGlobal DenoteElems.

(** ** Views of the extended history *)
Lemma Forall2_stable_last {A B} (R : A -> B -> Prop) f L M :
  (forall L' a b, L = (L' ++ [a])%list -> R a b -> R (f a) b) -> Forall2 R L M -> Forall2 R (update_last f L) M.
Proof.
  intros H F. destruct (list_last_case L) as [->|(L' & a & ->)]; [exact F|].
  rewrite update_last_app. apply Forall2_app_inv_l in F as (M1 & M2 & F1 & F2 & ->).
  inversion F2 as [|a0 b l1 l2 Hab Hl]; subst. inversion Hl; subst. apply Forall2_app; [exact F1|]. constructor; [|constructor]. eauto.
Qed.
Lemma Forall2_update_snoc {A B} (R : A -> B -> Prop) f L M b b' :
  (forall L' a, L = (L' ++ [a])%list -> R a b -> R (f a) b') ->
  Forall2 R L (M ++ [b]) -> Forall2 R (update_last f L) (M ++ [b']).
Proof.
  intros H F. apply Forall2_app_inv_r in F as (L1 & L2 & F1 & F2 & ->).
  inversion F2 as [|a b0 l1 l2 Hab Hl]; subst. inversion Hl; subst. rewrite update_last_app.
  apply Forall2_app; [exact F1|]. constructor; [|constructor]. eauto.
Qed.
Lemma Forall2_concat_stable {A B} (R : A -> B -> Prop) (f : A -> A) (S : list (list A)) M :
  (forall a b, R a b -> R (f a) b) -> Forall2 R (concat S) M -> Forall2 R (concat (update_last (update_last f) S)) M.
Proof.
  intros H F. destruct (list_last_case S) as [->|(S' & g & ->)]; [exact F|].
  rewrite update_last_app, concat_snoc in *. destruct (list_last_case g) as [->|(g' & a & ->)]; [exact F|].
  rewrite update_last_app, app_assoc in *. rewrite <- update_last_app. now apply Forall2_stable.
Qed.
Lemma opener_no t : mem t openers = false ->
  (t =? "PackageName") = false /\ (t =? "FileName") = false /\ (t =? "SnippetSPDXID") = false.
Proof. intros M. repeat split; now apply (neq_of openers). Qed.

Section Views.
  Context (v : version) (h : pairs) (t x : string).

  Lemma doc_id_stable : t <> "SPDXID" \/ groups h <> [[]] ->
    values "SPDXID" (head_of "FileName" (head_of "PackageName" (h ++ [(t, x)]))) =
    values "SPDXID" (head_of "FileName" (head_of "PackageName" h)).
  Proof.
    intros H. rewrite head_snoc. destruct (t =? "PackageName"); [reflexivity|].
    destruct (parts_of "PackageName" h) eqn:E; [|reflexivity].
    destruct H as [H|H]; [now apply values_head_snoc|]. rewrite head_snoc.
    destruct (t =? "FileName"); [reflexivity|].
    unfold groups in H. rewrite E in H. cbn [map] in H.
    destruct (parts_of "FileName" (head_of "PackageName" h)); [now elim H|reflexivity].
  Qed.
  Lemma listed_pkgs : mem t openers = false -> t <> "SPDXID" \/ cur_files h <> [] ->
    listed package_ids 0 (parts_of "PackageName" (h ++ [(t, x)])) = listed package_ids 0 (parts_of "PackageName" h).
  Proof.
    intros M H. apply opener_no in M as (M1 & M2 & M3). rewrite parts_snoc, M1.
    destruct (list_last_case (parts_of "PackageName" h)) as [->|(P & g & E)]; [reflexivity|].
    rewrite E, update_last_app, !listed_app. cbn [listed]. do 3 f_equal. unfold package_ids. cbn [snd add].
    destruct H as [H|H]; [now rewrite values_head_snoc|]. rewrite head_snoc, M2.
    assert (X : cur_files h = parts_of "FileName" (snd g)).
    { unfold cur_files, groups. rewrite E, map_app, app_comm_cons. apply last_snoc. }
    rewrite X in H. destruct (parts_of "FileName" (snd g)); [contradiction|reflexivity].
  Qed.
  Lemma idx_stable : mem t openers = false -> t <> "SPDXID" \/ cur_files h = [] ->
    idx_groups file_ids 0 (groups (h ++ [(t, x)])) = idx_groups file_ids 0 (groups h).
  Proof.
    intros M H. apply opener_no in M as (M1 & M2 & M3). rewrite groups_snoc, M1, M2.
    destruct (groups_split h) as [G E]. rewrite E, update_last_app, !idx_groups_app. cbn [idx_groups]. do 2 f_equal.
    destruct H as [H|H]; [|now rewrite H]. apply listed_add. intros a. unfold file_ids. cbn [snd add].
    rewrite values_snoc. neq t "SPDXID". reflexivity.
  Qed.
  Lemma edoc_stable pkgs pkgs' d d' : mem t openers = false -> t <> "SPDXID" ->
    map p_Files pkgs' = map p_Files pkgs -> d_SPDXIdentifier d' = d_SPDXIdentifier d ->
    d_Packages d' = d_Packages d -> d_Files d' = d_Files d ->
    edoc h pkgs d -> edoc (h ++ [(t, x)]) pkgs' d'.
  Proof.
    intros M N E1 E2 E3 E4 []. constructor.
    - rewrite doc_id_stable by auto. congruence.
    - rewrite listed_pkgs by auto. congruence.
    - rewrite idx_stable by auto. congruence.
  Qed.
  Lemma pkgs_stable M : mem t openers = false -> mem t ptags = false -> t <> "SPDXID" \/ cur_files h <> [] ->
    Forall2 (package_fields v) (parts_of "PackageName" h) M ->
    Forall2 (package_fields (FI := nat) v) (parts_of "PackageName" (h ++ [(t, x)])) M.
  Proof.
    intros M1 M2 H F. apply opener_no in M1 as (M1 & _). rewrite parts_snoc, M1.
    apply Forall2_stable_last; [|exact F]. intros P g b E. apply package_stable; [exact M2|].
    destruct H as [H|H]; [now left|right]. intros X. apply H. unfold cur_files, groups.
    rewrite E, map_app. cbn [map]. rewrite app_comm_cons, last_snoc. exact X.
  Qed.
  Lemma files_stable M : mem t openers = false -> mem t ftags = false -> t <> "SPDXID" \/ cur_files h = [] ->
    Forall2 (file_fields v) (files h) M -> Forall2 (file_fields (SN := nat) v) (files (h ++ [(t, x)])) M.
  Proof.
    intros M1 M2 H F. apply opener_no in M1 as (M1 & M3 & _). rewrite files_snoc, M1, M3.
    destruct (cur_files h) eqn:E; [exact F|]. apply Forall2_stable; [|exact F].
    intros. apply file_stable; auto. destruct H as [H|H]; [exact H|discriminate].
  Qed.
  Lemma sgroups_other : mem t openers = false ->
    sgroups (h ++ [(t, x)]) = match cur_files h with [] => sgroups h | _ => update_last (update_last (add (t, x))) (sgroups h) end.
  Proof.
    intros M. apply opener_no in M as (M1 & M2 & M3). rewrite sgroups_snoc, M1, M2, M3. reflexivity.
  Qed.
  Lemma snips_stable M : mem t openers = false -> mem t stags = false ->
    Forall2 (snippet_den v) (concat (sgroups h)) M -> Forall2 (snippet_den v) (concat (sgroups (h ++ [(t, x)]))) M.
  Proof.
    intros M1 M2 F. rewrite sgroups_other by assumption. destruct (cur_files h); [exact F|].
    apply Forall2_concat_stable; [|exact F]. intros. now apply snippet_stable.
  Qed.
  Lemma maps_stable : mem t openers = false -> smaps 0 (sgroups (h ++ [(t, x)])) = smaps 0 (sgroups h).
  Proof.
    intros M. rewrite sgroups_other by assumption. destruct (cur_files h); [reflexivity|].
    destruct (list_last_case (sgroups h)) as [->|(S & g & ->)]; [reflexivity|].
    rewrite update_last_app, !smaps_app. cbn [smaps]. now rewrite enter_add.
  Qed.
  Lemma cur_files_empty : mem t openers = false ->
    match cur_files (h ++ [(t, x)]) with [] => true | _ => false end = match cur_files h with [] => true | _ => false end.
  Proof.
    intros M. apply opener_no in M as (M1 & M2 & M3). rewrite cur_files_snoc, M1, M2.
    destruct (list_last_case (cur_files h)) as [->|(g & a & ->)]; [reflexivity|].
    rewrite update_last_app. now destruct g.
  Qed.
  Lemma file_ptr_stable {A} (o : A) (e : A) : mem t openers = false ->
    match cur_files (h ++ [(t, x)]) with [] => o | _ => e end = match cur_files h with [] => o | _ => e end.
  Proof. intros M. pose proof (cur_files_empty M). destruct (cur_files (h ++ _)), (cur_files h); congruence. Qed.
  Lemma st_inv_stable s s' : mem t openers = false -> st_inv h s -> ps_st s' = ps_st s ->
    ps_snip s' = ps_snip s -> length (ps_snips s') = length (ps_snips s) -> st_inv (h ++ [(t, x)]) s'.
  Proof.
    intros M I E1 E2 E3. pose proof (opener_no _ M) as (M1 & M2 & M3). unfold st_inv in *. rewrite E1.
    assert (G : groups h = [[]] -> groups (h ++ [(t, x)]) = [[]]).
    { intros E. now rewrite groups_snoc, M1, M2, E. }
    assert (K : cur_files h <> [] -> cur_files (h ++ [(t, x)]) <> []).
    { intros N. rewrite cur_files_snoc, M1, M2. now rewrite update_last_nil. }
    destruct (ps_st s); auto.
    - destruct I as [I1 I2]. rewrite parts_snoc, M1, update_last_nil, cur_files_snoc, M1, M2, I2. auto.
    - destruct I as [I1 I2]. split; [auto|]. now rewrite cur_snips_snoc, M3, I2.
    - destruct I as (I1 & I2 & I3). split; [auto|]. rewrite cur_snips_snoc, M3, update_last_nil by assumption.
      rewrite E2, E3. auto.
  Qed.
End Views.

(** what a state keeps when the current tag concerns no element *)
Definition esame (s s' : pstate) : Prop :=
  ps_pkgs s' = ps_pkgs s /\ ps_files s' = ps_files s /\ ps_snips s' = ps_snips s /\
  ps_pkg s' = ps_pkg s /\ ps_file s' = ps_file s /\ ps_snip s' = ps_snip s /\
  (forall d, ps_doc s = Some d -> exists d', ps_doc s' = Some d' /\ d_SPDXIdentifier d' = d_SPDXIdentifier d /\
     d_Packages d' = d_Packages d /\ d_Files d' = d_Files d).
Lemma esame_refl s : esame s s.
Proof. repeat (split; [reflexivity|]). intros d E. exists d. auto. Qed.
Lemma esame_trans s1 s2 s3 : esame s1 s2 -> esame s2 s3 -> esame s1 s3.
Proof.
  intros (A1 & A2 & A3 & A4 & A5 & A6 & A7) (B1 & B2 & B3 & B4 & B5 & B6 & B7).
  repeat (split; [congruence|]). intros d E. destruct (A7 d E) as (d' & E' & X1 & X2 & X3).
  destruct (B7 d' E') as (d'' & E'' & Y1 & Y2 & Y3). exists d''. repeat split; congruence.
Qed.

Definition etags : list string := ("SPDXID" :: openers ++ ptags ++ ftags ++ stags)%list.
Lemma etags_no t : mem t etags = false ->
  t <> "SPDXID" /\ mem t openers = false /\ mem t ptags = false /\ mem t ftags = false /\ mem t stags = false.
Proof.
  unfold etags, mem. intros H. cbn [existsb] in H. apply Bool.orb_false_iff in H as [H1 H].
  rewrite !existsb_app in H. apply Bool.orb_false_iff in H as [H2 H]. apply Bool.orb_false_iff in H as [H3 H].
  apply Bool.orb_false_iff in H as [H4 H5].
  split; [now apply String.eqb_neq|auto].
Qed.

Definition quiet (st st' : pst) : Prop :=
  st' = st \/ st' = PsOtherLicense \/ st' = PsReview \/
  (In st [PsStart; PsCreationInfo] /\ In st' [PsStart; PsCreationInfo]).
Lemma step_none v h s s' t x : einv v h s -> mem t etags = false -> esame s s' -> quiet (ps_st s) (ps_st s') ->
  ps_extref s' = None -> ps_aop s' = None -> einv v (h ++ [(t, x)]) s'.
Proof.
  intros [] M (E1 & E2 & E3 & E4 & E5 & E6 & E7) Q X A.
  apply etags_no in M as (N & M1 & M2 & M3 & M4).
  constructor; rewrite ?E1, ?E2, ?E3, ?E4, ?E5.
  - unfold doc_with in *. destruct (ps_doc s) as [d|]; [|easy]. destruct (E7 d eq_refl) as (d' & -> & Y1 & Y2 & Y3).
    eapply edoc_stable; eauto.
  - apply pkgs_stable; auto.
  - apply files_stable; auto.
  - now apply snips_stable.
  - rewrite maps_stable; auto.
  - assumption.
  - rewrite (file_ptr_stable h t x) by assumption. assumption.
  - unfold ext_inv. rewrite X, prev_tag_snoc. now apply (mem_neq t ptags).
  - unfold aop_inv. rewrite A, artifact_open_snoc, !(neq_of ftags t) by (assumption || reflexivity).
    now rewrite Bool.andb_false_r.
  - destruct Q as [Q|[Q|[Q|[Q1 Q2]]]].
    + apply (st_inv_stable h t x s); congruence.
    + unfold st_inv. now rewrite Q.
    + unfold st_inv. now rewrite Q.
    + assert (G : groups (h ++ [(t, x)]) = [[]]).
      { apply opener_no in M1 as (M5 & M6 & _). rewrite groups_snoc, M5, M6.
        unfold st_inv in e_st. destruct Q1 as [Q|[Q|[]]]; rewrite <- Q in e_st; now rewrite e_st. }
      unfold st_inv. destruct Q2 as [Q|[Q|[]]]; now rewrite <- Q.
Qed.

(** ** Writes through the pointers *)
Lemma upd_pkg_last f s s' : upd_pkg f s = Ok s' -> ps_pkg s = ptr (length (ps_pkgs s)) ->
  exists P p, ps_pkgs s = (P ++ [p])%list /\ s' = set_ps_pkgs (P ++ [f p]) s.
Proof.
  unfold upd_pkg, upd_ptr. intros H E. destruct (ps_pkg s) as [i|]; [|discriminate].
  destruct (update_nth i f (ps_pkgs s)) as [l|] eqn:U; [|discriminate]. inversion H; subst.
  destruct (list_last_case (ps_pkgs s)) as [X|(P & p & X)]; [rewrite X in E; discriminate|].
  exists P, p. split; [exact X|]. rewrite X, ptr_snoc in E. inversion E; subst i.
  rewrite X, update_nth_last in U. now inversion U.
Qed.
Lemma upd_file_last f s s' : upd_file f s = Ok s' -> ps_file s = ptr (length (ps_files s)) ->
  exists P p, ps_files s = (P ++ [p])%list /\ s' = set_ps_files (P ++ [f p]) s.
Proof.
  unfold upd_file, upd_ptr. intros H E. destruct (ps_file s) as [i|]; [|discriminate].
  destruct (update_nth i f (ps_files s)) as [l|] eqn:U; [|discriminate]. inversion H; subst.
  destruct (list_last_case (ps_files s)) as [X|(P & p & X)]; [rewrite X in E; discriminate|].
  exists P, p. split; [exact X|]. rewrite X, ptr_snoc in E. inversion E; subst i.
  rewrite X, update_nth_last in U. now inversion U.
Qed.
Lemma upd_snip_last f s s' : upd_snip f s = Ok s' -> ps_snip s = ptr (length (ps_snips s)) ->
  exists P p, ps_snips s = (P ++ [p])%list /\ s' = set_ps_snips (P ++ [f p]) s.
Proof.
  unfold upd_snip, upd_ptr. intros H E. destruct (ps_snip s) as [i|]; [|discriminate].
  destruct (update_nth i f (ps_snips s)) as [l|] eqn:U; [|discriminate]. inversion H; subst.
  destruct (list_last_case (ps_snips s)) as [X|(P & p & X)]; [rewrite X in E; discriminate|].
  exists P, p. split; [exact X|]. rewrite X, ptr_snoc in E. inversion E; subst i.
  rewrite X, update_nth_last in U. now inversion U.
Qed.

Lemma aop_other h s : aop_inv h s -> ps_st s <> PsFile -> ps_aop s = None.
Proof. unfold aop_inv. destruct (ps_aop s) as [[? ?]|]; [|reflexivity]. now intros (_ & ? & _). Qed.
Lemma ext_other h s : ext_inv h s -> ps_st s <> PsPackage -> ps_extref s = None.
Proof. unfold ext_inv. destruct (ps_extref s) as [[? ?]|]; [|reflexivity]. now intros (_ & ? & _). Qed.
Lemma aop_none h s t x : ps_aop s = None -> t <> "ArtifactOfProjectName" ->
  t <> "ArtifactOfProjectHomePage" -> t <> "ArtifactOfProjectURI" -> aop_inv (h ++ [(t, x)]) s.
Proof.
  intros E N1 N2 N3. unfold aop_inv. rewrite E, artifact_open_snoc.
  neq t "ArtifactOfProjectName". neq t "ArtifactOfProjectHomePage". neq t "ArtifactOfProjectURI".
  now rewrite Bool.andb_false_r.
Qed.
Lemma ext_none h s t x : ps_extref s = None -> t <> "ExternalRef" -> ext_inv (h ++ [(t, x)]) s.
Proof. intros E N. unfold ext_inv. now rewrite E, prev_tag_snoc. Qed.

Definition outside (t : string) (l : list string) : Prop := mem t l = false.

Lemma step_pkg v h s s' t x f : einv v h s -> ps_st s = PsPackage ->
  outside t openers -> outside t ftags -> outside t stags -> t <> "SPDXID" -> t <> "ExternalRef" ->
  upd_pkg f (set_ps_extref None s) = Ok s' ->
  (forall p, p_Files (f p) = p_Files p) ->
  (forall g p, package_fields v g p -> package_fields v (add (t, x) g) (f p)) ->
  einv v (h ++ [(t, x)]) s'.
Proof.
  intros [] St M1 M2 M3 N1 N2 H Ff Fd. apply upd_pkg_last in H as (P & p & E & ->); [|assumption].
  cbn [ps_pkgs set_ps_extref] in E. unfold outside in *.
  assert (A0 : ps_aop s = None) by (apply (aop_other h); [assumption|congruence]).
  constructor; cbn [ps_doc ps_pkgs ps_files ps_snips ps_pkg ps_file set_ps_pkgs set_ps_extref].
  - unfold doc_with in *. cbn [ps_doc set_ps_pkgs set_ps_extref ps_pkgs]. destruct (ps_doc s) as [d|]; [|easy].
    eapply edoc_stable; try eassumption; try reflexivity. rewrite E, !map_app. cbn [map]. now rewrite Ff.
  - rewrite parts_snoc. apply opener_no in M1 as (M1 & _). rewrite M1. rewrite E in e_pkgs.
    eapply Forall2_update_snoc; [|exact e_pkgs]. intros. now apply Fd.
  - apply files_stable; auto.
  - apply snips_stable; auto.
  - now rewrite maps_stable.
  - rewrite E in e_pkg. rewrite !app_length in *. exact e_pkg.
  - rewrite (file_ptr_stable h t x) by assumption. assumption.
  - now apply ext_none.
  - apply aop_none; [assumption|..]; now apply (mem_neq t ftags).
  - now apply (st_inv_stable h t x s).
Qed.
Lemma step_file v h s s' t x f : einv v h s -> ps_st s = PsFile ->
  outside t openers -> outside t ptags -> outside t stags -> t <> "SPDXID" -> t <> "ArtifactOfProjectName" ->
  t <> "ArtifactOfProjectHomePage" -> t <> "ArtifactOfProjectURI" ->
  upd_file f (set_ps_aop None s) = Ok s' ->
  (forall p, f_Snippets (f p) = f_Snippets p) ->
  (forall g p, file_fields v g p -> file_fields v (add (t, x) g) (f p)) ->
  einv v (h ++ [(t, x)]) s'.
Proof.
  intros [] St M1 M2 M3 N1 N2 N3 N4 H Ff Fd.
  assert (C : cur_files h <> []) by (unfold st_inv in e_st; rewrite St in e_st; apply e_st).
  assert (FP : ps_file s = ptr (length (ps_files s))) by (rewrite e_file; destruct (cur_files h); congruence).
  apply upd_file_last in H as (P & p & E & ->); [|assumption].
  cbn [ps_files set_ps_aop] in E. unfold outside in *.
  assert (A0 : ps_extref s = None) by (apply (ext_other h); [assumption|congruence]).
  constructor; cbn [ps_doc ps_pkgs ps_files ps_snips ps_pkg ps_file set_ps_files set_ps_aop].
  - unfold doc_with in *. cbn [ps_doc set_ps_files set_ps_aop ps_pkgs]. destruct (ps_doc s) as [d|]; [|easy].
    eapply edoc_stable; try eassumption; reflexivity.
  - apply pkgs_stable; auto.
  - rewrite files_snoc. pose proof (opener_no _ M1) as (M4 & M5 & _). rewrite M4, M5.
    destruct (cur_files h) eqn:X; [contradiction|]. rewrite E in e_files.
    eapply Forall2_update_snoc; [|exact e_files]. intros. now apply Fd.
  - apply snips_stable; auto.
  - rewrite maps_stable by assumption. rewrite <- e_maps, E, !map_app. cbn [map]. now rewrite Ff.
  - assumption.
  - rewrite (file_ptr_stable h t x) by assumption. rewrite e_file, E, !app_length. reflexivity.
  - apply ext_none; [assumption|]. now apply (mem_neq t ptags).
  - now apply aop_none.
  - now apply (st_inv_stable h t x s).
Qed.
Lemma step_snip v h s s' t x f : einv v h s -> ps_st s = PsSnippet ->
  outside t openers -> outside t ptags -> outside t ftags -> t <> "SPDXID" ->
  upd_snip f s = Ok s' ->
  (forall g p, snippet_den v g p -> snippet_den v (add (t, x) g) (f p)) ->
  einv v (h ++ [(t, x)]) s'.
Proof.
  intros [] St M1 M2 M3 N1 H Fd.
  pose proof e_st as I. unfold st_inv in I. rewrite St in I. destruct I as (C & C2 & SP).
  apply upd_snip_last in H as (P & p & E & ->); [|assumption]. unfold outside in *.
  assert (A0 : ps_extref s = None) by (apply (ext_other h); [assumption|congruence]).
  assert (A1 : ps_aop s = None) by (apply (aop_other h); [assumption|congruence]).
  constructor; cbn [ps_doc ps_pkgs ps_files ps_snips ps_pkg ps_file set_ps_snips].
  - unfold doc_with in *. cbn [ps_doc set_ps_snips ps_pkgs]. destruct (ps_doc s) as [d|]; [|easy].
    eapply edoc_stable; try eassumption; reflexivity.
  - apply pkgs_stable; auto.
  - apply files_stable; auto.
  - rewrite sgroups_other by assumption. destruct (cur_files h) eqn:X; [contradiction|].
    destruct (sgroups_split h) as [S Y]; [congruence|]. rewrite Y in *. rewrite update_last_app, concat_snoc.
    rewrite concat_snoc in e_snips. destruct (list_last_case (cur_snips h)) as [Z|(g & a & Z)]; [contradiction|].
    rewrite Z, update_last_app in *. rewrite app_assoc, <- update_last_app. rewrite app_assoc, E in e_snips.
    eapply Forall2_update_snoc; [|exact e_snips]. intros. now apply Fd.
  - now rewrite maps_stable.
  - assumption.
  - rewrite (file_ptr_stable h t x) by assumption. exact e_file.
  - apply ext_none; [assumption|]. now apply (mem_neq t ptags).
  - apply aop_none; [assumption|..]; now apply (mem_neq t ftags).
  - apply (st_inv_stable h t x s); auto. cbn [ps_snips set_ps_snips]. rewrite E, !app_length. reflexivity.
Qed.
