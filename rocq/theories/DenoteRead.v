(** A regular input is read as the document it describes. *)
From Verif Require Import GoStr GoStrFacts Types TvState TvUtil TvReader TvParser SpecTv SpecId SpecDoc SpecRead
  TvReaderFacts TvUtilFacts TvParserFacts DenoteBase DenoteGlobal DenoteElems DenoteSteps DenoteCases DenoteSections DenoteFile.

(** ** The start of the document *)
Lemma einv_st v h s st : einv v h s -> In (ps_st s) [PsStart; PsCreationInfo] -> In st [PsStart; PsCreationInfo] ->
  einv v h (set_ps_st st s).
Proof.
  intros I S1 S2.
  pose proof (ext_other h s (e_ext _ _ _ I)) as X. pose proof (aop_other h s (e_aop _ _ _ I)) as A.
  assert (S3 : groups h = [[]]).
  { pose proof (e_st _ _ _ I) as Y. unfold st_inv in Y. destruct S1 as [S1|[S1|[]]]; now rewrite <- S1 in Y. }
  assert (N1 : ps_st s <> PsPackage) by (destruct S1 as [S1|[S1|[]]]; rewrite <- S1; discriminate).
  assert (N2 : ps_st s <> PsFile) by (destruct S1 as [S1|[S1|[]]]; rewrite <- S1; discriminate).
  specialize (X N1). specialize (A N2). destruct I. constructor; auto.
  - unfold ext_inv in *. cbn [ps_extref set_ps_st]. now rewrite X in *.
  - unfold aop_inv in *. cbn [ps_aop set_ps_st]. now rewrite A in *.
  - unfold st_inv. cbn [ps_st set_ps_st]. destruct S2 as [<-|[<-|[]]]; exact S3.
Qed.
Lemma groups_none h : groups h = [[]] -> parts_of "PackageName" h = [] /\ cur_files h = [] /\ files h = [].
Proof.
  intros E. split; [|split].
  - unfold groups in E. injection E as _ E2. now apply map_eq_nil in E2.
  - unfold cur_files. now rewrite E.
  - unfold files. now rewrite E.
Qed.
Lemma e_parse_ci v h s t x s' : einv v h s -> ps_st s = PsCreationInfo -> parse_creation_info v t x s = Ok s' ->
  einv v (h ++ [(t, x)]) s'.
Proof.
  intros I St. unfold parse_creation_info.
  assert (X : ps_extref s = None) by (apply (ext_other h); [apply I|congruence]).
  assert (A : ps_aop s = None) by (apply (aop_other h); [apply I|congruence]).
  destruct (ps_doc s) as [d|] eqn:D; [|discriminate]. cbv zeta.
  match goal with |- switch _ _ _ _ ?t = _ -> _ => set (s1 := t) end.
  assert (F : efull s s1).
  { unfold s1. destruct (d_CreationInfo d); [|now apply (efull_doc s d)]. split; [apply esame_refl|auto]. }
  clearbody s1. destruct F as (E & F1 & F2 & F3).
  assert (G : groups h = [[]]) by (pose proof (e_st _ _ _ I) as Y; unfold st_inv in Y; now rewrite St in Y).
  destruct (groups_none h G) as (G1 & G2 & G3).
  assert (P0 : ps_pkgs s = []) by (pose proof (e_pkgs _ _ _ I) as Y; rewrite G1 in Y; now inversion Y).
  assert (L0 : ps_file s = None) by (rewrite (e_file _ _ _ I), G2; reflexivity).
  assert (PN : ps_pkg s = None) by (rewrite (e_pkg _ _ _ I), P0; reflexivity).
  pose proof E as (B1 & B2 & B3 & B4 & B5 & B6 & B7).
  assert (DD : forall d1, ps_doc s = Some d1 -> exists d', ps_doc s1 = Some d' /\ d_SPDXIdentifier d' = d_SPDXIdentifier d1 /\ d_Packages d' = d_Packages d1 /\ d_Files d' = d_Files d1) by exact B7.
  assert (I1 : einv v h s1).
  { destruct I. constructor; rewrite ?B1, ?B2, ?B3, ?B4, ?B5; auto.
    - unfold doc_with in *. rewrite D in e_doc. destruct (DD d D) as (d' & -> & Y1 & Y2 & Y3). destruct e_doc.
      constructor; congruence.
    - unfold ext_inv in *. now rewrite F1, X in *.
    - unfold aop_inv in *. now rewrite F2, A in *.
    - unfold st_inv in *. rewrite F3, St in *. exact G. }
  assert (X1 : ps_extref s1 = None) by congruence. assert (A1 : ps_aop s1 = None) by congruence.
  assert (St1 : ps_st s1 = PsCreationInfo) by congruence.
  assert (P1 : ps_pkgs s1 = []) by congruence. assert (PN1 : ps_pkg s1 = None) by congruence.
  assert (L1 : ps_file s1 = None) by congruence.
  clear -I1 X1 A1 St1 P1 PN1 L1 G.
  assert (BK : forall t a, mem t etags = false ->
     (forall s', a x (set_ps_st PsStart s1) = Ok s' -> efull (set_ps_st PsStart s1) s') ->
     eact v h x s1 (t, fun value s => a value (set_ps_st PsStart s))).
  { intros t0 a M F s2 H. cbn [fst snd] in *. apply (step_full v h s1 (set_ps_st PsStart s1)); auto.
    - repeat (split; [reflexivity|]). intros d D. exists d. auto.
    - right. right. right. rewrite St1. cbn. auto. }
  apply switch_e; [|discriminate].
  unfold ci_cases. apply Forall_app; split; [|apply Forall_app; split; [|apply Forall_app; split; [destruct v|]]].
  all: cases ltac:(first
   [ now eapply eact_enter_review; eauto using esame_refl | now eapply eact_enter_license; eauto using esame_refl
   | (eapply eact_efull; eauto using esame_refl; intros ? H; first [now apply upd_ci_efull in H
        | unfold do_creator in H; apply bindR_ok in H as ([? ?] & _ & H); now apply upd_ci_efull in H])
   | (intros s2 H; cbn [fst snd] in *; unfold ci_to_file in H; eapply open_file; [exact I1|..|exact H]; auto; fail)
   | (intros s2 H; cbn [fst snd] in *; unfold ci_to_package in H; apply bindR_ok in H as (_ & _ & H);
      unfold do_package_name, alloc_pkg, cur_pkg, get_ptr, upd_pkg, upd_ptr in H;
      cbn [ps_pkg ps_pkgs set_ps_pkg set_ps_pkgs set_ps_st set_ps_extref] in H; rewrite P1 in H; cbn in H;
      inversion H; subst s2; eapply open_pkg; [exact I1|..]; cbn; rewrite ?P1; auto; fail)
   | (apply BK; [reflexivity|]; intros ? H; apply upd_doc_efull in H; [exact H|]; intros; cbn; auto; fail)
   | (apply BK; [reflexivity|]; intros ? H; unfold do_external_document_ref in H; apply bindR_ok in H as (? & _ & H);
      apply upd_doc_efull in H; [exact H|]; intros; cbn; auto; fail) ]).
Qed.
Lemma e_parse_start v h s t x s' : einv v h s -> ps_st s = PsStart -> parse_start v t x s = Ok s' -> einv v (h ++ [(t, x)]) s'.
Proof.
  intros I St. unfold parse_start.
  assert (X : ps_extref s = None) by (apply (ext_other h); [apply I|congruence]).
  assert (A : ps_aop s = None) by (apply (aop_other h); [apply I|congruence]).
  assert (G : groups h = [[]]) by (pose proof (e_st _ _ _ I) as Y; unfold st_inv in Y; now rewrite St in Y).
  pose proof (e_doc _ _ _ I) as DW. unfold doc_with in DW. destruct (ps_doc s) as [d|] eqn:D; [|contradiction]. cbv zeta.
  apply switch_e.
  2: { intros s1. apply e_parse_ci; [|reflexivity]. apply einv_st; [exact I|rewrite St; cbn; auto|cbn; auto]. }
  unfold start_cases. cases ltac:(first
   [ (eapply eact_efull; eauto using esame_refl; intros ? H; apply upd_doc_efull in H; [exact H|]; intros; cbn; auto; fail)
   | (eapply eact_efull; eauto using esame_refl; intros ? H; unfold do_external_document_ref in H; apply bindR_ok in H as (? & _ & H);
      apply upd_doc_efull in H; [exact H|]; intros; cbn; auto; fail)
   | idtac ]).
  intros s1 H. cbn [fst snd] in *. apply bindR_ok in H as (e & E & H). apply extract_element_id_iff in E as [E _].
  apply upd_doc_inv in H as (d0 & D0 & ->). assert (d0 = d) by congruence. subst d0.
  destruct (groups_none h G) as (G1 & G2 & G3). destruct I.
  constructor; cbn [ps_doc ps_pkgs ps_files ps_snips ps_pkg ps_file set_ps_doc]; auto.
  - unfold doc_with in *. cbn [ps_doc set_ps_doc]. destruct DW as [X1 X2 X3]. constructor; cbn [d_SPDXIdentifier d_Packages d_Files set_d_SPDXIdentifier].
    + rewrite head_snoc. simpl String.eqb. cbv iota. rewrite G1. rewrite head_snoc. simpl String.eqb. cbv iota.
      unfold groups in G. inversion G as [[Y1 Y2]]. rewrite Y1, values_snoc. simpl String.eqb. cbv iota. now apply id_text_snoc.
    + rewrite parts_snoc, G1 in *. exact X2.
    + rewrite groups_snoc, G in *. exact X3.
  - rewrite parts_snoc, G1 in *. exact e_pkgs.
  - rewrite files_snoc, G2 in *. exact e_files.
  - rewrite sgroups_snoc, G2 in *. exact e_snips.
  - rewrite sgroups_snoc, G2 in *. exact e_maps.
  - rewrite cur_files_snoc, G2 in *. exact e_file.
  - apply ext_none; [exact X|discriminate].
  - apply aop_none; [exact A|discriminate..].
  - unfold st_inv. cbn [ps_st set_ps_doc]. rewrite St, groups_snoc, G. reflexivity.
Qed.
Lemma e_parse_pair v h s t x s' : einv v h s -> Forall (fun g => fst g <> "") (parts_of "PackageName" h) ->
  parse_pair v s (t, x) = Ok s' -> einv v (h ++ [(t, x)]) s'.
Proof.
  intros I NE H. simpl in H. destruct (ps_st s) eqn:St.
  - eapply e_parse_start; eauto.
  - eapply e_parse_ci; eauto.
  - eapply e_package_cases; eauto.
  - eapply e_parse_file; eauto.
  - eapply e_parse_snippet; eauto.
  - eapply e_parse_license; eauto.
  - eapply e_parse_review; eauto.
Qed.
Lemma einv_start v : einv v [] start_pstate.
Proof.
  constructor; try reflexivity; try constructor; try reflexivity. discriminate.
Qed.

(** ** Every finished element has an identifier *)
Definition has_fid (g : seg) : Prop := values "SPDXID" (head_of "SnippetSPDXID" (snd g)) <> [].
Lemma has_fid_value g : has_fid g -> values "SPDXID" (snd g) <> [].
Proof.
  unfold has_fid. destruct g as [n b]. cbn [snd]. intros H E. apply H. clear H. unfold head_of, values in *.
  induction b as [|[k x] b IH]; [reflexivity|]. cbn [segs]. destruct (segs "SnippetSPDXID" b) as [h ss].
  cbn [filter fst] in E. destruct (k =? "SnippetSPDXID"); [reflexivity|]. cbn [fst filter] in *.
  destruct (k =? "SPDXID"); [discriminate|auto].
Qed.
Lemma head_parts_nil t l : parts_of t l = [] -> head_of t l = l.
Proof.
  unfold parts_of, head_of. induction l as [|[k x] l IH]; [reflexivity|]. cbn [segs].
  destruct (segs t l) as [h ss]. destruct (k =? t); cbn [fst snd] in *; [discriminate|]. intros E. now rewrite IH.
Qed.
Definition has_pid (g : seg) : Prop := values "SPDXID" (head_of "FileName" (snd g)) <> [].
Definition old_files (h : pairs) : list seg := match cur_files h with [] => files h | _ => removelast (files h) end.
Record ids (h : pairs) : Prop := {
  id_old : Forall has_fid (old_files h);
  id_snip : cur_files h <> [] -> cur_snips h <> [] -> Forall has_fid (files h);
  id_pkg : Forall has_pid (removelast (parts_of "PackageName" h))
}.
Lemma removelast_update {A} (f : A -> A) l : removelast (update_last f l) = removelast l.
Proof. destruct (list_last_case l) as [->|(l' & a & ->)]; [reflexivity|]. now rewrite update_last_app, !removelast_last. Qed.
Lemma Forall_update {A} (P : A -> Prop) f l : (forall a, P a -> P (f a)) -> Forall P l -> Forall P (update_last f l).
Proof.
  intros H F. destruct (list_last_case l) as [->|(l' & a & ->)]; [exact F|]. rewrite update_last_app.
  apply Forall_app in F as [F1 F2]. apply Forall_app. split; [exact F1|]. inversion F2; subst. constructor; auto.
Qed.
Lemma has_fid_add p g : has_fid g -> has_fid (add p g).
Proof.
  unfold has_fid. destruct p as [k x]. cbn [snd add]. rewrite head_snoc. destruct (k =? "SnippetSPDXID"); [auto|].
  destruct (parts_of "SnippetSPDXID" (snd g)); [|auto]. rewrite values_snoc. destruct (k =? "SPDXID"); [|auto].
  intros _ E. now apply app_eq_nil in E.
Qed.
Lemma has_pid_add p g : has_pid g -> has_pid (add p g).
Proof.
  unfold has_pid. destruct p as [k x]. cbn [snd add]. rewrite head_snoc. destruct (k =? "FileName"); [auto|].
  destruct (parts_of "FileName" (snd g)); [|auto]. rewrite values_snoc. destruct (k =? "SPDXID"); [|auto]. intros _ E. now apply app_eq_nil in E.
Qed.
Lemma ids_other h t x : mem t openers = false -> ids h -> ids (h ++ [(t, x)]).
Proof.
  intros M []. pose proof (opener_no _ M) as (M1 & M2 & M3). constructor.
  - unfold old_files in *. rewrite cur_files_snoc, files_snoc, M1, M2.
    destruct (list_last_case (cur_files h)) as [E|(g & a & E)]; rewrite E in *; [exact id_old0|].
    rewrite update_last_app. destruct (g ++ [a])%list eqn:Z in *; [now apply app_eq_nil in Z|].
    destruct g; cbn [app]; rewrite removelast_update; exact id_old0.
  - rewrite cur_files_snoc, M1, M2, update_last_nil. intros C S. rewrite cur_snips_snoc, M3, update_last_nil in S by assumption.
    specialize (id_snip0 C S). rewrite files_snoc, M1, M2. destruct (cur_files h); [exact id_snip0|].
    apply Forall_update; [|exact id_snip0]. intros. now apply has_fid_add.
  - rewrite parts_snoc, M1, removelast_update. exact id_pkg0.
Qed.
Lemma Forall_removelast {A} (P : A -> Prop) l : Forall P l -> Forall P (removelast l).
Proof. destruct (list_last_case l) as [->|(l' & a & ->)]; [auto|]. rewrite removelast_last. intros F. now apply Forall_app in F. Qed.
(** a check that succeeds *)
Lemma all_files v h s : einv v h s -> ids h -> check_file_id s = Ok tt -> Forall has_fid (files h).
Proof.
  intros I [] H. unfold check_file_id in H. apply bindR_ok in H as (f & C & H). unfold cur_file, get_ptr in C.
  rewrite (e_file _ _ _ I) in C. unfold old_files in *. destruct (cur_files h) eqn:E; [exact id_old0|].
  destruct (cur_snips h) eqn:CS; [|now apply id_snip0].
  destruct (files_cur h) as (F & a & EF); [congruence|]. pose proof (e_files _ _ _ I) as FF.
  assert (PS : parts_of "SnippetSPDXID" (snd a) = []).
  { unfold cur_snips, sgroups in CS. rewrite EF, map_app in CS. cbn [map] in CS. now rewrite last_snoc in CS. }
  rewrite EF in *.
  rewrite removelast_last in id_old0. apply Forall2_snoc_l in FF as (M & b & EM & F1 & F2). rewrite EM, ptr_snoc in C.
  rewrite nth_error_app2, Nat.sub_diag in C by lia. cbn in C. inversion C; subst f.
  destruct (String.eqb_spec (f_SPDXIdentifier b) ""); [discriminate|]. apply Forall_app. split; [exact id_old0|].
  constructor; [|constructor]. unfold has_fid. rewrite head_parts_nil by exact PS.
  intros Z. apply n. pose proof (fi_id _ _ _ F2) as K. unfold id_text_of in K. now rewrite Z in K.
Qed.
Lemma all_pkgs v h s : einv v h s -> ids h -> check_pkg_id s = Ok tt -> Forall has_pid (parts_of "PackageName" h).
Proof.
  intros I [] H. unfold check_pkg_id in H. apply bindR_ok in H as (f & C & H). unfold cur_pkg, get_ptr in C.
  rewrite (e_pkg _ _ _ I) in C. destruct (list_last_case (parts_of "PackageName" h)) as [E|(F & a & EF)]; [rewrite E; constructor|].
  pose proof (e_pkgs _ _ _ I) as FF. rewrite EF in *.
  rewrite removelast_last in id_pkg0. apply Forall2_snoc_l in FF as (M & b & EM & F1 & F2). rewrite EM, ptr_snoc in C.
  rewrite nth_error_app2, Nat.sub_diag in C by lia. cbn in C. inversion C; subst f.
  destruct (String.eqb_spec (p_SPDXIdentifier b) ""); [discriminate|]. apply Forall_app. split; [exact id_pkg0|].
  constructor; [|constructor]. intros Z. apply n. pose proof (pk_id _ _ _ F2) as K. unfold id_text_of in K. now rewrite Z in K.
Qed.
Lemma ids_file h x : Forall has_fid (files h) -> ids h -> ids (h ++ [("FileName", x)]).
Proof.
  intros F []. constructor.
  - unfold old_files. rewrite cur_files_snoc, files_snoc. simpl String.eqb. cbv iota. rewrite removelast_last.
    destruct (cur_files h ++ _)%list eqn:Z; [now apply app_eq_nil in Z|exact F].
  - intros _ S. unfold cur_snips in S. rewrite sgroups_snoc in S. simpl String.eqb in S. cbv iota in S. now rewrite last_snoc in S.
  - rewrite parts_snoc. simpl String.eqb. cbv iota. now rewrite removelast_update.
Qed.
Lemma ids_snip h x : cur_files h <> [] -> Forall has_fid (files h) -> ids h -> ids (h ++ [("SnippetSPDXID", x)]).
Proof.
  intros C F []. assert (FF : Forall has_fid (files (h ++ [("SnippetSPDXID", x)]))).
  { rewrite files_snoc. simpl String.eqb. cbv iota. destruct (cur_files h); [exact F|]. apply Forall_update; [|exact F].
    intros. now apply has_fid_add. }
  constructor.
  - unfold old_files. destruct (cur_files (h ++ _)); [exact FF|]. now apply Forall_removelast.
  - auto.
  - rewrite parts_snoc. simpl String.eqb. cbv iota. now rewrite removelast_update.
Qed.
Lemma ids_package h x : Forall has_fid (files h) -> Forall has_pid (parts_of "PackageName" h) -> ids h -> ids (h ++ [("PackageName", x)]).
Proof.
  intros F P []. constructor.
  - unfold old_files. rewrite cur_files_snoc, files_snoc. exact F.
  - rewrite cur_files_snoc. simpl String.eqb. cbv iota. intros N. now elim N.
  - rewrite parts_snoc. simpl String.eqb. cbv iota. now rewrite removelast_last.
Qed.

Lemma package_name_checked x s s' : do_package_name x s = Ok s' -> ps_pkg s = ptr (length (ps_pkgs s)) ->
  Forall (fun p => p_PackageName p <> "") (ps_pkgs s) -> check_pkg_id s = Ok tt.
Proof.
  intros H E F. unfold do_package_name in H. cbv zeta in H. apply bindR_ok in H as (p & G & H).
  assert (S : cur_pkg s = Ok p) by exact G. unfold check_pkg_id. rewrite S. cbn [bindR].
  destruct p as [pk|]; [|reflexivity]. unfold cur_pkg, get_ptr in S. destruct (ps_pkg s) as [i|]; [|discriminate].
  destruct (nth_error (ps_pkgs s) i) eqn:N; [|discriminate]. inversion S; subst. apply nth_error_In in N.
  rewrite Forall_forall in F. apply F in N. replace (nonempty (p_PackageName pk)) with true in H by (symmetry; now apply nonempty_true).
  apply bindR_ok in H as ([] & H & _). unfold check_pkg_id in H. rewrite G in H. exact H.
Qed.
Lemma file_name_checked x s s' : do_file_name x s = Ok s' -> check_file_id s = Ok tt.
Proof. unfold do_file_name. cbv zeta. intros H. apply bindR_ok in H as ([] & H & _). exact H. Qed.
Lemma snippet_id_checked x s s' : do_snippet_id x s = Ok s' -> check_file_id s = Ok tt.
Proof. unfold do_snippet_id. intros H. apply bindR_ok in H as ([] & H & _). exact H. Qed.

Lemma ids_pair v h s t x s' : einv v h s -> ids h -> Forall (fun g => fst g <> "") (parts_of "PackageName" h) ->
  parse_pair v s (t, x) = Ok s' -> ids (h ++ [(t, x)]).
Proof.
  intros I D NE H.
  assert (PN : Forall (fun p => p_PackageName p <> "") (ps_pkgs s)) by (eapply named; [apply I|exact NE]).
  assert (PP := e_pkg _ _ _ I).
  destruct (mem t openers) eqn:M; [|now apply ids_other].
  pose proof (e_st _ _ _ I) as SI. unfold st_inv in SI.
  assert (EMP : groups h = [[]] -> Forall has_fid (files h) /\ Forall has_pid (parts_of "PackageName" h)).
  { intros G. apply groups_none in G as (-> & _ & ->). auto. }
  assert (SN : cur_files h <> [] /\ cur_snips h <> [] /\ ps_snip s = ptr (length (ps_snips s)) -> Forall has_fid (files h))
    by (intros (Y1 & Y2 & _); now apply (id_snip h)).
  assert (CF : cur_files h = [] -> Forall has_fid (files h)).
  { intros C. pose proof (id_old h D) as F. unfold old_files in F. now rewrite C in F. }
  assert (AF : check_file_id s = Ok tt -> Forall has_fid (files h)) by (eapply all_files; eauto).
  assert (AP : check_pkg_id s = Ok tt -> Forall has_pid (parts_of "PackageName" h)) by (eapply all_pkgs; eauto).
  apply existsb_exists in M as (k & K & E). apply String.eqb_eq in E. subst k.
  destruct K as [<-|[<-|[<-|[]]]].
  - (* PackageName *)
    simpl in H. destruct (ps_st s) eqn:St; try (cbn in H; discriminate).
    + destruct (EMP SI). now apply ids_package.
    + destruct (EMP SI). now apply ids_package.
    + apply ids_package; [|apply AP|exact D]; [now apply CF|].
      change (do_package_name x (set_ps_extref None s) = Ok s') in H. now apply package_name_checked in H.
    + change (file_to_package x (set_ps_aop None s) = Ok s') in H. unfold file_to_package in H. cbv zeta in H.
      apply bindR_ok in H as ([] & H1 & H). apply package_name_checked in H; [|exact PP|exact PN].
      apply ids_package; [now apply AF|now apply AP|exact D].
    + change (snippet_to_package x s = Ok s') in H. unfold snippet_to_package in H. apply package_name_checked in H; [|exact PP|exact PN].
      apply ids_package; [now apply SN|now apply AP|exact D].
  - (* FileName *)
    simpl in H. destruct (ps_st s) eqn:St; try (cbn in H; discriminate).
    + destruct (EMP SI). now apply ids_file.
    + destruct (EMP SI). now apply ids_file.
    + apply ids_file; [now apply CF|exact D].
    + change (do_file_name x (set_ps_aop None s) = Ok s') in H. apply file_name_checked in H. apply ids_file; [now apply AF|exact D].
    + apply ids_file; [now apply SN|exact D].
  - (* SnippetSPDXID *)
    simpl in H. destruct (ps_st s) eqn:St.
    + exfalso. pose proof (e_doc _ _ _ I) as DW. unfold doc_with in DW. unfold parse_start in H.
      destruct (ps_doc s) as [d|] eqn:DE; [|contradiction]. cbv zeta in H.
      change (parse_creation_info v "SnippetSPDXID" x (set_ps_st PsCreationInfo s) = Ok s') in H.
      unfold parse_creation_info in H. cbn [ps_doc set_ps_st] in H. rewrite DE in H. destruct v; discriminate.
    + exfalso. unfold parse_creation_info in H. destruct (ps_doc s) as [d|]; [|discriminate]. destruct v; discriminate.
    + destruct v; discriminate.
    + change (file_to_snippet x (set_ps_aop None s) = Ok s') in H. apply snippet_id_checked in H.
      apply ids_snip; [apply SI|now apply AF|exact D].
    + apply ids_snip; [apply SI|now apply SN|exact D].
    + destruct v; discriminate.
    + destruct v; discriminate.
Qed.
Lemma ids_start : ids [].
Proof. constructor; simpl; auto; constructor. Qed.
Lemma e_parse_pairs v l : forall h s s', einv v h s -> ids h -> Forall (fun n => n <> "") (values "PackageName" (h ++ l)) ->
  parse_pairs v s l = Ok s' -> einv v (h ++ l) s' /\ ids (h ++ l).
Proof.
  induction l as [|[t x] l IH]; intros h s s' I D N H; simpl in H.
  - inversion H; subst. now rewrite app_nil_r.
  - apply bindR_ok in H as (s1 & H1 & H). replace (h ++ (t, x) :: l)%list with ((h ++ [(t, x)]) ++ l)%list in * by (now rewrite <- app_assoc).
    assert (NE : Forall (fun g => fst g <> "") (parts_of "PackageName" h)).
    { rewrite !values_app in N. apply Forall_app in N as [N _]. apply Forall_app in N as [N _].
      rewrite <- parts_values in N. exact (proj1 (Forall_map _ _ _) N). }
    apply (IH _ s1); auto; [eapply e_parse_pair; eauto|eapply ids_pair; eauto].
Qed.
