(** Acceptance of one pair: packages, files, snippets and the start of the document. *)
From Verif Require Import GoStr GoStrFacts Types TvState TvUtil TvReader TvParser SpecTv SpecId SpecDoc SpecRead
  TvReaderFacts TvUtilFacts TvParserFacts DenoteBase DenoteGlobal DenoteElems DenoteSteps DenoteCases DenoteSections
  DenoteFile DenoteRead AcceptBase AcceptSteps.
From Verif Require SpecTags SpecAccept.
Import SpecAccept.

(** ** Opening an element *)
Lemma noerr_get_ptr {A} p (l : list A) : noerr (get_ptr p l).
Proof. unfold get_ptr. destruct p; [|apply noerr_ok]. destruct (nth_error _ _); [apply noerr_ok|apply noerr_panic]. Qed.
Lemma file_name_noerr x s : noerr (check_file_id s) -> noerr (do_file_name x s).
Proof. intros N. unfold do_file_name. cbv zeta. apply noerr_bind; [exact N|]. intros. apply noerr_ok. Qed.
Lemma file_name_st x s s' : do_file_name x s = Ok s' -> ps_st s' = ps_st s.
Proof. unfold do_file_name. cbv zeta. intros H. apply bindR_ok in H as (? & _ & H). now inversion H. Qed.
Lemma snippet_id_noerr x s : noerr (check_file_id s) -> (exists e, extract_element_id x = Ok e) -> noerr (do_snippet_id x s).
Proof.
  intros N [e E]. unfold do_snippet_id. apply noerr_bind; [exact N|]. intros _ _. rewrite E. cbn [bindR]. cbv zeta.
  destruct (ps_file _); [apply noerr_upd_file|apply noerr_ok].
Qed.
Lemma snippet_id_ok x s s' : do_snippet_id x s = Ok s' -> (exists e, extract_element_id x = Ok e) /\ ps_st s' = ps_st s.
Proof.
  unfold do_snippet_id. intros H. apply bindR_ok in H as (? & _ & H). apply bindR_ok in H as (e & E & H). split; [eauto|].
  cbv zeta in H. destruct (ps_file _); [now apply upd_file_st in H|now inversion H].
Qed.
Lemma package_name_noerr x s : noerr (check_pkg_id s) -> noerr (do_package_name x s).
Proof.
  intros N. unfold do_package_name. cbv zeta. apply noerr_bind; [apply noerr_get_ptr|]. intros [pk|] _; [|apply noerr_upd_pkg].
  destruct (nonempty _); [|apply noerr_upd_pkg]. apply noerr_bind; [exact N|]. intros. apply noerr_upd_pkg.
Qed.
Lemma package_name_st x s s' : do_package_name x s = Ok s' -> ps_st s' = ps_st s.
Proof.
  unfold do_package_name. cbv zeta. intros H. apply bindR_ok in H as ([pk|] & _ & H); [|now apply upd_pkg_st in H].
  destruct (nonempty _); [|now apply upd_pkg_st in H]. apply bindR_ok in H as (? & _ & H). now apply upd_pkg_st in H.
Qed.

(** ** Elements with a readable identifier pass the checks *)
Lemma in_head t (p : string * string) l : In p (head_of t l) -> In p l.
Proof.
  unfold head_of. induction l as [|[k x] l IH]; [auto|]. cbn [segs]. destruct (segs t l) as [h ss].
  destruct (k =? t); cbn [fst In] in *; [intros []|]. intros [E|I]; auto.
Qed.
Lemma in_parts t (p : string * string) g l : In g (parts_of t l) -> In p (snd g) -> In p l.
Proof.
  unfold parts_of. revert g. induction l as [|[k x] l IH]; intros g; [intros []|]. cbn [segs].
  pose proof (in_head t p l) as HD. unfold head_of in HD. destruct (segs t l) as [h ss]. cbn [fst snd] in *.
  destruct (k =? t); cbn [snd In]; intros I J.
  - destruct I as [<-|I]; [right; apply HD; exact J|right; eauto].
  - right. eauto.
Qed.
Lemma in_files (p : string * string) g h : In g (files h) -> In p (snd g) -> In p h.
Proof.
  unfold files, groups. cbn [concat]. intros I J. apply in_app_or in I as [I|I].
  - eapply in_head, in_parts; eauto.
  - apply in_concat in I as (l & L & I). apply in_map_iff in L as (q & <- & Q).
    eapply in_parts; [exact Q|]. eapply in_parts; eauto.
Qed.
Lemma in_values t y l : In y (values t l) -> In (t, y) l.
Proof.
  unfold values. intros I. apply in_map_iff in I as ([k z] & <- & I). apply filter_In in I as [I E].
  apply String.eqb_eq in E. cbn in *. now subst.
Qed.
Lemma last_in (l : list string) d : l <> [] -> In (last l d) l.
Proof. intros N. destruct (list_last_case l) as [->|(l' & a & ->)]; [contradiction|]. rewrite last_snoc. apply in_or_app. cbn; auto. Qed.
Lemma id_nonempty v l id h : Forall (fun p => readable v (fst p) (snd p)) h ->
  (forall y, In y l -> In ("SPDXID", y) h) -> l <> [] -> id_text_of l id -> id <> "".
Proof.
  intros R I N T. destruct l as [|a l]; [contradiction|]. cbn [id_text_of] in T.
  assert (J : In ("SPDXID", last (a :: l) "") h) by (apply I, last_in; discriminate).
  rewrite Forall_forall in R. apply R in J as [J _]. cbn [fst snd] in J. destruct J as (i & E & [K _]); [cbn; auto|].
  rewrite T in E. apply app_inj_l in E. congruence.
Qed.
Lemma check_file_noerr v h s : einv v h s -> Forall (fun p => readable v (fst p) (snd p)) h ->
  Forall has_fid (files h) -> noerr (check_file_id s).
Proof.
  intros I R F. unfold check_file_id, cur_file. rewrite (e_file _ _ _ I). destruct (cur_files h) eqn:E; [apply noerr_ok|].
  destruct (files_cur h) as (L & a & EF); [congruence|]. pose proof (e_files _ _ _ I) as FF. rewrite EF in *.
  apply Forall2_snoc_l in FF as (M & b & -> & F1 & F2). rewrite ptr_snoc. cbn [get_ptr].
  rewrite nth_error_app2, Nat.sub_diag by lia. cbn [nth_error bindR].
  apply Forall_app in F as [_ F]. inversion F as [|? ? FA _]; subst. apply has_fid_value in FA.
  destruct (String.eqb_spec (f_SPDXIdentifier b) "") as [Z|]; [|apply noerr_ok]. exfalso. revert Z.
  eapply id_nonempty; [exact R| |exact FA|exact (fi_id _ _ _ F2)].
  intros y Y. apply in_values in Y. eapply in_files; [|exact Y]. rewrite EF. apply in_or_app. cbn; auto.
Qed.
Lemma check_pkg_noerr v h s : einv v h s -> Forall (fun p => readable v (fst p) (snd p)) h ->
  Forall has_pid (parts_of "PackageName" h) -> noerr (check_pkg_id s).
Proof.
  intros I R F. unfold check_pkg_id, cur_pkg. rewrite (e_pkg _ _ _ I). pose proof (e_pkgs _ _ _ I) as FF.
  destruct (list_last_case (parts_of "PackageName" h)) as [E|(L & a & EF)]; [rewrite E in FF; inversion FF; apply noerr_ok|].
  rewrite EF in *. apply Forall2_snoc_l in FF as (M & b & -> & F1 & F2). rewrite ptr_snoc. cbn [get_ptr].
  rewrite nth_error_app2, Nat.sub_diag by lia. cbn [nth_error bindR].
  apply Forall_app in F as [_ F]. inversion F as [|? ? FA _]; subst. unfold has_pid in FA.
  destruct (String.eqb_spec (p_SPDXIdentifier b) "") as [Z|]; [|apply noerr_ok]. exfalso. revert Z.
  eapply id_nonempty; [exact R| |exact FA|exact (pk_id _ _ _ F2)].
  intros y Y. apply in_values, in_head in Y. eapply in_parts; [|exact Y]. rewrite EF. apply in_or_app. cbn; auto.
Qed.

Ltac keeps := match goal with
  | |- Forall _ (_ :: _) => constructor; [first [keep|idtac]|keeps]
  | |- Forall _ [] => constructor
  end.
Ltac extract := eapply pcase_extract; [eassumption..| |nx|intros; upd_noerr|intros ?; upd_st].

Section Elements.
  Context (v : version) (h : pairs) (s : pstate) (x : string)
    (I : einv v h s) (R : Forall (fun p => readable v (fst p) (snd p)) h)
    (DOC : ps_doc s <> None)
    (RL : ps_rln s <> None <-> In "Relationship" (map fst h))
    (AN : ps_ann s <> None <-> In "Annotator" (map fst h)).
  Let CF : Forall has_fid (files h) -> noerr (check_file_id s) := check_file_noerr v h s I R.
  Let CP : Forall has_pid (parts_of "PackageName" h) -> noerr (check_pkg_id s) := check_pkg_noerr v h s I R.

  Lemma agrees_snippet t : ps_st s = PsSnippet -> agrees v h x SnippetSec t (parse_snippet v t x s).
  Proof using All.
    intros St. unfold parse_snippet. apply (agrees_switch v h x SnippetSec t (snippet_cases v) _ (fun _ => s)).
    2: { apply next_cases. destruct v; reflexivity. }
    assert (ST : forall t : string, ps_st s = PsSnippet) by auto. assert (SP : sec_of PsSnippet = SnippetSec) by reflexivity.
    unfold snippet_cases. apply Forall_app. split; [|apply Forall_app; split; [|apply Forall_app; split]].
    - keeps.
      + split; cbn [fst snd].
        * intros s' H. apply snippet_id_ok in H as [C E]. split; [apply cond_element_id; [cbn; auto|exact C]|]. rewrite E, St. nx.
        * intros C [D _]. apply snippet_id_noerr; [now apply CF, D|]. apply cond_element_id in C; [exact C|cbn; auto].
      + split; cbn [fst snd]; unfold snippet_to_file.
        * intros s' H. apply file_name_st in H. split; [now apply cond_plain|]. rewrite H. nx.
        * intros C [D _]. apply file_name_noerr. now apply CF, D.
      + split; cbn [fst snd]; unfold snippet_to_package.
        * intros s' H. apply package_name_st in H. split; [now apply cond_plain|]. rewrite H. nx.
        * intros C [D D']. apply package_name_noerr. now apply CP, D'.
      + apply pcase_enter_license. nx.
      + extract. apply cond_from_file.
      + eapply (pcase_extract v h x SnippetSec (fun _ => s) PsSnippet SP ST "SnippetByteRange" extract_range
          (fun ab s => let (a, b) := ab in upd_snip (fun x => set_s_Ranges (s_Ranges x ++ [offset_range a b]) x) s)); [|nx| |].
        * apply cond_range. cbn; auto.
        * intros [a b]. apply noerr_upd_snip.
        * intros [a b]. upd_st.
      + eapply (pcase_extract v h x SnippetSec (fun _ => s) PsSnippet SP ST "SnippetLineRange" extract_range
          (fun ab s => let (a, b) := ab in upd_snip (fun x => set_s_Ranges (s_Ranges x ++ [line_range a b]) x) s)); [|nx| |].
        * apply cond_range. cbn; auto.
        * intros [a b]. apply noerr_upd_snip.
        * intros [a b]. upd_st.
    - clear CF CP I R. destruct v; keeps.
    - eapply pcase_rel_ann; eauto. intros. now apply relation_stays.
    - constructor; [|constructor]. apply pcase_enter_review. nx.
  Qed.

  Lemma aop_iff : ps_aop s <> None <-> exists h1 y h2, h = (h1 ++ ("ArtifactOfProjectName", y) :: h2)%list /\
                     Forall (fun p => In (fst p) artifact_fields) h2.
  Proof.
    rewrite <- in_context_open. pose proof (e_aop _ _ _ I) as A. unfold aop_inv in A.
    destruct (ps_aop s) as [[fi ai]|]; [|rewrite A; split; [intros N; now elim N|discriminate]].
    destruct A as [A _]. split; [auto|discriminate].
  Qed.
  Lemma ext_iff : ps_extref s <> None <-> exists h' y, h = (h' ++ [("ExternalRef", y)])%list.
  Proof.
    rewrite <- prev_ext. pose proof (e_ext _ _ _ I) as A. unfold ext_inv in A.
    destruct (ps_extref s) as [[fi ai]|]; [|split; [intros N; now elim N|contradiction]].
    destruct A as [A _]. split; [auto|discriminate].
  Qed.
  Lemma noerr_upd_aop g s1 : ps_aop s1 <> None -> noerr (upd_aop g s1).
  Proof.
    unfold upd_aop. destruct (ps_aop s1) as [[fi ai]|]; [|contradiction]. intros _.
    destruct (nth_error _ _); [|apply noerr_panic]. destruct (update_nth _ _ _); [|apply noerr_panic].
    destruct (update_nth _ _ _); [apply noerr_ok|apply noerr_panic].
  Qed.
  Lemma upd_aop_ok g s1 s' : upd_aop g s1 = Ok s' -> ps_aop s1 <> None /\ ps_st s' = ps_st s1.
  Proof.
    unfold upd_aop. destruct (ps_aop s1) as [[fi ai]|]; [|discriminate].
    destruct (nth_error _ _); [|discriminate]. destruct (update_nth _ _ _); [|discriminate].
    destruct (update_nth _ _ _); [|discriminate]. intros H. inversion H. split; [discriminate|reflexivity].
  Qed.
  Let fst_of (t : string) : pstate :=
    if String.eqb t "ArtifactOfProjectHomePage" || String.eqb t "ArtifactOfProjectURI" then s else set_ps_aop None s.
  Lemma pcase_aop t g : In t artifact_fields -> ps_st s = PsFile ->
    pcase v h x FileSec fst_of (t, fun value => upd_aop (g value)).
  Proof.
    intros J St. assert (E : fst_of t = s) by (destruct J as [<-|[<-|[]]]; reflexivity).
    split; cbn [fst snd]; rewrite E.
    - intros s' H. rewrite (cond_artifact v h t x J). apply upd_aop_ok in H as [H K]. split; [now apply aop_iff|]. rewrite K, St.
      destruct J as [<-|[<-|[]]]; nx.
    - intros C _. apply (cond_artifact v h t x J) in C. apply noerr_upd_aop. now apply aop_iff.
  Qed.

  Lemma agrees_file t : ps_st s = PsFile -> agrees v h x FileSec t (parse_file v t x s).
  Proof using All.
    intros St. unfold parse_file. cbv zeta. change (if _ || _ then s else set_ps_aop None s) with (fst_of t).
    apply (agrees_switch v h x FileSec t (file_cases v) _ fst_of).
    2: { apply next_cases. destruct v; reflexivity. }
    assert (FO : forall t, fst_of t = s \/ fst_of t = set_ps_aop None s) by (intros k; unfold fst_of; destruct (_ || _); auto).
    assert (ST : forall t, ps_st (fst_of t) = PsFile) by (intros k; destruct (FO k) as [->| ->]; exact St).
    assert (SP : sec_of PsFile = FileSec) by reflexivity.
    assert (DOC' : forall t, ps_doc (fst_of t) <> None) by (intros k; destruct (FO k) as [->| ->]; exact DOC).
    assert (RL' : forall t, ps_rln (fst_of t) <> None <-> In "Relationship" (map fst h)) by (intros k; destruct (FO k) as [->| ->]; exact RL).
    assert (AN' : forall t, ps_ann (fst_of t) <> None <-> In "Annotator" (map fst h)) by (intros k; destruct (FO k) as [->| ->]; exact AN).
    unfold file_cases. apply Forall_app. split; [|apply Forall_app; split; [|apply Forall_app; split]].
    - keeps.
      + split; cbn [fst snd].
        * intros s' H. apply file_name_st in H. split; [now apply cond_plain|]. rewrite H, ST. nx.
        * intros C [D _]. apply file_name_noerr. now apply CF, D.
      + split; cbn [fst snd]; unfold file_to_package; cbv zeta.
        * intros s' H. apply bindR_ok in H as (? & _ & H). apply package_name_st in H. split; [now apply cond_plain|]. rewrite H. nx.
        * intros C [D D']. apply noerr_bind; [now apply CF, D|]. intros _ _. apply package_name_noerr. now apply CP, D'.
      + split; cbn [fst snd]; unfold file_to_snippet.
        * intros s' H. apply snippet_id_ok in H as [C E]. split; [apply cond_element_id; [cbn; auto|exact C]|]. rewrite E. nx.
        * intros C [D _]. apply snippet_id_noerr; [now apply CF, D|]. apply cond_element_id in C; [exact C|cbn; auto].
      + apply pcase_enter_license. nx.
      + eapply (pcase_extract v h x FileSec fst_of PsFile SP ST "SPDXID" extract_element_id
          (fun eid s => let* s1 := upd_file (set_f_SPDXIdentifier eid) s in
            match ps_file s1 with
            | None => Panic
            | Some fi => match ps_pkg s1 with
                         | None => upd_doc (fun d => set_d_Files (d_Files d ++ [fi]) d) s1
                         | Some _ => upd_pkg (fun p => set_p_Files (p_Files p ++ [fi]) p) s1
                         end
            end)); [|nx| |].
        * apply cond_element_id. cbn; auto.
        * intros e. apply noerr_bind; [apply noerr_upd_file|]. intros s1 _. destruct (ps_file s1); [|apply noerr_panic].
          destruct (ps_pkg s1); [apply noerr_upd_pkg|apply noerr_upd_doc].
        * intros e s' H. apply bindR_ok in H as (s1 & H1 & H). apply upd_file_st in H1. rewrite <- H1.
          destruct (ps_file s1); [|discriminate]. destruct (ps_pkg s1); [now apply upd_pkg_st in H|now apply upd_doc_st in H].
      + extract. apply cond_checksum. cbn; auto.
      + eapply pcase_keep; [eassumption..|reflexivity|nx| |]; unfold do_aop_name.
        * destruct (ps_file _) as [fi|]; [|apply noerr_panic]. destruct (nth_error _ _); [|apply noerr_panic].
          apply noerr_bind; [apply noerr_upd_file|]. intros. apply noerr_ok.
        * intros s'. destruct (ps_file _) as [fi|]; [|discriminate]. destruct (nth_error _ _); [|discriminate].
          intros H. apply bindR_ok in H as (s1 & H1 & H). apply upd_file_st in H1. inversion H. exact H1.
      + apply (pcase_aop "ArtifactOfProjectHomePage" set_ar_HomePage); [cbn; auto|exact St].
      + apply (pcase_aop "ArtifactOfProjectURI" set_ar_URI); [cbn; auto|exact St].
    - clear CF CP I R. destruct v; keeps.
    - eapply pcase_rel_ann; eauto. intros. now apply relation_stays.
    - constructor; [|constructor]. apply pcase_enter_review. nx.
  Qed.

  Lemma noerr_ext_comment s1 : ps_extref s1 <> None -> noerr (do_external_ref_comment x s1).
  Proof.
    unfold do_external_ref_comment. destruct (ps_extref s1) as [[fi ai]|]; [|contradiction]. intros _.
    destruct (nth_error _ _); [|apply noerr_panic]. destruct (update_nth _ _ _); [|apply noerr_panic].
    destruct (update_nth _ _ _); [apply noerr_ok|apply noerr_panic].
  Qed.
  Lemma ext_comment_ok s1 s' : do_external_ref_comment x s1 = Ok s' -> ps_extref s1 <> None /\ ps_st s' = ps_st s1.
  Proof.
    unfold do_external_ref_comment. destruct (ps_extref s1) as [[fi ai]|]; [|discriminate].
    destruct (nth_error _ _); [|discriminate]. destruct (update_nth _ _ _); [|discriminate].
    destruct (update_nth _ _ _); [|discriminate]. intros H. inversion H. split; [discriminate|reflexivity].
  Qed.
  Let pst_of (t : string) : pstate := if String.eqb t "ExternalRefComment" then s else set_ps_extref None s.
  Lemma pcase_actor2 {A} t (st : string -> pstate) (mk : string -> string -> A) (put : A -> PackageArena -> PackageArena) :
    In t ["PackageSupplier"; "PackageOriginator"] -> (forall t, ps_st (st t) = PsPackage) ->
    pcase v h x PackageSec st (t, fun value s =>
      if String.eqb value "NOASSERTION" then upd_pkg (put (mk value "")) s
      else let* (k, x) := extract_actor ["Person"; "Organization"] value in upd_pkg (put (mk x k)) s).
  Proof.
    intros J ST. assert (N : next v PackageSec t = Some PackageSec) by (destruct J as [<-|[<-|[]]]; nx).
    split; cbn [fst snd]; rewrite ?N.
    - intros s' H. rewrite (cond_supplier v h t x J). destruct (String.eqb_spec x "NOASSERTION") as [E|E].
      + apply upd_pkg_st in H. rewrite H, ST. auto.
      + apply bindR_ok in H as (kn & K & H). destruct kn as [k n]. apply upd_pkg_st in H. rewrite H, ST. eauto.
    - intros C _. apply (cond_supplier v h t x J) in C. destruct (String.eqb_spec x "NOASSERTION") as [E|E]; [apply noerr_upd_pkg|].
      destruct C as [C|[[k n] C]]; [contradiction|]. rewrite C. apply noerr_upd_pkg.
  Qed.
  Lemma agrees_package t : ps_st s = PsPackage -> agrees v h x PackageSec t (parse_package v t x s).
  Proof using All.
    intros St. unfold parse_package. cbv zeta. change (if t =? _ then s else set_ps_extref None s) with (pst_of t).
    apply (agrees_switch v h x PackageSec t (package_cases v) _ pst_of).
    2: { apply next_cases. destruct v; reflexivity. }
    assert (FO : forall t, pst_of t = s \/ pst_of t = set_ps_extref None s) by (intros k; unfold pst_of; destruct (_ =? _); auto).
    assert (ST : forall t, ps_st (pst_of t) = PsPackage) by (intros k; destruct (FO k) as [->| ->]; exact St).
    assert (SP : sec_of PsPackage = PackageSec) by reflexivity.
    assert (DOC' : forall t, ps_doc (pst_of t) <> None) by (intros k; destruct (FO k) as [->| ->]; exact DOC).
    assert (RL' : forall t, ps_rln (pst_of t) <> None <-> In "Relationship" (map fst h)) by (intros k; destruct (FO k) as [->| ->]; exact RL).
    assert (AN' : forall t, ps_ann (pst_of t) <> None <-> In "Annotator" (map fst h)) by (intros k; destruct (FO k) as [->| ->]; exact AN).
    unfold package_cases. apply Forall_app. split; [|apply Forall_app; split; [|apply Forall_app; split; [|apply Forall_app; split; [|apply Forall_app; split]]]].
    - keeps.
      + split; cbn [fst snd].
        * intros s' H. apply package_name_st in H. split; [now apply cond_plain|]. rewrite H, ST. nx.
        * intros C [D D']. apply package_name_noerr. now apply CP, D'.
      + split; cbn [fst snd]; unfold package_to_file.
        * intros s' H. apply file_name_st in H. split; [now apply cond_plain|]. rewrite H. nx.
        * intros C [D _]. apply file_name_noerr. now apply CF, D.
      + apply pcase_enter_license. nx.
      + eapply (pcase_extract v h x PackageSec pst_of PsPackage SP ST "SPDXID" extract_element_id
          (fun eid s => let* s1 := upd_pkg (set_p_SPDXIdentifier eid) s in
            match ps_pkg s1 with
            | None => Panic
            | Some pi => upd_doc (fun d => set_d_Packages (d_Packages d ++ [pi]) d) s1
            end)); [|nx| |].
        * apply cond_element_id. cbn; auto.
        * intros e. apply noerr_bind; [apply noerr_upd_pkg|]. intros s1 _. destruct (ps_pkg s1); [apply noerr_upd_doc|apply noerr_panic].
        * intros e s' H. apply bindR_ok in H as (s1 & H1 & H). apply upd_pkg_st in H1. rewrite <- H1.
          destruct (ps_pkg s1); [now apply upd_doc_st in H|discriminate].
      + apply (pcase_actor2 "PackageSupplier" pst_of MkSupplier (fun y => set_p_Supplier (Some y))); [cbn; auto|exact ST].
      + apply (pcase_actor2 "PackageOriginator" pst_of MkOriginator (fun y => set_p_Originator (Some y))); [cbn; auto|exact ST].
      + extract. apply cond_checksum. cbn; auto.
    - clear CF CP I R. destruct v; keeps.
    - clear CF CP I R. destruct v; keeps.
    - constructor; [|constructor; [|constructor]].
      + split; cbn [fst snd]; unfold do_external_ref.
        * intros s' H. destruct (ps_pkg _) as [pi|]; [|discriminate]. destruct (nth_error _ _); [|discriminate].
          apply bindR_ok in H as ([[c k] l] & E & H). apply bindR_ok in H as (s1 & H1 & H). apply upd_pkg_st in H1. inversion H; subst s'.
          split; [apply cond_external_ref; eauto|]. cbn [ps_st set_ps_extref]. rewrite H1, ST. nx.
        * intros C _. apply cond_external_ref in C as [[[c k] l] E]. destruct (ps_pkg _) as [pi|]; [|apply noerr_panic].
          destruct (nth_error _ _); [|apply noerr_panic]. rewrite E. cbn [bindR]. apply noerr_bind; [apply noerr_upd_pkg|]. intros. apply noerr_ok.
      + split; cbn [fst snd].
        * change (pst_of "ExternalRefComment") with s. intros s' H. apply ext_comment_ok in H as [H K].
          split; [now apply cond_ext_comment, ext_iff|]. rewrite K, St. nx.
        * change (pst_of "ExternalRefComment") with s. intros C _. apply noerr_ext_comment. now apply cond_ext_comment, ext_iff in C.
    - eapply pcase_rel_ann; eauto. intros. now apply relation_stays.
    - constructor; [|constructor]. apply pcase_enter_review. nx.
  Qed.

  (** The creation information and the header *)
  Lemma agrees_ci t : ps_st s = PsCreationInfo -> agrees v h x Creation t (parse_creation_info v t x s).
  Proof using All.
    intros St. unfold parse_creation_info. destruct (ps_doc s) as [d|] eqn:D; [|contradiction]. cbv zeta.
    match goal with |- context [switch _ _ _ _ ?u] => set (s1 := u) end.
    assert (E : check_file_id s1 = check_file_id s /\ ps_st s1 = ps_st s /\ ps_rln s1 = ps_rln s /\ ps_ann s1 = ps_ann s /\
                ps_doc s1 <> None /\ ps_pkgs s1 = ps_pkgs s)
      by (unfold s1; destruct (d_CreationInfo d); repeat split; try reflexivity; [congruence|discriminate]).
    clearbody s1. destruct E as (E1 & E2 & E3 & E4 & E5 & E6).
    apply (agrees_switch v h x Creation t (ci_cases v) _ (fun _ => s1)).
    2: { apply next_cases. destruct v; reflexivity. }
    assert (ST : forall t : string, ps_st s1 = PsCreationInfo) by (intros; congruence).
    assert (SP : sec_of PsCreationInfo = Creation) by reflexivity.
    assert (G : groups h = [[]]) by (pose proof (e_st _ _ _ I) as Y; unfold st_inv in Y; now rewrite St in Y).
    destruct (groups_none h G) as (G1 & G2 & G3).
    assert (P0 : ps_pkgs s = []) by (pose proof (e_pkgs _ _ _ I) as Y; rewrite G1 in Y; now inversion Y).
    unfold ci_cases. apply Forall_app. split; [|apply Forall_app; split; [|apply Forall_app; split]].
    - keeps.
      + eapply (pcase_extract v h x Creation (fun _ => s1) PsCreationInfo SP ST "Creator" (extract_actor ["Person"; "Organization"; "Tool"])
          (fun kn s => let (k, x) := kn in upd_ci (fun c => set_ci_Creators (ci_Creators c ++ [MkCreator x k]) c) s)); [|nx| |].
        * apply cond_actor. cbn; auto.
        * intros [k n]. apply noerr_upd_ci.
        * intros [k n]. upd_st.
      + split; cbn [fst snd]; unfold ci_to_package.
        * intros s' H. apply bindR_ok in H as (? & _ & H). apply package_name_st in H. split; [now apply cond_plain|]. rewrite H. nx.
        * intros C [F _]. rewrite <- E1 in CF. apply noerr_bind; [now apply CF, F|]. intros _ _.
          unfold do_package_name. cbv zeta. apply noerr_bind; [apply noerr_get_ptr|]. intros pk K.
          unfold cur_pkg, alloc_pkg, get_ptr in K. cbn [ps_pkg ps_pkgs set_ps_pkg set_ps_pkgs set_ps_st set_ps_extref] in K.
          rewrite E6, P0 in K. cbn in K. inversion K; subst pk.
          change (nonempty (p_PackageName new_package)) with false. cbv iota. apply noerr_upd_pkg.
      + split; cbn [fst snd]; unfold ci_to_file.
        * intros s' H. apply file_name_st in H. split; [now apply cond_plain|]. rewrite H. nx.
        * intros C [F _]. rewrite <- E1 in CF. apply file_name_noerr. now apply CF, F.
      + apply pcase_enter_license. nx.
      + apply pcase_enter_review. nx.
    - eapply pcase_rel_ann with (p := PsCreationInfo); eauto; intros; rewrite ?E3, ?E4; auto. now apply relation_stays.
    - clear CF CP I R. destruct v; constructor; [|constructor| |constructor].
      all: apply pcase_plain; [reflexivity|apply noerr_upd_doc|]; intros s' H; apply upd_doc_st in H; rewrite H; reflexivity.
    - constructor; [|constructor]. split; cbn [fst snd]; unfold do_external_document_ref.
      + intros s' H. apply bindR_ok in H as (e & K & H). apply upd_doc_st in H. split; [apply cond_edr; eauto|]. rewrite H. nx.
      + intros C _. apply cond_edr in C as [e K]. rewrite K. apply noerr_upd_doc.
  Qed.
End Elements.
