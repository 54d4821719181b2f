(** * JSON round trip: packages and documents. *)
From Coq Require Import Permutation.
From Verif Require Import GoStr GoStrFacts Types TvUtil TvUtilFacts TvParser SpecTv SpecId SpecDoc Json JsonSpdx SpecJson JsonFacts JsonCodec JsonRound JsonRoundPkg.
Local Open Scope string_scope.

Section Round.
  Variable h : bool.

  (** ** The package hooks *)
  Lemma fields_names v : map f_name (fields_of v) = map f_name (package_fields v).
  Proof. destruct v; reflexivity. Qed.
  Lemma fields_nodup v : nodupb (map f_name (fields_of v)) = true.
  Proof. destruct v; vm_compute; reflexivity. Qed.
  Lemma fields_ascii v : forallb asciib (map f_name (fields_of v)) = true.
  Proof. destruct v; vm_compute; reflexivity. Qed.
  Lemma fields_dec v j a : dec (c_struct (fields_of v)) j a = dec (c_struct (package_fields v)) j a.
  Proof.
    destruct v; [reflexivity| |reflexivity]. cbn [dec c_struct]. destruct j; try reflexivity.
    apply dec_members_ext. cbv [fields_of fields_22 package_fields opt_in_23 app].
    repeat (constructor; [split; reflexivity|]). constructor.
  Qed.

  (** What else is read from a package written by us. *)
  Lemma dec_extras ms b (e : extras) :
    Forall (fun m => exists n, unescape (fst m) = Some n /\
              ((n = "filesAnalyzed" /\ snd m = JBool b) \/
               find_field [req "hasFiles" (c_slice c_doc_element_id zero_DocElementID) ex_HasFiles
                             (fun x e => Extras x (ex_FilesAnalyzed e));
                           req "filesAnalyzed" (c_ptr c_bool false) ex_FilesAnalyzed
                             (fun x e => Extras (ex_HasFiles e) x)] n = None)) ms ->
    exists o, dec c_extras (JObj ms) e = Ok (Extras (ex_HasFiles e) o) /\
      (ex_FilesAnalyzed e <> None \/ (exists m, In m ms /\ unescape (fst m) = Some "filesAnalyzed") -> o <> None).
  Proof.
    cbn [dec c_extras c_struct]. revert e.
    induction ms as [|m r IH]; intros e F.
    - exists (ex_FilesAnalyzed e). cbn. split; [now destruct e|]. intros [H|(m & [] & _)]; assumption.
    - inversion F as [|? ? (n & U & H) F']; subst. cbn [dec_members]. unfold dec_member at 1. rewrite U.
      destruct H as [(-> & E)|N].
      + cbn [find_field find_exact String.eqb]. cbn. rewrite E. cbn.
        destruct (IH (Extras (ex_HasFiles e) (Some b)) F') as (o & D & K). exists o. split; [exact D|].
        intros _. apply K. left. discriminate.
      + rewrite N. cbn [bindR].
        destruct (IH e F') as (o & D & K). exists o. split; [exact D|].
        intros [H|(m' & [<-|I'] & U')]; apply K.
        * now left.
        * rewrite U in U'. injection U' as ->. discriminate.
        * right. eauto.
  Qed.

  Lemma extras_of v p j j' : v <> V21 -> enc (c_struct (fields_of v)) p = Ok j -> canon j -> sim h j j' ->
    exists b, dec c_extras j' (Extras [] None) = Ok (Extras [] (Some b)).
  Proof.
    intros Nv E C S.
    destruct (sim_members h (fields_of v) p j j') as (ms & -> & _ & F & G); auto using fields_ascii, fields_nodup.
    destruct (dec_extras ms (p_FilesAnalyzed p) (Extras [] None)) as (o & D & K).
    - eapply Forall_impl; [|exact F]. intros m (f & j0 & If & U & _ & Ef & Sf). exists (f_name f). split; [assumption|].
      assert (f = req "filesAnalyzed" c_bool p_FilesAnalyzed set_p_FilesAnalyzed \/
              find_field [req "hasFiles" (c_slice c_doc_element_id zero_DocElementID) ex_HasFiles
                             (fun x e => Extras x (ex_FilesAnalyzed e));
                           req "filesAnalyzed" (c_ptr c_bool false) ex_FilesAnalyzed
                             (fun x e => Extras (ex_HasFiles e) x)] (f_name f) = None) as [->|N].
      { destruct v; [congruence| |]; cbv [fields_of fields_22 package_fields opt_in_23 app] in If;
          cbn [In] in If; repeat (destruct If as [<-|If]; [first [left; reflexivity|right; vm_compute; reflexivity]|]); destruct If. }
      + left. split; [reflexivity|]. cbn in Ef. injection Ef as <-. now inversion Sf.
      + now right.
    - destruct o as [b|]; [exists b; exact D|]. exfalso. apply K; [|reflexivity]. right.
      destruct (G (req "filesAnalyzed" c_bool p_FilesAnalyzed set_p_FilesAnalyzed)) as (m & j0 & Im & Em & _).
      + destruct v; [congruence| |]; cbv [fields_of fields_22 package_fields opt_in_23 app]; cbn [In]; do 7 right; left; reflexivity.
      + reflexivity.
      + exists m. split; [assumption|]. rewrite Em. apply unescape_hl. apply asciib_ok. reflexivity.
  Qed.

  (** v2_2's MarshalJSON. *)
  Lemma enc_fields_names {A} (fs : list (field A)) x ms k : enc_fields fs x = Ok ms ->
    forallb asciib (map f_name fs) = true -> existsb (String.eqb k) (map f_name fs) = false ->
    filter (fun m => negb (String.eqb (requote (fst m)) k)) ms = ms.
  Proof.
    intros E U N. destruct (enc_fields_members _ _ _ E) as (F & _). clear E.
    induction F as [|m r (f & j & If & -> & _) _ IH]; [reflexivity|]. cbn [filter fst].
    rewrite requote_escape.
    2:{ apply asciib_ok. rewrite forallb_forall in U. apply U. now apply in_map. }
    destruct (String.eqb_spec (f_name f) k) as [K|K]; [|cbn; now rewrite IH].
    exfalso. assert (existsb (String.eqb k) (map f_name fs) = true); [|congruence].
    apply existsb_exists. exists (f_name f). split; [now apply in_map|]. rewrite K. apply String.eqb_refl.
  Qed.
  Lemma package_22_none p j : p_VerificationCode p = None -> enc (c_struct fields_22) p = Ok j -> canon j ->
    exists j0, enc (c_struct (package_fields V22)) p = Ok j0 /\
      sim false j (delete_member "packageVerificationCode" (through_any j0)).
  Proof.
    intros N E C. cbn [enc c_struct] in *.
    change fields_22 with (fields_before ++ ([opt "packageVerificationCode" code_omit p_VerificationCode set_p_VerificationCode] ++ fields_after))%list in E.
    change (package_fields V22) with (fields_before ++ ([opt "packageVerificationCode" (c_package_code V22) p_VerificationCode set_p_VerificationCode] ++ fields_after))%list.
    rewrite !enc_fields_app in *.
    destruct (enc_fields fields_before p) as [a| |] eqn:Ea; try discriminate. cbn [bindR] in *.
    destruct (enc_fields fields_after p) as [b| |] eqn:Eb.
    2,3: cbn [enc_fields] in E; unfold f_enc in E; cbn [f_omit f_codec f_get opt is_empty code_omit andb] in E;
      rewrite N in E; discriminate.
    cbn [enc_fields] in *. unfold f_enc in *. cbn [f_omit f_codec f_get opt is_empty code_omit andb] in *.
    rewrite N in *. cbn [bindR app] in E. injection E as <-.
    destruct (good_code' h zero_VerificationCode) as (jc & Ec & _ & Cc & _); try constructor.
    cbn [is_empty c_package_code enc andb]. rewrite Ec. cbn [bindR app f_name opt].
    pose proof (enc_fields_names _ _ _ "packageVerificationCode" Ea eq_refl eq_refl) as Fa.
    pose proof (enc_fields_names _ _ _ "packageVerificationCode" Eb eq_refl eq_refl) as Fb.
    exists (JObj (a ++ (escape false "packageVerificationCode", jc) :: b)). split; [reflexivity|].
    assert (utf8_ok "packageVerificationCode") as U by (apply asciib_ok; reflexivity).
    assert (forall m l, filter (fun m : string * json => negb (requote (fst m) =? "packageVerificationCode")) l = l ->
              In m l -> fst m <> escape false "packageVerificationCode") as NI.
    { intros m l F Im. rewrite <- F in Im. apply filter_In in Im as (_ & K). intros E. rewrite E, requote_escape in K by exact U.
      discriminate. }
    assert (canon (JObj (a ++ (escape false "packageVerificationCode", jc) :: b))) as C0.
    { apply canon_obj in C as (Q & Nd & Cs). apply canon_obj.
      rewrite map_app in *. cbn [map fst]. apply Forall_app in Q as (Qa & Qb). apply Forall_app in Cs as (Ca & Cb).
      split; [|split].
      - apply Forall_app. split; [assumption|]. constructor; [|assumption]. eexists; eauto.
      - apply NoDup_Add with (a := escape false "packageVerificationCode") (l := (map fst a ++ map fst b)%list).
        + apply Add_app.
        + split; [assumption|]. intros K. apply in_app_or in K as [K|K]; apply in_map_iff in K as (m & Em & Im).
          * exact (NI m a Fa Im Em).
          * exact (NI m b Fb Im Em).
      - apply Forall_app. split; [assumption|]. constructor; assumption. }
    pose proof (sim_delete "packageVerificationCode" _ _ (sim_through_any _ C0)) as S.
    rewrite filter_app in S. cbn [filter fst] in S. rewrite Fa, Fb, requote_escape in S by exact U. exact S.
  Qed.

  Lemma enc_fields_same {A} (fs : list (field A)) p q :
    fold_right and True (map (fun f => f_get f p = f_get f q) fs) -> enc_fields fs p = enc_fields fs q.
  Proof.
    induction fs as [|f r IH]; cbn [map fold_right enc_fields]; [reflexivity|]. intros (E & H).
    unfold f_enc. now rewrite E, IH.
  Qed.
  Lemma enc_tag v b p : enc (c_struct (fields_of v)) (set_p_IsFilesAnalyzedTagPresent b p) = enc (c_struct (fields_of v)) p.
  Proof.
    cbn [enc c_struct]. rewrite (enc_fields_same (fields_of v) (set_p_IsFilesAnalyzedTagPresent b p) p); [reflexivity|].
    destruct v; cbv [fields_of fields_22 package_fields opt_in_23 app]; cbn [map fold_right];
      repeat (split; [reflexivity|]); exact I.
  Qed.
  Lemma set_tag_back (p : JPackage) b : p_IsFilesAnalyzedTagPresent p = b ->
    set_p_IsFilesAnalyzedTagPresent b (set_p_IsFilesAnalyzedTagPresent false p) = p.
  Proof. intros <-. now destruct p. Qed.

  Lemma good_package v p : package_json v h p -> good_some h (c_package v) zero_jpackage (p, []).
  Proof.
    intros H.
    assert (p_IsFilesAnalyzedTagPresent p = tag_of v) as T by (destruct H as (_ & _ & _ & _ & _ & _ & _ & _ & T & _); exact T).
    destruct (package_struct h v (set_p_IsFilesAnalyzedTagPresent false p)) as (j & E & Nn & C & D).
    { reflexivity. }
    { now rewrite set_tag_back. }
    rewrite enc_tag in E.
    assert (forall j', sim h j j' -> dec (c_package v) j' zero_jpackage = Ok (p, [])) as Dp.
    { intros j' S. specialize (D j' S). rewrite fields_dec in D.
      destruct v.
      - cbn [dec c_package]. change (fst zero_jpackage) with zero_package. rewrite D. cbn [bindR].
        rewrite <- (set_tag_back p false) at 2 by assumption. reflexivity.
      - cbn [dec c_package]. unfold unmarshal_package. rewrite D. cbn [bindR].
        destruct (extras_of V22 p j j') as (b & ->); auto; [discriminate|]. cbn [bindR ex_FilesAnalyzed ex_HasFiles].
        now rewrite set_tag_back.
      - cbn [dec c_package]. unfold unmarshal_package. rewrite D. cbn [bindR].
        destruct (extras_of V23 p j j') as (b & ->); auto; [discriminate|]. cbn [bindR ex_FilesAnalyzed ex_HasFiles].
        now rewrite set_tag_back. }
    destruct v; try (exists j; cbn [enc c_package fst]; auto; fail).
    cbn [fields_of] in E. destruct (p_VerificationCode p) as [c|] eqn:Ev.
    - exists j. cbn [enc c_package fst]. unfold marshal_package_22. rewrite Ev.
      assert (zero_code c = false) as ->.
      { destruct H as (_ & _ & _ & _ & _ & _ & _ & _ & _ & H & _). rewrite Ev in H. destruct H as (_ & _ & H).
        unfold zero_code. destruct (H ltac:(discriminate)) as [K|K].
        - apply String.eqb_neq in K. now rewrite K.
        - destruct (vc_ExcludedFiles c); [congruence|]. apply andb_false_r. }
      assert (enc (c_struct (package_fields V22)) p = Ok j) as ->; [|auto].
      rewrite <- E. cbn [enc c_struct].
      change fields_22 with (fields_before ++ ([opt "packageVerificationCode" code_omit p_VerificationCode set_p_VerificationCode] ++ fields_after))%list.
      change (package_fields V22) with (fields_before ++ ([opt "packageVerificationCode" (c_package_code V22) p_VerificationCode set_p_VerificationCode] ++ fields_after))%list.
      rewrite !enc_fields_app.
      cbn [enc_fields]. unfold f_enc. cbn [f_omit f_codec f_get opt is_empty code_omit c_package_code andb f_name]. rewrite Ev. reflexivity.
    - destruct (package_22_none p j Ev E C) as (j0 & E0 & S0).
      exists (delete_member "packageVerificationCode" (through_any j0)).
      cbn [enc c_package fst]. unfold marshal_package_22. rewrite E0, Ev. cbn [bindR].
      split; [reflexivity|]. split; [|split].
      + intros K. rewrite K in S0. apply Nn. now inversion S0.
      + eapply canon_sim_false; eauto.
      + intros j' S. apply Dp. eapply sim_trans; eauto.
  Qed.

  (** ** Documents *)
  Definition add_files (p : option JPackage) : option jpackage := match p with Some q => Some (q, []) | None => None end.
  Definition as_jdocument (d : JDocument) : jdocument :=
    with_packages (map add_files (d_Packages d)) (d_Relationships d) d.

  Definition document_fields (v : version) : list (field jdocument) :=
    ltac:(let t := eval unfold c_document_struct in (c_document_struct v) in
          match t with c_struct ?l => exact l end).

  Lemma good_document v d : document_json v h d -> good_some h (c_document_struct v) zero_jdocument (as_jdocument d).
  Proof.
    intros (H1 & H2 & H3 & H4 & H5 & H6 & H7 & H8 & H9 & H10 & H11 & H12 & _ & H13 & H14 & H15).
    assert (utf8_ok (d_SPDXVersion d)) as U1 by (rewrite H1; destruct v; apply asciib_ok; reflexivity).
    apply (struct_good' h _ _ (fun d : jdocument => d_Reviews d)).
    - cbn [lenses map fold_right]; repeat split; intros; reflexivity.
    - vm_compute; reflexivity.
    - vm_compute; reflexivity.
    - cbn [map fold_right]. repeat match goal with |- _ /\ _ => split end; try exact I.
      + apply field_req, good_string. assumption.
      + apply field_req, good_string. assumption.
      + apply field_req, good_of_some, good_element_id. assumption.
      + apply field_req, good_string. assumption.
      + apply field_req, good_string. assumption.
      + apply opt_slice; [|reflexivity]. eapply Forall_impl; [|exact H6]. intros x Hx. now apply good_of_some, good_external_document.
      + apply opt_string; [assumption|reflexivity].
      + apply field_req. apply good_ptr. cbn. destruct (d_CreationInfo d); [|exact I]. now apply good_creation.
      + apply opt_slice; [|reflexivity]. cbn. apply Forall_forall. intros o Ho. apply in_map_iff in Ho as (p & <- & Hp).
        apply good_ptr. pose proof (proj1 (Forall_forall _ _) H9 p Hp) as K.
        destruct p as [p|]; [|exact I]. cbn. now apply good_package.
      + apply opt_ptrs; [|reflexivity]. eapply Forall_impl; [|exact H10]. apply opt_impl, good_file.
      + apply opt_ptrs; [|reflexivity]. eapply Forall_impl; [|exact H11]. apply opt_impl, good_other_license.
      + apply opt_ptrs; [|reflexivity]. eapply Forall_impl; [|exact H12]. apply opt_impl, good_relationship.
      + apply opt_ptrs; [|reflexivity]. eapply Forall_impl; [|exact H13]. apply opt_impl, good_annotation.
      + apply opt_slice; [|reflexivity]. eapply Forall_impl; [|exact H14]. intros x Hx. now apply good_of_some, good_snippet.
    - exact H15.
    - intros [] Ig. destruct d. cbn in *. subst. intros Q.
      repeat match goal with H : _ /\ _ |- _ => destruct H end. subst. reflexivity.
  Qed.

  (** Nothing written by us is a documentDescribes member. *)
  Lemma no_describes ms :
    Forall (fun m : string * json => exists n, unescape (fst m) = Some n /\
              find_field [req "documentDescribes" (c_slice c_doc_element_id zero_DocElementID)
       (fun x => x) (fun x _ => x)] n = None) ms ->
    forall l, dec c_describes (JObj ms) l = Ok l.
  Proof.
    intros F l. cbn [dec c_describes c_struct]. revert l. induction F as [|m r (n & U & N) _ IH]; intros l; [reflexivity|].
    cbn [dec_members]. unfold dec_member. rewrite U, N. cbn [bindR]. apply IH.
  Qed.
  Lemma last_member_in k ms x : last_member k ms = Some x -> exists k', In (k', x) ms /\ requote k' = k.
  Proof.
    induction ms as [|(k', j) r IH]; cbn; [discriminate|].
    destruct (last_member k r) as [y|].
    - intros E. injection E as ->. destruct (IH eq_refl) as (k1 & I1 & E1). exists k1. auto.
    - destruct (String.eqb_spec (requote k') k); [|discriminate]. intros E. injection E as ->. exists k'. auto.
  Qed.
  Lemma last_member_some k ms m : In m ms -> requote (fst m) = k -> last_member k ms <> None.
  Proof.
    induction ms as [|(k', j) r IH]; [intros []|]. intros [<-|I] E; cbn in *.
    - destruct (last_member k r); [discriminate|]. rewrite E, String.eqb_refl. discriminate.
    - destruct (last_member k r); [discriminate|]. exfalso. now apply IH.
  Qed.
  Lemma document_names_ok v : forallb asciib (map f_name (document_fields v)) = true /\
    nodupb (map f_name (document_fields v)) = true.
  Proof. split; vm_compute; reflexivity. Qed.

  Lemma document_view v d j j' : enc (c_document_struct v) (as_jdocument d) = Ok j -> canon j -> sim h j j' ->
    utf8_ok (d_SPDXVersion d) ->
    exists ms r, j' = JObj ms /\ last_member "spdxVersion" ms = Some (JStr r) /\ requote r = d_SPDXVersion d /\
      dec c_describes j' [] = Ok [].
  Proof.
    intros E C S U. destruct (document_names_ok v) as (A1 & A2).
    destruct (sim_members h (document_fields v) (as_jdocument d) j j' A1 A2 E C S) as (ms & -> & _ & F & G).
    assert (exists x, last_member "spdxVersion" ms = Some x) as (x & Ex).
    { destruct (G (req "spdxVersion" c_string d_SPDXVersion set_d_SPDXVersion)) as (m & j0 & Im & Em & _).
      - unfold document_fields. cbn [In]. left. reflexivity.
      - reflexivity.
      - destruct (last_member "spdxVersion" ms) as [x|] eqn:Ex; [eauto|]. exfalso. revert Ex.
        apply (last_member_some _ _ m Im). rewrite Em. unfold requote.
        rewrite unescape_hl; [reflexivity|]. apply asciib_ok. reflexivity. }
    destruct (last_member_in _ _ _ Ex) as (k & Ik & Rk).
    destruct (proj1 (Forall_forall _ _) F _ Ik) as (f & j0 & If & Uf & _ & Ef & Sf). cbn [fst snd] in *.
    unfold requote in Rk. rewrite Uf in Rk.
    assert (f = req "spdxVersion" c_string d_SPDXVersion set_d_SPDXVersion) as ->.
    { unfold document_fields in If. cbn [In] in If.
      destruct If as [<-|If]; [reflexivity|]. exfalso.
      repeat (destruct If as [<-|If]; [discriminate Rk|]). destruct If. }
    cbn in Ef. injection Ef as <-. inversion Sf as [| | |? K| |]; subst.
    eexists ms, _. split; [reflexivity|]. split; [exact Ex|]. split.
    - unfold requote. rewrite unescape_hl; [reflexivity|exact U].
    - apply no_describes. eapply Forall_impl; [|exact F]. intros m (f & j0 & If' & Uf' & _). exists (f_name f).
      split; [assumption|]. unfold document_fields in If'. cbn [In] in If'.
      repeat (destruct If' as [<-|If']; [vm_compute; reflexivity|]). destruct If'.
  Qed.

  Lemma drop_nil_some X (l : list X) : drop_nil (map Some l) = l.
  Proof. induction l as [|x l IH]; [reflexivity|]. cbn [map drop_nil]. now rewrite IH. Qed.
  Lemma some_drop_nil X (l : list (option X)) : ~ In None l -> map Some (drop_nil l) = l.
  Proof.
    induction l as [|[x|] l IH]; intros H; [reflexivity| |destruct H; now left].
    cbn [map drop_nil]. now rewrite IH by (intros K; apply H; now right).
  Qed.
  Lemma complete_none id rels pk : complete_relationships id rels [] (map add_files pk) = drop_nil rels.
  Proof.
    unfold complete_relationships. cbn [map fold_left].
    match goal with |- fst (fold_left ?f _ ?s) = _ => assert (fold_left f (map add_files pk) s = s) as -> end; [|reflexivity].
    induction pk as [|[p|] r IH]; [reflexivity| |]; exact IH.
  Qed.
  Lemma unmarshal_back v d j : dec (c_document_struct v) j zero_jdocument = Ok (as_jdocument d) ->
    dec c_describes j [] = Ok [] -> (v <> V21 -> ~ In None (d_Relationships d)) -> unmarshal_document v j = Ok d.
  Proof.
    intros D K N. unfold unmarshal_document. rewrite D. unfold as_jdocument. cbn [bindR].
    assert (forall rels : list (option Relationship), with_packages (map drop_has_files (d_Packages (with_packages (map add_files (d_Packages d)) (d_Relationships d) d)))
              rels (with_packages (map add_files (d_Packages d)) (d_Relationships d) d) =
            with_packages (d_Packages d) rels d) as W.
    { intros rels. unfold with_packages. cbn [d_Packages d_SPDXVersion d_DataLicense d_SPDXIdentifier d_DocumentName d_DocumentNamespace d_ExternalDocumentReferences d_DocumentComment d_CreationInfo d_Files d_OtherLicenses d_Annotations d_Snippets d_Reviews]. f_equal. rewrite map_map. rewrite <- (map_id (d_Packages d)) at 2.
      apply map_ext. now intros [p|]. }
    assert (with_packages (d_Packages d) (d_Relationships d) d = d) as W' by (now destruct d).
    destruct v.
    - rewrite W. exact (f_equal Ok W').
    - rewrite K. cbn [bindR]. rewrite W. cbn [d_Packages d_Relationships with_packages]. now rewrite complete_none, some_drop_nil, W' by (apply N; discriminate).
    - rewrite K. cbn [bindR]. rewrite W. cbn [d_Packages d_Relationships with_packages]. now rewrite complete_none, some_drop_nil, W' by (apply N; discriminate).
  Qed.

  Theorem json_round_trip v d : document_json v h d ->
    exists j, marshal_document v h d = Ok j /\ read_value j = Ok (v, d).
  Proof.
    intros H. destruct (good_document v d H) as (j & E & _ & C & D).
    unfold marshal_document. fold add_files. fold (as_jdocument d). rewrite E. cbn [bindR].
    eexists. split; [reflexivity|].
    pose proof (sim_encoded h j) as S. set (j' := if h then html j else j) in *. clearbody j'.
    assert (d_SPDXVersion d = version_string v) as Ev by (destruct H as (H & _); rewrite H; now destruct v).
    destruct (document_view v d j j' E C S) as (ms & r & -> & L & R & K).
    { rewrite Ev. destruct v; apply asciib_ok; reflexivity. }
    pose proof (unmarshal_back v d _ (D _ S) K ltac:(apply H)) as B.
    unfold read_value. rewrite L, R, Ev.
    destruct v.
    - change (version_string V21 =? version_string V21) with true. cbv iota. now rewrite B.
    - change (version_string V22 =? version_string V21) with false.
      change (version_string V22 =? version_string V22) with true. cbv iota. now rewrite B.
    - change (version_string V23 =? version_string V21) with false.
      change (version_string V23 =? version_string V22) with false.
      change (version_string V23 =? version_string V23) with true. cbv iota. now rewrite B.
  Qed.
End Round.
