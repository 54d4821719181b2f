(** Lemmas about reading JSON text into the struct of a version. *)
From Verif Require Import GoStr GoStrFacts Types TvUtil Json JsonSpdx JsonReadDoc JsonReadFacts JsonText SpecConvert SpecUpgrade Convert ConvertGo ConvertFacts ConvertGoFacts ConvertDoc ConvertRecord.
Local Open Scope string_scope.

(** ** Files that are read carry no snippets *)
Definition stays {A} (P : A -> Prop) (f : field A) : Prop :=
  forall j a x, P a -> dec (f_codec f) j (f_get f a) = Ok x -> P (f_set f x a).
Lemma stays_struct A (P : A -> Prop) (fs : list (field A)) j a x : fold_right and True (map (stays P) fs) -> P a ->
  dec (c_struct fs) j a = Ok x -> P x.
Proof.
  intros H. assert (F : Forall (stays P) fs) by (induction fs; constructor; destruct H; auto). clear H.
  destruct j as [|b|t|r|l|ms]; cbn [dec c_struct]; try discriminate; [intros Q E; now inversion E; subst|].
  revert a. induction ms as [|m r IH]; intros a Q E; cbn [dec_members] in E; [now inversion E; subst|].
  apply bindR_ok_iff in E as (a' & E & E'). apply (IH a'); [|exact E']. unfold dec_member in E. destruct (unescape (fst m)) as [k|]; [|discriminate].
  destruct (find_field fs k) as [f|] eqn:FF; [|now inversion E; subst].
  assert (I : In f fs).
  { unfold find_field in FF. destruct (find_exact fs k) as [g|] eqn:G.
    - inversion FF; subst g. clear -G. induction fs as [|h t IH]; cbn in G; [discriminate|]. destruct (String.eqb _ _); [inversion G; now left|right; auto].
    - clear -FF. induction fs as [|h t IH]; cbn in FF; [discriminate|]. destruct (String.eqb _ _); [inversion FF; now left|right; auto]. }
  unfold f_dec in E. apply bindR_ok_iff in E as (y & E & E2). inversion E2; subst a'. rewrite Forall_forall in F. exact (F f I _ _ _ Q E).
Qed.
Lemma slice_all X (P : X -> Prop) (c : codec X) z j old l : P z -> Forall P old -> (forall j o x, P o -> dec c j o = Ok x -> P x) ->
  dec (c_slice c z) j old = Ok l -> Forall P l.
Proof.
  intros Z O H. destruct j as [|b|t|r|js|ms]; cbn [dec c_slice]; try discriminate; [intros E; inversion E; constructor|].
  revert old O l. induction js as [|x r IH]; intros old O l E; cbn [dec_elements] in E; [inversion E; constructor|].
  apply bindR_ok_iff in E as (y & E1 & E). apply bindR_ok_iff in E as (ys & E2 & E). inversion E; subst.
  destruct O as [|o old Po O]; constructor; eauto.
Qed.
Definition if_any {X} (P : X -> Prop) (o : option X) : Prop := match o with Some x => P x | None => True end.
Lemma ptr_all X (P : X -> Prop) (c : codec X) z j old o : P z -> (forall j a x, P a -> dec c j a = Ok x -> P x) ->
  if_any P old -> dec (c_ptr c z) j old = Ok o -> if_any P o.
Proof.
  intros Z H O. destruct j; cbn [dec c_ptr]; intros E; try (inversion E; exact I);
    apply bindR_ok_iff in E as (x & E1 & E); inversion E; subst; destruct old; eapply H; try exact E1; assumption.
Qed.
Lemma ptrs_all X (P : X -> Prop) (c : codec X) z j old l : P z -> (forall j a x, P a -> dec c j a = Ok x -> P x) -> Forall (if_any P) old ->
  dec (c_ptrs c z) j old = Ok l -> Forall (if_any P) l.
Proof. intros Z H O. apply slice_all; [exact I|exact O|]. intros j' o x. now apply (ptr_all X P c z). Qed.
Definition no_snippets (f : JFile) : Prop := f_Snippets f = [].
Lemma file_read v j a x : no_snippets a -> dec (c_file v) j a = Ok x -> no_snippets x.
Proof.
  intros A E. refine (stays_struct _ no_snippets _ j a x _ A E).
  destruct v; cbn [map fold_right app]; cbv [req opt opt_in_23]; cbn [f_codec]; repeat apply conj;
    try exact I; intros j0 b y P _; exact P.
Qed.
Definition bare_package (p : JPackage) : Prop := Forall (if_any no_snippets) (p_Files p).
Lemma package_read v j a x : bare_package a -> dec (c_struct (package_fields v)) j a = Ok x -> bare_package x.
Proof.
  intros A E. refine (stays_struct _ bare_package _ j a x _ A E).
  destruct v; cbn [map fold_right app package_fields]; cbv [req opt opt_in_23]; cbn [f_codec]; repeat apply conj;
    try exact I; intros j0 b y P D; try exact P; (refine (ptrs_all _ no_snippets _ _ _ _ _ _ _ P D); [reflexivity|intros; eapply file_read; eauto]).
Qed.
Definition bare_jpackage (o : option jpackage) : Prop := match o with Some p => bare_package (fst p) | None => True end.
Lemma jpackage_read v j a x : bare_package (fst a) -> dec (c_package v) j a = Ok x -> bare_package (fst x).
Proof.
  intros A.
  assert (Z : bare_package zero_package) by constructor.
  assert (U : unmarshal_package v j = Ok x -> bare_package (fst x)).
  { unfold unmarshal_package. intros E. apply bindR_ok_iff in E as (p & E1 & E). apply bindR_ok_iff in E as (e & E2 & E). inversion E; subst. cbn [fst].
    apply package_read in E1; [|exact Z]. destruct (ex_FilesAnalyzed e); exact E1. }
  destruct v; cbn [dec c_package]; try exact U. intros E. apply bindR_ok_iff in E as (q & E1 & E). inversion E; subst. cbn [fst].
  exact (package_read V21 _ _ _ A E1).
Qed.
Definition bare_document (d : jdocument) : Prop :=
  Forall (if_any no_snippets) (d_Files d) /\ Forall bare_jpackage (d_Packages d).
Lemma document_struct_read v j x : dec (c_document_struct v) j zero_jdocument = Ok x -> bare_document x.
Proof.
  intros E. refine (stays_struct _ bare_document _ j zero_jdocument x _ (conj (Forall_nil _) (Forall_nil _)) E).
  unfold c_document_struct. cbn [map fold_right]. cbv [req opt]. cbn [f_codec]. repeat apply conj; try exact I; intros j0 b y P D; try exact P; destruct P as [P1 P2]; split; cbn [f_set]; try assumption.
  - refine (slice_all _ bare_jpackage (c_ptr (c_package v) zero_jpackage) None _ _ _ I P2 _ D). intros j' o x' O. refine (ptr_all _ (fun p => bare_package (fst p)) _ _ _ _ _ _ _ O); [constructor|]. intros; eapply jpackage_read; eauto.
  - refine (ptrs_all _ no_snippets _ _ _ _ _ _ _ P1 D); [reflexivity|]. intros; eapply file_read; eauto.
Qed.
Definition bare_JDocument (d : JDocument) : Prop :=
  Forall (if_any no_snippets) (d_Files d) /\ Forall (fun o => match o with Some p => bare_package p | None => True end) (d_Packages d).
Lemma read_bare j v d : read_value j = Ok (v, d) -> bare_JDocument d.
Proof.
  assert (U : forall v d, unmarshal_document v j = Ok d -> bare_JDocument d).
  { clear. intros v d. unfold unmarshal_document. intros E. apply bindR_ok_iff in E as (d0 & E1 & E). apply document_struct_read in E1 as [F P].
    assert (G : Forall (fun o => match o with Some p => bare_package p | None => True end) (map drop_has_files (d_Packages d0))).
    { apply Forall_map. eapply Forall_impl; [|exact P]. intros [[p fs]|]; [intros X; exact X|intros _; exact I]. }
    destruct v; [inversion E; subst; split; assumption|..]; apply bindR_ok_iff in E as (y & E2 & E); inversion E; subst; split; assumption. }
  unfold read_value. destruct j as [| | | | |ms]; try discriminate. destruct (last_member _ _) as [[| | |r| |]|]; try discriminate.
  repeat (destruct (String.eqb _ _); [intros E; apply bindR_ok_iff in E as (y & E2 & E); inversion E; subst; eauto|]). discriminate.
Qed.

(** ** The document read, as a Go value *)
Local Transparent T_Document.
Lemma typed_ptr_if {A} (P : A -> Prop) t (f : A -> gval) o : (forall x, P x -> typed t (f x)) -> if_any P o -> typed (TPtr t) (go_ptr f o).
Proof. intros H. destruct o; cbn; [intros K; constructor; auto|intros _; constructor]. Qed.
Lemma typed_jfile v f : no_snippets f -> typed (T_File v) (go_jfile v f).
Proof.
  intros K. destruct v; unfold T_File, go_jfile, go_file_of; cbn [app]; fields;
    first [leaf|apply typed_list', typed_checksum|apply typed_list'; intros x; apply typed_ptr, typed_artifact|apply typed_list', typed_annotation|
           rewrite K; constructor].
Qed.
Lemma typed_jfiles v l : Forall (if_any no_snippets) l -> typed (TSlice (TPtr (T_File v))) (go_list (go_ptr (go_jfile v)) l).
Proof. intros F. apply typed_list. eapply Forall_impl; [|exact F]. intros o. apply typed_ptr_if, typed_jfile. Qed.
Lemma typed_jpackage v p : bare_package p -> typed (T_Package v) (go_jpackage v p).
Proof.
  intros K. destruct v; unfold T_Package, go_jpackage, go_package_of; cbn [app]; fields;
    first [leaf|apply typed_ptr, typed_supplier|apply typed_ptr, typed_originator|apply typed_code|apply typed_ptr, typed_code|
           apply typed_list', typed_checksum|apply typed_list'; intros x; apply typed_ptr, typed_external_ref|apply typed_list', typed_annotation|
           exact (typed_jfiles _ _ K)].
Qed.
Lemma typed_jdocument v d : bare_JDocument d -> typed (T_Document v) (go_jdocument v d).
Proof.
  intros [F P]. unfold T_Document, go_jdocument, go_document_of. fields;
    first [leaf|apply typed_ptr, typed_creation_info|apply typed_list', typed_external_document|apply typed_list'; intros x; apply typed_ptr, typed_license|
           apply typed_list'; intros x; apply typed_ptr, typed_relationship|apply typed_list'; intros x; apply typed_ptr, typed_annotation|
           apply typed_list', typed_snippet|apply typed_ptrs', typed_review|exact (typed_jfiles _ _ F)|idtac].
  apply typed_list. eapply Forall_impl; [|exact P]. intros o. apply typed_ptr_if, typed_jpackage.
Qed.
Local Opaque T_Document.
Lemma go_list_plain X Y (g : X -> Y) (f : Y -> gval) h l : (forall x, f (g x) = h x) -> go_list f (map g l) = go_list h l.
Proof. intros E. unfold go_list. destruct l as [|x l]; [reflexivity|]. cbn [map]. do 2 f_equal; [apply E|]. rewrite map_map. now apply map_ext. Qed.
Lemma go_jfile_plain v f : go_jfile v (jfile f) = go_file v f.
Proof.
  unfold go_jfile, go_file, go_file_of, jfile.
  cbn [f_FileName f_SPDXIdentifier f_FileTypes f_Checksums f_LicenseConcluded f_LicenseInfoInFiles f_LicenseComments f_CopyrightText f_Artifacts f_Comment f_Notice
    f_Contributors f_AttributionTexts f_Dependencies f_Snippets f_Annotations].
  rewrite (go_list_plain _ _ _ _ (fun a => VPtr (go_artifact a))) by reflexivity. reflexivity.
Qed.
Lemma go_jpackage_plain v p : go_jpackage v (jpkg p) = go_package v p.
Proof.
  unfold go_jpackage, go_package, go_package_of, jpkg.
  cbn [p_IsUnpackaged p_PackageName p_SPDXIdentifier p_Version p_FileName p_Supplier p_Originator p_DownloadLocation p_FilesAnalyzed
    p_IsFilesAnalyzedTagPresent p_VerificationCode p_Checksums p_HomePage p_SourceInfo p_LicenseConcluded p_LicenseInfoFromFiles p_LicenseDeclared
    p_LicenseComments p_CopyrightText p_Summary p_Description p_Comment p_ExternalReferences p_AttributionTexts p_PrimaryPackagePurpose p_ReleaseDate
    p_BuiltDate p_ValidUntilDate p_Files p_Annotations].
  rewrite (go_list_plain _ _ _ _ (fun e => VPtr (go_external_ref e))) by reflexivity.
  rewrite (go_list_plain _ _ _ _ (fun f => VPtr (go_file v f))) by (intros f; cbn [go_ptr]; now rewrite go_jfile_plain). reflexivity.
Qed.
Lemma go_jdocument_plain v (d : Document) : go_jdocument v (jdoc d) = go_document v d.
Proof.
  unfold go_jdocument, go_document, go_document_of, jdoc.
  cbn [d_SPDXVersion d_DataLicense d_SPDXIdentifier d_DocumentName d_DocumentNamespace d_ExternalDocumentReferences d_DocumentComment d_CreationInfo d_Packages
    d_Files d_OtherLicenses d_Relationships d_Annotations d_Snippets d_Reviews].
  rewrite (go_list_plain _ _ _ _ (fun p => VPtr (go_package v p))) by (intros p; cbn [go_ptr]; now rewrite go_jpackage_plain).
  rewrite (go_list_plain _ _ _ _ (fun f => VPtr (go_file v f))) by (intros f; cbn [go_ptr]; now rewrite go_jfile_plain).
  rewrite (go_list_plain _ _ _ _ (fun l => VPtr (go_license l))) by reflexivity.
  rewrite (go_list_plain _ _ _ _ (fun r => VPtr (go_relationship r))) by reflexivity.
  rewrite (go_list_plain _ _ _ _ (fun a => VPtr (go_annotation a))) by reflexivity. reflexivity.
Qed.

(** ** The public reader *)
Section Read.
  Variable dz : bool.
  Lemma json_read_into_value s v d : json_read_into s = Ok (v, d) -> exists j, read_value j = Ok (v, d).
  Proof. unfold json_read_into. destruct (parse_text s) as [j|]; [|discriminate]. destruct (floats_ok j); [eauto|discriminate]. Qed.
  Lemma json_read_total to s :
    (exists d, json_read dz to s = Ok d /\ typed (T_Document to) d) \/ (exists e, json_read dz to s = Err e).
  Proof.
    unfold json_read. destruct (json_read_into s) as [[v d]|e|] eqn:R; cbn [bindR].
    - left. destruct (json_read_into_value s v d R) as (j & J). destruct (convert_ok dz v to _ (typed_jdocument v d (read_bare j v d J))) as (d' & E & T). eauto.
    - right. eauto.
    - exfalso. unfold json_read_into in R. destruct (parse_text s) as [j|]; [|discriminate]. destruct (floats_ok j); [|discriminate]. now apply read_no_panic in R.
  Qed.
  Lemma json_read_get to s v d p : json_read_into s = Ok (v, d) ->
    path_of (T_Document v) p = true -> path_of (T_Document to) p = true -> p <> [Fld "SPDXVersion"] ->
    exists d', json_read dz to s = Ok d' /\ get (T_Document to) d' p = get (T_Document v) (go_jdocument v d) p.
  Proof.
    intros R P P' N. unfold json_read. rewrite R. cbn [bindR]. destruct (json_read_into_value s v d R) as (j & J). pose proof (typed_jdocument v d (read_bare j v d J)) as T.
    destruct (convert_ok dz v to _ T) as (d' & E & _). exists d'. split; [exact E|]. exact (convert_get dz v to _ d' p T E P P' N).
  Qed.
  Lemma json_read_same s v d : json_read_into s = Ok (v, d) -> json_read dz v s = Ok (go_jdocument v d).
  Proof. intros R. unfold json_read. rewrite R. cbn [bindR]. destruct v; reflexivity. Qed.
  Lemma json_read_23 s v d : json_read_into s = Ok (v, jdoc d) ->
    solid (go_document v d) -> json_read dz V23 s = Ok (go_document V23 (in_version v V23 d)).
  Proof.
    intros R S. unfold json_read. rewrite R. cbn [bindR]. rewrite go_jdocument_plain. destruct (json_read_into_value _ _ _ R) as (j & J).
    assert (K : keys_distinct d).
    { assert (K : forall l, Forall (if_any no_snippets) (map (fun f => Some (jfile f)) l) -> Forall file_keys l).
      { intros l F. rewrite Forall_map in F. revert F. apply Forall_impl. intros f N. unfold file_keys. cbn [if_any] in N. unfold no_snippets, jfile in N.
        cbn [f_Snippets] in N. rewrite N. constructor. }
      destruct (read_bare j v _ J) as [F P]. split; [now apply K|]. cbn [jdoc d_Packages] in P. rewrite Forall_map in P. eapply Forall_impl; [|exact P].
      intros p B. now apply K. }
    destruct v; [apply upgrade_record; auto; constructor|apply upgrade_record; auto; constructor|reflexivity].
  Qed.
End Read.
