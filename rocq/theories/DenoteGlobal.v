(** The document-level part of the declarative reading is an invariant of the
    parser: relationships, annotations, licenses, reviews, creation information
    and document fields, for all inputs. *)
From Verif Require Import GoStr GoStrFacts Types TvState TvUtil TvReader TvParser SpecTv SpecId SpecDoc SpecRead
  TvReaderFacts TvUtilFacts TvParserFacts DenoteBase.

Definition doc_with (s : pstate) (P : DocumentArena -> Prop) : Prop :=
  match ps_doc s with Some d => P d | None => False end.

(** creation information without the question whether there is any *)
Definition ci_fields (h : pairs) (ci : CreationInfo) : Prop :=
  ci_LicenseListVersion ci = last_value "LicenseListVersion" h /\
  Forall2 (fun x c => actor_text actor3 x (cr_CreatorType c) (cr_Creator c))
          (values "Creator" h) (ci_Creators ci) /\
  ci_Created ci = last_value "Created" h /\
  ci_CreatorComment ci = last_value "CreatorComment" h.
Definition ci_weak (h : pairs) (c : option CreationInfo) : Prop :=
  match c with
  | None => Forall (fun p => In (fst p) document_tags) h
  | Some ci => ci_fields h ci
  end.

Record gweak (v : version) (l : pairs) (d : DocumentArena) : Prop := {
  w_version : d_SPDXVersion d = last_value "SPDXVersion" l;
  w_license : d_DataLicense d = last_value "DataLicense" l;
  w_name : d_DocumentName d = last_value "DocumentName" l;
  w_namespace : d_DocumentNamespace d = last_value "DocumentNamespace" l;
  w_comment : d_DocumentComment d = last_value "DocumentComment" l;
  w_edrs : Forall2 edr_text (values "ExternalDocumentRef" l) (d_ExternalDocumentReferences d);
  w_ci : ci_weak l (d_CreationInfo d);
  w_licenses : Forall2 license_den (parts_of "LicenseID" l) (d_OtherLicenses d);
  w_rels : Forall2 (relationship_den v) (parts_of "Relationship" l) (d_Relationships d);
  w_anns : Forall2 annotation_den (parts_of "Annotator" l) (d_Annotations d);
  w_reviews : Forall2 review_den (parts_of "Reviewer" l) (d_Reviews d);
  w_snippets : d_Snippets d = []
}.

Record ginv (v : version) (h : pairs) (s : pstate) (d : DocumentArena) : Prop := {
  gi_doc : ps_doc s = Some d;
  gi_den : gweak v h d;
  gi_lic : ps_lic s = ptr (length (d_OtherLicenses d));
  gi_rln : ps_rln s = ptr (length (d_Relationships d));
  gi_ann : ps_ann s = ptr (length (d_Annotations d));
  gi_rev : ps_rev s = ptr (length (d_Reviews d))
}.

Lemma ginv_start v : ginv v [] start_pstate zero_DocumentOf.
Proof. constructor; try reflexivity. constructor; simpl; auto; constructor. Qed.

(** ** Tags not concerned *)
Definition gtags : list string :=
  ["SPDXVersion"; "DataLicense"; "DocumentName"; "DocumentNamespace"; "DocumentComment";
   "ExternalDocumentRef"; "LicenseListVersion"; "Creator"; "Created"; "CreatorComment";
   "LicenseID"; "ExtractedText"; "LicenseName"; "LicenseCrossReference"; "LicenseComment";
   "Relationship"; "RelationshipComment"; "Annotator"; "AnnotationDate"; "AnnotationType";
   "SPDXREF"; "AnnotationComment"; "Reviewer"; "ReviewDate"; "ReviewComment"].

Lemma neq_of l t k : mem t l = false -> mem k l = true -> (t =? k) = false.
Proof. intros H1 H2. destruct (String.eqb_spec t k); [congruence|reflexivity]. Qed.
Lemma values_other l t x k h : mem t l = false -> mem k l = true -> values k (h ++ [(t, x)]) = values k h.
Proof. intros H1 H2. now rewrite values_snoc, (neq_of l) by assumption. Qed.
Lemma last_value_other l t x k h : mem t l = false -> mem k l = true -> last_value k (h ++ [(t, x)]) = last_value k h.
Proof. intros H1 H2. now rewrite last_value_snoc, (neq_of l) by assumption. Qed.
Lemma parts_other l t x k h : mem t l = false -> mem k l = true ->
  parts_of k (h ++ [(t, x)]) = update_last (add (t, x)) (parts_of k h).
Proof. intros H1 H2. now rewrite parts_snoc, (neq_of l) by assumption. Qed.

Lemma rel_stable v t x g r : t <> "RelationshipComment" -> relationship_den v g r -> relationship_den v (add (t, x) g) r.
Proof.
  intros H [H1 H2]. split; [exact H1|]. simpl. rewrite last_value_snoc.
  destruct (String.eqb_spec t "RelationshipComment"); [contradiction|exact H2].
Qed.
Ltac neq t k := destruct (String.eqb_spec t k); [contradiction|].
Lemma ann_stable t x g a : t <> "AnnotationDate" -> t <> "AnnotationType" -> t <> "AnnotationComment" ->
  t <> "SPDXREF" -> annotation_den g a -> annotation_den (add (t, x) g) a.
Proof.
  intros N1 N2 N3 N4 (H1 & H2 & H3 & H4 & H5). unfold annotation_den. simpl.
  rewrite !last_value_snoc, values_snoc.
  neq t "AnnotationDate". neq t "AnnotationType". neq t "AnnotationComment". neq t "SPDXREF". auto 10.
Qed.
Lemma rev_stable t x g r : t <> "ReviewDate" -> t <> "ReviewComment" -> review_den g r -> review_den (add (t, x) g) r.
Proof.
  intros N1 N2 (H1 & H2 & H3). unfold review_den. simpl. rewrite !last_value_snoc.
  neq t "ReviewDate". neq t "ReviewComment". auto.
Qed.
Lemma lic_stable t x g o : t <> "ExtractedText" -> t <> "LicenseName" -> t <> "LicenseCrossReference" ->
  t <> "LicenseComment" -> license_den g o -> license_den (add (t, x) g) o.
Proof.
  intros N1 N2 N3 N4 (H1 & H2 & H3 & H4 & H5). unfold license_den. simpl.
  rewrite !last_value_snoc, values_snoc.
  neq t "ExtractedText". neq t "LicenseName". neq t "LicenseCrossReference". neq t "LicenseComment". auto 10.
Qed.
Lemma ci_stable t x h c :
  t <> "LicenseListVersion" -> t <> "Creator" -> t <> "Created" -> t <> "CreatorComment" ->
  (In t document_tags \/ c <> None) -> ci_weak h c -> ci_weak (h ++ [(t, x)]) c.
Proof.
  intros N1 N2 N3 N4 D H. destruct c as [ci|]; simpl in *.
  - destruct H as (H1 & H2 & H3 & H4). unfold ci_fields. rewrite !last_value_snoc, values_snoc.
    neq t "LicenseListVersion". neq t "Creator". neq t "Created". neq t "CreatorComment". auto.
  - apply Forall_app. split; [assumption|]. constructor; [|constructor]. simpl. destruct D; [assumption|congruence].
Qed.

Lemma mem_neq t l k : mem t l = false -> mem k l = true -> t <> k.
Proof. congruence. Qed.
Lemma globals_stable v t x h (d : DocumentArena) : mem t gtags = false ->
  (In t document_tags \/ d_CreationInfo d <> None) ->
  gweak v h d -> gweak v (h ++ [(t, x)]) d.
Proof.
  intros M C []. constructor;
    rewrite ?(last_value_other gtags) by (assumption || reflexivity); auto.
  - now rewrite (values_other gtags) by (assumption || reflexivity).
  - apply ci_stable; auto; apply (mem_neq t gtags); auto.
  - rewrite (parts_other gtags) by (assumption || reflexivity). apply Forall2_stable; [|assumption].
    intros ? ?. apply lic_stable; apply (mem_neq t gtags); auto.
  - rewrite (parts_other gtags) by (assumption || reflexivity). apply Forall2_stable; [|assumption].
    intros ? ?. apply rel_stable; apply (mem_neq t gtags); auto.
  - rewrite (parts_other gtags) by (assumption || reflexivity). apply Forall2_stable; [|assumption].
    intros ? ?. apply ann_stable; apply (mem_neq t gtags); auto.
  - rewrite (parts_other gtags) by (assumption || reflexivity). apply Forall2_stable; [|assumption].
    intros ? ?. apply rev_stable; apply (mem_neq t gtags); auto.
Qed.

(** ** Actions that leave the document-level part alone *)
Definition dsame (d d' : DocumentArena) : Prop :=
  exists i p f, d' = set_d_SPDXIdentifier i (set_d_Packages p (set_d_Files f d)).
Definition gsame (s s' : pstate) : Prop :=
  (forall d, ps_doc s = Some d -> exists d', ps_doc s' = Some d' /\ dsame d d') /\
  ps_lic s' = ps_lic s /\ ps_rln s' = ps_rln s /\ ps_ann s' = ps_ann s /\ ps_rev s' = ps_rev s.

Lemma dsame_refl d : dsame d d.
Proof. exists (d_SPDXIdentifier d), (d_Packages d), (d_Files d). now destruct d. Qed.
Lemma dsame_trans d1 d2 d3 : dsame d1 d2 -> dsame d2 d3 -> dsame d1 d3.
Proof. intros (i & p & f & ->) (i' & p' & f' & ->). exists i', p', f'. now destruct d1. Qed.
Lemma gsame_refl s : gsame s s.
Proof. split; [|auto]. intros d H. exists d. split; [exact H|apply dsame_refl]. Qed.
Lemma gsame_trans s1 s2 s3 : gsame s1 s2 -> gsame s2 s3 -> gsame s1 s3.
Proof.
  intros (A & A1 & A2 & A3 & A4) (B & B1 & B2 & B3 & B4). split; [|repeat split; congruence].
  intros d H. destruct (A d H) as (d' & H' & S). destruct (B d' H') as (d'' & H'' & S').
  exists d''. split; [exact H''|eapply dsame_trans; eauto].
Qed.
(** states with the same document *)
Lemma gsame_doc s s' : ps_doc s' = ps_doc s -> ps_lic s' = ps_lic s -> ps_rln s' = ps_rln s ->
  ps_ann s' = ps_ann s -> ps_rev s' = ps_rev s -> gsame s s'.
Proof. intros E. split; [|auto]. intros d D. exists d. rewrite E. split; [exact D|apply dsame_refl]. Qed.

Lemma ginv_same v h s s' d : ginv v h s d -> gsame s s' -> exists d', ginv v h s' d' /\ d_CreationInfo d' = d_CreationInfo d.
Proof.
  intros [] (A & A1 & A2 & A3 & A4). destruct (A _ gi_doc0) as (d' & D & (i & p & f & ->)).
  exists (set_d_SPDXIdentifier i (set_d_Packages p (set_d_Files f d))). split; [|reflexivity].
  constructor; simpl; try congruence. destruct gi_den0. constructor; assumption.
Qed.

(** what a step must establish *)
Definition gok (v : version) (h : pairs) (s : pstate) : Prop := exists d, ginv v h s d /\ d_CreationInfo d <> None.

Lemma gok_same v h s s' : gok v h s -> gsame s s' -> gok v h s'.
Proof. intros (d & G & C) S. destruct (ginv_same _ _ _ _ _ G S) as (d' & G' & E). exists d'. split; congruence. Qed.
Lemma gok_other v h t x s s' : gok v h s -> mem t gtags = false -> gsame s s' -> gok v (h ++ [(t, x)]) s'.
Proof.
  intros (d & G & C) M S. apply (gok_same _ _ s); [|exact S]. exists d. split; [|exact C].
  destruct G. constructor; auto. apply globals_stable; auto.
Qed.

Definition gact (v : version) (h : pairs) (s : pstate) (x : string) (c : string * action) : Prop :=
  forall s', snd c x s = Ok s' -> gok v (h ++ [(fst c, x)]) s'.

Lemma bindR_ok {A B} (r : res A) (f : A -> res B) y : bindR r f = Ok y -> exists a, r = Ok a /\ f a = Ok y.
Proof. destruct r; simpl; try discriminate. eauto. Qed.

Lemma upd_pkg_inv f s s' : upd_pkg f s = Ok s' -> exists l, s' = set_ps_pkgs l s.
Proof.
  unfold upd_pkg, upd_ptr. destruct (ps_pkg s); [|discriminate]. destruct (update_nth _ _ _); [|discriminate].
  intros H. inversion H. eauto.
Qed.
Lemma upd_file_inv f s s' : upd_file f s = Ok s' -> exists l, s' = set_ps_files l s.
Proof.
  unfold upd_file, upd_ptr. destruct (ps_file s); [|discriminate]. destruct (update_nth _ _ _); [|discriminate].
  intros H. inversion H. eauto.
Qed.
Lemma upd_snip_inv f s s' : upd_snip f s = Ok s' -> exists l, s' = set_ps_snips l s.
Proof.
  unfold upd_snip, upd_ptr. destruct (ps_snip s); [|discriminate]. destruct (update_nth _ _ _); [|discriminate].
  intros H. inversion H. eauto.
Qed.
Lemma upd_pkg_gsame f s s' : upd_pkg f s = Ok s' -> gsame s s'.
Proof. intros H. apply upd_pkg_inv in H as [l ->]. now apply gsame_doc. Qed.
Lemma upd_file_gsame f s s' : upd_file f s = Ok s' -> gsame s s'.
Proof. intros H. apply upd_file_inv in H as [l ->]. now apply gsame_doc. Qed.
Lemma upd_snip_gsame f s s' : upd_snip f s = Ok s' -> gsame s s'.
Proof. intros H. apply upd_snip_inv in H as [l ->]. now apply gsame_doc. Qed.

(** the same for an action on a state that differs from [s] outside the document-level part *)
Lemma gsame_pre s s0 s' : gsame s0 s' -> ps_doc s0 = ps_doc s -> ps_lic s0 = ps_lic s -> ps_rln s0 = ps_rln s ->
  ps_ann s0 = ps_ann s -> ps_rev s0 = ps_rev s -> gsame s s'.
Proof. intros G. intros. apply (gsame_trans _ s0); [now apply gsame_doc|exact G]. Qed.
Ltac pre H lem := apply lem in H; apply (gsame_pre _ _ _ H); reflexivity.

Lemma do_package_name_gsame x s s' : do_package_name x s = Ok s' -> gsame s s'.
Proof.
  unfold do_package_name. cbv zeta. intros H. apply bindR_ok in H as (p & _ & H).
  destruct p as [pk|]; [destruct (nonempty _)|].
  - apply bindR_ok in H as (? & _ & H). pre H upd_pkg_gsame.
  - pre H upd_pkg_gsame.
  - pre H upd_pkg_gsame.
Qed.
Lemma do_file_name_gsame x s s' : do_file_name x s = Ok s' -> gsame s s'.
Proof.
  unfold do_file_name. cbv zeta. intros H. apply bindR_ok in H as (p & _ & H). inversion H. now apply gsame_doc.
Qed.
Lemma do_snippet_id_gsame x s s' : do_snippet_id x s = Ok s' -> gsame s s'.
Proof.
  unfold do_snippet_id. intros H. apply bindR_ok in H as (? & _ & H). apply bindR_ok in H as (? & _ & H).
  cbv zeta in H. match type of H with (match ps_file ?s1 with _ => _ end) = _ => destruct (ps_file s1) end.
  - pre H upd_file_gsame.
  - inversion H. now apply gsame_doc.
Qed.
Lemma upd_doc_inv f s s' : upd_doc f s = Ok s' -> exists d, ps_doc s = Some d /\ s' = set_ps_doc (Some (f d)) s.
Proof. unfold upd_doc. destruct (ps_doc s) as [d|]; [|discriminate]. intros H. inversion H. eauto. Qed.
Lemma upd_doc_gsame f s s' : upd_doc f s = Ok s' -> (forall d, dsame d (f d)) -> gsame s s'.
Proof.
  intros H D. apply upd_doc_inv in H as (d & E & ->). split; [|auto].
  intros d0 D0. assert (d0 = d) by congruence. subst. exists (f d). auto.
Qed.
Lemma dsame_files f d : dsame d (set_d_Files f d).
Proof. exists (d_SPDXIdentifier d), (d_Packages d), f. now destruct d. Qed.
Lemma dsame_pkgs f d : dsame d (set_d_Packages f d).
Proof. exists (d_SPDXIdentifier d), f, (d_Files d). now destruct d. Qed.
Lemma dsame_id f d : dsame d (set_d_SPDXIdentifier f d).
Proof. exists f, (d_Packages d), (d_Files d). now destruct d. Qed.

Lemma file_spdxid_gsame x s s' : do_file_spdxid x s = Ok s' -> gsame s s'.
Proof.
  unfold do_file_spdxid. intros H. apply bindR_ok in H as (? & _ & H). apply bindR_ok in H as (s1 & H1 & H).
  apply upd_file_gsame in H1. apply (gsame_trans _ s1); [exact H1|].
  destruct (ps_file s1); [|discriminate]. destruct (ps_pkg s1).
  - now apply upd_pkg_gsame in H.
  - apply upd_doc_gsame in H; [exact H|]. intros. apply dsame_files.
Qed.
Lemma pkg_spdxid_gsame x s s' : do_pkg_spdxid x s = Ok s' -> gsame s s'.
Proof.
  unfold do_pkg_spdxid. intros H. apply bindR_ok in H as (? & _ & H). apply bindR_ok in H as (s1 & H1 & H).
  apply upd_pkg_gsame in H1. apply (gsame_trans _ s1); [exact H1|].
  destruct (ps_pkg s1); [|discriminate]. apply upd_doc_gsame in H; [exact H|]. intros. apply dsame_pkgs.
Qed.
Lemma aop_name_gsame x s s' : do_aop_name x s = Ok s' -> gsame s s'.
Proof.
  unfold do_aop_name. destruct (ps_file s); [|discriminate]. destruct (nth_error _ _); [|discriminate].
  intros H. apply bindR_ok in H as (q1 & H1 & H). apply upd_file_gsame in H1. inversion H.
  apply (gsame_trans _ q1); [exact H1|now apply gsame_doc].
Qed.
Lemma aop_gsame g s s' : upd_aop g s = Ok s' -> gsame s s'.
Proof.
  unfold upd_aop. destruct (ps_aop s) as [[fi ai]|]; [|discriminate]. destruct (nth_error _ _); [|discriminate].
  destruct (update_nth ai _ _); [|discriminate]. destruct (update_nth fi _ _); [|discriminate].
  intros H. inversion H. now apply gsame_doc.
Qed.
Lemma external_ref_gsame x s s' : do_external_ref x s = Ok s' -> gsame s s'.
Proof.
  unfold do_external_ref. destruct (ps_pkg s); [|discriminate]. destruct (nth_error _ _); [|discriminate].
  intros H. apply bindR_ok in H as ([[? ?] ?] & _ & H). apply bindR_ok in H as (q1 & H1 & H). apply upd_pkg_gsame in H1. inversion H.
  apply (gsame_trans _ q1); [exact H1|now apply gsame_doc].
Qed.
Lemma external_ref_comment_gsame x s s' : do_external_ref_comment x s = Ok s' -> gsame s s'.
Proof.
  unfold do_external_ref_comment. destruct (ps_extref s) as [[fi ai]|]; [|discriminate]. destruct (nth_error _ _); [|discriminate].
  destruct (update_nth ai _ _); [|discriminate]. destruct (update_nth fi _ _); [|discriminate].
  intros H. inversion H. now apply gsame_doc.
Qed.

(** ** Document-level tags *)
Lemma upd_in_doc_ptr {A} p (get : DocumentArena -> list A) put f s s' d :
  upd_in_doc p get put f s = Ok s' -> ps_doc s = Some d -> p = ptr (length (get d)) ->
  get d <> [] /\ s' = set_ps_doc (Some (put (update_last f (get d)) d)) s.
Proof.
  unfold upd_in_doc. destruct p as [i|]; [|discriminate]. intros H D E. rewrite D in H.
  destruct (update_nth i f (get d)) as [l|] eqn:U; [|discriminate]. inversion H; subst.
  apply update_nth_ptr in U; [|auto]. subst. split; [|reflexivity].
  intros E0. rewrite E0 in E. discriminate.
Qed.

(** rewrite all views of the extended history, for concrete tags *)
Ltac snoc := rewrite ?last_value_snoc, ?values_snoc, ?parts_snoc; simpl String.eqb; cbv iota.
Ltac doc_proj := cbn [set_d_Relationships set_d_Annotations set_d_Reviews set_d_OtherLicenses set_d_CreationInfo
    set_d_ExternalDocumentReferences set_d_SPDXVersion set_d_DataLicense set_d_DocumentName set_d_DocumentNamespace
    set_d_DocumentComment d_SPDXVersion d_DataLicense d_DocumentName d_DocumentNamespace
    d_DocumentComment d_ExternalDocumentReferences d_CreationInfo d_OtherLicenses d_Relationships d_Annotations
    d_Reviews d_Snippets].
Ltac in_tags := first [right; assumption | left; simpl; tauto].
Ltac gstep := constructor; doc_proj; snoc; try assumption; try reflexivity;
  match goal with
  | |- ci_weak (_ ++ _) (d_CreationInfo _) => apply ci_stable; [discriminate..| in_tags |assumption]
  | |- Forall2 license_den (update_last (add _) _) (d_OtherLicenses _) => apply Forall2_stable; [|assumption]; intros ? ?; apply lic_stable; discriminate
  | |- Forall2 (relationship_den _) (update_last (add _) _) (d_Relationships _) => apply Forall2_stable; [|assumption]; intros ? ?; apply rel_stable; discriminate
  | |- Forall2 annotation_den (update_last (add _) _) (d_Annotations _) => apply Forall2_stable; [|assumption]; intros ? ?; apply ann_stable; discriminate
  | |- Forall2 review_den (update_last (add _) _) (d_Reviews _) => apply Forall2_stable; [|assumption]; intros ? ?; apply rev_stable; discriminate
  | |- _ => idtac
  end.

Section Steps.
  Context (v : version) (h : pairs) (x : string).

  Lemma g_relationship d r : gweak v h d -> d_CreationInfo d <> None ->
    relationship_text v x r -> r_Comment r = "" ->
    gweak v (h ++ [("Relationship", x)]) (set_d_Relationships (d_Relationships d ++ [r]) d).
  Proof. intros [] C T RC. gstep. apply Forall2_snoc; [assumption|]. split; assumption. Qed.
  Lemma g_relationship_comment d : gweak v h d -> d_CreationInfo d <> None ->
    gweak v (h ++ [("RelationshipComment", x)]) (set_d_Relationships (update_last (set_r_Comment x) (d_Relationships d)) d).
  Proof.
    intros [] C. gstep. apply Forall2_update; [|assumption]. intros g r [H1 H2]. split; [exact H1|].
    cbn [snd add set_r_Comment r_Comment]. snoc. reflexivity.
  Qed.
  Lemma g_annotator d a : gweak v h d -> d_CreationInfo d <> None ->
    actor_text actor3 x (an_AnnotatorType (a_Annotator a)) (an_Annotator (a_Annotator a)) ->
    a = set_a_Annotator (a_Annotator a) zero_Annotation ->
    gweak v (h ++ [("Annotator", x)]) (set_d_Annotations (d_Annotations d ++ [a]) d).
  Proof.
    intros [] C T E. gstep. apply Forall2_snoc; [assumption|]. rewrite E in *. split; [assumption|]. simpl. auto.
  Qed.
  Ltac ann_field := intros [] C; gstep; apply Forall2_update; [|assumption];
    intros g a (H1 & H2 & H3 & H4 & H5); unfold annotation_den;
    cbn [snd fst add set_a_Date set_a_Type set_a_Comment a_Annotator a_Date a_Type a_Comment a_SPDXIdentifier];
    snoc; auto 10.
  Lemma g_ann_date d : gweak v h d -> d_CreationInfo d <> None ->
    gweak v (h ++ [("AnnotationDate", x)]) (set_d_Annotations (update_last (set_a_Date x) (d_Annotations d)) d).
  Proof. ann_field. Qed.
  Lemma g_ann_type d : gweak v h d -> d_CreationInfo d <> None ->
    gweak v (h ++ [("AnnotationType", x)]) (set_d_Annotations (update_last (set_a_Type x) (d_Annotations d)) d).
  Proof. ann_field. Qed.
  Lemma g_ann_comment d : gweak v h d -> d_CreationInfo d <> None ->
    gweak v (h ++ [("AnnotationComment", x)]) (set_d_Annotations (update_last (set_a_Comment x) (d_Annotations d)) d).
  Proof. ann_field. Qed.
  Lemma g_ann_ref d e : gweak v h d -> d_CreationInfo d <> None -> plain_ref e -> ref_text e x ->
    gweak v (h ++ [("SPDXREF", x)]) (set_d_Annotations (update_last (set_a_SPDXIdentifier e) (d_Annotations d)) d).
  Proof.
    intros [] C P T. gstep. apply Forall2_update; [|assumption].
    intros g a (H1 & H2 & H3 & H4 & H5). unfold annotation_den.
    cbn [snd fst add set_a_SPDXIdentifier a_Annotator a_Date a_Type a_Comment a_SPDXIdentifier]. snoc.
    repeat (split; [assumption|]).
    destruct (values "SPDXREF" (snd g) ++ [x])%list as [|z r] eqn:E; [now apply app_eq_nil in E as [? ?]|].
    rewrite <- E, last_snoc. auto.
  Qed.
  Lemma g_reviewer d r : gweak v h d -> d_CreationInfo d <> None ->
    actor_text actor3 x (rv_ReviewerType r) (rv_Reviewer r) -> rv_Date r = "" -> rv_Comment r = "" ->
    gweak v (h ++ [("Reviewer", x)]) (set_d_Reviews (d_Reviews d ++ [r]) d).
  Proof. intros [] C T E1 E2. gstep. apply Forall2_snoc; [assumption|]. split; auto. Qed.
  Ltac rev_field := intros [] C; gstep; apply Forall2_update; [|assumption];
    intros g a (H1 & H2 & H3); unfold review_den;
    cbn [snd fst add set_rv_Date set_rv_Comment rv_Reviewer rv_ReviewerType rv_Date rv_Comment];
    snoc; auto 10.
  Lemma g_rev_date d : gweak v h d -> d_CreationInfo d <> None ->
    gweak v (h ++ [("ReviewDate", x)]) (set_d_Reviews (update_last (set_rv_Date x) (d_Reviews d)) d).
  Proof. rev_field. Qed.
  Lemma g_rev_comment d : gweak v h d -> d_CreationInfo d <> None ->
    gweak v (h ++ [("ReviewComment", x)]) (set_d_Reviews (update_last (set_rv_Comment x) (d_Reviews d)) d).
  Proof. rev_field. Qed.
  Lemma g_license_id d : gweak v h d -> d_CreationInfo d <> None ->
    gweak v (h ++ [("LicenseID", x)])
      (set_d_OtherLicenses (d_OtherLicenses d ++ [set_ol_LicenseIdentifier x zero_OtherLicense]) d).
  Proof. intros [] C. gstep. apply Forall2_snoc; [assumption|]. repeat split. Qed.
  Ltac lic_field := intros [] C; gstep; apply Forall2_update; [|assumption];
    intros g a (H1 & H2 & H3 & H4 & H5); unfold license_den;
    cbn [snd fst add set_ol_ExtractedText set_ol_LicenseName set_ol_CrossReferences set_ol_Comment
         ol_LicenseIdentifier ol_ExtractedText ol_LicenseName ol_CrossReferences ol_Comment];
    snoc; rewrite ?H4; auto 10.
  Lemma g_lic_text d : gweak v h d -> d_CreationInfo d <> None ->
    gweak v (h ++ [("ExtractedText", x)]) (set_d_OtherLicenses (update_last (set_ol_ExtractedText x) (d_OtherLicenses d)) d).
  Proof. lic_field. Qed.
  Lemma g_lic_name d : gweak v h d -> d_CreationInfo d <> None ->
    gweak v (h ++ [("LicenseName", x)]) (set_d_OtherLicenses (update_last (set_ol_LicenseName x) (d_OtherLicenses d)) d).
  Proof. lic_field. Qed.
  Lemma g_lic_ref d : gweak v h d -> d_CreationInfo d <> None ->
    gweak v (h ++ [("LicenseCrossReference", x)]) (set_d_OtherLicenses
      (update_last (fun o => set_ol_CrossReferences (ol_CrossReferences o ++ [x]) o) (d_OtherLicenses d)) d).
  Proof. lic_field. Qed.
  Lemma g_lic_comment d : gweak v h d -> d_CreationInfo d <> None ->
    gweak v (h ++ [("LicenseComment", x)]) (set_d_OtherLicenses (update_last (set_ol_Comment x) (d_OtherLicenses d)) d).
  Proof. lic_field. Qed.
  Lemma g_edr d e : gweak v h d -> edr_text x e ->
    gweak v (h ++ [("ExternalDocumentRef", x)])
      (set_d_ExternalDocumentReferences (d_ExternalDocumentReferences d ++ [e]) d).
  Proof. intros [] T. gstep. now apply Forall2_snoc. Qed.
  Lemma g_doc_comment d : gweak v h d -> gweak v (h ++ [("DocumentComment", x)]) (set_d_DocumentComment x d).
  Proof. intros []. gstep. Qed.
  Lemma g_spdx_version d : gweak v h d -> gweak v (h ++ [("SPDXVersion", x)]) (set_d_SPDXVersion x d).
  Proof. intros []. gstep. Qed.
  Lemma g_data_license d : gweak v h d -> gweak v (h ++ [("DataLicense", x)]) (set_d_DataLicense x d).
  Proof. intros []. gstep. Qed.
  Lemma g_doc_name d : gweak v h d -> gweak v (h ++ [("DocumentName", x)]) (set_d_DocumentName x d).
  Proof. intros []. gstep. Qed.
  Lemma g_doc_namespace d : gweak v h d -> gweak v (h ++ [("DocumentNamespace", x)]) (set_d_DocumentNamespace x d).
  Proof. intros []. gstep. Qed.
  Ltac ci_field := intros W C; destruct W as [? ? ? ? ? ? W ? ? ? ? ?]; rewrite C in W; destruct W as (H1 & H2 & H3 & H4); gstep; try reflexivity;
    unfold ci_weak, ci_fields;
    cbn [set_ci_LicenseListVersion set_ci_Created set_ci_CreatorComment set_ci_Creators
         ci_LicenseListVersion ci_Created ci_CreatorComment ci_Creators]; snoc; auto 10.
  Lemma g_ci_list d ci : gweak v h d -> d_CreationInfo d = Some ci ->
    gweak v (h ++ [("LicenseListVersion", x)]) (set_d_CreationInfo (Some (set_ci_LicenseListVersion x ci)) d).
  Proof. ci_field. Qed.
  Lemma g_ci_created d ci : gweak v h d -> d_CreationInfo d = Some ci ->
    gweak v (h ++ [("Created", x)]) (set_d_CreationInfo (Some (set_ci_Created x ci)) d).
  Proof. ci_field. Qed.
  Lemma g_ci_comment d ci : gweak v h d -> d_CreationInfo d = Some ci ->
    gweak v (h ++ [("CreatorComment", x)]) (set_d_CreationInfo (Some (set_ci_CreatorComment x ci)) d).
  Proof. ci_field. Qed.
  Lemma g_ci_creator d ci c : gweak v h d -> d_CreationInfo d = Some ci ->
    actor_text actor3 x (cr_CreatorType c) (cr_Creator c) ->
    gweak v (h ++ [("Creator", x)]) (set_d_CreationInfo (Some (set_ci_Creators (ci_Creators ci ++ [c]) ci)) d).
  Proof.
    intros W C T. destruct W as [? ? ? ? ? ? W ? ? ? ? ?]. rewrite C in W. destruct W as (H1 & H2 & H3 & H4). gstep.
    unfold ci_weak, ci_fields. cbn [set_ci_Creators ci_LicenseListVersion ci_Created ci_CreatorComment ci_Creators].
    snoc. split; [assumption|]. split; [now apply Forall2_snoc|auto].
  Qed.

  (** the actions *)
  Lemma gact_relationship s : gok v h s -> gact v h s x ("Relationship", do_relationship v).
  Proof.
    intros (d & [D W L1 L2 L3 L4] & C) s' H. unfold gact, do_relationship in *. cbn [snd fst] in *. rewrite D in H.
    cbv zeta in H. apply bindR_ok in H as ([[a r] b] & E & H).
    apply (upd_in_doc_ptr _ _ _ _ _ _ (set_d_Relationships (d_Relationships d ++ [zero_Relationship]) d)) in H as [_ ->];
      [|reflexivity|cbn [d_Relationships set_d_Relationships ps_rln set_ps_rln]; now rewrite ptr_snoc].
    cbn [d_Relationships set_d_Relationships]. rewrite update_last_app.
    apply (relationship_text_iff v x a r b "") in E.
    exists (set_d_Relationships (d_Relationships d ++ [MkRln a b r ""]) d). split; [|exact C].
    constructor; cbn; auto; [|now rewrite ptr_snoc]. now apply g_relationship.
  Qed.
  Lemma gact_annotator s : gok v h s -> gact v h s x ("Annotator", do_annotator).
  Proof.
    intros (d & [D W L1 L2 L3 L4] & C) s' H. unfold gact, do_annotator in *. cbn [snd fst] in *. rewrite D in H.
    cbv zeta in H. apply bindR_ok in H as ([k n] & E & H).
    apply (upd_in_doc_ptr _ _ _ _ _ _ (set_d_Annotations (d_Annotations d ++ [zero_Annotation]) d)) in H as [_ ->];
      [|reflexivity|cbn [d_Annotations set_d_Annotations ps_ann set_ps_ann]; now rewrite ptr_snoc].
    cbn [d_Annotations set_d_Annotations]. rewrite update_last_app.
    apply actor_text_iff in E.
    exists (set_d_Annotations (d_Annotations d ++ [set_a_Annotator (MkAnnotator n k) zero_Annotation]) d). split; [|exact C].
    constructor; cbn; auto; [|now rewrite ptr_snoc]. now apply g_annotator.
  Qed.
  Lemma gact_reviewer s : gok v h s -> gact v h s x ("Reviewer", do_reviewer).
  Proof.
    intros (d & [D W L1 L2 L3 L4] & C) s' H. unfold gact, do_reviewer in *. cbn [snd fst] in *. rewrite D in H.
    cbv zeta in H. apply bindR_ok in H as ([k n] & E & H).
    apply (upd_in_doc_ptr _ _ _ _ _ _ (set_d_Reviews (d_Reviews d ++ [zero_Review]) d)) in H as [_ ->];
      [|reflexivity|cbn [d_Reviews set_d_Reviews ps_rev set_ps_rev]; now rewrite ptr_snoc].
    cbn [d_Reviews set_d_Reviews]. rewrite update_last_app.
    apply actor_text_iff in E.
    exists (set_d_Reviews (d_Reviews d ++ [set_rv_ReviewerType k (set_rv_Reviewer n zero_Review)]) d). split; [|exact C].
    constructor; cbn; auto; [|now rewrite ptr_snoc]. now apply g_reviewer.
  Qed.
  Lemma gact_license_id s : gok v h s -> gact v h s x ("LicenseID", do_license_id).
  Proof.
    intros (d & [D W L1 L2 L3 L4] & C) s' H. unfold gact, do_license_id in *. cbn [snd fst] in *. rewrite D in H.
    cbv zeta in H.
    apply (upd_in_doc_ptr _ _ _ _ _ _ (set_d_OtherLicenses (d_OtherLicenses d ++ [zero_OtherLicense]) d)) in H as [_ ->];
      [|reflexivity|cbn [d_OtherLicenses set_d_OtherLicenses ps_lic set_ps_lic]; now rewrite ptr_snoc].
    cbn [d_OtherLicenses set_d_OtherLicenses]. rewrite update_last_app.
    exists (set_d_OtherLicenses (d_OtherLicenses d ++ [set_ol_LicenseIdentifier x zero_OtherLicense]) d). split; [|exact C].
    constructor; cbn; auto; [|now rewrite ptr_snoc]. now apply g_license_id.
  Qed.
  Lemma gok_st s st : gok v h s -> gok v h (set_ps_st st s).
  Proof. intros G. apply (gok_same _ _ s); [exact G|now apply gsame_doc]. Qed.
  Lemma gact_enter_review s : gok v h s -> gact v h s x ("Reviewer", enter_review).
  Proof. intros G s' H. apply (gact_reviewer (set_ps_st PsReview s)); [now apply gok_st|exact H]. Qed.
  Lemma gact_enter_license s : gok v h s -> gact v h s x ("LicenseID", enter_license).
  Proof. intros G s' H. apply (gact_license_id (set_ps_st PsOtherLicense s)); [now apply gok_st|exact H]. Qed.

  Ltac in_doc lem := intros (d & [D W L1 L2 L3 L4] & C) s' H; cbn [snd fst] in *;
    apply (upd_in_doc_ptr _ _ _ _ _ _ d) in H as [_ ->]; [|assumption..];
    eexists; split; [constructor;
      [reflexivity|now apply lem|cbn [ps_doc set_ps_doc ps_lic ps_rln ps_ann ps_rev d_OtherLicenses
      d_Relationships d_Annotations d_Reviews set_d_OtherLicenses set_d_Relationships set_d_Annotations set_d_Reviews];
       rewrite ?update_last_length; assumption..]|exact C].
  Lemma gact_relationship_comment s : gok v h s -> gact v h s x ("RelationshipComment", do_relationship_comment).
  Proof.
    intros G s' H. cbn [snd fst] in *. unfold do_relationship_comment in H. destruct (ps_rln s) eqn:E; [|discriminate].
    revert s' H. change (gact v h s x ("RelationshipComment", fun value => upd_rln (set_r_Comment value))).
    revert G. in_doc g_relationship_comment.
  Qed.
  Ltac with_ann_tac H := unfold with_ann in H; destruct (ps_ann _) eqn:?; [|discriminate].
  Lemma gact_ann_date s : gok v h s -> gact v h s x ("AnnotationDate", do_annotation_date).
  Proof.
    intros G s' H. cbn [snd fst] in *. unfold do_annotation_date in H. with_ann_tac H.
    revert s' H. change (gact v h s x ("AnnotationDate", fun value => upd_ann (set_a_Date value))).
    revert G. in_doc g_ann_date.
  Qed.
  Lemma gact_ann_type s : gok v h s -> gact v h s x ("AnnotationType", do_annotation_type).
  Proof.
    intros G s' H. cbn [snd fst] in *. unfold do_annotation_type in H. with_ann_tac H.
    revert s' H. change (gact v h s x ("AnnotationType", fun value => upd_ann (set_a_Type value))).
    revert G. in_doc g_ann_type.
  Qed.
  Lemma gact_ann_comment s : gok v h s -> gact v h s x ("AnnotationComment", do_annotation_comment).
  Proof.
    intros G s' H. cbn [snd fst] in *. unfold do_annotation_comment in H. with_ann_tac H.
    revert s' H. change (gact v h s x ("AnnotationComment", fun value => upd_ann (set_a_Comment value))).
    revert G. in_doc g_ann_comment.
  Qed.
  Lemma gact_spdxref s : gok v h s -> gact v h s x ("SPDXREF", do_spdxref).
  Proof.
    intros G s' H. cbn [snd fst] in *. unfold do_spdxref in H. destruct (ps_ann s) eqn:E; [|discriminate].
    apply bindR_ok in H as (e & X & H). apply extract_doc_element_id_iff in X as [X1 X2].
    revert s' H. change (gact v h s x ("SPDXREF", fun value => upd_ann (set_a_SPDXIdentifier e))).
    revert G. in_doc g_ann_ref.
  Qed.
  Lemma gact_rev_date s : gok v h s -> gact v h s x ("ReviewDate", fun value => upd_rev (set_rv_Date value)).
  Proof. in_doc g_rev_date. Qed.
  Lemma gact_rev_comment s : gok v h s -> gact v h s x ("ReviewComment", fun value => upd_rev (set_rv_Comment value)).
  Proof. in_doc g_rev_comment. Qed.
  Lemma gact_lic_text s : gok v h s -> gact v h s x ("ExtractedText", fun value => upd_lic (set_ol_ExtractedText value)).
  Proof. in_doc g_lic_text. Qed.
  Lemma gact_lic_name s : gok v h s -> gact v h s x ("LicenseName", fun value => upd_lic (set_ol_LicenseName value)).
  Proof. in_doc g_lic_name. Qed.
  Lemma gact_lic_ref s : gok v h s -> gact v h s x ("LicenseCrossReference", fun value =>
      upd_lic (fun o => set_ol_CrossReferences (ol_CrossReferences o ++ [value]) o)).
  Proof. in_doc g_lic_ref. Qed.
  Lemma gact_lic_comment s : gok v h s -> gact v h s x ("LicenseComment", fun value => upd_lic (set_ol_Comment value)).
  Proof. in_doc g_lic_comment. Qed.

  Lemma gact_rel_ann s : gok v h s -> Forall (gact v h s x) (rel_ann_cases v).
  Proof.
    intros G. unfold rel_ann_cases.
    repeat (constructor; [first [now apply gact_relationship | now apply gact_relationship_comment | now apply gact_annotator
      | now apply gact_ann_date | now apply gact_ann_type | now apply gact_spdxref | now apply gact_ann_comment]|]).
    constructor.
  Qed.
End Steps.

(** ** The sections *)
Lemma switch_gok v h s x tag cases dflt s' :
  Forall (gact v h s x) cases ->
  (forall s1, dflt x s = Ok s1 -> gok v (h ++ [(tag, x)]) s1) ->
  switch tag cases dflt x s = Ok s' -> gok v (h ++ [(tag, x)]) s'.
Proof.
  intros F D H. induction cases as [|[t a] r IH]; simpl in H; [auto|].
  inversion F; subst. destruct (String.eqb_spec tag t); [subst; now apply H2|auto].
Qed.
Ltac other lem := intros ? H; cbn [snd fst] in *; eapply gok_other; [eassumption|reflexivity|];
  first [apply lem in H; exact H
        |apply bindR_ok in H as ([? ?] & _ & H); apply lem in H; exact H
        |apply bindR_ok in H as (? & _ & H); apply lem in H; exact H].
Ltac all_cases tac := repeat first [(apply Forall_cons; [tac|]) | apply Forall_nil | (apply gact_rel_ann; assumption) | apply Forall_app; split].

Lemma gact_to v h s s0 t x (a : action) :
  gok v h s -> mem t gtags = false -> gsame s s0 ->
  (forall s', a x s0 = Ok s' -> gsame s0 s') -> forall s', a x s0 = Ok s' -> gok v (h ++ [(t, x)]) s'.
Proof. intros G M S A s' H. eapply gok_other; eauto. eapply gsame_trans; eauto. Qed.

Lemma g_parse_snippet v h s t x s' : gok v h s -> parse_snippet v t x s = Ok s' -> gok v (h ++ [(t, x)]) s'.
Proof.
  intros G. unfold parse_snippet. apply switch_gok; [|intros; discriminate].
  unfold snippet_cases. apply Forall_app; split; [|apply Forall_app; split; [destruct v|]].
  all: all_cases ltac:(first
    [ now apply gact_enter_license | now apply gact_enter_review
    | other do_snippet_id_gsame | other upd_snip_gsame
    | (intros ? H; cbn [snd fst] in *; eapply gok_other; [eassumption|reflexivity|];
       first [unfold snippet_to_file in H; apply do_file_name_gsame in H
             |unfold snippet_to_package in H; apply do_package_name_gsame in H];
       apply (gsame_pre _ _ _ H); reflexivity) ]).
Qed.
Lemma g_parse_file v h s t x s' : gok v h s -> parse_file v t x s = Ok s' -> gok v (h ++ [(t, x)]) s'.
Proof.
  intros G0. unfold parse_file. cbv zeta.
  match goal with |- switch _ _ _ _ ?t = _ -> _ => set (s1 := t) end.
  assert (G : gok v h s1) by (apply (gok_same _ _ s); [exact G0|]; unfold s1;
    match goal with |- context [if ?b then _ else _] => destruct b end; now apply gsame_doc).
  clearbody s1. clear G0. apply switch_gok; [|intros; discriminate].
  unfold file_cases. apply Forall_app; split; [|apply Forall_app; split; [destruct v|]].
  all: all_cases ltac:(first
    [ now apply gact_enter_license | now apply gact_enter_review
    | other do_file_name_gsame | other file_spdxid_gsame | other aop_name_gsame | other aop_gsame
    | other upd_file_gsame
    | (intros ? H; cbn [snd fst] in *; eapply gok_other; [eassumption|reflexivity|];
       first [unfold file_to_snippet in H; apply do_snippet_id_gsame in H
             |unfold file_to_package in H; cbv zeta in H; apply bindR_ok in H as (? & _ & H); apply do_package_name_gsame in H];
       apply (gsame_pre _ _ _ H); reflexivity)
    | (intros ? H; cbn [snd fst] in *; eapply gok_other; [eassumption|reflexivity|];
       apply bindR_ok in H as (? & _ & H); apply upd_file_gsame in H; exact H)]).
Qed.
Lemma supplier_gsame x s s' : do_supplier x s = Ok s' -> gsame s s'.
Proof.
  unfold do_supplier. destruct (x =? _); intros H; [|apply bindR_ok in H as ([? ?] & _ & H)]; now apply upd_pkg_gsame in H.
Qed.
Lemma originator_gsame x s s' : do_originator x s = Ok s' -> gsame s s'.
Proof.
  unfold do_originator. destruct (x =? _); intros H; [|apply bindR_ok in H as ([? ?] & _ & H)]; now apply upd_pkg_gsame in H.
Qed.
Lemma g_parse_package v h s t x s' : gok v h s -> parse_package v t x s = Ok s' -> gok v (h ++ [(t, x)]) s'.
Proof.
  intros G0. unfold parse_package. cbv zeta.
  match goal with |- switch _ _ _ _ ?t = _ -> _ => set (s1 := t) end.
  assert (G : gok v h s1) by (apply (gok_same _ _ s); [exact G0|]; unfold s1;
    match goal with |- context [if ?b then _ else _] => destruct b end; now apply gsame_doc).
  clearbody s1. clear G0. apply switch_gok; [|intros; discriminate].
  unfold package_cases. apply Forall_app; split; [|apply Forall_app; split; [destruct v|apply Forall_app; split; [destruct v|]]].
  all: all_cases ltac:(first
    [ now apply gact_enter_license | now apply gact_enter_review
    | other do_package_name_gsame | other pkg_spdxid_gsame | other supplier_gsame | other originator_gsame
    | other upd_pkg_gsame | other external_ref_gsame | other external_ref_comment_gsame
    | (intros ? H; cbn [snd fst] in *; eapply gok_other; [eassumption|reflexivity|];
       unfold package_to_file in H; apply do_file_name_gsame in H;
       apply (gsame_pre _ _ _ H); reflexivity)
    | (intros ? H; cbn [snd fst] in *; eapply gok_other; [eassumption|reflexivity|];
       apply bindR_ok in H as (? & _ & H); apply upd_pkg_gsame in H; exact H)]).
Qed.
Lemma g_parse_review v h s t x s' : gok v h s -> parse_review v t x s = Ok s' -> gok v (h ++ [(t, x)]) s'.
Proof.
  intros G. unfold parse_review. apply switch_gok; [|intros; discriminate].
  unfold review_cases. all_cases ltac:(first
    [ now apply gact_reviewer | now apply gact_rev_date | now apply gact_rev_comment]).
Qed.
Lemma g_parse_license v h s t x s' : gok v h s -> parse_license v t x s = Ok s' -> gok v (h ++ [(t, x)]) s'.
Proof.
  intros G. unfold parse_license. apply switch_gok; [|intros; discriminate].
  unfold license_cases. all_cases ltac:(first
    [ now apply gact_license_id | now apply gact_lic_text | now apply gact_lic_name | now apply gact_lic_ref
    | now apply gact_lic_comment | now apply gact_enter_review]).
Qed.

Lemma upd_ci_inv f s s' d : upd_ci f s = Ok s' -> ps_doc s = Some d ->
  exists ci, d_CreationInfo d = Some ci /\ s' = set_ps_doc (Some (set_d_CreationInfo (Some (f ci)) d)) s.
Proof.
  unfold upd_ci. intros H D. rewrite D in H. destruct (d_CreationInfo d) as [ci|] eqn:E; [|discriminate].
  inversion H. eauto.
Qed.
Ltac ci_case lem := intros (d & [D W L1 L2 L3 L4] & C) s' H; cbn [snd fst] in *;
  apply (upd_ci_inv _ _ _ d) in H as (ci & E & ->); [|assumption];
  eexists; split; [constructor; [reflexivity|now apply lem|assumption..]|discriminate].
Lemma gact_ci_list v h x s : gok v h s ->
  gact v h s x ("LicenseListVersion", fun value => upd_ci (set_ci_LicenseListVersion value)).
Proof. ci_case g_ci_list. Qed.
Lemma gact_ci_created v h x s : gok v h s -> gact v h s x ("Created", fun value => upd_ci (set_ci_Created value)).
Proof. ci_case g_ci_created. Qed.
Lemma gact_ci_comment v h x s : gok v h s ->
  gact v h s x ("CreatorComment", fun value => upd_ci (set_ci_CreatorComment value)).
Proof. ci_case g_ci_comment. Qed.
Lemma gact_ci_creator v h x s : gok v h s -> gact v h s x ("Creator", do_creator).
Proof.
  intros G s' H. cbn [snd fst] in *. unfold do_creator in H. apply bindR_ok in H as ([k n] & E0 & H).
  apply actor_text_iff in E0. revert G s' H.
  change (gok v h s -> gact v h s x ("Creator", fun value => upd_ci (fun c => set_ci_Creators (ci_Creators c ++ [MkCreator n k]) c))).
  ci_case g_ci_creator.
Qed.

(** ginv for the tags of the start section *)
Lemma ginv_document_comment v h s d x s' : ginv v h s d -> do_document_comment x s = Ok s' ->
  exists d', ginv v (h ++ [("DocumentComment", x)]) s' d' /\ d_CreationInfo d' = d_CreationInfo d /\ ps_st s' = ps_st s.
Proof.
  intros [D W L1 L2 L3 L4] H. apply upd_doc_inv in H as (d0 & E & ->). assert (d0 = d) by congruence. subst.
  eexists. split; [constructor; [reflexivity|now apply g_doc_comment|assumption..]|auto].
Qed.
Lemma ginv_external_document_ref v h s d x s' : ginv v h s d -> do_external_document_ref x s = Ok s' ->
  exists d', ginv v (h ++ [("ExternalDocumentRef", x)]) s' d' /\ d_CreationInfo d' = d_CreationInfo d /\ ps_st s' = ps_st s.
Proof.
  intros [D W L1 L2 L3 L4] H. unfold do_external_document_ref in H. apply bindR_ok in H as (e & X & H).
  apply edr_text_iff in X. apply upd_doc_inv in H as (d0 & E & ->). assert (d0 = d) by congruence. subst.
  eexists. split; [constructor; [reflexivity|now apply g_edr|assumption..]|auto].
Qed.

Lemma gact_ci_cases v h s x : gok v h s -> Forall (gact v h s x) (ci_cases v).
Proof.
  intros G. unfold ci_cases. apply Forall_app; split; [|apply Forall_app; split; [|apply Forall_app; split; [destruct v|]]].
  all: all_cases ltac:(first
    [ now apply gact_ci_list | now apply gact_ci_creator | now apply gact_ci_created | now apply gact_ci_comment
    | now apply gact_enter_license | now apply gact_enter_review
    | (intros ? H; cbn [snd fst] in *; eapply gok_other; [eassumption|reflexivity|];
       first [unfold ci_to_package in H; apply bindR_ok in H as (? & _ & H); apply do_package_name_gsame in H
             |unfold ci_to_file in H; apply do_file_name_gsame in H];
       apply (gsame_pre _ _ _ H); reflexivity)
    | (intros ? H; cbn [snd fst] in *; destruct (gok_st _ h s PsStart G) as (d & G' & C);
       first [eapply (ginv_document_comment _ h _ d) in H | eapply (ginv_external_document_ref _ h _ d) in H]; [|exact G'];
       destruct H as (d' & G'' & E & _); exists d'; split; [exact G''|congruence]) ]).
Qed.

Lemma values_none t h : Forall (fun p : string * string => In (fst p) document_tags) h -> ~ In t document_tags -> values t h = [].
Proof.
  intros F N. unfold values. induction F as [|[k y] h H F IH]; simpl; [reflexivity|].
  destruct (String.eqb_spec k t); [|exact IH]. subst. now elim N.
Qed.
Lemma ci_zero h : Forall (fun p : string * string => In (fst p) document_tags) h -> ci_fields h zero_CreationInfo.
Proof.
  intros F. unfold ci_fields, last_value. rewrite !(values_none _ h) by (assumption || (simpl; intuition discriminate)).
  repeat split. constructor.
Qed.

Lemma g_parse_ci v h s d t x s' : ginv v h s d -> parse_creation_info v t x s = Ok s' -> gok v (h ++ [(t, x)]) s'.
Proof.
  intros [D W L1 L2 L3 L4]. unfold parse_creation_info. rewrite D. cbv zeta.
  match goal with |- switch _ _ _ _ ?t = _ -> _ => set (s1 := t) end.
  assert (G : gok v h s1).
  { unfold s1. destruct (d_CreationInfo d) as [ci|] eqn:E.
    - exists d. split; [constructor; assumption|congruence].
    - eexists. split; [constructor; [reflexivity| |assumption..]|discriminate].
      destruct W. constructor; try assumption. cbn [d_CreationInfo set_d_CreationInfo]. apply ci_zero.
      rewrite E in w_ci0. exact w_ci0. }
  clearbody s1. apply switch_gok; [now apply gact_ci_cases|intros; discriminate].
Qed.

Definition ginv_st (v : version) (h : pairs) (s : pstate) : Prop :=
  exists d, ginv v h s d /\ (ps_st s <> PsStart -> d_CreationInfo d <> None).
Lemma gok_ginv_st v h s : gok v h s -> ginv_st v h s.
Proof. intros (d & G & C). exists d. auto. Qed.

Lemma start_case v h s d t x (a : action) s' : ginv v h s d -> ps_st s = PsStart ->
  In (t, a) start_cases -> a x s = Ok s' ->
  exists d', ginv v (h ++ [(t, x)]) s' d' /\ d_CreationInfo d' = d_CreationInfo d /\ ps_st s' = PsStart.
Proof.
  intros G St I H. simpl in I.
  destruct I as [I|[I|[I|[I|[I|[I|[I|[]]]]]]]]; inversion I; subst t a; clear I.
  - apply (ginv_document_comment v h s d) in H; [|exact G]. now rewrite <- St.
  - destruct G as [D W L1 L2 L3 L4]. apply upd_doc_inv in H as (d0 & E & ->). assert (d0 = d) by congruence. subst.
    eexists. split; [constructor; [reflexivity|now apply g_spdx_version|assumption..]|auto].
  - destruct G as [D W L1 L2 L3 L4]. apply upd_doc_inv in H as (d0 & E & ->). assert (d0 = d) by congruence. subst.
    eexists. split; [constructor; [reflexivity|now apply g_data_license|assumption..]|auto].
  - apply bindR_ok in H as (e & _ & H). pose proof H as H0. apply upd_doc_inv in H0 as (d0 & E & H0).
    apply upd_doc_gsame in H; [|intros; apply dsame_id].
    assert (G1 : ginv v (h ++ [("SPDXID", x)]) s d).
    { destruct G. constructor; auto. apply globals_stable; auto. left. simpl. tauto. }
    destruct (ginv_same _ _ _ _ _ G1 H) as (d' & G' & C). exists d'. split; [exact G'|]. split; [exact C|].
    subst s'. exact St.
  - destruct G as [D W L1 L2 L3 L4]. apply upd_doc_inv in H as (d0 & E & ->). assert (d0 = d) by congruence. subst.
    eexists. split; [constructor; [reflexivity|now apply g_doc_name|assumption..]|auto].
  - destruct G as [D W L1 L2 L3 L4]. apply upd_doc_inv in H as (d0 & E & ->). assert (d0 = d) by congruence. subst.
    eexists. split; [constructor; [reflexivity|now apply g_doc_namespace|assumption..]|auto].
  - apply (ginv_external_document_ref v h s d) in H; [|exact G]. now rewrite <- St.
Qed.
Lemma switch_in t (cases : list (string * action)) dflt x s s' : switch t cases dflt x s = Ok s' ->
  (exists a, In (t, a) cases /\ a x s = Ok s') \/ (~ In t (map fst cases) /\ dflt x s = Ok s').
Proof.
  induction cases as [|[k a] r IH]; simpl; [auto|]. destruct (String.eqb_spec t k).
  - subst. intros H. left. eauto.
  - intros H. destruct (IH H) as [(a' & I & E)|[N E]]; [left; eauto|]. right. split; [|exact E].
    intros [?|?]; auto.
Qed.

Lemma g_parse_pair v h s t x s' : ginv_st v h s -> parse_pair v s (t, x) = Ok s' -> ginv_st v (h ++ [(t, x)]) s'.
Proof.
  intros (d & G & C) H. simpl in H.
  destruct (ps_st s) eqn:St; try (assert (K : gok v h s) by (exists d; split; [exact G|apply C; discriminate]));
    [|apply gok_ginv_st..].
  - unfold parse_start in H. rewrite (gi_doc _ _ _ _ G) in H. cbv zeta in H.
    apply switch_in in H as [(a & I & H)|[_ H]].
    + destruct (start_case v h s d t x a s' G St I H) as (d' & G' & E & St'). exists d'. split; [exact G'|]. congruence.
    + apply gok_ginv_st. eapply (g_parse_ci v h (set_ps_st PsCreationInfo s) d); [|exact H].
      destruct G. constructor; assumption.
  - eapply g_parse_ci; eauto.
  - eapply g_parse_package; eauto.
  - eapply g_parse_file; eauto.
  - eapply g_parse_snippet; eauto.
  - eapply g_parse_license; eauto.
  - eapply g_parse_review; eauto.
Qed.
Lemma g_parse_pairs v l : forall h s s', ginv_st v h s -> parse_pairs v s l = Ok s' -> ginv_st v (h ++ l) s'.
Proof.
  induction l as [|[t x] l IH]; intros h s s' G H; simpl in H.
  - inversion H. subst. now rewrite app_nil_r.
  - apply bindR_ok in H as (s1 & H1 & H). replace (h ++ (t, x) :: l)%list with ((h ++ [(t, x)]) ++ l)%list by (now rewrite <- app_assoc).
    eapply IH; [|exact H]. eapply g_parse_pair; eauto.
Qed.

(** ** With only document tags there is no creation information *)
Lemma document_tags_only v l : forall s s', Forall (fun p : string * string => In (fst p) document_tags) l ->
  parse_pairs v s l = Ok s' -> ps_st s = PsStart -> doc_with s (fun d => d_CreationInfo d = None) ->
  doc_with s' (fun d => d_CreationInfo d = None).
Proof.
  induction l as [|[t x] l IH]; intros s s' F H St D; simpl in H.
  - inversion H. now subst.
  - apply bindR_ok in H as (s1 & H1 & H). inversion F; subst.
    assert (K : ps_st s1 = PsStart /\ doc_with s1 (fun d => d_CreationInfo d = None)).
    { simpl in H1. rewrite St in H1. unfold parse_start in H1. unfold doc_with in D.
      destruct (ps_doc s) as [d|] eqn:E; [|easy]. cbv zeta in H1.
      apply switch_in in H1 as [(a & I & H1)|[N _]].
      - simpl in I. destruct I as [I|[I|[I|[I|[I|[I|[I|[]]]]]]]]; inversion I; subst t a; clear I.
        all: unfold do_external_document_ref in H1.
        all: try (apply bindR_ok in H1 as (? & _ & H1)).
        all: apply upd_doc_inv in H1 as (d0 & E0 & ->); unfold doc_with; simpl; split; [exact St|congruence].
      - elim N. simpl in *. tauto. }
    destruct K. eapply IH; eauto.
Qed.

Lemma document_tags_dec (l : pairs) :
  Forall (fun p => In (fst p) document_tags) l \/ Exists (fun p => ~ In (fst p) document_tags) l.
Proof.
  induction l as [|p l [IH|IH]]; [left; constructor| |right; now constructor].
  destruct (in_dec string_dec (fst p) document_tags); [left|right]; now constructor.
Qed.

(** ** The document that is returned *)
Lemma deref_globals v l s d x : deref_doc s d = Some x -> globals_den v l d -> globals_den v l x.
Proof.
  unfold deref_doc. destruct (mapO _ _); [|discriminate]. destruct (mapO _ _); [|discriminate].
  intros H [] . inversion H; subst. constructor; assumption.
Qed.
Lemma gweak_globals v l d : gweak v l d ->
  (Forall (fun p => In (fst p) document_tags) l -> d_CreationInfo d = None) -> globals_den v l d.
Proof.
  intros [] C. constructor; auto. unfold ci_weak in w_ci0. destruct (d_CreationInfo d) as [ci|]; [|exact w_ci0].
  split; [|exact w_ci0]. destruct (document_tags_dec l) as [A|A]; [|exact A]. discriminate (C A).
Qed.

Lemma parse_globals v l d : parse_tag_values v l = Ok (Some d) -> globals_den v l d.
Proof.
  intros H. destruct l as [|p l0]; [discriminate|]. set (l := p :: l0) in *.
  unfold parse_tag_values in H. rewrite parse_pairs_start in H by discriminate.
  apply bindR_ok in H as (s & P & H). apply bindR_ok in H as (_ & _ & H). apply bindR_ok in H as (_ & _ & H).
  destruct (ps_doc s) as [d0|] eqn:D; [|discriminate]. destruct (deref_doc s d0) as [x|] eqn:R; [|discriminate].
  inversion H; subst x. apply (deref_globals _ _ _ _ _ R).
  assert (G : ginv_st v ([] ++ l) s).
  { eapply g_parse_pairs; [|exact P]. exists zero_DocumentOf. split; [apply ginv_start|]. now intros []. }
  destruct G as (d1 & G & _). pose proof (gi_doc _ _ _ _ G). assert (d1 = d0) by congruence. subst d1.
  apply gweak_globals; [exact (gi_den _ _ _ _ G)|]. intros F.
  assert (K : doc_with s (fun d => d_CreationInfo d = None)).
  { eapply document_tags_only; [exact F|exact P|reflexivity|reflexivity]. }
  unfold doc_with in K. now rewrite D in K.
Qed.

(** ** Counts and order *)
Lemma parts_values t l : map fst (parts_of t l) = values t l.
Proof.
  induction l as [|[k x] l IH] using rev_ind; [reflexivity|].
  rewrite parts_snoc, values_snoc. destruct (k =? t).
  - rewrite map_app, IH. reflexivity.
  - rewrite update_last_map; [exact IH|reflexivity].
Qed.
Lemma Forall2_map_l {A B C} (f : A -> B) (R : B -> C -> Prop) l m :
  Forall2 (fun a c => R (f a) c) l m -> Forall2 R (map f l) m.
Proof. induction 1; simpl; auto. Qed.
Lemma parse_order v l d : parse_tag_values v l = Ok (Some d) ->
  Forall2 (relationship_text v) (values "Relationship" l) (d_Relationships d) /\
  Forall2 (fun x a => actor_text actor3 x (an_AnnotatorType (a_Annotator a)) (an_Annotator (a_Annotator a)))
          (values "Annotator" l) (d_Annotations d) /\
  map ol_LicenseIdentifier (d_OtherLicenses d) = values "LicenseID" l /\
  Forall2 (fun x r => actor_text actor3 x (rv_ReviewerType r) (rv_Reviewer r))
          (values "Reviewer" l) (d_Reviews d) /\
  Forall2 edr_text (values "ExternalDocumentRef" l) (d_ExternalDocumentReferences d).
Proof.
  intros H. apply parse_globals in H. destruct H. rewrite <- !parts_values.
  split; [|split; [|split; [|split]]].
  - apply Forall2_map_l. eapply Forall2_impl; [|exact g_rels]. now intros ? ? [? _].
  - apply (Forall2_map_l fst (fun x a => actor_text actor3 x (an_AnnotatorType (a_Annotator a)) (an_Annotator (a_Annotator a)))).
    eapply Forall2_impl; [|exact g_anns]. now intros ? ? [? _].
  - clear -g_licenses. induction g_licenses as [|a b l1 l2 H]; simpl; [reflexivity|]. destruct H. now f_equal.
  - apply (Forall2_map_l fst (fun x r => actor_text actor3 x (rv_ReviewerType r) (rv_Reviewer r))).
    eapply Forall2_impl; [|exact g_reviews]. now intros ? ? [? _].
  - now rewrite parts_values.
Qed.
Lemma parse_counts v l d : parse_tag_values v l = Ok (Some d) ->
  length (d_Relationships d) = length (values "Relationship" l) /\
  length (d_Annotations d) = length (values "Annotator" l) /\
  length (d_OtherLicenses d) = length (values "LicenseID" l) /\
  length (d_Reviews d) = length (values "Reviewer" l) /\
  length (d_ExternalDocumentReferences d) = length (values "ExternalDocumentRef" l) /\
  (forall ci, d_CreationInfo d = Some ci -> length (ci_Creators ci) = length (values "Creator" l)).
Proof.
  intros H. pose proof (parse_globals _ _ _ H) as []. apply parse_order in H as (H1 & H2 & H3 & H4 & H5).
  apply Forall2_len in H1, H2, H4, H5. rewrite <- H3, map_length.
  repeat (split; [congruence|]). intros ci E. rewrite E in g_ci. destruct g_ci as (_ & _ & F & _).
  apply Forall2_len in F. congruence.
Qed.
