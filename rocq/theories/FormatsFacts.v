(** What survives writing in one format and reading the result. *)
From Verif Require Import GoStr Sorting Types TvUtil TvReader TvParser TvWriter SpecTv SpecDoc SpecWrite Json JsonSpdx JsonText SpecJson SpecJsonText SpecFormats
  Formats JsonRound JsonRoundDoc JsonTextLaws JsonPart TagPart.

Lemma json_write_part v h ind d : json_write v h ind (json_part v d) = json_write v h ind d.
Proof. unfold json_write. now rewrite marshal_part. Qed.
Lemma json_part_read v h ind d : blank ind -> document_json v h (json_part v d) ->
  exists s, json_write v h ind d = Ok s /\ json_read_into s = Ok (v, json_part v d).
Proof. intros B D. rewrite <- json_write_part. now apply round_trip_bytes. Qed.
Lemma json_same v h ind d e : blank ind -> document_json v h (json_part v d) -> document_json v h (json_part v e) ->
  (json_write v h ind d = json_write v h ind e <-> json_part v d = json_part v e).
Proof.
  intros B D E. split; intros H.
  - destruct (json_part_read v h ind d B D) as (s & W & R). destruct (json_part_read v h ind e B E) as (s' & W' & R').
    rewrite H, W' in W. injection W as <-. rewrite R in R'. revert R'. generalize (json_part v d), (json_part v e). intros x y [= ->]. reflexivity.
  - now rewrite <- (json_write_part v h ind d), H, json_write_part.
Qed.

Lemma all_some_map {A} (l : list A) : all_some (map Some l) = Some l.
Proof. induction l as [|x l IH]; [reflexivity|]. cbn [map all_some]. now rewrite IH. Qed.
Lemma all_some_in {A} (l : list (option A)) : all_some l = None <-> In None l.
Proof.
  induction l as [|[x|] l IH]; cbn [all_some In]; [split; [discriminate|tauto]| |tauto].
  destruct (all_some l); cbn [option_map]; split; try discriminate.
  - intros [H|H]; [discriminate|]. apply IH in H. discriminate.
  - intros _. right. now apply IH.
  - reflexivity.
Qed.
Lemma all_some_iff {A} (l : list (option A)) m : all_some l = Some m <-> l = map Some m.
Proof.
  split; [|intros ->; apply all_some_map]. revert m. induction l as [|[x|] l IH]; cbn [all_some]; intros m H; [now injection H as <-| |discriminate].
  destruct (all_some l) as [k|]; [|discriminate]. injection H as <-. cbn [map]. now rewrite (IH k eq_refl).
Qed.
Lemma all_some_plain {A B} (f : A -> option B) (g : B -> A) l : (forall x, f (g x) = Some x) ->
  all_some (map (pointee f) (map (fun x => Some (g x)) l)) = Some l.
Proof. intros H. induction l as [|x l IH]; [reflexivity|]. cbn [map pointee all_some]. now rewrite H, IH. Qed.
Lemma plain_jfile f : plain_file (jfile f) = Some f.
Proof. unfold plain_file. cbn [jfile f_Artifacts]. rewrite all_some_map. now destruct f. Qed.
Lemma plain_jpkg p : plain_package (jpkg p) = Some p.
Proof.
  unfold plain_package. cbn [jpkg p_ExternalReferences p_Files]. rewrite all_some_map, (all_some_plain _ _ _ plain_jfile). now destruct p.
Qed.
Lemma plain_jdoc d : plain_document (jdoc d) = Some d.
Proof.
  unfold plain_document. cbn [jdoc d_Packages d_Files d_OtherLicenses d_Relationships d_Annotations].
  rewrite (all_some_plain _ _ _ plain_jpkg), (all_some_plain _ _ _ plain_jfile), !all_some_map. now destruct d.
Qed.
Lemma tagvalue_write_jdoc so v d : tagvalue_write so v (jdoc d) = let* (t, d') := render_document so v d in Ok (t, jdoc d').
Proof.
  unfold tagvalue_write. rewrite plain_jdoc. cbn [jdoc d_CreationInfo]. unfold render_document, render_document_chunks.
  destruct (d_CreationInfo d); reflexivity.
Qed.
(** a pointer is nil exactly if the document without pointers does not exist *)
Lemma all_some_nil {A B} (f : A -> option B) (P : A -> Prop) l : (forall x, f x = None <-> P x) ->
  (all_some (map (pointee f) l) = None <-> some_nil P l).
Proof.
  intros H. rewrite all_some_in, in_map_iff. unfold some_nil. split.
  - intros ([x|] & E & K); [|now left]. right. exists x. split; [exact K|]. now apply H.
  - intros [K|(x & K & E)]; [exists None|exists (Some x)]; split; auto. now apply H.
Qed.
Lemma plain_file_nil f : plain_file f = None <-> file_nil f.
Proof. unfold plain_file, file_nil. rewrite <- all_some_in. destruct (all_some (f_Artifacts f)); split; congruence. Qed.
Lemma plain_package_nil p : plain_package p = None <-> package_nil p.
Proof.
  unfold plain_package, package_nil. rewrite <- all_some_in, <- (all_some_nil _ _ _ plain_file_nil).
  destruct (all_some (p_ExternalReferences p)), (all_some (map (pointee plain_file) (p_Files p))); split; try (intros [H|H]); try congruence; auto.
Qed.
Lemma plain_document_nil d : plain_document d = None <-> document_nil d.
Proof.
  unfold plain_document, document_nil. rewrite <- !all_some_in, <- (all_some_nil _ _ _ plain_file_nil), <- (all_some_nil _ _ _ plain_package_nil).
  destruct (all_some (map (pointee plain_package) (d_Packages d))), (all_some (map (pointee plain_file) (d_Files d))),
    (all_some (d_OtherLicenses d)), (all_some (d_Relationships d)), (all_some (d_Annotations d));
    split; try (intros [H|[H|[H|[H|H]]]]); try congruence; auto 6.
Qed.
Lemma all_some_back {A B} (f : A -> option B) (g : B -> A) l m : (forall x y, f x = Some y -> x = g y) ->
  all_some (map (pointee f) l) = Some m -> l = map (fun x => Some (g x)) m.
Proof.
  intros H. revert m. induction l as [|[x|] l IH]; cbn [map pointee all_some]; intros m E; [now injection E as <-| |discriminate].
  destruct (f x) as [y|] eqn:F; [|discriminate]. destruct (all_some (map (pointee f) l)) as [k|]; [|discriminate]. injection E as <-.
  cbn [map]. now rewrite (H _ _ F), (IH k eq_refl).
Qed.
Lemma plain_file_back f g : plain_file f = Some g -> f = jfile g.
Proof.
  unfold plain_file. destruct (all_some (f_Artifacts f)) as [l|] eqn:E; [|discriminate]. apply all_some_iff in E. intros H. injection H as <-.
  destruct f. cbn in *. now subst.
Qed.
Lemma plain_package_back p q : plain_package p = Some q -> p = jpkg q.
Proof.
  unfold plain_package. destruct (all_some (p_ExternalReferences p)) as [l|] eqn:E; [|discriminate]. apply all_some_iff in E.
  destruct (all_some (map _ (p_Files p))) as [m|] eqn:E'; [|discriminate]. apply (all_some_back _ _ _ _ plain_file_back) in E'. intros H. injection H as <-.
  destruct p. cbn in *. now subst.
Qed.
Lemma plain_document_back d e : plain_document d = Some e -> d = jdoc e.
Proof.
  unfold plain_document.
  destruct (all_some (map _ (d_Packages d))) as [l1|] eqn:E1; [|discriminate]. apply (all_some_back _ _ _ _ plain_package_back) in E1.
  destruct (all_some (map _ (d_Files d))) as [l2|] eqn:E2; [|discriminate]. apply (all_some_back _ _ _ _ plain_file_back) in E2.
  destruct (all_some (d_OtherLicenses d)) as [l3|] eqn:E3; [|discriminate]. apply all_some_iff in E3.
  destruct (all_some (d_Relationships d)) as [l4|] eqn:E4; [|discriminate]. apply all_some_iff in E4.
  destruct (all_some (d_Annotations d)) as [l5|] eqn:E5; [|discriminate]. apply all_some_iff in E5. intros H. injection H as <-.
  destruct d. cbn in *. now subst.
Qed.
Lemma no_nil_jdoc d : ~ document_nil d <-> exists e, d = jdoc e.
Proof.
  rewrite <- plain_document_nil. split.
  - intros H. destruct (plain_document d) as [e|] eqn:E; [|tauto]. exists e. now apply plain_document_back.
  - intros (e & ->). rewrite plain_jdoc. discriminate.
Qed.
Lemma tagvalue_write_nil so v d : tagvalue_write so v d = Panic <-> d_CreationInfo d <> None /\ document_nil d.
Proof.
  unfold tagvalue_write. destruct (d_CreationInfo d) as [ci|] eqn:C; [|split; [discriminate|tauto]].
  rewrite <- plain_document_nil. destruct (plain_document d) as [e|] eqn:E; [|split; [intros _; split; [discriminate|reflexivity]|reflexivity]].
  apply plain_document_back in E. subst d. cbn [jdoc d_CreationInfo] in C.
  unfold render_document, render_document_chunks. rewrite C. cbn [bindR]. split; [discriminate|now intros [_ H]].
Qed.

Lemma to_json v h ind text d : blank ind -> read_into text = Ok (v, Some d) -> document_json v h (json_part v (jdoc d)) ->
  exists s, tv_to_json h ind text = Ok s /\ json_read_into s = Ok (v, json_part v (jdoc d)).
Proof. intros B R D. unfold tv_to_json. rewrite R. cbn [bindR]. now apply json_part_read. Qed.
Lemma to_tv so v text d : json_read_into text = Ok (v, jdoc d) -> representable v (tag_part v d) ->
  exists t e, json_to_tv so text = Ok t /\ document_same (tag_part v d) e /\
    (Forall short (stream_lines t) -> read_into t = Ok (v, Some e)).
Proof.
  intros R H. destruct (round_trip_part so v d H) as (t & d' & e & W & _ & S & Rd). exists t, e. split; [|now split].
  unfold json_to_tv. rewrite R. cbn [bindR]. rewrite tagvalue_write_jdoc, W. reflexivity.
Qed.
Lemma json_file_plain v f : json_file v (jfile f) = jfile (json_file v f).
Proof. destruct f, v; reflexivity. Qed.
Lemma json_package_plain v p : json_package (option_map (json_file v)) v (jpkg p) = jpkg (json_package (json_file v) v p).
Proof.
  assert (E : map (option_map (json_file v)) (map (fun f => Some (jfile f)) (p_Files p)) = map (fun f => Some (jfile f)) (map (json_file v) (p_Files p))).
  { rewrite !map_map. apply map_ext. intros f. cbn [option_map]. now rewrite json_file_plain. }
  unfold json_package. change (p_Files (jpkg p)) with (map (fun f => Some (jfile f)) (p_Files p)). rewrite E. destruct p, v; reflexivity.
Qed.
Lemma json_part_jdoc v d : json_part v (jdoc d) = jdoc (json_doc v d).
Proof.
  assert (E1 : map (option_map (json_package (option_map (json_file v)) v)) (map (fun p => Some (jpkg p)) (d_Packages d)) =
               map (fun p => Some (jpkg p)) (map (json_package (json_file v) v) (d_Packages d))).
  { rewrite !map_map. apply map_ext. intros p. cbn [option_map]. now rewrite json_package_plain. }
  assert (E2 : map (option_map (json_file v)) (map (fun f => Some (jfile f)) (d_Files d)) = map (fun f => Some (jfile f)) (map (json_file v) (d_Files d))).
  { rewrite !map_map. apply map_ext. intros f. cbn [option_map]. now rewrite json_file_plain. }
  assert (E3 : map (option_map json_annotation) (map Some (d_Annotations d)) = map Some (map json_annotation (d_Annotations d))).
  { now rewrite !map_map. }
  unfold json_part. cbn [jdoc d_Packages d_Files d_Annotations d_Snippets]. rewrite E1, E2, E3. destruct d; reflexivity.
Qed.
Lemma there_and_back so v h ind text d : blank ind -> read_into text = Ok (v, Some d) -> document_json v h (json_part v (jdoc d)) ->
  representable v (tag_part v (json_doc v d)) ->
  exists s t e, tv_to_json h ind text = Ok s /\ json_to_tv so s = Ok t /\ document_same (tag_part v (json_doc v d)) e /\
    (Forall short (stream_lines t) -> read_into t = Ok (v, Some e)).
Proof.
  intros B R D H. destruct (to_json v h ind text d B R D) as (s & W & Rs). rewrite json_part_jdoc in Rs.
  destruct (to_tv so v s _ Rs H) as (t & e & W' & S & Rd). eauto 7.
Qed.

(** ** The common part of both formats *)
Lemma part_file v f : file_rep v f -> file_rep v (tag_file v (json_file v f)).
Proof.
  intros H. unfold file_rep, attributions_rep in *. repeat match goal with H : _ /\ _ |- _ => destruct H end.
  destruct v; cbn; repeat (apply conj; try assumption); try reflexivity; try constructor; auto.
Qed.
Lemma part_code v c : opt_ok code_rep c -> opt_ok code_rep (tag_code (json_code v c)).
Proof.
  destruct c as [[x l]|]; [|destruct v; intros; exact I]. cbn [opt_ok]. intros C. pose proof C as (N & L & E). cbn [vc_Value vc_ExcludedFiles] in *.
  assert (K : opt_ok code_rep (tag_code (Some (MkVC x l)))).
  { cbn [tag_code]. destruct x; [exact I|]. destruct E as [->|(f & -> & E)]; [exact C|exact C]. }
  destruct v; cbn [json_code]; try exact K; destruct x; [destruct l; exact I|exact K|destruct l; exact I|exact K].
Qed.
Lemma part_supplier s : opt_ok supplier_rep s -> opt_ok supplier_rep (tag_supplier s).
Proof. destruct s as [[[|b s] t]|]; cbn; intros H; auto. Qed.
Lemma part_originator s : opt_ok originator_rep s -> opt_ok originator_rep (tag_originator s).
Proof. destruct s as [[[|b s] t]|]; cbn; intros H; auto. Qed.
Lemma part_only v x : only_v23 v x -> only_v23 v (from_23 v x).
Proof. intros [L H]. destruct v; cbn; split; auto; try (rewrite (H ltac:(discriminate)) in L; assumption). Qed.
Lemma part_files v l : Forall (file_rep v) l -> Forall (file_rep v) (map (tag_file v) (map (json_file v) l)).
Proof. intros H. rewrite map_map. apply Forall_map. eapply Forall_impl; [|exact H]. intros f. apply part_file. Qed.
Lemma part_texts v l : attributions_rep v l -> attributions_rep v (from_22 v l).
Proof. intros [H K]. destruct v; cbn [from_22]; split; auto; constructor. Qed.
Lemma both_package v a1 a2 a3 a4 a5 a6 a7 a8 an a9 a10 a11 a12 a13 a14 a15 a16 a17 a18 a19 a20 a21 a22 a23 a24 a25 a26 a27 a28 a29 :
  tag_package v (json_package (json_file v) v (MkPackage a1 a2 a3 a4 a5 a6 a7 a8 an a9 a10 a11 a12 a13 a14 a15 a16 a17 a18 a19 a20 a21 a22 a23 a24 a25 a26 a27 a28 a29)) =
  MkPackage false a2 a3 a4 a5 (tag_supplier a6) (tag_originator a7) a8 an (if an then match v with V21 => false | _ => true end else true)
    (if an then tag_code (json_code v a10) else None) a11 a12 a13 a14 (if an then a15 else []) a16 a17 a18 a19 a20 a21 a22
    (from_22 v a23) (from_23 v a24) (from_23 v a25) (from_23 v a26) (from_23 v a27) (map (tag_file v) (map (json_file v) a28)) [].
Proof.
  destruct v, an; unfold tag_package, json_package;
    generalize tag_supplier, tag_originator, tag_code, json_code, tag_file, (@json_file Artifact), json_annotation; intros; vm_compute; reflexivity.
Qed.
Lemma part_package v p : package_rep v p -> package_rep v (tag_package v (json_package (json_file v) v p)).
Proof.
  intros H. destruct p as [a1 a2 a3 a4 a5 a6 a7 a8 an a9 a10 a11 a12 a13 a14 a15 a16 a17 a18 a19 a20 a21 a22 a23 a24 a25 a26 a27 a28 a29].
  rewrite both_package. unfold package_rep in *. cbn [p_IsUnpackaged p_PackageName p_SPDXIdentifier p_Version p_FileName p_Supplier p_Originator p_DownloadLocation p_FilesAnalyzed
    p_IsFilesAnalyzedTagPresent p_VerificationCode p_Checksums p_HomePage p_SourceInfo p_LicenseConcluded p_LicenseInfoFromFiles p_LicenseDeclared
    p_LicenseComments p_CopyrightText p_Summary p_Description p_Comment p_ExternalReferences p_AttributionTexts p_PrimaryPackagePurpose p_ReleaseDate
    p_BuiltDate p_ValidUntilDate p_Files p_Annotations] in *.
  repeat match goal with H : _ /\ _ |- _ => destruct H end. repeat match goal with |- _ /\ _ => apply conj end; try assumption; try reflexivity;
    first [now apply part_supplier|now apply part_originator|now apply part_texts|now apply part_only|now apply part_files|idtac].
  - intros ->. repeat split.
  - destruct an; [now apply part_code|exact I].
  - destruct an; [assumption|constructor].
Qed.

Lemma part_annotation a : annotation_rep a -> annotation_rep (json_annotation a).
Proof. intros (A & B & C & _ & E). repeat (apply conj; [assumption|]). apply conj; [now left|assumption]. Qed.
Lemma part_representable v d : representable v d -> d_CreationInfo d <> Some zero_CreationInfo \/ lasting_elements d -> representable v (tag_part v (json_doc v d)).
Proof.
  intros (R1 & R2 & R3 & R4 & R5 & R6 & R7 & (ci & E & R8 & R8') & R9 & R10 & R11 & R12 & R13 & R14 & R15) L.
  repeat (apply conj; [assumption|]). apply conj.
  - exists ci. split; [exact E|]. split; [exact R8|]. destruct L as [L|L]; [left; congruence|right].
    assert (M : forall (A B : Type) (f : A -> B) l, l <> [] -> map f l <> []) by (intros A B f [|x l]; [tauto|discriminate]).
    unfold has_elements. change (d_Files (tag_part v (json_doc v d))) with (map (tag_file v) (map (json_file v) (d_Files d))).
    change (d_Packages (tag_part v (json_doc v d))) with (map (tag_package v) (map (json_package (json_file v) v) (d_Packages d))).
    change (d_Annotations (tag_part v (json_doc v d))) with (map json_annotation (d_Annotations d)).
    change (d_OtherLicenses (tag_part v (json_doc v d))) with (d_OtherLicenses d). change (d_Relationships (tag_part v (json_doc v d))) with (d_Relationships d).
    destruct L as [L|[L|[L|[L|L]]]]; auto 8.
  - apply conj.
    { change (d_Packages (tag_part v (json_doc v d))) with (map (tag_package v) (map (json_package (json_file v) v) (d_Packages d))). rewrite map_map. apply Forall_map.
      eapply Forall_impl; [|exact R9]. apply part_package. }
    apply conj; [exact (part_files v _ R10)|]. repeat (apply conj; [assumption|]). apply conj; [|apply conj; [constructor|reflexivity]].
    change (d_Annotations (tag_part v (json_doc v d))) with (map json_annotation (d_Annotations d)). apply Forall_map. eapply Forall_impl; [|exact R13]. apply part_annotation.
Qed.
Lemma common_part so v h ind text d : blank ind -> read_into text = Ok (v, Some d) -> document_json v h (json_part v (jdoc d)) ->
  representable v d -> d_CreationInfo d <> Some zero_CreationInfo \/ lasting_elements d ->
  exists s t e, tv_to_json h ind text = Ok s /\ json_to_tv so s = Ok t /\ document_same (tag_part v (json_doc v d)) e /\
    (Forall short (stream_lines t) -> read_into t = Ok (v, Some e)).
Proof. intros B R D H L. apply there_and_back; auto. now apply part_representable. Qed.
Lemma tag_same so so' v d e t d' e' : representable v (tag_part v d) -> representable v (tag_part v e) ->
  render_document so v d = Ok (t, d') -> render_document so' v e = Ok (t, e') -> Forall short (stream_lines t) ->
  exists x, document_same (tag_part v d) x /\ document_same (tag_part v e) x.
Proof.
  intros D E W W' F. destruct (round_trip_part so v d D) as (t1 & d1 & x & W1 & _ & S1 & R1). destruct (round_trip_part so' v e E) as (t2 & d2 & y & W2 & _ & S2 & R2).
  rewrite W in W1. injection W1 as <- <-. rewrite W' in W2. injection W2 as <- <-.
  specialize (R1 F). specialize (R2 F). rewrite R1 in R2. injection R2 as <-. eauto.
Qed.
