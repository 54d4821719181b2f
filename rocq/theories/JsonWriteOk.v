(** * Which documents the encoder accepts. *)
From Verif Require Import GoStr GoStrFacts Types TvUtil TvParser SpecTv SpecId SpecDoc Json JsonSpdx SpecJson JsonFacts JsonCodec JsonHooks SpecJsonWrite JsonReadFacts JsonWriteFacts JsonWriteDoc DenoteGlobal.
Local Open Scope string_scope.

Definition takes {X} (c : codec X) (P : X -> Prop) : Prop := forall x, (exists j, enc c x = Ok j) <-> P x.
Definition all {X} (x : X) : Prop := True.
Lemma takes_ext X (c : codec X) P Q : takes c P -> (forall x, P x <-> Q x) -> takes c Q.
Proof. intros T E x. rewrite (T x). apply E. Qed.
Lemma takes_string : takes c_string all.
Proof. intros x. cbn. unfold all. split; eauto. Qed.
Lemma takes_bool : takes c_bool all.
Proof. intros x. cbn. unfold all. split; eauto. Qed.
Lemma takes_int : takes c_int all.
Proof. intros x. cbn. unfold all. split; eauto. Qed.
Lemma takes_slice X (c : codec X) z P : takes c P -> takes (c_slice c z) (Forall P).
Proof.
  intros T l. assert ((exists js, Forall2 (fun a b => enc c a = Ok b) l js) <-> Forall P l) as H.
  { induction l as [|x l IH]; [split; [constructor|exists []; constructor]|]. split.
    - intros (js & F). inversion F; subst. constructor; [apply T; eauto|apply IH; eauto].
    - intros F. inversion F as [|? ? Px Pl]; subst. apply T in Px as (j & E). apply IH in Pl as (js & G). exists (j :: js). now constructor. }
  rewrite <- H. cbn [enc c_slice]. destruct l as [|x l].
  - split; [exists []; constructor|eauto].
  - split.
    + intros (j & E). apply bindR_ok in E as (js & E & _). exists js. now apply mapR_forall2.
    + intros (js & F). apply mapR_forall2 in F. rewrite F. eexists. reflexivity.
Qed.
Lemma takes_ptr X (c : codec X) z P : takes c P -> takes (c_ptr c z) (given P).
Proof. intros T [x|]; cbn; [apply T|]. split; eauto. Qed.
Lemma takes_ptrs X (c : codec X) z P : takes c P -> takes (c_ptrs c z) (Forall (given P)).
Proof. intros T. apply takes_slice, takes_ptr, T. Qed.
Lemma takes_text X (m : X -> res string) u P : (forall x, (exists s, m x = Ok s) <-> P x) -> takes (c_text m u) P.
Proof.
  intros H x. rewrite <- (H x). cbn [enc c_text]. split.
  - intros (j & E). apply bindR_ok in E as (s & E & _). eauto.
  - intros (s & ->). eexists. reflexivity.
Qed.
Lemma takes_struct A (fs : list (field A)) (P : A -> list Prop) :
  (forall a, Forall2 (fun f Q => (exists o, f_enc f a = Ok o) <-> Q) fs (P a)) ->
  takes (c_struct fs) (fun a => fold_right and True (P a)).
Proof.
  intros H a. specialize (H a). assert ((exists ms, enc_fields fs a = Ok ms) <-> fold_right and True (P a)) as G.
  { induction H as [|f Q fs Qs E _ IH]; cbn; [split; eauto|]. rewrite <- E, <- IH. split.
    - intros (ms & K). apply bindR_ok in K as (o & Eo & K). apply bindR_ok in K as (r & Er & K). eauto.
    - intros ((o & ->) & (ms & ->)). eexists. reflexivity. }
  rewrite <- G. cbn [enc c_struct]. split.
  - intros (j & E). apply bindR_ok in E as (ms & E & _). eauto.
  - intros (ms & ->). eexists. reflexivity.
Qed.
(** A member that is left out when empty does not restrict anything then. *)
Definition kind {X} (c : codec X) (P : X -> Prop) : Prop := takes c P /\ forall x, is_empty c x = true -> P x.
Lemma f_takes A X n o (c : codec X) get set P (a : A) : kind c P ->
  (exists j, f_enc (Field X n o c get set) a = Ok j) <-> P (get a).
Proof.
  intros (T & E). unfold f_enc. cbn [f_type f_omit f_codec f_get]. destruct (o && is_empty c (get a))%bool eqn:K.
  - apply andb_prop in K as (_ & K). split; [intros _; auto|intros _; eexists; reflexivity].
  - rewrite <- (T (get a)). split.
    + intros (j & G). apply bindR_ok in G as (j0 & G & _). eauto.
    + intros (j & ->). eexists. reflexivity.
Qed.
Lemma kind_string : kind c_string all. Proof. split; [apply takes_string|easy]. Qed.
Lemma kind_bool : kind c_bool all. Proof. split; [apply takes_bool|easy]. Qed.
Lemma kind_int : kind c_int all. Proof. split; [apply takes_int|easy]. Qed.
Lemma kind_slice X (c : codec X) z P : kind c P -> kind (c_slice c z) (Forall P).
Proof. intros (T & _). split; [now apply takes_slice|]. intros [|x l]; [constructor|discriminate]. Qed.
Lemma kind_ptr X (c : codec X) z P : kind c P -> kind (c_ptr c z) (given P).
Proof. intros (T & _). split; [now apply takes_ptr|]. intros [x|]; [discriminate|intros _; exact I]. Qed.
Lemma kind_ptrs X (c : codec X) z P : kind c P -> kind (c_ptrs c z) (Forall (given P)).
Proof. intros (T & _). split; [now apply takes_ptrs|]. intros [|x l]; [constructor|discriminate]. Qed.
Lemma kind_text X (m : X -> res string) u P : (forall x, (exists s, m x = Ok s) <-> P x) -> kind (c_text m u) P.
Proof. intros H. split; [now apply takes_text|discriminate]. Qed.
Lemma kind_ids p u : kind (c_text (fun d => Ok (with_prefix p d)) u) all.
Proof. apply kind_text. intros x. unfold all. split; eauto. Qed.
Lemma kind_element_id : kind c_element_id all. Proof. apply kind_ids. Qed.
Lemma kind_document_id : kind c_document_id all. Proof. apply kind_ids. Qed.
Lemma kind_reference : kind c_doc_element_id reference_writable.
Proof. apply kind_text. intros x. apply marshal_ref_exact. Qed.
Lemma kind_creator : kind c_creator (fun c => cr_Creator c <> "").
Proof. apply kind_text. intros x. apply marshal_actor_exact. Qed.
Lemma kind_annotator : kind c_annotator (fun c => an_Annotator c <> "").
Proof. apply kind_text. intros x. apply marshal_actor_exact. Qed.
Lemma kind_supplier : kind c_supplier (fun s => agent_writable (su_SupplierType s) (su_Supplier s)).
Proof. apply kind_text. intros x. apply marshal_agent_exact. Qed.
Lemma kind_originator : kind c_originator (fun s => agent_writable (or_OriginatorType s) (or_Originator s)).
Proof. apply kind_text. intros x. apply marshal_agent_exact. Qed.
Lemma kind_all_list X (c : codec X) z : kind c all -> kind (c_slice c z) all.
Proof.
  intros K. destruct (kind_slice _ _ z _ K) as (T & E). split; [|easy]. eapply takes_ext; [exact T|].
  intros l. unfold all. split; [easy|]. intros _. apply Forall_forall. easy.
Qed.
Lemma kind_all_ptrs X (c : codec X) z : kind c all -> kind (c_ptrs c z) all.
Proof.
  intros K. destruct (kind_ptrs _ _ z _ K) as (T & E). split; [|easy]. eapply takes_ext; [exact T|].
  intros l. unfold all. split; [easy|]. intros _. apply Forall_forall. now intros [x|].
Qed.
Lemma kind_strings : kind c_strings all. Proof. apply kind_all_list, kind_string. Qed.

Create HintDb kinds.
Global Hint Resolve kind_string kind_strings kind_bool kind_int kind_element_id kind_document_id kind_reference
  kind_creator kind_annotator kind_supplier kind_originator : kinds.
Ltac field_kind := match goal with |- (exists o, f_enc _ _ = Ok o) <-> ?Q => is_evar Q end;
  eapply f_takes; solve [eauto with kinds | apply kind_all_list; auto with kinds | apply kind_all_ptrs; auto with kinds
    | eapply kind_slice; eauto with kinds | eapply kind_slice, kind_ptr; eauto with kinds | eapply kind_ptrs; eauto with kinds | eapply kind_ptr; eauto with kinds].
(** [P] is what remains of the conditions of all members. *)
Ltac struct_kind :=
  match goal with |- takes _ ?P => eapply (takes_ext _ _ _ P) end;
  [ eapply takes_struct; intros a; repeat (eapply Forall2_cons; [field_kind|]); eapply Forall2_nil
  | intros a; cbn [fold_right]; unfold all ].

Lemma kind_of_takes A (fs : list (field A)) P : takes (c_struct fs) P -> kind (c_struct fs) P.
Proof. intros T. split; [assumption|discriminate]. Qed.
Lemma kind_checksum : kind c_checksum all. Proof. apply kind_of_takes. struct_kind. tauto. Qed.
Lemma kind_code : kind c_verification_code all. Proof. apply kind_of_takes. struct_kind. tauto. Qed.
Lemma kind_pointer : kind c_range_pointer all. Proof. apply kind_of_takes. struct_kind. tauto. Qed.
Global Hint Resolve kind_checksum kind_code kind_pointer : kinds.
Lemma kind_range : kind c_range all. Proof. apply kind_of_takes. struct_kind. tauto. Qed.
Lemma kind_external_document : kind c_external_document_ref all. Proof. apply kind_of_takes. struct_kind. tauto. Qed.
Lemma kind_creation : kind c_creation_info creation_writable. Proof. apply kind_of_takes. struct_kind. unfold creation_writable. tauto. Qed.
Lemma kind_relationship : kind c_relationship relationship_writable.
Proof. apply kind_of_takes. struct_kind. unfold relationship_writable. tauto. Qed.
Lemma kind_annotation : kind c_annotation annotation_writable.
Proof. apply kind_of_takes. struct_kind. unfold annotation_writable. tauto. Qed.
Lemma kind_license : kind c_other_license all. Proof. apply kind_of_takes. struct_kind. tauto. Qed.
Lemma kind_artifact : kind c_artifact all. Proof. apply kind_of_takes. struct_kind. tauto. Qed.
Global Hint Resolve kind_range kind_external_document kind_creation kind_relationship kind_annotation kind_license kind_artifact : kinds.
Lemma kind_plain_ref : kind (c_struct external_ref_fields) all. Proof. apply kind_of_takes. struct_kind. tauto. Qed.
Lemma kind_external_ref v : kind (c_external_ref v) all.
Proof.
  destruct v; [exact kind_plain_ref|..]; (split; [|easy]); intros r; exact (proj1 kind_plain_ref (set_er_Category _ r)).
Qed.
Lemma kind_snippet v : kind (c_snippet v) all. Proof. apply kind_of_takes. destruct v; struct_kind; tauto. Qed.
Lemma kind_file v : kind (c_file v) file_writable.
Proof. apply kind_of_takes. destruct v; struct_kind; unfold file_writable; tauto. Qed.
Lemma kind_package_code v : kind (c_package_code v) all.
Proof.
  destruct v.
  - split; [|easy]. intros o. exact (proj1 kind_code _).
  - split; [|easy]. intros o. exact (proj1 kind_code _).
  - split; [|easy]. intros [c|]; [exact (proj1 kind_code c)|]. cbn. unfold all. split; eauto.
Qed.
Global Hint Resolve kind_external_ref kind_snippet kind_file kind_package_code : kinds.
Lemma takes_package_struct v : takes (c_struct (package_fields v)) package_writable.
Proof. destruct v; cbv [package_fields opt_in_23 app]; struct_kind; unfold package_writable; tauto. Qed.
Lemma kind_package v : kind (c_package v) (fun p => package_writable (fst p)).
Proof.
  split; [|discriminate]. intros (p, files). cbn [fst]. rewrite <- (takes_package_struct v p). destruct v; cbn [enc c_package fst]; try reflexivity.
  unfold marshal_package_22. split.
  - intros (j & E). apply bindR_ok in E as (j0 & E & _). eauto.
  - intros (j & ->). cbn [bindR]. destruct (p_VerificationCode p) as [c|]; [destruct (zero_code c)|]; eauto.
Qed.
Global Hint Resolve kind_package : kinds.
Theorem takes_document v h d : (exists j, marshal_document v h d = Ok j) <-> document_writable d.
Proof.
  unfold marshal_document. cbv zeta. set (a := with_packages _ _ d).
  assert ((exists j, enc (c_document_struct v) a = Ok j) <-> document_writable d) as H.
  { assert (takes (c_document_struct v) (fun a : jdocument =>
      given creation_writable (d_CreationInfo a) /\ Forall (given (fun p : jpackage => package_writable (fst p))) (d_Packages a) /\
      Forall (given file_writable) (d_Files a) /\ Forall (given relationship_writable) (d_Relationships a) /\
      Forall (given annotation_writable) (d_Annotations a))) as T.
    { clear a. struct_kind. tauto. }
    rewrite (T a). unfold a, document_writable. cbn [with_packages d_CreationInfo d_Packages d_Files d_Relationships d_Annotations].
    rewrite !Forall_map.
    assert (Forall (fun x : option JPackage => given (fun p : jpackage => package_writable (fst p)) (match x with Some q => Some (q, []) | None => None end)) (d_Packages d)
            <-> Forall (given package_writable) (d_Packages d)) as E.
    { split; apply Forall_impl; intros [p|]; exact (fun x => x). }
    rewrite E. reflexivity. }
  rewrite <- H. split.
  - intros (j & E). apply bindR_ok in E as (j0 & E & _). eauto.
  - intros (j & ->). eexists. reflexivity.
Qed.
