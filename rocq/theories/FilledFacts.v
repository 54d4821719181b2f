(** * Which documents of the older versions have no pointer to an empty structure. *)
From Verif Require Import GoStr GoStrFacts Types TvUtil TvReader TvParser SpecTv SpecId SpecDoc Convert SpecConvert ConvertGo SpecUpgrade ConvertRecord TvParserFacts SpecFilled.

Lemma solid_struct fs : solid (VStruct fs) <-> Forall (fun e => solid (snd e)) fs.
Proof. split; [intros H; now inversion H|now constructor]. Qed.
Lemma solid_ptr v : solid (VPtr v) <-> is_zero v = false /\ solid v.
Proof. split; [intros H; inversion H; auto|intros [A B]; now constructor]. Qed.
Lemma solid_go_list {A} (f : A -> gval) l : solid (go_list f l) <-> Forall (fun x => solid (f x)) l.
Proof.
  destruct l as [|x l]; [split; [intros _; constructor|intros _; constructor]|]. cbn [go_list]. split.
  - intros H. remember (map f (x :: l)) as m eqn:E. inversion H as [| | | | |m' F e| |]. rewrite E in F. exact (proj1 (Forall_map f solid (x :: l)) F).
  - intros F. constructor. now apply Forall_map.
Qed.
Lemma solid_str s : solid (VStr s) <-> True. Proof. split; [auto|constructor]. Qed.
Lemma solid_bool s : solid (VBool s) <-> True. Proof. split; [auto|constructor]. Qed.
Lemma solid_int s : solid (VInt s) <-> True. Proof. split; [auto|constructor]. Qed.
Lemma Forall_true {A} (P : A -> Prop) l : (forall x, P x) -> (Forall P l <-> True).
Proof. intros H. split; [auto|intros _; now apply Forall_forall]. Qed.
Lemma solid_go_strs l : solid (go_strs l) <-> True.
Proof. unfold go_strs. rewrite solid_go_list. apply Forall_true. constructor. Qed.

Ltac flat := repeat match goal with
  | H : solid ?x |- solid ?x => exact H
  | |- solid (VStruct _) => constructor
  | |- Forall _ [] => constructor
  | |- Forall _ (_ :: _) => constructor
  | |- solid (snd _) => cbn [snd]
  | |- solid (VStr _) => constructor
  | |- solid (VBool _) => constructor
  | |- solid (VInt _) => constructor
  | |- solid (go_strs _) => now apply solid_go_strs
  | |- solid (go_list _ _) => apply solid_go_list, Forall_forall; intros ? _
  end.
Lemma flat_ref r : solid (go_ref r). Proof. unfold go_ref. flat. Qed.
Lemma flat_checksum r : solid (go_checksum r). Proof. unfold go_checksum. flat. Qed.
Lemma flat_creator r : solid (go_creator r). Proof. unfold go_creator. flat. Qed.
Lemma flat_annotator r : solid (go_annotator r). Proof. unfold go_annotator. flat. Qed.
Lemma flat_supplier r : solid (go_supplier r). Proof. unfold go_supplier. flat. Qed.
Lemma flat_originator r : solid (go_originator r). Proof. unfold go_originator. flat. Qed.
Lemma flat_code r : solid (go_code r). Proof. unfold go_code. flat. Qed.
Lemma flat_pointer r : solid (go_pointer r). Proof. unfold go_pointer. flat. Qed.
Lemma flat_range r : solid (go_range r). Proof. unfold go_range. flat; apply flat_pointer. Qed.
Lemma flat_annotation r : solid (go_annotation r). Proof. unfold go_annotation. flat; auto using flat_annotator, flat_ref. Qed.
Lemma flat_creation r : solid (go_creation_info r). Proof. unfold go_creation_info. flat; apply flat_creator. Qed.
Lemma flat_document r : solid (go_external_document r). Proof. unfold go_external_document. flat; apply flat_checksum. Qed.
Lemma flat_license r : solid (go_license r). Proof. unfold go_license. flat. Qed.
Lemma flat_relationship r : solid (go_relationship r). Proof. unfold go_relationship. flat; apply flat_ref. Qed.
Lemma flat_review r : solid (go_review r). Proof. unfold go_review. flat. Qed.
Lemma flat_artifact r : solid (go_artifact r). Proof. unfold go_artifact. flat. Qed.
Lemma flat_external r : solid (go_external_ref r). Proof. unfold go_external_ref. flat. Qed.
Lemma flat_snippet v r : solid (go_snippet v r).
Proof. unfold go_snippet. constructor. apply Forall_app. split; [|destruct v]; flat; apply flat_range. Qed.

(** empty structures *)
Lemma empty_str s : String.eqb s "" = true <-> s = "".
Proof. apply String.eqb_eq. Qed.
Lemma empty_list {A} (f : A -> gval) l : is_zero (go_list f l) = true <-> l = [].
Proof. destruct l; cbn; split; congruence. Qed.
Ltac empties := rewrite ?andb_true_iff, ?empty_str, ?empty_list.
Lemma empty_creation c : is_zero (go_creation_info c) = true <-> c = MkCI "" [] "" "".
Proof.
  destruct c as [a b e f]. unfold go_creation_info. cbn - [go_list String.eqb]. empties.
  split; [intros (-> & -> & -> & -> & _); reflexivity|intros H; injection H as -> -> -> ->; auto].
Qed.
Lemma empty_license c : is_zero (go_license c) = true <-> c = MkOL "" "" "" [] "".
Proof.
  destruct c as [a b e f g]. unfold go_license, go_strs. cbn - [go_list String.eqb]. empties.
  split; [intros (-> & -> & -> & -> & -> & _); reflexivity|intros H; injection H as -> -> -> -> ->; auto 6].
Qed.
Lemma empty_external c : is_zero (go_external_ref c) = true <-> c = MkER "" "" "" "".
Proof.
  destruct c as [a b e f]. unfold go_external_ref. cbn - [String.eqb]. empties.
  split; [intros (-> & -> & -> & -> & _); reflexivity|intros H; injection H as -> -> -> ->; auto].
Qed.
Lemma empty_artifact c : is_zero (go_artifact c) = true <-> c = MkArtifact "" "" "".
Proof.
  destruct c as [a b e]. unfold go_artifact. cbn - [String.eqb]. empties.
  split; [intros (-> & -> & -> & _); reflexivity|intros H; injection H as -> -> ->; auto].
Qed.

Lemma holds_ptrs {A} (f : A -> gval) (z : A) l : (forall x, solid (f x)) -> (forall x, is_zero (f x) = true <-> x = z) ->
  (solid (go_list (fun x => VPtr (f x)) l) <-> ~ In z l).
Proof.
  intros S Z. rewrite solid_go_list, Forall_forall. split.
  - intros H K. specialize (H z K). apply solid_ptr in H as [H _]. pose proof (proj2 (Z z) eq_refl). congruence.
  - intros N x K. apply solid_ptr. split; [|apply S]. apply not_true_is_false. intros E. apply Z in E. congruence.
Qed.
Lemma full_ptrs {A} (f : A -> gval) l : (forall x, In x l -> is_zero (f x) = false) ->
  (solid (go_list (fun x => VPtr (f x)) l) <-> forall x, In x l -> solid (f x)).
Proof.
  intros N. rewrite solid_go_list, Forall_forall. split; intros H x K; specialize (H x K).
  - now apply solid_ptr in H as [_ H].
  - apply solid_ptr. auto.
Qed.

(** structures of a well-formed document that are never empty *)
Lemma id_named s : id_ok s -> String.eqb s "" = false.
Proof. intros [I _]. now apply String.eqb_neq. Qed.
Lemma typed_named s l : In s l -> ~ In "" l -> String.eqb s "" = false.
Proof. intros I N. apply String.eqb_neq. intros ->. now apply N. Qed.
Lemma full_file v f : file_ok v f -> is_zero (ConvertGo.go_file v f) = false.
Proof. intros (I & _). unfold ConvertGo.go_file, go_file_of. cbn - [String.eqb go_list go_strs go_map]. rewrite (id_named _ I), andb_false_r. reflexivity. Qed.
Lemma full_package v p : package_ok v p -> is_zero (go_package v p) = false.
Proof.
  intros (I & _). unfold go_package, go_package_of. destruct v; cbn - [String.eqb go_list go_strs go_ptr go_code]; rewrite (id_named _ I), ?andb_false_r; reflexivity.
Qed.
Lemma full_relationship v r : relationship_ok v r -> is_zero (go_relationship r) = false.
Proof.
  intros (_ & _ & N). unfold go_relationship. cbn - [String.eqb go_ref]. rewrite (proj2 (String.eqb_neq _ _) N). now rewrite !andb_false_r.
Qed.
Lemma full_annotation a : annotation_ok a -> is_zero (go_annotation a) = false.
Proof.
  intros (I & _). unfold go_annotation, go_annotator. cbn - [String.eqb go_ref]. rewrite (typed_named _ _ I) by (cbn; intuition congruence). now rewrite !andb_false_r.
Qed.
Lemma full_review a : review_ok a -> is_zero (go_review a) = false.
Proof.
  intros I. unfold go_review. cbn - [String.eqb]. rewrite (typed_named _ _ I) by (cbn; intuition congruence). now rewrite !andb_false_r.
Qed.
Lemma full_snippet v s : snippet_ok s -> is_zero (go_snippet v s) = false.
Proof. intros (I & _). unfold go_snippet. cbn - [String.eqb go_list go_strs]. now rewrite (id_named _ I). Qed.
Lemma full_supplier s : supplier_ok s -> is_zero (go_supplier s) = false.
Proof.
  intros [I| ->]; [|reflexivity]. unfold go_supplier. cbn - [String.eqb]. rewrite (typed_named _ _ I) by (cbn; intuition congruence). now rewrite andb_false_r.
Qed.
Lemma full_originator s : originator_ok s -> is_zero (go_originator s) = false.
Proof.
  intros [I| ->]; [|reflexivity]. unfold go_originator. cbn - [String.eqb]. rewrite (typed_named _ _ I) by (cbn; intuition congruence). now rewrite andb_false_r.
Qed.

Lemma solid_file v f : file_ok v f -> (solid (ConvertGo.go_file v f) <-> ~ In (MkArtifact "" "" "") (f_Artifacts f)).
Proof.
  intros (_ & _ & _ & S & A). rewrite <- (holds_ptrs go_artifact _ _ flat_artifact empty_artifact).
  unfold ConvertGo.go_file, go_file_of. rewrite solid_struct. rewrite Forall_forall. split; intros H.
  - apply (H ("ArtifactOfProjects", go_list (fun a => VPtr (go_artifact a)) (f_Artifacts f))). apply in_or_app. left. cbn [In]. tauto.
  - apply Forall_forall. apply Forall_app. split; [flat; apply flat_checksum|]. apply Forall_app. split; [destruct v; flat|].
    flat; [|apply flat_annotation]. unfold go_map. destruct (f_Snippets f) as [|e l] eqn:E; [constructor|]. rewrite <- E in *. constructor. apply Forall_map.
    apply Forall_forall. intros (k & s) K. rewrite Forall_forall in S. destruct (S _ K) as [_ O]. cbn [fst snd] in *.
    split; [discriminate|]. constructor; [now apply full_snippet|apply flat_snippet].
Qed.

Lemma solid_opt {A} (f : A -> gval) o : solid (go_ptr f o) <-> forall x, o = Some x -> is_zero (f x) = false /\ solid (f x).
Proof.
  destruct o as [x|]; cbn [go_ptr]; [|split; [discriminate|constructor]]. rewrite solid_ptr. split; [intros H y E; now injection E as <-|intros H; now apply H].
Qed.
Lemma solid_package v p : v <> V23 -> package_ok v p ->
  (solid (go_package v p) <-> ~ In (MkER "" "" "" "") (p_ExternalReferences p) /\ forall f, In f (p_Files p) -> ~ In (MkArtifact "" "" "") (f_Artifacts f)).
Proof.
  intros V (_ & _ & Su & Og & Fs & _).
  assert (FF : solid (go_list (fun f => VPtr (ConvertGo.go_file v f)) (p_Files p)) <-> forall f, In f (p_Files p) -> ~ In (MkArtifact "" "" "") (f_Artifacts f)).
  { rewrite Forall_forall in Fs. rewrite full_ptrs by (intros f K; apply full_file; auto).
    split; intros H f K; specialize (H f K); now apply (solid_file v f (Fs f K)). }
  assert (SS : solid (go_ptr go_supplier (p_Supplier p))).
  { apply solid_opt. intros x E. rewrite E in Su. split; [now apply full_supplier|apply flat_supplier]. }
  assert (OO : solid (go_ptr go_originator (p_Originator p))).
  { apply solid_opt. intros x E. rewrite E in Og. split; [now apply full_originator|apply flat_originator]. }
  rewrite <- FF, <- (holds_ptrs go_external_ref _ _ flat_external empty_external).
  unfold go_package, go_package_of. rewrite solid_struct. split.
  - intros H. rewrite !Forall_app in H. destruct H as (_ & H1 & _ & _ & H2). rewrite Forall_forall in H1, H2. split.
    + apply (H1 ("PackageExternalReferences", go_list (fun e => VPtr (go_external_ref e)) (p_ExternalReferences p))). cbn [In]. tauto.
    + apply (H2 ("Files", go_list (fun f => VPtr (ConvertGo.go_file v f)) (p_Files p))). cbn [In]. tauto.
  - intros [H1 H2]. rewrite !Forall_app. destruct v; try congruence;
      (split; [flat|]; split; [flat; auto using flat_code, flat_checksum|]; split; [flat|]; split; [flat|]; flat; auto using flat_annotation).
Qed.

Lemma filled_solid : forall v d, v <> V23 -> well_formed v d -> (solid (go_document v d) <-> nothing_empty d).
Proof.
  intros v d V (_ & P & F & R & A & Rv & _ & _ & Sn). rewrite Forall_forall in P, F, R, A, Rv.
  unfold nothing_empty, go_document, go_document_of. rewrite solid_struct.
  assert (PP : solid (go_list (fun p => VPtr (go_package v p)) (d_Packages d)) <-> forall p, In p (d_Packages d) ->
     ~ In (MkER "" "" "" "") (p_ExternalReferences p) /\ forall f, In f (p_Files p) -> ~ In (MkArtifact "" "" "") (f_Artifacts f)).
  { rewrite full_ptrs by (intros p K; apply full_package; auto). split; intros H p K; specialize (H p K); now apply (solid_package v p V (P p K)). }
  assert (FF : solid (go_list (fun f => VPtr (ConvertGo.go_file v f)) (d_Files d)) <-> forall f, In f (d_Files d) -> ~ In (MkArtifact "" "" "") (f_Artifacts f)).
  { rewrite full_ptrs by (intros f K; apply full_file; auto). split; intros H f K; specialize (H f K); now apply (solid_file v f (F f K)). }
  assert (RR : solid (go_list (fun r => VPtr (go_relationship r)) (d_Relationships d))).
  { apply full_ptrs; [intros r K; eapply full_relationship; eauto|]. intros r _. apply flat_relationship. }
  assert (AA : solid (go_list (fun r => VPtr (go_annotation r)) (d_Annotations d))).
  { apply full_ptrs; [intros r K; apply full_annotation; auto|]. intros r _. apply flat_annotation. }
  assert (VV : solid (go_ptrs go_review (d_Reviews d))).
  { apply full_ptrs; [intros r K; apply full_review; auto|]. intros r _. apply flat_review. }
  assert (CC : solid (go_ptr go_creation_info (d_CreationInfo d)) <-> d_CreationInfo d <> Some (MkCI "" [] "" "")).
  { rewrite solid_opt. split.
    - intros H E. destruct (H _ E) as [Z _]. pose proof (proj2 (empty_creation _) eq_refl). congruence.
    - intros N x E. split; [|apply flat_creation]. apply not_true_is_false. intros Z. apply empty_creation in Z. congruence. }
  assert (LL : solid (go_list (fun l => VPtr (go_license l)) (d_OtherLicenses d)) <-> ~ In (MkOL "" "" "" [] "") (d_OtherLicenses d)).
  { apply holds_ptrs; [apply flat_license|apply empty_license]. }
  rewrite <- CC, <- LL. split.
  - intros H. rewrite Forall_forall in H.
    split; [apply (H ("CreationInfo", go_ptr go_creation_info (d_CreationInfo d))); cbn [In]; tauto|].
    split; [apply (H ("OtherLicenses", go_list (fun l => VPtr (go_license l)) (d_OtherLicenses d))); cbn [In]; tauto|].
    assert (HP : solid (go_list (fun p => VPtr (go_package v p)) (d_Packages d))).
    { apply (H ("Packages", go_list (fun p => VPtr (go_package v p)) (d_Packages d))). cbn [In]. tauto. }
    assert (HF : solid (go_list (fun f => VPtr (ConvertGo.go_file v f)) (d_Files d))).
    { apply (H ("Files", go_list (fun f => VPtr (ConvertGo.go_file v f)) (d_Files d))). cbn [In]. tauto. }
    rewrite PP in HP. rewrite FF in HF. split; [intros p K; now apply HP|]. intros f [K|(p & K & K')]; [now apply HF|now apply (HP p K)].
  - intros (H1 & H2 & H3 & H4).
    assert (HP : solid (go_list (fun p => VPtr (go_package v p)) (d_Packages d))).
    { apply PP. intros p K. split; [now apply H3|]. intros f K'. apply H4. eauto. }
    assert (HF : solid (go_list (fun f => VPtr (ConvertGo.go_file v f)) (d_Files d))) by (apply FF; auto).
    clear PP FF CC LL H3 H4. flat; auto using flat_document, flat_snippet.
Qed.
