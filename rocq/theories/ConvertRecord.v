(** Lemmas about the chain of conversions of the documents of the other models. *)
From Verif Require Import GoStr Types TvUtil TvReader TvParser Convert SpecConvert SpecUpgrade ConvertGo ConvertFacts ConvertBack ConvertGoFacts ConvertDoc.
From Verif Require SpecDoc TvParserFacts.

Lemma known_snippet_23 s : known_snippet V23 s = s. Proof. reflexivity. Qed.
Lemma known_file_id v f : v <> V21 -> known_file v f = f.
Proof.
  intros N. destruct v; [congruence|..]; unfold known_file; cbn [known_snippet];
    rewrite (map_ext _ (fun e => e)) by (now intros []); rewrite map_id; now destruct f.
Qed.
Lemma map_same {A} (f : A -> A) l : (forall x, f x = x) -> map f l = l.
Proof. intros H. rewrite (map_ext _ (fun e => e)) by exact H. apply map_id. Qed.
Lemma known_package_id p : known_package V23 p = p.
Proof. unfold known_package. rewrite map_same by (intros; now apply known_file_id). now destruct p. Qed.
Lemma known_document_id d : known_document V23 d = d.
Proof.
  unfold known_document. rewrite (map_same (known_package V23)) by (intros; apply known_package_id).
  rewrite (map_same (known_file V23)) by (intros; now apply known_file_id). rewrite (map_same (known_snippet V23)) by reflexivity. now destruct d.
Qed.
Lemma known_file_twice f : known_file V22 (known_file V21 f) = known_file V21 f.
Proof. now apply known_file_id. Qed.
Lemma known_package_twice p : known_package V22 (known_package V21 p) = known_package V21 p.
Proof.
  assert (E : map (known_file V22) (p_Files (known_package V21 p)) = p_Files (known_package V21 p)).
  { change (p_Files (known_package V21 p)) with (map (known_file V21) (p_Files p)). rewrite map_map. apply map_ext. apply known_file_twice. }
  unfold known_package at 1. rewrite E. destruct p. vm_compute. reflexivity.
Qed.
Lemma known_document_twice d w : known_document V22 (set_d_SPDXVersion w (known_document V21 d)) = set_d_SPDXVersion w (known_document V21 d).
Proof.
  set (d' := set_d_SPDXVersion w (known_document V21 d)).
  assert (E1 : map (known_package V22) (d_Packages d') = d_Packages d').
  { change (d_Packages d') with (map (known_package V21) (d_Packages d)). rewrite map_map. apply map_ext. apply known_package_twice. }
  assert (E2 : map (known_file V22) (d_Files d') = d_Files d').
  { change (d_Files d') with (map (known_file V21) (d_Files d)). rewrite map_map. apply map_ext. apply known_file_twice. }
  unfold known_document. rewrite E1, E2, (map_same (known_snippet V22)) by reflexivity. clearbody d'. now destruct d'.
Qed.
Lemma go_package_down p : go_package V21 (known_package V22 p) = go_package V21 p.
Proof.
  unfold known_package. rewrite (map_same (known_file V22)) by (intros; now apply known_file_id). destruct p as [? ? ? ? ? ? ? ? ? ? [c|]]; vm_compute; reflexivity.
Qed.
Lemma go_document_down d : go_document V21 (known_document V22 d) = go_document V21 d.
Proof.
  assert (E : go_ptrs (go_package V21) (map (known_package V22) (d_Packages d)) = go_ptrs (go_package V21) (d_Packages d)).
  { unfold go_ptrs. rewrite (go_list_map _ (known_package V22)). destruct (d_Packages d); [reflexivity|]. unfold go_list. f_equal. apply map_ext.
    intros x. now rewrite go_package_down. }
  unfold known_document.
  rewrite (map_same (known_file V22)) by (intros; now apply known_file_id). rewrite (map_same (known_snippet V22)) by reflexivity.
  unfold go_document, go_document_of at 1. fold (go_ptrs (A := Package) (go_package V21)).
  match goal with |- context [d_Packages (set_d_Packages ?l ?x)] => change (d_Packages (set_d_Packages l x)) with l end.
  rewrite E. now destruct d.
Qed.
Lemma set_version_go v w d : set_version w (go_document v d) = go_document v (set_d_SPDXVersion (version_string w) d).
Proof. reflexivity. Qed.
Lemma known_keys v d : keys_distinct d -> keys_distinct (known_document v d).
Proof.
  assert (F : forall f, file_keys f -> file_keys (known_file v f)).
  { intros f K. unfold file_keys, known_file in *. destruct v; cbn; rewrite map_map; exact K. }
  intros [K1 K2]. split; unfold known_document; cbn -[known_file known_package].
  - apply Forall_map. eapply Forall_impl; [|exact K1]. exact F.
  - apply Forall_map. eapply Forall_impl; [|exact K2]. intros p K. unfold known_package.
    destruct v; cbn -[known_file]; (apply Forall_map; eapply Forall_impl; [|exact K]; exact F).
Qed.
Lemma version_keys w d : keys_distinct d -> keys_distinct (set_d_SPDXVersion w d).
Proof. intros K. exact K. Qed.

Section Record.
  Variable dz : bool.
  Lemma step_record v w d : solid (go_document v d) -> keys_distinct d ->
    convert_step dz w (go_document v d) = Ok (go_document w (set_d_SPDXVersion (version_string w) (known_document v d))).
  Proof. intros S K. unfold convert_step. rewrite (document_becomes dz v w d S K). reflexivity. Qed.
  Lemma next_record v w d : solid (go_document v d) -> keys_distinct d ->
    next dz w (go_document v d) = go_document w (set_d_SPDXVersion (version_string w) (known_document v d)).
  Proof.
    intros S K. pose proof (step_record v w d S K) as E. rewrite (step_ok dz v w _ (typed_document v d K)) in E. now inversion E.
  Qed.
  Lemma upgrade_record v w d : older v w -> solid (go_document v d) -> keys_distinct d ->
    convert_document dz v w (go_document v d) = Ok (go_document w (in_version v w d)).
  Proof.
    intros O S K. destruct O; unfold convert_document; cbn [route follow]; rewrite (step_record _ _ d S K); cbn [bindR].
    - reflexivity.
    - reflexivity.
    - pose proof (next_solid dz _ (typed_document V21 d K) S) as S1. rewrite (next_record V21 V22 d S K) in S1.
      rewrite step_record; [|exact S1|now apply version_keys, known_keys]. cbn [bindR]. rewrite known_document_twice. reflexivity.
  Qed.
  Lemma downgrade_record v w d : older w v -> (forall u, solid (go_document u d)) -> keys_distinct d ->
    convert_document dz v w (go_document v d) = Ok (go_document w (set_d_SPDXVersion (version_string w) d)).
  Proof.
    intros O S K. destruct O; unfold convert_document; cbn [route follow]; rewrite (step_record _ _ d (S _) K); cbn [bindR].
    - rewrite <- !(set_version_go V21 V21). now rewrite go_document_down.
    - now rewrite known_document_id.
    - rewrite known_document_id. rewrite step_record; [|rewrite <- (set_version_go V22 V22); apply set_solid, S|now apply version_keys].
      cbn [bindR]. rewrite <- !(set_version_go V21 V21). now rewrite go_document_down.
  Qed.

  (** ** The public reader *)
  Lemma well_formed_keys v d : SpecDoc.well_formed v d -> keys_distinct d.
  Proof.
    unfold SpecDoc.well_formed. intros W. split.
    - assert (F : Forall (SpecDoc.file_ok v) (d_Files d)) by tauto. eapply Forall_impl; [|exact F]. unfold SpecDoc.file_ok, file_keys. tauto.
    - assert (F : Forall (SpecDoc.package_ok v) (d_Packages d)) by tauto. eapply Forall_impl; [|exact F]. intros p P. unfold SpecDoc.package_ok in P.
      assert (G : Forall (SpecDoc.file_ok v) (p_Files p)) by tauto. eapply Forall_impl; [|exact G]. unfold SpecDoc.file_ok, file_keys. tauto.
  Qed.
  Lemma read_keys text v d : read_into text = Ok (v, Some d) -> keys_distinct d.
  Proof.
    intros R. pose proof (TvParserFacts.read_into_ok text) as W. rewrite R in W. exact (well_formed_keys v d W).
  Qed.
  Lemma public_read_total to text :
    (exists d, tagvalue_read dz to text = Ok d /\ typed (T_Document to) d) \/ (exists e, tagvalue_read dz to text = Err e).
  Proof.
    unfold tagvalue_read. pose proof (TvParserFacts.read_into_ok text) as W. destruct (read_into text) as [[v [d|]]|e|] eqn:R; try contradiction; cbn [bindR].
    - left. destruct (convert_ok dz v to _ (typed_document v d (read_keys _ _ _ R))) as (d' & E & T). eauto.
    - right. eauto.
  Qed.
  Lemma public_read_get to text v d p : read_into text = Ok (v, Some d) ->
    path_of (T_Document v) p = true -> path_of (T_Document to) p = true -> p <> [Fld "SPDXVersion"] ->
    exists d', tagvalue_read dz to text = Ok d' /\ get (T_Document to) d' p = get (T_Document v) (go_document v d) p.
  Proof.
    intros R P P' N. unfold tagvalue_read. rewrite R. cbn [bindR]. pose proof (typed_document v d (read_keys _ _ _ R)) as T.
    destruct (convert_ok dz v to _ T) as (d' & E & _). exists d'. split; [exact E|]. exact (convert_get dz v to _ d' p T E P P' N).
  Qed.
  Lemma public_read text v d : read_into text = Ok (v, Some d) -> solid (go_document v d) ->
    tagvalue_read dz V23 text = Ok (go_document V23 (in_version v V23 d)).
  Proof.
    intros R S. unfold tagvalue_read. rewrite R. cbn [bindR]. pose proof (read_keys _ _ _ R) as K.
    destruct v; [apply upgrade_record; auto; constructor|apply upgrade_record; auto; constructor|reflexivity].
  Qed.
End Record.

Lemma solidb_solid v : solidb v = true -> solid v.
Proof.
  induction v using gval_ind'; cbn [solidb]; intros H0; try constructor.
  - apply andb_prop in H0 as [H0 _]. now apply negb_true_iff.
  - apply andb_prop in H0 as [_ H0]. auto.
  - induction H as [|x l H F IH]; constructor; apply andb_prop in H0 as [A B]; auto.
  - induction H as [|[k x] l H F IH]; constructor; apply andb_prop in H0 as [A B]; auto. apply andb_prop in A as [A A'].
    split; [intros E; cbn in E; subst; discriminate|auto].
  - induction H as [|[k x] l H F IH]; constructor; apply andb_prop in H0 as [A B]; auto.
Qed.
