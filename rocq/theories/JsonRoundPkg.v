(** * JSON round trip: packages, field by field. *)
From Coq Require Import Permutation.
From Verif Require Import GoStr GoStrFacts Types TvUtil TvUtilFacts TvParser SpecTv SpecId SpecDoc Json JsonSpdx SpecJson JsonFacts JsonCodec JsonRound.
Local Open Scope string_scope.

Section Round.
  Variable h : bool.

  Ltac lens := cbn [lenses map fold_right app]; repeat split; intros; reflexivity.
  Ltac ext x := intros [] ; destruct x; cbn; intros; 
    repeat match goal with H : _ /\ _ |- _ => destruct H end; 
    repeat match goal with H : (_, _) = (_, _) |- _ => injection H as ? end; subst; reflexivity.
  Ltac fields := cbn [map fold_right app]; repeat match goal with |- _ /\ _ => split end; try exact I.
  Ltac leaf :=
    first [ apply field_req, good_string; assumption
          | apply opt_string; [assumption|reflexivity]
          | apply opt_strings; [assumption|reflexivity]
          | apply field_req, good_strings; assumption
          | apply field_req, good_bool
          | apply field_req, good_of_some, good_element_id; assumption
          | idtac ].
  Ltac struct ig x :=
    apply (struct_good' h _ _ ig);
      [ lens | vm_compute; reflexivity | vm_compute; reflexivity
      | fields; leaf
      | try reflexivity
      | ext x ].

  (** ** Packages, field by field *)
  Lemma good_code' c : utf8_ok (vc_Value c) -> texts (vc_ExcludedFiles c) ->
    good_some h c_verification_code zero_VerificationCode c.
  Proof. intros H1 H2. struct (fun _ : VerificationCode => tt) c. Qed.
  Lemma good_package_code v o : opt_ok (code_json v) o -> good h (c_package_code v) None o.
  Proof.
    intros H. destruct v.
    1,2: destruct o as [c|].
    1,3: destruct H as (H1 & H2 & H3); destruct (good_code' c H1 H2) as (j & E & _ & C & D);
      exists j; split; [exact E|]; split; [exact C|]; intros j1 S; cbn [c_package_code dec]; rewrite (D _ S); cbn [bindR];
      destruct (zero_code c) eqn:Z; [|reflexivity]; exfalso; unfold zero_code in Z;
      apply andb_prop in Z as (Z1 & Z2); apply String.eqb_eq in Z1;
      destruct (H3 ltac:(discriminate)) as [K|K]; [congruence|destruct (vc_ExcludedFiles c); congruence].
    1,2: destruct (good_code' zero_VerificationCode) as (j & E & _ & C & D); try constructor;
      exists j; split; [exact E|]; split; [exact C|]; intros j1 S; cbn [c_package_code dec]; rewrite (D _ S); reflexivity.
    cbn. apply good_ptr. destruct o as [c|]; [|exact I]. destruct H as (H1 & H2 & _). now apply good_code'.
  Qed.

  (** v2_2 drops the member of a zero code: as if the field were omitempty. *)
  Definition code_omit : codec (option VerificationCode) :=
    Codec (enc (c_package_code V22)) (dec (c_package_code V22))
          (fun o => match o with None => true | Some _ => false end).
  Definition fields_before : list (field JPackage) :=
    Eval cbv [firstn package_fields app opt_in_23] in firstn 8 (package_fields V22).
  Definition fields_after : list (field JPackage) :=
    Eval cbv [skipn package_fields app opt_in_23] in skipn 9 (package_fields V22).
  Definition fields_22 : list (field JPackage) :=
    Eval cbv [fields_before fields_after app] in
    (fields_before ++ opt "packageVerificationCode" code_omit p_VerificationCode set_p_VerificationCode :: fields_after)%list.
  Definition fields_of (v : version) : list (field JPackage) :=
    match v with V22 => fields_22 | _ => package_fields v end.

  Definition tag_of (v : version) : bool := match v with V21 => false | _ => true end.
  Lemma package_struct v p : p_IsFilesAnalyzedTagPresent p = false ->
    package_json v h (set_p_IsFilesAnalyzedTagPresent (tag_of v) p) ->
    good_some h (c_struct (fields_of v)) zero_package p.
  Proof.
    intros H0 (H1 & H2 & H3 & H4 & H5 & H6 & H7 & H8 & _ & H10 & H11 & H12 & H13 & H14 & H15 & H16 & H17 & H18 & H19 & H20 &
      H21 & H22 & H23 & H24 & H25 & H26 & H27 & H28 & H29 & H30 & H31).
    assert (Forall (good h c_checksum zero_Checksum) (p_Checksums p)) as Gc.
    { eapply Forall_impl; [|exact H11]. intros x Hx. now apply good_of_some, good_checksum. }
    assert (Forall (good h c_annotation zero_Annotation) (p_Annotations p)) as Ga.
    { eapply Forall_impl; [|exact H31]. intros x Hx. now apply good_of_some, good_annotation. }
    assert (Forall (opt_ok (good_some h (c_external_ref v) zero_ExternalRef)) (p_ExternalReferences p)) as Ge.
    { eapply Forall_impl; [|exact H22]. apply opt_impl. intros x Hx. now apply good_external_ref. }
    assert (Forall (opt_ok (good_some h (c_file v) zero_file)) (p_Files p)) as Gf.
    { eapply Forall_impl; [|exact H30]. apply opt_impl. intros x Hx. now apply good_file. }
    assert (match p_Supplier p with Some s => good_some h c_supplier zero_Supplier s | None => True end) as Gs.
    { change (p_Supplier (set_p_IsFilesAnalyzedTagPresent (tag_of v) p)) with (p_Supplier p) in H6.
      destruct (p_Supplier p); [|exact I]. now apply good_supplier. }
    assert (match p_Originator p with Some s => good_some h c_originator zero_Originator s | None => True end) as Go.
    { change (p_Originator (set_p_IsFilesAnalyzedTagPresent (tag_of v) p)) with (p_Originator p) in H7.
      destruct (p_Originator p); [|exact I]. now apply good_originator. }
    apply good_package_code in H10.
    change (p_VerificationCode (set_p_IsFilesAnalyzedTagPresent (tag_of v) p)) with (p_VerificationCode p) in H10.
    assert (v <> V23 -> p_PrimaryPackagePurpose p = "" /\ p_ReleaseDate p = "" /\
                 p_BuiltDate p = "" /\ p_ValidUntilDate p = "") as K29 by exact H29. clear H29.
    assert (v = V21 -> p_AttributionTexts p = []) as K24 by exact H24. clear H24.
    assert (p_IsUnpackaged p = false) as K1 by exact H1. clear H1.
    Ltac rest Gc Ga Ge Gf Gs Go :=
      first [ apply opt_slice; [first [exact Gc|exact Ga]|reflexivity]
            | apply opt_ptrs; [first [exact Ge|exact Gf]|reflexivity]
            | apply opt_ptr; [first [exact Gs|exact Go]|reflexivity] ].
    destruct v; cbv [fields_of fields_22 package_fields opt_in_23].
    - struct (fun p : JPackage => (p_IsUnpackaged p, p_IsFilesAnalyzedTagPresent p, p_PrimaryPackagePurpose p,
          p_ReleaseDate p, p_BuiltDate p, p_ValidUntilDate p, p_AttributionTexts p)) p; try rest Gc Ga Ge Gf Gs Go.
      + apply field_opt; [apply good_bool|]. cbn. now destruct (p_FilesAnalyzed p).
      + apply field_opt; [exact H10|discriminate].
      + cbv beta. destruct K29 as (-> & -> & -> & ->); [discriminate|]. rewrite K24 by reflexivity.
        rewrite K1, H0. reflexivity.
    - struct (fun p : JPackage => (p_IsUnpackaged p, p_IsFilesAnalyzedTagPresent p, p_PrimaryPackagePurpose p,
          p_ReleaseDate p, p_BuiltDate p, p_ValidUntilDate p)) p; try rest Gc Ga Ge Gf Gs Go.
      + apply field_opt; [exact H10|]. cbn [is_empty code_omit]. destruct (p_VerificationCode p); [discriminate|reflexivity].
      + cbv beta. destruct K29 as (-> & -> & -> & ->); [discriminate|].
        rewrite K1, H0. reflexivity.
    - struct (fun p : JPackage => (p_IsUnpackaged p, p_IsFilesAnalyzedTagPresent p)) p; try rest Gc Ga Ge Gf Gs Go.
      + apply field_opt; [exact H10|]. cbn. destruct (p_VerificationCode p); [discriminate|reflexivity].
      + cbv beta. rewrite K1, H0. reflexivity.
  Qed.
End Round.
