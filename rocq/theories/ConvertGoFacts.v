(** Lemmas about the conversion of the documents of the other models. *)
From Verif Require Import GoStr Types TvUtil TvReader TvParser Convert SpecConvert SpecUpgrade ConvertGo ConvertFacts ConvertBack.
Local Transparent T_Document.

(** ** Types *)
Lemma typed_list {A} t (f : A -> gval) l : Forall (fun x => typed t (f x)) l -> typed (TSlice t) (go_list f l).
Proof. intros F. destruct l; [constructor|]. cbn [go_list]. constructor. now apply Forall_map. Qed.
Lemma typed_list' {A} t (f : A -> gval) l : (forall x, typed t (f x)) -> typed (TSlice t) (go_list f l).
Proof. intros H. apply typed_list. apply Forall_forall. auto. Qed.
Lemma typed_ptrs {A} t (f : A -> gval) l : Forall (fun x => typed t (f x)) l -> typed (TSlice (TPtr t)) (go_ptrs f l).
Proof. intros F. apply typed_list. eapply Forall_impl; [|exact F]. intros x T. now constructor. Qed.
Lemma typed_ptrs' {A} t (f : A -> gval) l : (forall x, typed t (f x)) -> typed (TSlice (TPtr t)) (go_ptrs f l).
Proof. intros H. apply typed_ptrs. apply Forall_forall. auto. Qed.
Lemma typed_ptr {A} t (f : A -> gval) o : (forall x, typed t (f x)) -> typed (TPtr t) (go_ptr f o).
Proof. intros H. destruct o; cbn; constructor. auto. Qed.
Lemma typed_map {A} t (f : A -> gval) m : NoDup (map fst m) -> (forall x, typed t (f x)) -> typed (TMap (TPtr t)) (go_map f m).
Proof.
  intros ND H. destruct m; [constructor|]. unfold go_map. constructor.
  - rewrite map_map. cbn [fst]. exact ND.
  - apply Forall_map. apply Forall_forall. intros x _. cbn [snd]. constructor. auto.
Qed.
Lemma typed_strs l : typed (TSlice TStr) (go_strs l).
Proof. apply typed_list'. constructor. Qed.
Ltac fields := constructor; repeat (first [apply Forall2_nil | apply Forall2_cons; [split; [reflexivity|cbn [fst snd]]|]]).
Ltac leaf := first [apply ty_str | apply ty_bool | apply ty_int | apply typed_strs].
Lemma typed_ref r : typed T_DocElementID (go_ref r). Proof. fields; leaf. Qed.
Lemma typed_checksum r : typed T_Checksum (go_checksum r). Proof. fields; leaf. Qed.
Lemma typed_creator r : typed T_Creator (go_creator r). Proof. fields; leaf. Qed.
Lemma typed_annotator r : typed T_Annotator (go_annotator r). Proof. fields; leaf. Qed.
Lemma typed_supplier r : typed T_Supplier (go_supplier r). Proof. fields; leaf. Qed.
Lemma typed_originator r : typed T_Originator (go_originator r). Proof. fields; leaf. Qed.
Lemma typed_code r : typed T_VerificationCode (go_code r). Proof. fields; leaf. Qed.
Lemma typed_pointer r : typed T_RangePointer (go_pointer r). Proof. fields; leaf. Qed.
Lemma typed_range r : typed T_Range (go_range r). Proof. fields; apply typed_pointer. Qed.
Lemma typed_annotation r : typed T_Annotation (go_annotation r).
Proof. fields; first [leaf|apply typed_annotator|apply typed_ref]. Qed.
Lemma typed_creation_info r : typed T_CreationInfo (go_creation_info r).
Proof. fields; first [leaf|apply typed_list', typed_creator]. Qed.
Lemma typed_external_document r : typed T_ExternalDocumentRef (go_external_document r).
Proof. fields; first [leaf|apply typed_checksum]. Qed.
Lemma typed_license r : typed T_OtherLicense (go_license r). Proof. fields; leaf. Qed.
Lemma typed_relationship r : typed T_Relationship (go_relationship r). Proof. fields; first [leaf|apply typed_ref]. Qed.
Lemma typed_review r : typed T_Review (go_review r). Proof. fields; leaf. Qed.
Lemma typed_artifact r : typed T_Artifact (go_artifact r). Proof. fields; leaf. Qed.
Lemma typed_external_ref r : typed T_ExternalRef (go_external_ref r). Proof. fields; leaf. Qed.
Lemma typed_snippet v r : typed (T_Snippet v) (go_snippet v r).
Proof. destruct v; unfold T_Snippet, go_snippet; cbn [app]; fields; first [leaf|apply typed_list', typed_range]. Qed.
Lemma typed_file v r : file_keys r -> typed (T_File v) (go_file v r).
Proof.
  intros K. destruct v; unfold T_File, go_file, go_file_of; cbn [app]; fields;
    first [leaf|apply typed_list', typed_checksum|apply typed_ptrs', typed_artifact|apply typed_list', typed_annotation|
           apply typed_map; [exact K|apply typed_snippet]].
Qed.
Lemma typed_package v r : Forall file_keys (p_Files r) -> typed (T_Package v) (go_package v r).
Proof.
  intros K. destruct v; unfold T_Package, go_package, go_package_of; cbn [app]; fields;
    first [leaf|apply typed_ptr, typed_supplier|apply typed_ptr, typed_originator|apply typed_code|apply typed_ptr, typed_code|
           apply typed_list', typed_checksum|apply typed_ptrs', typed_external_ref|apply typed_list', typed_annotation|idtac].
  all: apply typed_ptrs; eapply Forall_impl; [|exact K]; intros f; apply typed_file.
Qed.
Lemma typed_document v d : keys_distinct d -> typed (T_Document v) (go_document v d).
Proof.
  intros [K1 K2]. unfold T_Document, go_document, go_document_of. fields;
    first [leaf|apply typed_ptr, typed_creation_info|apply typed_list', typed_external_document|apply typed_ptrs', typed_license|
           apply typed_ptrs', typed_relationship|apply typed_ptrs', typed_annotation|apply typed_list', typed_snippet|
           apply typed_ptrs', typed_review|idtac].
  - apply typed_ptrs. eapply Forall_impl; [|exact K2]. intros f. apply typed_package.
  - apply typed_ptrs. eapply Forall_impl; [|exact K1]. intros f. apply typed_file.
Qed.

(** ** Conversion of the parts *)
Section Parts.
  Variable dz : bool.
  Notation out := (out dz).
  Lemma out_list {A} t (f : A -> gval) g l : (forall x, In x l -> conv dz t (f x) = Ok (Some (g x))) ->
    out (TSlice t) (go_list f l) = go_list g l.
  Proof.
    intros H. destruct l as [|a l]; [reflexivity|]. unfold ConvertFacts.out. cbn [go_list]. rewrite (conv_slice dz (TSlice t) t _ eq_refl).
    rewrite list_out.
    - cbn [bindR wrap]. f_equal. rewrite map_map. apply map_ext_in. intros x I. unfold ConvertFacts.out. now rewrite (H x I).
    - apply Forall_map. apply Forall_forall. intros x I. eexists. exact (H x I).
  Qed.
  Lemma out_go_map {A} t (f : A -> gval) g m : (forall k x, In (k, x) m -> conv dz (TPtr t) (VPtr (f x)) = Ok (Some (VPtr (g x)))) ->
    out (TMap (TPtr t)) (go_map f m) = go_map g m.
  Proof.
    intros H. destruct m as [|a m]; [reflexivity|]. unfold ConvertFacts.out. unfold go_map. rewrite (conv_mapv dz (TMap (TPtr t)) (TPtr t) _ eq_refl).
    set (l := a :: m) in *. assert (E : conv_map dz (TPtr t) (map (fun e => (fst e, VPtr (f (snd e)))) l) = Ok (map (fun e => (fst e, VPtr (g (snd e)))) l)).
    { clearbody l. induction l as [|[k x] l IH]; [reflexivity|]. cbn [map conv_map fst snd]. rewrite (H k x) by (now left). cbn [bindR].
      rewrite IH by (intros k' x' I; apply (H k'); now right). reflexivity. }
    rewrite E. reflexivity.
  Qed.
  Lemma conv_some t v z : out t v = z -> direct v -> fine dz t v -> wf t = true -> conv dz t v = Ok (Some z).
  Proof. intros <- D F W. destruct (not_kept dz t v W D F) as [y E]. unfold ConvertFacts.out. now rewrite E. Qed.
  Lemma conv_ptr ts w z : conv dz (TStruct ts) w = Ok (Some z) -> direct w -> is_zero w = false ->
    conv dz (TPtr (TStruct ts)) (VPtr w) = Ok (Some (VPtr z)).
  Proof.
    intros E D Z. cbn [conv]. rewrite Z, andb_false_r. destruct w; cbn in D; try contradiction; try (cbn in E; discriminate).
    rewrite (conv_struct dz (TStruct ts) ts _ eq_refl) in E. rewrite (conv_struct dz (TPtr (TStruct ts)) ts _ eq_refl).
    destruct (conv_fields dz ts fs _); cbn in *; [|discriminate..]. inversion E; subst. reflexivity.
  Qed.
  (** a value of the target type is copied *)
  Lemma out_same v : forall t, wf t = true -> typed t v -> solid v -> out t v = v.
  Proof.
    assert (CR : forall t, wf t = true -> compat t t = true).
    { clear. induction t using gty_ind'; intros W; try reflexivity.
      - cbn in W. destruct t; try discriminate. apply IHt in W. exact W.
      - cbn in *. auto.
      - cbn in *. auto.
      - apply compat_struct. rewrite Forall_forall in H |- *. intros [n u] I u' A. cbn [fst snd] in *.
        assert (A' : assoc n fs = Some u) by (apply in_assoc; [now apply wf_nodup|exact I]). rewrite A in A'. inversion A'; subst.
        apply (H (n, u) I). exact (wf_assoc _ _ _ W A). }
    induction v using gval_ind'; intros t W T SO; tinv T; try reflexivity.
    - inversion SO as [| | | |? NZ SV| | |]; subst. rewrite out_ptr, NZ, andb_false_r. cbn in W. destruct t0 as [| | | | | |ts]; try discriminate.
      rewrite (out_wrap dz (TPtr (TStruct ts)) v W); [cbn [wrap base]; f_equal; now apply IHv|inversion FT; subst; exact I|].
      apply (conv_fine dz v (TStruct ts)); auto. exact (CR _ W).
    - inversion SO as [| | | | |? SL| |]; subst. rewrite (out_slice dz (TSlice t0) t0 t0 l eq_refl FT W (CR _ W) W). cbn [wrap]. f_equal.
      rewrite <- (map_id l) at 2. apply map_ext_in. intros x I. rewrite Forall_forall in H, FT, SL. apply (H x I); auto.
    - inversion SO as [| | | | | |? SM|]; subst. rewrite (out_map dz (TMap t0) t0 t0 m eq_refl FT W (CR _ W) W). cbn [wrap]. f_equal.
      assert (KA : kept dz t0 m = m).
      { unfold kept. clear NM. assert (G : forall x, typed t0 x -> x <> VNil -> solid x -> exists z, conv dz t0 x = Ok (Some z)).
        { intros x TX NX SX. pose proof (conv_fine dz x t0 t0 W (CR _ W) TX W) as FI.
          destruct x as [| | | |w| | |]; try (apply not_kept; auto; exact I); [congruence|]. inversion SX; subst. inversion TX; subst.
          cbn in W. destruct t as [| | | | | |ts]; try discriminate. cbn [Convert.conv].
          match goal with Z : is_zero w = false |- _ => rewrite Z, andb_false_r end.
          assert (FW : fine dz (TPtr (TStruct ts)) w) by (apply (conv_fine dz w (TStruct ts)); auto; exact (CR _ W)).
          apply not_kept; auto. match goal with Z : typed (TStruct ts) w |- _ => inversion Z; subst; exact I end. }
        clear -G FT SM. induction m as [|[k x] m IH]; [reflexivity|]. inversion FT; subst. inversion SM as [|? ? [N S] SM']; subst. cbn [filter snd] in *.
        destruct (G x) as [z ->]; auto. f_equal. auto. }
      rewrite KA. rewrite <- (map_id m) at 2. apply map_ext_in. intros [k x] I. cbn [fst snd]. f_equal.
      rewrite Forall_forall in H, FT, SM. apply (H (k, x) I); [exact W|exact (FT _ I)|exact (proj2 (SM _ I))].
    - rewrite (out_struct dz (TStruct ts) ts ts fs eq_refl W W (CR _ W) T). cbn [wrap]. f_equal. apply struct_id; [now apply wf_nodup|exact FT|].
      intros n u x A AX. unfold field_out. cbn [fst snd]. rewrite AX. f_equal. rewrite Forall_forall in H. apply assoc_in in AX as IX.
      destruct (typed_assoc _ _ _ _ FT A) as (x' & AX' & TX). rewrite AX in AX'. inversion AX'; subst.
      apply (H (n, x') IX); [exact (wf_assoc _ _ _ W A)|exact TX|exact (solid_fields fs n x' SO AX)].
  Qed.
  Lemma conv_same v t : wf t = true -> typed t v -> solid v -> direct v -> fine dz t v -> conv dz t v = Ok (Some v).
  Proof. intros. apply conv_some; auto. now apply out_same. Qed.

  (** a structure, field by field *)
  Lemma struct_becomes ts ts' fs gs : wf (TStruct ts) = true -> wf (TStruct ts') = true -> compat (TStruct ts) (TStruct ts') = true ->
    typed (TStruct ts) (VStruct fs) ->
    Forall2 (fun f g => fst f = fst g /\ match assoc (fst f) fs with Some x => out (snd f) x | None => zero (snd f) end = snd g) ts' gs ->
    conv dz (TStruct ts') (VStruct fs) = Ok (Some (VStruct gs)).
  Proof.
    intros W W' C T F. apply conv_some; [|exact I|apply (conv_fine dz _ (TStruct ts)); auto|exact W'].
    rewrite (out_struct dz (TStruct ts') ts ts' fs eq_refl W' W C T). cbn [wrap]. f_equal. clear C W W'.
    induction F as [|[n u] [m x] ts' gs [E G] F IH]; [reflexivity|]. cbn [map]. f_equal; [|exact IH].
    unfold field_out. cbn [fst snd] in *. now rewrite E, <- G, <- E.
  Qed.
  Ltac parts := repeat (first [apply Forall2_nil | apply Forall2_cons; [split; [reflexivity|cbn [fst snd assoc]; cbn [String.eqb Ascii.eqb Bool.eqb]]|]]).

  Lemma snippet_becomes v v' s : solid (go_snippet v s) -> conv dz (T_Snippet v') (go_snippet v s) = Ok (Some (go_snippet v' (known_snippet v s))).
  Proof.
    intros S. pose proof (typed_snippet v s) as T.
    assert (A : Forall (fun e => solid (snd e)) [("", go_list go_range (s_Ranges s)); ("", go_strs (s_LicenseInfoInSnippet s))]).
    { constructor; [|constructor; [|constructor]]; cbn [snd].
      - apply (solid_fields _ "Ranges" _ S). destruct v; reflexivity.
      - apply (solid_fields _ "LicenseInfoInSnippet" _ S). destruct v; reflexivity. }
    inversion A as [|? ? SR A']; subst. inversion A' as [|? ? SI _]; subst. cbn [snd] in SR, SI. clear A A'.
    assert (SA : v <> V21 -> solid (go_strs (s_AttributionTexts s))).
    { intros N. apply (solid_fields _ "SnippetAttributionTexts" _ S). destruct v; [congruence|reflexivity..]. }
    destruct v, v'; (eapply struct_becomes; [| | |exact T|]; [reflexivity..|]); unfold T_Snippet, go_snippet, known_snippet; cbn [app]; parts;
      first [reflexivity|apply out_same; [reflexivity|apply typed_list', typed_range|exact SR]|
             apply out_same; [reflexivity|apply typed_strs|exact SI]|apply out_same; [reflexivity|apply typed_strs|apply SA; discriminate]].
  Qed.
  Lemma solid_strs l : solid (go_strs l).
  Proof. destruct l; [constructor|]. cbn. constructor. apply (Forall_map VStr solid (s :: l)). apply Forall_forall. constructor. Qed.
  Lemma solid_list {A} (f : A -> gval) l : (forall x, solid (f x)) -> solid (go_list f l).
  Proof. intros H. destruct l; [constructor|]. cbn [go_list]. constructor. apply Forall_map. apply Forall_forall. auto. Qed.
  Lemma solid_checksums l : solid (go_list go_checksum l).
  Proof. apply solid_list. intros x. repeat constructor. Qed.
  Lemma solid_annotations l : solid (go_list go_annotation l).
  Proof. apply solid_list. intros x. repeat constructor. Qed.
  Lemma solid_external_documents l : solid (go_list go_external_document l).
  Proof. apply solid_list. intros x. repeat constructor. Qed.
  Lemma solid_code c : solid (go_code c).
  Proof. constructor. constructor; [constructor|]. constructor; [apply solid_strs|constructor]. Qed.
  Ltac simple_part :=
    first [reflexivity
          |apply out_same; [reflexivity|apply typed_strs|apply solid_strs]
          |apply out_same; [reflexivity|apply typed_list', typed_checksum|apply solid_checksums]
          |apply out_same; [reflexivity|apply typed_list', typed_external_document|apply solid_external_documents]
          |apply out_same; [reflexivity|apply typed_list', typed_annotation|apply solid_annotations]].

  Lemma solid_in_ptrs {A} (f : A -> gval) l x : solid (go_ptrs f l) -> In x l -> solid (f x) /\ is_zero (f x) = false.
  Proof.
    intros S I. destruct l as [|a l]; [destruct I|]. unfold go_ptrs, go_list in S. inversion S as [| | | | |? F| |]; subst.
    rewrite Forall_forall in F. specialize (F (VPtr (f x)) (in_map (fun x => VPtr (f x)) _ _ I)). inversion F; subst. auto.
  Qed.
  Lemma solid_in_map {A} (f : A -> gval) l k x : solid (go_map f l) -> In (k, x) l -> solid (f x) /\ is_zero (f x) = false.
  Proof.
    intros S I. destruct l as [|a l]; [destruct I|]. unfold go_map in S. inversion S as [| | | | | |? F|]; subst.
    rewrite Forall_forall in F. specialize (F (k, VPtr (f x)) (in_map (fun e => (fst e, VPtr (f (snd e)))) _ _ I)). destruct F as [_ F].
    cbn [snd] in F. inversion F; subst. auto.
  Qed.
  Lemma go_map_map {A B} (f : A -> gval) (g : B -> A) m : go_map f (map (fun e => (fst e, g (snd e))) m) = go_map (fun x => f (g x)) m.
  Proof. destruct m as [|a m]; [reflexivity|]. unfold go_map. cbn [map]. now rewrite map_map. Qed.
  Lemma go_list_map {A B} (f : A -> gval) (g : B -> A) m : go_list f (map g m) = go_list (fun x => f (g x)) m.
  Proof. destruct m as [|a m]; [reflexivity|]. unfold go_list. cbn [map]. now rewrite map_map. Qed.
  Lemma out_ptrs {A B} t (f : A -> gval) (g : B -> gval) (h : A -> B) l : solid (go_ptrs f l) -> (exists ts, t = TStruct ts) -> (forall x, direct (f x)) ->
    (forall x, In x l -> solid (f x) -> conv dz t (f x) = Ok (Some (g (h x)))) ->
    out (TSlice (TPtr t)) (go_ptrs f l) = go_ptrs g (map h l).
  Proof.
    intros S [ts ->] D H. unfold go_ptrs. rewrite go_list_map. apply out_list. intros x I. destruct (solid_in_ptrs f l x S I) as [SX Z].
    apply conv_ptr; auto.
  Qed.

  Lemma file_becomes v v' f : solid (go_file v f) -> file_keys f ->
    conv dz (T_File v') (go_file v f) = Ok (Some (go_file v' (known_file v f))).
  Proof.
    intros S K. pose proof (typed_file v f K) as T.
    assert (SA : solid (go_ptrs go_artifact (f_Artifacts f))) by (apply (solid_fields _ "ArtifactOfProjects" _ S); destruct v; reflexivity).
    assert (SS : solid (go_map (go_snippet v) (f_Snippets f))) by (apply (solid_fields _ "Snippets" _ S); destruct v; reflexivity).
    assert (OS : out (TMap (TPtr (T_Snippet v'))) (go_map (go_snippet v) (f_Snippets f)) =
                 go_map (go_snippet v') (map (fun e => (fst e, known_snippet v (snd e))) (f_Snippets f))).
    { rewrite go_map_map. apply out_go_map. intros k x I. destruct (solid_in_map _ _ _ _ SS I) as [SX Z].
      apply conv_ptr; [now apply snippet_becomes|exact Logic.I|exact Z]. }
    assert (OA : out (TSlice (TPtr T_Artifact)) (go_ptrs go_artifact (f_Artifacts f)) = go_ptrs go_artifact (f_Artifacts f)).
    { apply out_same; [reflexivity|apply typed_ptrs', typed_artifact|exact SA]. }
    destruct v, v'; (eapply struct_becomes; [| | |exact T|]; [reflexivity..|]); unfold T_File, go_file, go_file_of, known_file; cbn [app]; parts;
      first [simple_part|exact OS|exact OA].
  Qed.
  Lemma package_becomes v v' p : solid (go_package v p) -> Forall file_keys (p_Files p) ->
    conv dz (T_Package v') (go_package v p) = Ok (Some (go_package v' (known_package v p))).
  Proof.
    intros S K. pose proof (typed_package v p K) as T.
    assert (SU : solid (go_ptr go_supplier (p_Supplier p))) by (apply (solid_fields _ "PackageSupplier" _ S); destruct v; reflexivity).
    assert (SO : solid (go_ptr go_originator (p_Originator p))) by (apply (solid_fields _ "PackageOriginator" _ S); destruct v; reflexivity).
    assert (SE : solid (go_ptrs go_external_ref (p_ExternalReferences p))) by (apply (solid_fields _ "PackageExternalReferences" _ S); destruct v; reflexivity).
    assert (SF : solid (go_ptrs (go_file v) (p_Files p))) by (apply (solid_fields _ "Files" _ S); destruct v; reflexivity).
    assert (SV : v = V23 -> solid (go_ptr go_code (p_VerificationCode p))).
    { intros ->. apply (solid_fields _ "PackageVerificationCode" _ S). reflexivity. }
    assert (OU : out (TPtr T_Supplier) (go_ptr go_supplier (p_Supplier p)) = go_ptr go_supplier (p_Supplier p)).
    { apply out_same; [reflexivity|apply typed_ptr, typed_supplier|exact SU]. }
    assert (OO : out (TPtr T_Originator) (go_ptr go_originator (p_Originator p)) = go_ptr go_originator (p_Originator p)).
    { apply out_same; [reflexivity|apply typed_ptr, typed_originator|exact SO]. }
    assert (OE : out (TSlice (TPtr T_ExternalRef)) (go_ptrs go_external_ref (p_ExternalReferences p)) = go_ptrs go_external_ref (p_ExternalReferences p)).
    { apply out_same; [reflexivity|apply typed_ptrs', typed_external_ref|exact SE]. }
    assert (OF : out (TSlice (TPtr (T_File v'))) (go_ptrs (go_file v) (p_Files p)) = go_ptrs (go_file v') (map (known_file v) (p_Files p))).
    { apply out_ptrs; [exact SF|destruct v'; eexists; reflexivity|intros; exact I|]. intros x I SX. apply file_becomes; [exact SX|].
      rewrite Forall_forall in K. auto. }
    assert (OC : forall c, out T_VerificationCode (go_code c) = go_code c).
    { intros c. apply out_same; [reflexivity|apply typed_code|apply solid_code]. }
    assert (OC' : forall c, out (TPtr T_VerificationCode) (go_code c) = VPtr (go_code c)).
    { intros c. rewrite (out_wrap dz (TPtr T_VerificationCode)); [cbn [wrap base]; now rewrite OC|reflexivity|exact I|].
      apply (conv_fine dz _ T_VerificationCode); [reflexivity|reflexivity|apply typed_code|reflexivity]. }
    assert (OP : v = V23 -> out T_VerificationCode (go_ptr go_code (p_VerificationCode p)) =
                            go_code (match p_VerificationCode p with Some c => c | None => zero_VerificationCode end)).
    { intros E. specialize (SV E). destruct (p_VerificationCode p) as [c|]; [|reflexivity]. cbn [go_ptr] in *. inversion SV; subst.
      rewrite out_ptr. match goal with Z : is_zero _ = false |- _ => rewrite Z, andb_false_r end. apply OC. }
    assert (OQ : v = V23 -> out (TPtr T_VerificationCode) (go_ptr go_code (p_VerificationCode p)) = go_ptr go_code (p_VerificationCode p)).
    { intros E. apply out_same; [reflexivity|apply typed_ptr, typed_code|exact (SV E)]. }
    destruct v, v'; (eapply struct_becomes; [| | |exact T|]; [vm_compute; reflexivity..|]); unfold T_Package, go_package, go_package_of, known_package; cbn [app]; parts;
      first [simple_part|exact OU|exact OO|exact OE|exact OF|apply OC|apply OC'|exact (OP eq_refl)|exact (OQ eq_refl)].
  Qed.
  Lemma document_becomes v v' d : solid (go_document v d) -> keys_distinct d ->
    conv dz (T_Document v') (go_document v d) = Ok (Some (go_document v' (known_document v d))).
  Proof.
    intros S K. pose proof (typed_document v d K) as T. destruct K as [K1 K2].
    assert (SC : solid (go_ptr go_creation_info (d_CreationInfo d))) by (apply (solid_fields _ "CreationInfo" _ S); reflexivity).
    assert (SP : solid (go_ptrs (go_package v) (d_Packages d))) by (apply (solid_fields _ "Packages" _ S); reflexivity).
    assert (SF : solid (go_ptrs (go_file v) (d_Files d))) by (apply (solid_fields _ "Files" _ S); reflexivity).
    assert (SO : solid (go_ptrs go_license (d_OtherLicenses d))) by (apply (solid_fields _ "OtherLicenses" _ S); reflexivity).
    assert (SR : solid (go_ptrs go_relationship (d_Relationships d))) by (apply (solid_fields _ "Relationships" _ S); reflexivity).
    assert (SA : solid (go_ptrs go_annotation (d_Annotations d))) by (apply (solid_fields _ "Annotations" _ S); reflexivity).
    assert (SN : solid (go_list (go_snippet v) (d_Snippets d))) by (apply (solid_fields _ "Snippets" _ S); reflexivity).
    assert (SV : solid (go_ptrs go_review (d_Reviews d))) by (apply (solid_fields _ "Reviews" _ S); reflexivity).
    assert (OP : out (TSlice (TPtr (T_Package v'))) (go_ptrs (go_package v) (d_Packages d)) = go_ptrs (go_package v') (map (known_package v) (d_Packages d))).
    { apply out_ptrs; [exact SP|destruct v'; eexists; reflexivity|intros; exact I|]. intros x I SX. apply package_becomes; [exact SX|].
      rewrite Forall_forall in K2. auto. }
    assert (OF : out (TSlice (TPtr (T_File v'))) (go_ptrs (go_file v) (d_Files d)) = go_ptrs (go_file v') (map (known_file v) (d_Files d))).
    { apply out_ptrs; [exact SF|destruct v'; eexists; reflexivity|intros; exact I|]. intros x I SX. apply file_becomes; [exact SX|].
      rewrite Forall_forall in K1. auto. }
    assert (ON : out (TSlice (T_Snippet v')) (go_list (go_snippet v) (d_Snippets d)) = go_list (go_snippet v') (map (known_snippet v) (d_Snippets d))).
    { rewrite go_list_map. apply out_list. intros x I. apply snippet_becomes. destruct (d_Snippets d) as [|a l]; [destruct I|].
      unfold go_list in SN. inversion SN as [| | | | |? F| |]; subst. rewrite Forall_forall in F. apply F. exact (in_map (go_snippet v) _ _ I). }
    eapply struct_becomes; [| | |exact T|]; [destruct v; vm_compute; reflexivity|destruct v'; vm_compute; reflexivity|destruct v, v'; vm_compute; reflexivity|].
    unfold go_document, go_document_of, known_document. parts;
      first [simple_part|exact OP|exact OF|exact ON|
             apply out_same; [reflexivity|apply typed_ptr, typed_creation_info|exact SC]|
             apply out_same; [reflexivity|apply typed_ptrs', typed_license|exact SO]|
             apply out_same; [reflexivity|apply typed_ptrs', typed_relationship|exact SR]|
             apply out_same; [reflexivity|apply typed_ptrs', typed_annotation|exact SA]|
             apply out_same; [reflexivity|apply typed_ptrs', typed_review|exact SV]].
  Qed.
End Parts.
