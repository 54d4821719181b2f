(** * JSON round trip, structure by structure. *)
From Coq Require Import Permutation.
From Verif Require Import GoStr GoStrFacts Types TvUtil TvUtilFacts TvParser SpecTv SpecId SpecDoc Json JsonSpdx SpecJson JsonFacts JsonCodec.
Local Open Scope string_scope.

Lemma plain_lit s : (let fix ok s := match s with "" => true | String a r =>
    ((code a <? 128) && negb (code a <? 32) && negb (code a =? 34) && negb (code a =? 92)
     && negb (code a =? 60) && negb (code a =? 62) && negb (code a =? 38))%N && ok r end in ok s) = true ->
  forall h, plain h s.
Proof.
  intros H h. induction s as [|a s IH]; [apply plain_nil|].
  apply andb_prop in H as (H & K). repeat (apply andb_prop in H as (H & ?)).
  apply plain_one; [now apply N.ltb_lt| |now apply IH].
  repeat match goal with
  | N : negb _ = true |- _ => apply negb_true_iff in N
  | N : (_ <? _)%N = false |- _ => apply N.ltb_ge in N
  | N : (_ =? _)%N = false |- _ => apply N.eqb_neq in N
  end. unfold special. intuition lia.
Qed.

Section Round.
  Variable v : version.
  Variable h : bool.

  (** ** Identifiers *)
  Lemma trim_id_app prefix id : id <> "" -> trim_id_prefix prefix (prefix ++ id) = Ok id.
  Proof. intros H. unfold trim_id_prefix. rewrite strip_prefix_app. destruct id; congruence. Qed.
  Lemma with_prefix_id prefix id : ~ (exists r, id = prefix ++ r) -> with_prefix prefix id = prefix ++ id.
  Proof.
    intros H. unfold with_prefix. destruct (has_prefix prefix id) eqn:E; [|reflexivity].
    apply has_prefix_spec in E. tauto.
  Qed.
  Lemma good_element_id old id : json_id h "SPDXRef-" id -> good_some h c_element_id old id.
  Proof.
    intros (N & P & U). eapply good_text.
    - exact (f_equal Ok (with_prefix_id "SPDXRef-" _ U)).
    - apply plain_app; [now apply plain_lit|assumption].
    - unfold unquote_trim. rewrite (unquote_plain h); [now apply trim_id_app|].
      apply plain_app; [now apply plain_lit|assumption].
  Qed.
  Lemma good_document_id old id : json_id h "DocumentRef-" id -> good_some h c_document_id old id.
  Proof.
    intros (N & P & U). eapply good_text.
    - exact (f_equal Ok (with_prefix_id "DocumentRef-" _ U)).
    - apply plain_app; [now apply plain_lit|assumption].
    - unfold unquote_trim. rewrite (unquote_plain h); [now apply trim_id_app|].
      apply plain_app; [now apply plain_lit|assumption].
  Qed.

  Lemma good_ref d : json_ref h d -> good_some h c_doc_element_id zero_DocElementID d.
  Proof.
    destruct d as [doc elt sp]. unfold json_ref. cbn [de_DocumentRefID de_ElementRefID de_SpecialID].
    intros [(-> & (N & P & U) & D)|(-> & -> & I)].
    - assert (nonempty elt = true) as Ne by (destruct elt; [congruence|reflexivity]).
      assert (plain h ("SPDXRef-" ++ elt)) as Pe by (apply plain_app; [now apply plain_lit|assumption]).
      destruct D as [->|((Nd & Pd & Ud) & Cd)].
      + eapply good_text.
        * unfold marshal_doc_element_id. cbn [de_DocumentRefID de_ElementRefID de_SpecialID nonempty String.eqb negb andb].
          rewrite Ne. exact (f_equal Ok (with_prefix_id "SPDXRef-" _ U)).
        * exact Pe.
        * unfold unmarshal_doc_element_id, unquote_trim. rewrite (unquote_plain h) by exact Pe.
          change (has_prefix document_ref ("SPDXRef-" ++ elt)) with false.
          change (String.eqb ("SPDXRef-" ++ elt) "NONE") with false.
          change (String.eqb ("SPDXRef-" ++ elt) "NOASSERTION") with false. cbn [orb].
          change (trim_id_prefix spdx_ref) with (trim_id_prefix "SPDXRef-").
          rewrite (trim_id_app "SPDXRef-" elt N). reflexivity.
      + assert (plain h ("DocumentRef-" ++ doc ++ ":" ++ "SPDXRef-" ++ elt)) as Pw.
        { apply plain_app; [now apply plain_lit|]. apply plain_app; [assumption|].
          apply plain_app; [now apply plain_lit|assumption]. }
        assert (nonempty doc = true) as Nd' by (destruct doc; [congruence|reflexivity]).
        eapply good_text.
        * unfold marshal_doc_element_id. cbn [de_DocumentRefID de_ElementRefID de_SpecialID].
          rewrite Ne, Nd'. cbn [andb].
          rewrite (with_prefix_id document_ref _ Ud), (with_prefix_id spdx_ref _ U), app_assoc_s. reflexivity.
        * exact Pw.
        * unfold unmarshal_doc_element_id, unquote_trim.
          change (document_ref ++ doc ++ ":" ++ spdx_ref ++ elt) with ("DocumentRef-" ++ doc ++ ":" ++ "SPDXRef-" ++ elt).
          rewrite (unquote_plain h) by exact Pw.
          change (String.eqb ("DocumentRef-" ++ doc ++ ":" ++ "SPDXRef-" ++ elt) "NONE") with false.
          change (String.eqb ("DocumentRef-" ++ doc ++ ":" ++ "SPDXRef-" ++ elt) "NOASSERTION") with false. cbn [orb].
          change (has_prefix document_ref ("DocumentRef-" ++ doc ++ ":" ++ "SPDXRef-" ++ elt)) with true. cbv iota.
          replace (cut ":" ("DocumentRef-" ++ doc ++ ":" ++ "SPDXRef-" ++ elt))
            with (Some ("DocumentRef-" ++ doc, "SPDXRef-" ++ elt)).
          2:{ symmetry. rewrite <- app_assoc_s. apply cut_byte_app.
              rewrite has_byte_app. apply not_occurs_byte in Cd. now rewrite Cd. }
          change (trim_id_prefix document_ref) with (trim_id_prefix "DocumentRef-").
          change (trim_id_prefix spdx_ref) with (trim_id_prefix "SPDXRef-").
          rewrite (trim_id_app "DocumentRef-" doc Nd). cbn [bindR].
          rewrite (trim_id_app "SPDXRef-" elt N). reflexivity.
    - destruct I as [<-|[<-|[]]].
      + eapply good_text; [reflexivity|now apply plain_lit|reflexivity].
      + eapply good_text; [reflexivity|now apply plain_lit|reflexivity].
  Qed.

  (** ** Actors *)
  Lemma actor_text type name : json_actor h type name ->
    marshal_actor type name = Ok (type ++ ": " ++ name) /\ plain h (type ++ ": " ++ name) /\
    unmarshal_actor (quoted (type ++ ": " ++ name)) = Ok (type, name).
  Proof.
    intros (N & Pn & Tn & Pt & Tt & C).
    assert (plain h (type ++ ": " ++ name)) as P.
    { apply plain_app; [assumption|]. apply plain_app; [now apply plain_lit|assumption]. }
    repeat split; auto.
    - unfold marshal_actor. destruct name; [congruence|reflexivity].
    - unfold unmarshal_actor, unquote_trim. rewrite (unquote_plain h) by exact P.
      change (": " ++ name) with (String ":" (String " " name)).
      rewrite cut_byte_app by (now apply not_occurs_byte).
      rewrite trim_space_space. red in Tt, Tn. now rewrite Tt, Tn.
  Qed.
  Lemma good_creator c : json_actor h (cr_CreatorType c) (cr_Creator c) -> good_some h c_creator zero_Creator c.
  Proof.
    intros H. destruct (actor_text _ _ H) as (M & P & U). eapply good_text; [exact M|exact P|].
    cbv beta. rewrite U. now destruct c.
  Qed.
  Lemma good_annotator c : json_actor h (an_AnnotatorType c) (an_Annotator c) -> good_some h c_annotator zero_Annotator c.
  Proof.
    intros H. destruct (actor_text _ _ H) as (M & P & U). eapply good_text; [exact M|exact P|].
    cbv beta. rewrite U. now destruct c.
  Qed.
  Lemma agent_text type name : type <> "" -> name <> "NOASSERTION" -> json_actor h type name ->
    marshal_agent type name = Ok (type ++ ": " ++ name).
  Proof.
    intros Nt Nn (N & _). unfold marshal_agent.
    destruct (String.eqb_spec name "NOASSERTION"); [congruence|].
    destruct type, name; try congruence. reflexivity.
  Qed.
  Lemma agent_not_noassertion type name : (type ++ ": " ++ name =? "NOASSERTION")%string = false.
  Proof.
    apply String.eqb_neq. intros E.
    assert (has_byte ":" (type ++ ": " ++ name) = false) as H by (rewrite E; reflexivity).
    rewrite has_byte_app in H. apply orb_false_elim in H as (_ & H). discriminate.
  Qed.
  Lemma good_supplier s : json_agent h (su_SupplierType s) (su_Supplier s) -> good_some h c_supplier zero_Supplier s.
  Proof.
    destruct s as [n t]. cbn [su_SupplierType su_Supplier].
    intros [(-> & ->)|(Nt & Nn & H)].
    - eapply good_text; [reflexivity|now apply plain_lit|reflexivity].
    - destruct (actor_text _ _ H) as (_ & P & U). eapply good_text; [exact (agent_text _ _ Nt Nn H)|exact P|].
      cbv beta zeta. unfold unquote_trim. rewrite (unquote_plain h) by exact P.
      rewrite agent_not_noassertion, U. reflexivity.
  Qed.
  Lemma trim_left_blanks_id s : trimmed s -> trim_left_blanks s = s.
  Proof.
    intros T. apply trim_space_id in T as (T & _). destruct s as [|a s]; [reflexivity|].
    cbn [trim_left_blanks]. destruct (is 32 a || is 9 a)%bool eqn:E; [|reflexivity].
    exfalso. assert (is_space1 a = true) as S.
    { unfold is_space1. apply orb_prop in E as [E|E]; apply is_code in E; rewrite E; reflexivity. }
    revert T. unfold starts_space, starts_gen. cbn. rewrite S. discriminate.
  Qed.
  Lemma good_originator s : json_agent h (or_OriginatorType s) (or_Originator s) -> good_some h c_originator zero_Originator s.
  Proof.
    destruct s as [n t]. cbn [or_OriginatorType or_Originator].
    intros [(-> & ->)|(Nt & Nn & H)].
    - eapply good_text; [reflexivity|now apply plain_lit|reflexivity].
    - destruct (actor_text _ _ H) as (_ & P & _). eapply good_text; [exact (agent_text _ _ Nt Nn H)|exact P|].
      cbv beta zeta. unfold unquote_trim. rewrite (unquote_plain h) by exact P.
      rewrite agent_not_noassertion. destruct H as (_ & _ & T & _ & _ & C).
      change (": " ++ n) with (String ":" (String " " n)).
      rewrite cut_byte_app by (now apply not_occurs_byte).
      change (trim_left_blanks (String " " n)) with (trim_left_blanks n). now rewrite trim_left_blanks_id.
  Qed.

  Lemma good_int old z : in_int z = true -> good h c_int old z.
  Proof.
    intros I. exists (JNum (show_Z z)). repeat split. intros j' S. inversion S; subst. cbn.
    now apply atoi_show_Z.
  Qed.

  (** ** Structures *)
  Lemma good_ptrs X (c : codec X) zero (l : list (option X)) :
    Forall (opt_ok (good_some h c zero)) l -> good h (c_ptrs c zero) [] l.
  Proof.
    intros H. unfold c_ptrs. apply good_slice. eapply Forall_impl; [|exact H]. intros o G. now apply good_ptr.
  Qed.
  Lemma opt_impl X (P Q : X -> Prop) : (forall x, P x -> Q x) -> forall o, opt_ok P o -> opt_ok Q o.
  Proof. intros H [x|] K; [now apply H|exact I]. Qed.
  Lemma opt_ptrs A X name (c : codec X) z get set (zero x : A) :
    Forall (opt_ok (good_some h c z)) (get x) -> get zero = [] ->
    field_good h zero x (opt name (c_ptrs c z) get set).
  Proof.
    intros U Z. apply field_opt; [rewrite Z; now apply good_ptrs|]. cbn. rewrite Z. destruct (get x); [auto|discriminate].
  Qed.
  Lemma opt_int A name get set (zero x : A) : in_int (get x) = true -> get zero = 0%Z ->
    field_good h zero x (opt name c_int get set).
  Proof.
    intros U Z. apply field_opt; [now apply good_int|]. rewrite Z. intros E. apply (Z.eqb_eq 0) in E. congruence.
  Qed.

  Ltac lens := cbn [lenses map fold_right app]; repeat split; intros; reflexivity.
  Ltac ext x := intros [] ; destruct x; cbn; intros; 
    repeat match goal with H : _ /\ _ |- _ => destruct H end; 
    repeat match goal with H : (_, _) = (_, _) |- _ => injection H as ? end; subst; reflexivity.
  Ltac fields := cbn [map fold_right app]; repeat match goal with |- _ /\ _ => split end; try exact I.
  Ltac leaf :=
    first [ apply field_req, good_string; assumption
          | apply opt_string; [assumption|reflexivity]
          | apply opt_strings; [assumption|reflexivity]
          | apply opt_int; [assumption|reflexivity]
          | apply field_req, good_strings; assumption
          | apply field_req, good_of_some, good_element_id; assumption
          | apply field_req, good_of_some, good_document_id; assumption
          | idtac ].
  Ltac struct ig x :=
    apply (struct_good' h _ _ ig);
      [ lens | vm_compute; reflexivity | vm_compute; reflexivity
      | fields; leaf
      | try reflexivity
      | ext x ].

  Lemma good_checksum c : checksum_json c -> good_some h c_checksum zero_Checksum c.
  Proof. intros (H1 & H2). struct (fun _ : Checksum => tt) c. Qed.
  Lemma good_code c : code_json v c -> good_some h c_verification_code zero_VerificationCode c.
  Proof. intros (H1 & H2 & H3). struct (fun _ : VerificationCode => tt) c. Qed.
  Lemma good_pointer p : pointer_json h p -> good_some h c_range_pointer zero_RangePointer p.
  Proof. intros (H1 & H2 & H3). struct (fun _ : RangePointer => tt) p. Qed.
  Lemma good_range r : range_json h r -> good_some h c_range zero_SnippetRange r.
  Proof.
    intros (H1 & H2). struct (fun _ : SnippetRange => tt) r; apply field_req, good_of_some, good_pointer; assumption.
  Qed.
  Lemma good_external_document e : external_document_json h e ->
    good_some h c_external_document_ref zero_ExternalDocumentRef e.
  Proof.
    intros (H1 & H2 & H3). struct (fun _ : ExternalDocumentRef => tt) e.
    apply field_req, good_of_some, good_checksum; assumption.
  Qed.
  Lemma good_creation c : creation_json h c -> good_some h c_creation_info zero_CreationInfo c.
  Proof.
    intros (H1 & H2 & H3 & H4). struct (fun _ : CreationInfo => tt) c.
    apply field_req, good_slice. eapply Forall_impl; [|exact H2]. intros x Hx. now apply good_of_some, good_creator.
  Qed.
  Lemma good_relationship r : relationship_json h r -> good_some h c_relationship zero_Relationship r.
  Proof.
    intros (H1 & H2 & H3 & H4). struct (fun _ : Relationship => tt) r;
      apply field_req, good_of_some, good_ref; assumption.
  Qed.
  Lemma good_annotation a : annotation_json h a -> good_some h c_annotation zero_Annotation a.
  Proof.
    intros (H1 & H2 & H3 & H4 & H5). struct a_SPDXIdentifier a.
    - apply field_req, good_of_some, good_annotator; assumption.
    - exact H5.
  Qed.
  Lemma good_other_license o : other_license_json o -> good_some h c_other_license zero_OtherLicense o.
  Proof. intros (H1 & H2 & H3 & H4 & H5). struct (fun _ : OtherLicense => tt) o. Qed.
  Lemma good_artifact a : artifact_json a -> good_some h c_artifact zero_Artifact a.
  Proof. intros (H1 & H2 & H3). struct (fun _ : Artifact => tt) a. Qed.
  Lemma good_snippet s : snippet_json h s -> good_some h (c_snippet v) zero_Snippet s.
  Proof.
    intros (H1 & H2 & H3 & H4 & H5 & H6 & H7 & H8 & H9 & H10).
    unfold c_snippet, opt_in_23. destruct v; struct s_AttributionTexts s; 
      solve [ apply field_req, good_slice; eapply Forall_impl; [|exact H3]; intros x Hx; now apply good_of_some, good_range
            | exact H10 ].
  Qed.

  (** ** External references *)
  Lemma replace_utf8 a b s : (code a < 128)%N -> (code b < 128)%N -> utf8_ok s -> utf8_ok (replace_byte a b s).
  Proof.
    intros Ha Hb.
    assert (forall c, (128 <= code c)%N -> (if Ascii.eqb c a then b else c) = c) as R.
    { intros c Hc. destruct (Ascii.eqb_spec c a) as [->|]; [lia|reflexivity]. }
    assert (forall lo hi c, between lo hi c = true -> (128 <= lo)%N -> (128 <= code c)%N) as B.
    { intros lo hi c H L. unfold between in H. apply andb_prop in H as (H & _). apply N.leb_le in H. lia. }
    induction 1 as [|c s Hc _ IH|c d s Hc _ IH|c d e s Hc _ IH|c d e f s Hc _ IH]; cbn [replace_byte].
    - apply utf8_nil.
    - apply utf8_one; [|assumption]. destruct (Ascii.eqb c a); assumption.
    - assert (H := Hc). unfold utf8_2, cont in H. repeat rewrite ?andb_true_iff, ?orb_true_iff in H.
      rewrite !R; [now apply utf8_two| |]; eapply B; try apply H; lia.
    - assert (128 <= code c /\ 128 <= code d /\ 128 <= code e)%N as (Kc & Kd & Ke).
      { unfold utf8_3, cont in Hc. repeat rewrite ?andb_true_iff, ?orb_true_iff in Hc.
        repeat match goal with K : _ /\ _ |- _ => destruct K | K : _ \/ _ |- _ => destruct K end;
        repeat match goal with K : is _ _ = true |- _ => apply is_code in K end;
        repeat match goal with K : between ?l ?u ?x = true |- _ => apply (B l u x) in K; [|lia] end; lia. }
      rewrite !R by assumption. now apply utf8_three.
    - assert (128 <= code c /\ 128 <= code d /\ 128 <= code e /\ 128 <= code f)%N as (Kc & Kd & Ke & Kf).
      { unfold utf8_4, cont in Hc. repeat rewrite ?andb_true_iff, ?orb_true_iff in Hc.
        repeat match goal with K : _ /\ _ |- _ => destruct K | K : _ \/ _ |- _ => destruct K end;
        repeat match goal with K : is _ _ = true |- _ => apply is_code in K end;
        repeat match goal with K : between ?l ?u ?x = true |- _ => apply (B l u x) in K; [|lia] end; lia. }
      rewrite !R by assumption. now apply utf8_four.
  Qed.
  Lemma replace_back a b s : has_byte b s = false -> replace_byte b a (replace_byte a b s) = s.
  Proof.
    induction s as [|x s IH]; [reflexivity|]. cbn [has_byte replace_byte]. intros H. apply orb_false_elim in H as (H & K).
    rewrite IH by assumption. f_equal. destruct (Ascii.eqb_spec x a) as [->|].
    - now rewrite Ascii.eqb_refl.
    - now rewrite Ascii.eqb_sym, H in *.
  Qed.
  Lemma replace_none a b s : has_byte a s = false -> replace_byte a b s = s.
  Proof.
    induction s as [|x s IH]; [reflexivity|]. cbn [has_byte replace_byte]. intros H. apply orb_false_elim in H as (H & K).
    rewrite IH by assumption. f_equal. now rewrite Ascii.eqb_sym, H in *.
  Qed.
  Lemma good_external_ref_struct r : utf8_ok (er_Category r) -> utf8_ok (er_RefType r) -> utf8_ok (er_Locator r) ->
    utf8_ok (er_Comment r) -> good_some h (c_struct external_ref_fields) zero_ExternalRef r.
  Proof. intros H1 H2 H3 H4. unfold external_ref_fields. struct (fun _ : ExternalRef => tt) r. Qed.
  Lemma good_external_ref r : external_ref_json v r -> good_some h (c_external_ref v) zero_ExternalRef r.
  Proof.
    intros (H1 & H2 & H3 & H4 & H5).
    assert (forall cat, utf8_ok cat -> replace_byte underscore dash cat = er_Category r ->
      exists j, enc (c_struct external_ref_fields) (set_er_Category cat r) = Ok j /\ j <> JNull /\ canon j /\
        forall j', sim h j j' ->
          (let* q := dec (c_struct external_ref_fields) j' zero_ExternalRef in
           Ok (set_er_Category (replace_byte underscore dash (er_Category q)) q)) = Ok r) as G.
    { intros cat Uc Ec.
      destruct (good_external_ref_struct (set_er_Category cat r)) as (j & E & N & C & D); try assumption.
      exists j. repeat (split; [assumption|]). intros j' S. rewrite (D _ S). cbn [bindR].
      change (er_Category (set_er_Category cat r)) with cat. rewrite Ec. now destruct r. }
    destruct v.
    - now apply good_external_ref_struct.
    - assert (has_byte underscore (er_Category r) = false) as Hb
        by (apply not_occurs_byte, H5; discriminate).
      apply (G (replace_byte dash underscore (er_Category r))).
      + now apply replace_utf8.
      + now apply replace_back.
    - assert (has_byte underscore (er_Category r) = false) as Hb
        by (apply not_occurs_byte, H5; discriminate).
      apply (G (replace_byte underscore dash (er_Category r))).
      + now apply replace_utf8.
      + rewrite !(replace_none underscore) by (rewrite ?(replace_none underscore); assumption). reflexivity.
  Qed.

  (** ** Files *)
  Lemma good_file f : file_json v h f -> good_some h (c_file v) zero_file f.
  Proof.
    intros (H1 & H2 & H3 & H4 & H5 & H6 & H7 & H8 & H9 & H10 & H11 & H12 & H13 & H14 & H15 & H16 & H17 & H18 & H19).
    assert (Forall (good h c_checksum zero_Checksum) (f_Checksums f)) as Gc.
    { eapply Forall_impl; [|exact H4]. intros x Hx. now apply good_of_some, good_checksum. }
    assert (Forall (good h c_annotation zero_Annotation) (f_Annotations f)) as Ga.
    { eapply Forall_impl; [|exact H19]. intros x Hx. now apply good_of_some, good_annotation. }
    assert (Forall (opt_ok (good_some h c_artifact zero_Artifact)) (f_Artifacts f)) as Gr.
    { eapply Forall_impl; [|exact H9]. apply opt_impl, good_artifact. }
    unfold c_file, opt_in_23. destruct v.
    - struct (fun f : JFile => (f_Snippets f, f_Artifacts f, f_Dependencies f, f_AttributionTexts f)) f.
      + apply field_req, good_slice. assumption.
      + apply opt_slice; [assumption|reflexivity].
      + cbv beta. rewrite H18, H10, H17, H15 by (reflexivity || discriminate). reflexivity.
    - struct (fun f : JFile => (f_Snippets f, f_Artifacts f, f_Dependencies f)) f.
      + apply field_req, good_slice. assumption.
      + apply opt_slice; [assumption|reflexivity].
      + cbv beta. rewrite H18, H10, H17 by discriminate. reflexivity.
    - struct (fun f : JFile => f_Snippets f) f.
      + apply field_req, good_slice. assumption.
      + apply opt_ptrs; [assumption|reflexivity].
      + apply opt_slice; [assumption|reflexivity].
      + exact H18.
  Qed.
End Round.
