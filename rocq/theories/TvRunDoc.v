(** Running the parser over the pairs of a representable document: the document itself. *)
From Verif Require Import GoStr GoStrFacts Sorting Types TvState TvUtil TvReader TvParser TvWriter SpecTv SpecId SpecDoc SpecRead
  SpecWrite TvReaderFacts TvUtilFacts TvParserFacts TvWriterFacts TvRun TvRunFile TvRunList.

(** ** Identifiers as words *)
Lemma name_trimmed x : name_ok x -> trimmed x.
Proof. intros (_ & _ & H & _). exact H. Qed.
Lemma word_byte x : word x <-> x <> "" /\ has_byte " " x = false /\ trimmed x.
Proof. unfold word. now rewrite not_occurs_byte. Qed.
Lemma word_ref d : ref_rep d -> word (render_doc_element_id d).
Proof.
  intros H. pose proof (name_doc_element_id d H) as [N (_ & T & _)]. apply word_byte. split; [exact N|]. split; [|exact T].
  destruct H as (Hs & He & Hd). apply ident_word, word_byte in He as (_ & He & _).
  unfold render_doc_element_id. rewrite Hs. cbn [nonempty String.eqb negb].
  rewrite !has_byte_app, He. destruct Hd as [->|Hd]; [reflexivity|].
  apply ident_word, word_byte in Hd as (Hn & Hd & _). apply nonempty_true in Hn. rewrite Hn, !has_byte_app, Hd. reflexivity.
Qed.
Lemma plain_rep d : ref_rep d -> plain_ref d.
Proof.
  intros (Hs & He & Hd). split; [exact Hs|]. split; [now apply ident_id|]. destruct Hd; [now left|right; now apply ident_id].
Qed.
Lemma word_special v d : special_rep v d -> word (render_doc_element_id d).
Proof.
  intros (_ & _ & _ & [E|[E|[]]]); unfold render_doc_element_id; rewrite <- E; apply word_byte; cbn; repeat split; discriminate.
Qed.
Lemma rel_text v r : relationship_rep v r ->
  extract_relationship v (render_doc_element_id (r_RefA r) ++ " " ++ r_Relationship r ++ " " ++ render_doc_element_id (r_RefB r))
  = Ok (r_RefA r, r_Relationship r, r_RefB r).
Proof.
  intros (H1 & H2 & H3 & _). apply extract_relationship_app; [now apply plain_rep| |apply H3|now apply word_ref|].
  - destruct H2 as [H2|H2]; [left; now apply plain_rep|now right].
  - destruct H2 as [H2|H2]; [now apply word_ref|now apply (word_special v)].
Qed.
Lemma edr_text e : edr_rep e ->
  extract_external_document_reference ("DocumentRef-" ++ edr_DocumentRefID e ++ " " ++ edr_URI e ++ " "
        ++ ck_Algorithm (edr_Checksum e) ++ ":" ++ ck_Value (edr_Checksum e)) = Ok e.
Proof.
  intros (H1 & H2 & H3 & H4). destruct e as [d u [a c]]. cbn [edr_DocumentRefID edr_URI edr_Checksum ck_Algorithm ck_Value] in *.
  apply extract_edr_app.
  - pose proof (line_sep "DocumentRef" "-" d eq_refl (name_const "DocumentRef" eq_refl) (word_name _ H1)) as [N (_ & T & _)].
    destruct H1 as [H1 _]. apply word_byte in H1 as (_ & H1 & _). apply word_byte. split; [exact N|]. split; [|exact T].
    rewrite has_byte_app, H1. reflexivity.
  - apply H1.
  - apply H2.
  - apply H3.
  - pose proof (line_sep a ":" c eq_refl (ident_name _ H3) (word_name _ H4)) as [N (_ & T & _)].
    destruct H3 as [[H3 _] _], H4 as [H4 _]. apply word_byte in H3 as (_ & H3 & _), H4 as (_ & H4 & _).
    apply word_byte. split; [exact N|]. split; [|exact T]. rewrite !has_byte_app, H3, H4. reflexivity.
Qed.
Lemma actor3_text k x : actor_rep actor3 k x -> extract_actor ["Person"; "Organization"; "Tool"] (k ++ ": " ++ x) = Ok (k, x).
Proof.
  intros [Hk (_ & _ & Ht & _)]. apply extract_actor_app; [exact Hk|..|exact Ht].
  - destruct Hk as [<-|[<-|[<-|[]]]]; now apply not_occurs_contains.
  - destruct Hk as [<-|[<-|[<-|[]]]]; reflexivity.
Qed.
Lemma actor3_nonempty k x : actor_rep actor3 k x -> nonempty x && nonempty k = true.
Proof.
  intros [Hk (N & _)]. apply nonempty_true in N. rewrite N. destruct Hk as [<-|[<-|[<-|[]]]]; reflexivity.
Qed.

(** ** The header *)
Section Header.
  Variable v : version.
  Definition in_start (d : DocumentArena) : pstate -> Prop := is PsStart d [] None [] None [].
  Lemma start_upd f d s : in_start d s -> exists s', upd_doc f s = Ok s' /\ in_start (f d) s'.
  Proof.
    intros (H1 & H2 & H3 & H4 & H5 & H6 & H7). unfold upd_doc. rewrite H2. eexists. split; [reflexivity|]. repeat split; assumption.
  Qed.
  Lemma parse_pair_start d s t x : in_start d s -> parse_pair v s (t, x) =
    switch t start_cases (fun value s => parse_creation_info v t value (set_ps_st PsCreationInfo s)) x s.
  Proof. intros (H1 & H2 & _). unfold parse_pair. rewrite H1. unfold parse_start. rewrite H2. reflexivity. Qed.
  Lemma start_step t f :
    (forall x s, switch t start_cases (fun value s => parse_creation_info v t value (set_ps_st PsCreationInfo s)) x s = upd_doc (f x) s) ->
    field_step v _ in_start t f.
  Proof.
    intros A x d s H. destruct (start_upd (f x) d s H) as (s' & E & H').
    apply runs_one with (s' := s'); [|exact H']. rewrite (parse_pair_start d), A by assumption. exact E.
  Qed.
  Lemma start_edr e d s : edr_rep e -> in_start d s ->
    runs v s (pairs_of (render_edr e)) (in_start (set_d_ExternalDocumentReferences (d_ExternalDocumentReferences d ++ [e])%list d)).
  Proof.
    intros He H. destruct (start_upd (fun d => set_d_ExternalDocumentReferences (d_ExternalDocumentReferences d ++ [e])%list d) d s H) as (s' & E & H').
    apply runs_one with (s' := s'); [|exact H']. rewrite (parse_pair_start d) by assumption.
    transitivity (do_external_document_ref ("DocumentRef-" ++ edr_DocumentRefID e ++ " " ++ edr_URI e ++ " "
        ++ ck_Algorithm (edr_Checksum e) ++ ":" ++ ck_Value (edr_Checksum e)) s); [reflexivity|].
    unfold do_external_document_ref. rewrite edr_text by assumption. exact E.
  Qed.
End Header.

(** the document as it stands after the header *)
Definition head_doc (so : sorter) (d : Document) : DocumentArena :=
  MkDoc (d_SPDXVersion d) (d_DataLicense d) (d_SPDXIdentifier d) (d_DocumentName d)
    (d_DocumentNamespace d) (sort_by so edr_DocumentRefID (d_ExternalDocumentReferences d)) (d_DocumentComment d)
    None [] [] [] [] [] [] [].

Ltac st_act := apply start_step; intros ? ?; reflexivity.
Lemma run_header so v d : representable v d ->
  runs v zero_pstate (pairs_of (render_header so d)) (in_start (head_doc so d)).
Proof.
  intros (R1 & _ & R3 & _ & _ & R6 & _). unfold render_header.
  rewrite pairs_of_app. eapply runs_app with (Q := in_start (set_d_SPDXVersion (d_SPDXVersion d) zero_DocumentOf)).
  { rewrite R1. assert (pairs_of (opt "SPDXVersion" (version_string v)) = [("SPDXVersion", version_string v)]) as -> by now destruct v.
    eapply runs_one; [reflexivity|]. repeat split; reflexivity. }
  intros s H.
  rewrite pairs_of_app. eapply runs_app; [refine (gen_opt v _ in_start _ d_DataLicense set_d_DataLicense _ _ _ _ _ _ H);
    [st_act|now intros []|reflexivity]|].
  clear H s. intros s H.
  rewrite pairs_of_app.
  eapply runs_app with (Q := in_start (set_d_SPDXIdentifier (d_SPDXIdentifier d) _)).
  { destruct R3 as [E|R3].
    - rewrite E. apply runs_nil. rewrite (keep d_SPDXIdentifier set_d_SPDXIdentifier ""); [exact H|now intros []|reflexivity].
    - pose proof R3 as R3'. apply ident_name in R3' as [N _]. apply nonempty_true in N. rewrite N. cbn [pairs_of].
      destruct (start_upd (set_d_SPDXIdentifier (d_SPDXIdentifier d)) _ s H) as (s' & E & H').
      apply runs_one with (s' := s'); [|exact H']. rewrite (parse_pair_start v _ _ _ _ H).
      transitivity (let* eid := extract_element_id (render_element_id (d_SPDXIdentifier d)) in upd_doc (set_d_SPDXIdentifier eid) s);
        [reflexivity|]. rewrite extract_render_elt by now apply ident_id. exact E. }
  clear H s. intros s H.
  rewrite pairs_of_app. eapply runs_app; [refine (gen_opt v _ in_start _ d_DocumentName set_d_DocumentName _ _ _ _ _ _ H);
    [st_act|now intros []|reflexivity]|].
  clear H s. intros s H.
  rewrite pairs_of_app. eapply runs_app; [refine (gen_opt v _ in_start _ d_DocumentNamespace set_d_DocumentNamespace _ _ _ _ _ _ H);
    [st_act|now intros []|reflexivity]|].
  clear H s. intros s H.
  rewrite pairs_of_app. eapply runs_app.
  { refine (gen_items v _ in_start _ edr_rep d_ExternalDocumentReferences set_d_ExternalDocumentReferences _ _ _ _ _ _ _ _ _ H);
    [intros a p s0; apply start_edr|now apply sorted_Forall|reflexivity|reflexivity|now intros []|reflexivity]. }
  clear H s. intros s H.
  eapply runs_weaken; [|refine (gen_opt_text v _ in_start _ d_DocumentComment set_d_DocumentComment _ _ _ _ _ _ H);
    [st_act|now intros []|reflexivity]].
  clear H s. intros s H.
  match type of H with in_start ?p _ => replace (head_doc so d) with p; [exact H|] end.
  vm_compute. reflexivity.
Qed.

(** the first pair that does not belong to the header starts the creation info *)
Definition start_ci (d : DocumentArena) : DocumentArena := set_d_CreationInfo (Some zero_CreationInfo) d.
Definition to_ci (d : DocumentArena) (s : pstate) : pstate :=
  set_ps_doc (Some (start_ci d)) (set_ps_st PsCreationInfo s).
Lemma start_switch t (f : action) x s : ~ In t document_tags -> switch t start_cases f x s = f x s.
Proof.
  intros H. unfold switch, start_cases, find. cbn [fst].
  repeat match goal with
  | |- context [String.eqb ?a ?b] => destruct (String.eqb_spec a b) as [E|_]; [subst; elim H; cbn; tauto|]
  end. reflexivity.
Qed.
Lemma leave_start v d s p l Q : in_start d s -> d_CreationInfo d = None -> ~ In (fst p) document_tags ->
  runs v (to_ci d s) (p :: l) Q -> runs v s (p :: l) Q.
Proof.
  intros H C N (s' & E & K). exists s'. split; [|exact K]. cbn [parse_pairs] in *. rewrite <- E. f_equal. destruct p as [t x].
  rewrite (parse_pair_start v d) by assumption. rewrite start_switch by assumption. unfold to_ci, parse_pair.
  cbn [ps_st set_ps_doc set_ps_st]. destruct H as (H1 & H2 & _).
  unfold parse_creation_info. cbn [ps_doc set_ps_doc set_ps_st]. rewrite H2, C. reflexivity.
Qed.

(** ** Creation info *)
Section Creation.
  Variable v : version.
  Variable d : DocumentArena.
  Definition in_ci (c : CreationInfo) : pstate -> Prop := is PsCreationInfo (set_d_CreationInfo (Some c) d) [] None [] None [].
  Lemma upd_ci_is f c s : in_ci c s -> exists s', upd_ci f s = Ok s' /\ in_ci (f c) s'.
  Proof.
    intros (H1 & H2 & H3 & H4 & H5 & H6 & H7). unfold upd_ci. rewrite H2. eexists. split; [reflexivity|]. repeat split; assumption.
  Qed.
  Lemma parse_pair_ci c s t x : in_ci c s -> parse_pair v s (t, x) =
    switch t (ci_cases v) (fun _ _ => Err "received unknown tag in CreationInfo section") x s.
  Proof. intros (H1 & H2 & _). unfold parse_pair. rewrite H1. unfold parse_creation_info. rewrite H2. reflexivity. Qed.
  Lemma ci_step t f :
    (forall x s, switch t (ci_cases v) (fun _ _ => Err "received unknown tag in CreationInfo section") x s = upd_ci (f x) s) ->
    field_step v _ in_ci t f.
  Proof.
    intros A x c s H. destruct (upd_ci_is (f x) c s H) as (s' & E & H').
    apply runs_one with (s' := s'); [|exact H']. rewrite (parse_pair_ci c), A by assumption. exact E.
  Qed.
  Lemma ci_creator e c s : actor_rep actor3 (cr_CreatorType e) (cr_Creator e) -> in_ci c s ->
    runs v s (pairs_of [Field "Creator" (cr_CreatorType e ++ ": " ++ cr_Creator e)]) (in_ci (set_ci_Creators (ci_Creators c ++ [e])%list c)).
  Proof.
    intros He H. destruct (upd_ci_is (fun c => set_ci_Creators (ci_Creators c ++ [e])%list c) c s H) as (s' & E & H').
    apply runs_one with (s' := s'); [|exact H']. rewrite (parse_pair_ci c) by assumption.
    transitivity (do_creator (cr_CreatorType e ++ ": " ++ cr_Creator e) s); [destruct v; reflexivity|].
    unfold do_creator. rewrite actor3_text by assumption. cbn [bindR]. destruct e. exact E.
  Qed.
  Lemma run_creation_info c s : creation_info_rep c -> in_ci zero_CreationInfo s -> runs v s (pairs_of (render_creation_info c)) (in_ci c).
  Proof.
    intros (_ & R2 & _) H. unfold render_creation_info.
    rewrite pairs_of_app. eapply runs_app; [refine (gen_opt v _ in_ci _ ci_LicenseListVersion set_ci_LicenseListVersion _ _ _ _ _ _ H);
      [apply ci_step; intros; destruct v; reflexivity|now intros []|reflexivity]|].
    clear H s. intros s H.
    rewrite pairs_of_app. eapply runs_app.
    { rewrite flat_map_single.
      refine (gen_items v _ in_ci _ (fun x => actor_rep actor3 (cr_CreatorType x) (cr_Creator x)) ci_Creators set_ci_Creators _ _ _ _ R2 _ _ _ _ H);
      [intros a p s0; apply ci_creator|reflexivity|reflexivity|now intros []|reflexivity]. }
    clear H s. intros s H.
    rewrite pairs_of_app. eapply runs_app; [refine (gen_opt v _ in_ci _ ci_Created set_ci_Created _ _ _ _ _ _ H);
      [apply ci_step; intros; destruct v; reflexivity|now intros []|reflexivity]|].
    clear H s. intros s H.
    rewrite pairs_of_app. eapply runs_app; [refine (gen_opt_text v _ in_ci _ ci_CreatorComment set_ci_CreatorComment _ _ _ _ _ _ H);
      [apply ci_step; intros; destruct v; reflexivity|now intros []|reflexivity]|].
    clear H s. intros s H. apply runs_nil. destruct c. exact H.
  Qed.
End Creation.

(** ** Elements kept in lists of the document *)
Section Globals.
  Variable v : version.
  Variables (P : list PackageArena) (pk : option nat) (F : list FileArena) (fi : option nat) (S : list Snippet).
  Definition some_state (ok : pst -> bool) (d : DocumentArena) (s : pstate) : Prop :=
    exists st, ok st = true /\ is st d P pk F fi S s /\ d_CreationInfo d <> None.
  Definition not_start (st : pst) : bool := match st with PsStart => false | _ => true end.
  Definition not_start_review (st : pst) : bool := match st with PsStart | PsReview => false | _ => true end.
  Definition license_state (st : pst) : bool := match st with PsOtherLicense => true | _ => false end.
  Definition review_state (st : pst) : bool := match st with PsReview => true | _ => false end.

  (** updating the last element of a list *)
  Lemma upd_last {A} ok ptr (get : DocumentArena -> list A) put (f : A -> A) l x d s :
    (forall a d, get (put a d) = a) -> (forall a b d, put a (put b d) = put a d) ->
    (forall a d, d_CreationInfo (put a d) = d_CreationInfo d) ->
    ptr = Some (length l) -> some_state ok (put (l ++ [x])%list d) s ->
    exists s', upd_in_doc ptr get put f s = Ok s' /\ some_state ok (put (l ++ [f x])%list d) s' /\
      ps_lic s' = ps_lic s /\ ps_rln s' = ps_rln s /\ ps_ann s' = ps_ann s /\ ps_rev s' = ps_rev s.
  Proof.
    intros G1 G2 G3 -> (st & Hok & (H1 & H2 & H3 & H4 & H5 & H6 & H7) & Hc). unfold upd_in_doc. rewrite H2, G1, update_nth_last.
    eexists. split; [reflexivity|]. split; [|repeat split].
    exists st. split; [exact Hok|]. split.
    - repeat split; try assumption. cbn [ps_doc set_ps_doc]. now rewrite G2.
    - rewrite G3 in *. exact Hc.
  Qed.

  (** dispatch of the tags known in every section *)
  Lemma rel_ann_dispatch t act x d s : In (t, act) (rel_ann_cases v) -> some_state not_start d s ->
    exists s0, parse_pair v s (t, x) = act x s0 /\ some_state not_start d s0 /\
      ps_lic s0 = ps_lic s /\ ps_rln s0 = ps_rln s /\ ps_ann s0 = ps_ann s /\ ps_rev s0 = ps_rev s.
  Proof.
    intros Hin (st & Hok & Hi & Hc). pose proof Hi as (H1 & H2 & H3 & H4 & H5 & H6 & H7).
    exists (match st with PsPackage => set_ps_extref None s | PsFile => set_ps_aop None s | _ => s end).
    split; [|split; [exists st; split; [exact Hok|split; [destruct st; exact Hi|exact Hc]]|destruct st; repeat split]].
    unfold parse_pair. rewrite H1. destruct st; try discriminate Hok.
    - unfold parse_creation_info. rewrite H2. destruct (d_CreationInfo d); [|easy].
      cbn [rel_ann_cases In] in Hin. destruct Hin as [E|[E|[E|[E|[E|[E|[E|[]]]]]]]]; inversion E; subst; destruct v; reflexivity.
    - cbn [rel_ann_cases In] in Hin. destruct Hin as [E|[E|[E|[E|[E|[E|[E|[]]]]]]]]; inversion E; subst; destruct v; reflexivity.
    - cbn [rel_ann_cases In] in Hin. destruct Hin as [E|[E|[E|[E|[E|[E|[E|[]]]]]]]]; inversion E; subst; destruct v; reflexivity.
    - cbn [rel_ann_cases In] in Hin. destruct Hin as [E|[E|[E|[E|[E|[E|[E|[]]]]]]]]; inversion E; subst; destruct v; reflexivity.
    - cbn [rel_ann_cases In] in Hin. destruct Hin as [E|[E|[E|[E|[E|[E|[E|[]]]]]]]]; inversion E; subst; destruct v; reflexivity.
    - cbn [rel_ann_cases In] in Hin. destruct Hin as [E|[E|[E|[E|[E|[E|[E|[]]]]]]]]; inversion E; subst; destruct v; reflexivity.
  Qed.

  Lemma some_state_weaken (ok ok' : pst -> bool) d s : (forall st, ok st = true -> ok' st = true) -> some_state ok d s -> some_state ok' d s.
  Proof. intros W (st & Hok & H). exists st. auto. Qed.

  (** *** Relationships *)
  Definition in_rel (d : DocumentArena) (l : list Relationship) (r : Relationship) (s : pstate) : Prop :=
    some_state not_start (set_d_Relationships (l ++ [r])%list d) s /\ ps_rln s = Some (length l).
  Lemma run_relationship r d s : relationship_rep v r -> some_state not_start d s ->
    runs v s (pairs_of (render_relationship r)) (some_state not_start (set_d_Relationships (d_Relationships d ++ [r])%list d)).
  Proof.
    intros R H. pose proof R as (R1 & R2 & [(R3 & _) _] & _). unfold render_relationship.
    assert (forall x, ref_rep x \/ special_rep v x -> (render_doc_element_id x =? "SPDXRef-") = false) as NE.
    { intros x Hx. apply String.eqb_neq. intros E. destruct Hx as [Hx|Hx].
      - apply plain_rep, extract_render in Hx. rewrite E in Hx. discriminate Hx.
      - destruct Hx as (_ & _ & _ & [Hx|[Hx|[]]]); unfold render_doc_element_id in E; rewrite <- Hx in E; discriminate E. }
    cbv zeta. rewrite (NE _ (or_introl R1)), (NE _ R2). apply nonempty_true in R3. rewrite R3. cbn [negb andb].
    rewrite pairs_of_app.
    eapply runs_app with (Q := in_rel d (d_Relationships d) (MkRln (r_RefA r) (r_RefB r) (r_Relationship r) "")).
    { edestruct (rel_ann_dispatch "Relationship" (do_relationship v)) as (s0 & E & H0 & _); [now left|exact H|].
      destruct H0 as (st & Hok & (H1 & H2 & H3 & H4 & H5 & H6 & H7) & Hc).
      eapply runs_one.
      - rewrite E. unfold do_relationship. rewrite H2, rel_text by assumption. cbn [bindR].
        unfold upd_rln, upd_in_doc. cbn [ps_rln ps_doc set_ps_rln set_ps_doc d_Relationships set_d_Relationships].
        rewrite update_nth_last. reflexivity.
      - split; [|reflexivity]. exists st. split; [exact Hok|]. split; [|exact Hc]. repeat split; assumption. }
    clear s H. intros s H.
    eapply runs_weaken; [|refine (gen_opt_text v _ (in_rel d (d_Relationships d)) _ r_Comment set_r_Comment _ _ _ _ _ _ H);
      [|now intros []|reflexivity]].
    - intros s' [H' _]. destruct r. exact H'.
    - clear s H. intros x y s [H Hp].
      edestruct (rel_ann_dispatch "RelationshipComment" do_relationship_comment) as (s0 & E & H0 & _ & L & _); [cbn; tauto|exact H|].
      destruct (upd_last not_start (ps_rln s0) d_Relationships set_d_Relationships (set_r_Comment x) (d_Relationships d) y d s0)
        as (s' & E' & H' & _ & L' & _); [reflexivity..|congruence|exact H0|].
      apply runs_one with (s' := s').
      + rewrite E. unfold do_relationship_comment. rewrite L, Hp. exact E'.
      + split; [exact H'|congruence].
  Qed.

  (** *** Annotations *)
  Definition in_ann (d : DocumentArena) (l : list Annotation) (a : Annotation) (s : pstate) : Prop :=
    some_state not_start (set_d_Annotations (l ++ [a])%list d) s /\ ps_ann s = Some (length l).
  Lemma ann_step d l t f : In (t, fun x => with_ann (f x)) (rel_ann_cases v) -> field_step v _ (in_ann d l) t f.
  Proof.
    intros Hin x y s [H Hp].
    edestruct (rel_ann_dispatch t) as (s0 & E & H0 & _ & _ & L & _); [exact Hin|exact H|].
    destruct (upd_last not_start (ps_ann s0) d_Annotations set_d_Annotations (f x) l y d s0)
        as (s' & E' & H' & _ & _ & L' & _); [reflexivity..|congruence|exact H0|].
    apply runs_one with (s' := s').
    - rewrite E. unfold with_ann. rewrite L, Hp. exact E'.
    - split; [exact H'|congruence].
  Qed.
  Lemma run_annotation a d s : annotation_rep a -> some_state not_start d s ->
    runs v s (pairs_of (render_annotation a)) (some_state not_start (set_d_Annotations (d_Annotations d ++ [a])%list d)).
  Proof.
    intros (R1 & _ & _ & R4 & _) H. unfold render_annotation. rewrite (actor3_nonempty _ _ R1).
    rewrite pairs_of_app.
    eapply runs_app with (Q := in_ann d (d_Annotations d) (set_a_Annotator (a_Annotator a) zero_Annotation)).
    { edestruct (rel_ann_dispatch "Annotator" do_annotator) as (s0 & E & H0 & _); [cbn; tauto|exact H|].
      destruct H0 as (st & Hok & (H1 & H2 & H3 & H4 & H5 & H6 & H7) & Hc).
      eapply runs_one.
      - rewrite E. unfold do_annotator. rewrite H2, actor3_text by assumption. cbn [bindR].
        unfold upd_ann, upd_in_doc. cbn [ps_ann ps_doc set_ps_ann set_ps_doc d_Annotations set_d_Annotations].
        rewrite update_nth_last. reflexivity.
      - split; [|reflexivity]. exists st. split; [exact Hok|]. split; [|exact Hc]. destruct (a_Annotator a). repeat split; assumption. }
    clear s H. intros s H.
    rewrite pairs_of_app. eapply runs_app; [refine (gen_opt v _ (in_ann d (d_Annotations d)) _ a_Date set_a_Date _ _ _ _ _ _ H);
      [apply ann_step; cbn; tauto|now intros []|reflexivity]|].
    clear s H. intros s H.
    rewrite pairs_of_app. eapply runs_app; [refine (gen_opt v _ (in_ann d (d_Annotations d)) _ a_Type set_a_Type _ _ _ _ _ _ H);
      [apply ann_step; cbn; tauto|now intros []|reflexivity]|].
    clear s H. intros s H.
    rewrite pairs_of_app. eapply runs_app with (Q := in_ann d (d_Annotations d) (set_a_SPDXIdentifier (a_SPDXIdentifier a) _)).
    { cbv zeta. destruct R4 as [R4|R4].
      - rewrite R4. apply runs_nil. rewrite (keep a_SPDXIdentifier set_a_SPDXIdentifier zero_DocElementID); [exact H|now intros []|reflexivity].
      - assert ((render_doc_element_id (a_SPDXIdentifier a) =? "SPDXRef-") = false) as ->.
        { apply String.eqb_neq. intros E. apply plain_rep, extract_render in R4. rewrite E in R4. discriminate R4. }
        cbn [pairs_of]. destruct H as [H Hp].
        edestruct (rel_ann_dispatch "SPDXREF" do_spdxref (render_doc_element_id (a_SPDXIdentifier a))) as (s0 & E & H0 & _ & _ & L & _); [cbn; tauto|exact H|].
        match type of H0 with some_state _ (set_d_Annotations (_ ++ [?y])%list _) _ =>
          destruct (upd_last not_start (ps_ann s0) d_Annotations set_d_Annotations (set_a_SPDXIdentifier (a_SPDXIdentifier a)) (d_Annotations d) y d s0)
          as (s' & E' & H' & _ & _ & L' & _); [reflexivity..|rewrite L; exact Hp|exact H0|] end.
        apply runs_one with (s' := s').
        + rewrite E. unfold do_spdxref. rewrite L, Hp, extract_render by now apply plain_rep. exact E'.
        + split; [exact H'|congruence]. }
    clear s H. intros s H.
    eapply runs_weaken; [|refine (gen_opt_text v _ (in_ann d (d_Annotations d)) _ a_Comment set_a_Comment _ _ _ _ _ _ H);
      [apply ann_step; cbn; tauto|now intros []|reflexivity]].
    intros s' [H' _]. destruct a. exact H'.
  Qed.

  (** *** Reviews *)
  Definition in_rev (d : DocumentArena) (l : list Review) (r : Review) (s : pstate) : Prop :=
    some_state review_state (set_d_Reviews (l ++ [r])%list d) s /\ ps_rev s = Some (length l).
  Lemma parse_pair_rev d s t x : some_state review_state d s -> parse_pair v s (t, x) = parse_review v t x s.
  Proof. intros (st & Hok & (H1 & _) & _). unfold parse_pair. rewrite H1. destruct st; try discriminate Hok. reflexivity. Qed.
  Lemma rev_step d l t f : (forall x s, parse_review v t x s = upd_rev (f x) s) -> field_step v _ (in_rev d l) t f.
  Proof.
    intros A x y s [H Hp].
    destruct (upd_last review_state (ps_rev s) d_Reviews set_d_Reviews (f x) l y d s)
        as (s' & E' & H' & _ & _ & _ & L'); [reflexivity..|exact Hp|exact H|].
    apply runs_one with (s' := s').
    - rewrite (parse_pair_rev _ _ _ _ H), A. exact E'.
    - split; [exact H'|congruence].
  Qed.
  Lemma enter_rev x d s : some_state not_start d s -> exists s0, parse_pair v s ("Reviewer", x) = do_reviewer x s0 /\ some_state review_state d s0.
  Proof.
    intros (st & Hok & (H1 & H2 & H3 & H4 & H5 & H6 & H7) & Hc).
    exists (set_ps_st PsReview (match st with PsPackage => set_ps_extref None s | PsFile => set_ps_aop None s | _ => s end)).
    split; [|exists PsReview; split; [reflexivity|split; [destruct st; repeat split; assumption|exact Hc]]].
    unfold parse_pair. rewrite H1. destruct st; try discriminate Hok.
    - unfold parse_creation_info. rewrite H2. destruct (d_CreationInfo d); [|easy]. destruct v; reflexivity.
    - destruct v; reflexivity.
    - destruct v; reflexivity.
    - destruct v; reflexivity.
    - destruct v; reflexivity.
    - transitivity (do_reviewer x s); [destruct v; reflexivity|]. f_equal. destruct s. cbn in H1. subst. reflexivity.
  Qed.
  Lemma run_review r d s : review_rep r -> some_state not_start d s ->
    runs v s (pairs_of (render_review r)) (some_state not_start (set_d_Reviews (d_Reviews d ++ [r])%list d)).
  Proof.
    intros (R1 & _ & _) H. unfold render_review. rewrite (actor3_nonempty _ _ R1).
    rewrite pairs_of_app.
    eapply runs_app with (Q := in_rev d (d_Reviews d) (MkRev (rv_Reviewer r) (rv_ReviewerType r) "" "")).
    { edestruct (enter_rev (rv_ReviewerType r ++ ": " ++ rv_Reviewer r)) as (s0 & E & H0); [exact H|].
      destruct H0 as (st & Hok & (H1 & H2 & H3 & H4 & H5 & H6 & H7) & Hc).
      eapply runs_one.
      - rewrite E. unfold do_reviewer. rewrite H2, actor3_text by assumption. cbn [bindR].
        unfold upd_rev, upd_in_doc. cbn [ps_rev ps_doc set_ps_rev set_ps_doc d_Reviews set_d_Reviews].
        rewrite update_nth_last. reflexivity.
      - split; [|reflexivity]. exists st. split; [exact Hok|]. split; [|exact Hc]. repeat split; assumption. }
    clear s H. intros s H.
    rewrite pairs_of_app. eapply runs_app; [refine (gen_opt v _ (in_rev d (d_Reviews d)) _ rv_Date set_rv_Date _ _ _ _ _ _ H);
      [apply rev_step; intros; destruct v; reflexivity|now intros []|reflexivity]|].
    clear s H. intros s H.
    rewrite pairs_of_app. eapply runs_app; [refine (gen_opt_text v _ (in_rev d (d_Reviews d)) _ rv_Comment set_rv_Comment _ _ _ _ _ _ H);
      [apply rev_step; intros; destruct v; reflexivity|now intros []|reflexivity]|].
    intros s' [H' _]. apply runs_nil. eapply some_state_weaken; [|destruct r; exact H']. intros []; easy.
  Qed.

  (** *** Other licenses *)
  Definition in_lic (d : DocumentArena) (l : list OtherLicense) (r : OtherLicense) (s : pstate) : Prop :=
    some_state license_state (set_d_OtherLicenses (l ++ [r])%list d) s /\ ps_lic s = Some (length l).
  Lemma parse_pair_lic d s t x : some_state license_state d s -> parse_pair v s (t, x) = parse_license v t x s.
  Proof. intros (st & Hok & (H1 & _) & _). unfold parse_pair. rewrite H1. destruct st; try discriminate Hok. reflexivity. Qed.
  Lemma lic_step d l t f : (forall x s, parse_license v t x s = upd_lic (f x) s) -> field_step v _ (in_lic d l) t f.
  Proof.
    intros A x y s [H Hp].
    destruct (upd_last license_state (ps_lic s) d_OtherLicenses set_d_OtherLicenses (f x) l y d s)
        as (s' & E' & H' & L' & _); [reflexivity..|exact Hp|exact H|].
    apply runs_one with (s' := s').
    - rewrite (parse_pair_lic _ _ _ _ H), A. exact E'.
    - split; [exact H'|congruence].
  Qed.
  Lemma enter_lic x d s : some_state not_start_review d s ->
    exists s0, parse_pair v s ("LicenseID", x) = do_license_id x s0 /\ some_state license_state d s0.
  Proof.
    intros (st & Hok & (H1 & H2 & H3 & H4 & H5 & H6 & H7) & Hc).
    exists (set_ps_st PsOtherLicense (match st with PsPackage => set_ps_extref None s | PsFile => set_ps_aop None s | _ => s end)).
    split; [|exists PsOtherLicense; split; [reflexivity|split; [destruct st; repeat split; assumption|exact Hc]]].
    unfold parse_pair. rewrite H1. destruct st; try discriminate Hok.
    - unfold parse_creation_info. rewrite H2. destruct (d_CreationInfo d); [|easy]. destruct v; reflexivity.
    - destruct v; reflexivity.
    - destruct v; reflexivity.
    - destruct v; reflexivity.
    - transitivity (do_license_id x s); [destruct v; reflexivity|]. f_equal. destruct s. cbn in H1. subst. reflexivity.
  Qed.
  Lemma run_license o d s : license_rep o -> some_state not_start_review d s ->
    runs v s (pairs_of (render_other_license o)) (some_state not_start_review (set_d_OtherLicenses (d_OtherLicenses d ++ [o])%list d)).
  Proof.
    intros ((R1 & _) & _) H. unfold render_other_license. apply nonempty_true in R1. unfold opt at 1. rewrite R1.
    rewrite pairs_of_app.
    eapply runs_app with (Q := in_lic d (d_OtherLicenses d) (set_ol_LicenseIdentifier (ol_LicenseIdentifier o) zero_OtherLicense)).
    { edestruct (enter_lic (ol_LicenseIdentifier o)) as (s0 & E & H0); [exact H|].
      destruct H0 as (st & Hok & (H1 & H2 & H3 & H4 & H5 & H6 & H7) & Hc).
      eapply runs_one.
      - rewrite E. unfold do_license_id. rewrite H2.
        unfold upd_lic, upd_in_doc. cbn [ps_lic ps_doc set_ps_lic set_ps_doc d_OtherLicenses set_d_OtherLicenses].
        rewrite update_nth_last. reflexivity.
      - split; [|reflexivity]. exists st. split; [exact Hok|]. split; [|exact Hc]. repeat split; assumption. }
    clear s H. intros s H.
    rewrite pairs_of_app. eapply runs_app; [refine (gen_opt_text v _ (in_lic d (d_OtherLicenses d)) _ ol_ExtractedText set_ol_ExtractedText _ _ _ _ _ _ H);
      [apply lic_step; intros; destruct v; reflexivity|now intros []|reflexivity]|].
    clear s H. intros s H.
    rewrite pairs_of_app. eapply runs_app; [refine (gen_opt v _ (in_lic d (d_OtherLicenses d)) _ ol_LicenseName set_ol_LicenseName _ _ _ _ _ _ H);
      [apply lic_step; intros; destruct v; reflexivity|now intros []|reflexivity]|].
    clear s H. intros s H.
    rewrite pairs_of_app. eapply runs_app; [refine (gen_each v _ (in_lic d (d_OtherLicenses d)) _ ol_CrossReferences set_ol_CrossReferences _ _ _ _ _ _ _ _ H);
      [apply lic_step; intros; destruct v; reflexivity|reflexivity|reflexivity|now intros []|reflexivity]|].
    clear s H. intros s H.
    rewrite pairs_of_app. eapply runs_app; [refine (gen_opt_text v _ (in_lic d (d_OtherLicenses d)) _ ol_Comment set_ol_Comment _ _ _ _ _ _ H);
      [apply lic_step; intros; destruct v; reflexivity|now intros []|reflexivity]|].
    intros s' [H' _]. apply runs_nil. eapply some_state_weaken; [|destruct o; exact H']. intros []; easy.
  Qed.

  Lemma run_licenses l d s : Forall license_rep l -> d_OtherLicenses d = [] -> some_state not_start_review d s ->
    runs v s (pairs_of (flat_map render_other_license l)) (some_state not_start_review (set_d_OtherLicenses l d)).
  Proof.
    intros Hl Z H. refine (gen_items v _ (some_state not_start_review) _ license_rep d_OtherLicenses set_d_OtherLicenses _ _ _ _ Hl _ _ _ Z H);
      [intros a p s0; apply run_license|reflexivity|reflexivity|now intros []].
  Qed.
  Lemma run_relationships l d s : Forall (relationship_rep v) l -> d_Relationships d = [] -> some_state not_start d s ->
    runs v s (pairs_of (flat_map render_relationship l)) (some_state not_start (set_d_Relationships l d)).
  Proof.
    intros Hl Z H. refine (gen_items v _ (some_state not_start) _ (relationship_rep v) d_Relationships set_d_Relationships _ _ _ _ Hl _ _ _ Z H);
      [intros a p s0; apply run_relationship|reflexivity|reflexivity|now intros []].
  Qed.
  Lemma run_annotations l d s : Forall annotation_rep l -> d_Annotations d = [] -> some_state not_start d s ->
    runs v s (pairs_of (flat_map (fun a => (render_annotation a ++ [Raw LF])%list) l)) (some_state not_start (set_d_Annotations l d)).
  Proof.
    intros Hl Z H. refine (gen_items v _ (some_state not_start) _ annotation_rep d_Annotations set_d_Annotations _ _ _ _ Hl _ _ _ Z H);
      [intros a p s0 Ha Hp; rewrite pairs_of_app; cbn [pairs_of]; rewrite app_nil_r; now apply run_annotation|reflexivity|reflexivity|now intros []].
  Qed.
  Lemma run_reviews l d s : Forall review_rep l -> d_Reviews d = [] -> some_state not_start d s ->
    runs v s (pairs_of (flat_map render_review l)) (some_state not_start (set_d_Reviews l d)).
  Proof.
    intros Hl Z H. refine (gen_items v _ (some_state not_start) _ review_rep d_Reviews set_d_Reviews _ _ _ _ Hl _ _ _ Z H);
      [intros a p s0; apply run_review|reflexivity|reflexivity|now intros []].
  Qed.
End Globals.
