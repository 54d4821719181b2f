(** * Property of the RDF reader: the document read is the one the graph describes (C35). *)
From Coq Require Import Permutation.
From Verif Require Import GoStr GoStrFacts Types TvUtil TvParser RdfConst Rdf RdfReader SpecTv SpecId SpecDoc SpecRdf SpecRdfDoc SpecRdfLoad
  SpecRdfContent TvReaderFacts RdfFacts RdfLicenseFacts RdfHelperFacts RdfNodeFacts RdfStepFacts RdfWalkFacts RdfLoadFacts RdfContentFacts
  RdfWholeFacts PropsRdf PropsRdfLoad.

(** A graph in which no ID has two roles and no two elements share an identifier is
    read as the document it describes: each field of the document, of every file,
    package, relationship, annotation and snippet is the one its node states, every
    element one comes to is there, and nothing else is. *)
Theorem C35_content : forall v g iter d, consistent g -> shuffle iter -> load v g iter = Ok d -> stands_for v g d.
Proof. exact load_stands. Qed.
Print Assumptions C35_content.

(** A node that is met several times is read several times, but a single value is
    the one its node states. *)
Lemma texts_app p a b : texts p (a ++ b) = (texts p a ++ texts p b)%list.
Proof. unfold texts, objects. now rewrite filter_app, !map_app. Qed.
Lemma last_text_again p k ts : last_text p (again (S k) ts) = last_text p ts.
Proof.
  unfold last_text. induction k as [|k IH]; [reflexivity|]. change (again (S (S k)) ts) with (again (S k) ts ++ ts)%list.
  rewrite texts_app. destruct (texts p ts) as [|x l] eqn:E; [now rewrite app_nil_r|]. rewrite last_app_ne by discriminate. reflexivity.
Qed.
Theorem C35_single_values : forall v g n f, file_entry v g n f ->
  file_id n (f_SPDXIdentifier f) /\
  f_FileName f = last_text (spdx "fileName") (of_node g n) /\
  f_CopyrightText f = last_text (spdx "copyrightText") (of_node g n) /\
  f_LicenseComments f = last_text (spdx "licenseComments") (of_node g n) /\
  f_Comment f = last_text (rdfs "comment") (of_node g n).
Proof.
  intros v g n f (_ & k & [? ? H1 ? ? ? ? H2 H3 ? H4]). rewrite last_text_again in *. auto.
Qed.
Print Assumptions C35_single_values.
Theorem C35_single_package_values : forall v g n p, package_entry v g n p ->
  package_id n (p_SPDXIdentifier p) /\
  p_PackageName p = last_text (spdx "name") (of_node g n) /\
  p_Version p = last_text (spdx "versionInfo") (of_node g n) /\
  p_FileName p = last_text (spdx "packageFileName") (of_node g n) /\
  p_CopyrightText p = last_text (spdx "copyrightText") (of_node g n) /\
  p_Summary p = last_text (spdx "summary") (of_node g n) /\
  p_Description p = last_text (spdx "description") (of_node g n).
Proof.
  intros v g n p (_ & k & []). rewrite last_text_again in *. auto 10.
Qed.
Print Assumptions C35_single_package_values.

(** ** A document that meets the hypotheses *)
Definition node_eq_dec (a b : node) : {a = b} + {a <> b}.
Proof. repeat decide equality. Defined.
Definition sub (a b : list node) : bool := forallb (fun x => if in_dec node_eq_dec x b then true else false) a.
Lemma sub_in a b x : sub a b = true -> In x a -> In x b.
Proof. unfold sub. rewrite forallb_forall. intros H I. specialize (H x I). now destruct (in_dec _ _ _). Qed.
(** nothing leads out of [fs], [ps], [rs] *)
Definition within (g : graph) (fs ps rs : list node) : bool :=
  forallb (fun d => let ts := of_node g d in sub (objects (spdx "describesPackage") ts) ps && sub (objects (spdx "relationship") ts) rs) (g_roots g) &&
  forallb (fun n => let ts := of_node g n in sub (objects (spdx "snippetFromFile") ts) fs &&
      forallb (fun r => forallb (fun q => forallb (fun p => sub (objects (ptr_term "reference") (of_node g p)) fs) (objects q (of_node g r)))
        [ptr_term "startPointer"; ptr_term "endPointer"]) (objects (spdx "range") ts))
    (flat_map (fun r => map t_subj (about g (n_id r))) (g_roots g)) &&
  forallb (fun n => let ts := of_node g n in sub (objects (spdx "hasFile") ts) fs && sub (objects (spdx "relationship") ts) rs) ps &&
  forallb (fun n => let ts := of_node g n in sub (objects (spdx "fileDependency") ts) fs && sub (objects (spdx "relationship") ts) rs) fs &&
  forallb (fun n => forallb (fun o => match texts rdf_type (of_node g o) with
      | [x] => (negb (x =? spdx "File") || sub [o] fs) && (negb (x =? spdx "Package") || sub [o] ps)
      | _ => true end) (objects (spdx "relatedSpdxElement") (of_node g n))) rs.
Lemma within_reached g fs ps rs : within g fs ps rs = true -> forall r n, reached g r n ->
  match r with RFile => In n fs | RPackage => In n ps | RRelationship => In n rs | RLicense => True end.
Proof.
  unfold within. rewrite !Bool.andb_true_iff, !forallb_forall. intros ((((D & S) & P) & F) & RL) r n H.
  assert (SN : forall m, snippet_node g m -> In m (flat_map (fun r => map t_subj (about g (n_id r))) (g_roots g))).
  { intros m (root & t & I & E & _ & <-). apply in_flat_map. exists root. split; [exact I|]. apply in_map.
    assert (J : In t (filter (fun u => t_pred u =? rdf_type) (about g (n_id root)))) by (rewrite E; now left).
    apply filter_In in J. tauto. }
  induction H as [m o X I|m o X I|m o X I|m o X I|m r p q o X IR IQ IP I A|m q o X IQ I|m o H IH I|m o H IH I|m q o H IH IQ I|m o H IH I|m o H IH I|m q o H IH IQ I|m o H IH I T|m o H IH I T|m o H IH I];
    try exact Logic.I.
  - destruct X as [X _]. specialize (D m X). apply andb_prop in D as [D _]. exact (sub_in _ _ _ D I).
  - destruct X as [X _]. specialize (D m X). apply andb_prop in D as [_ D]. exact (sub_in _ _ _ D I).
  - specialize (S m (SN m X)). apply andb_prop in S as [S _]. exact (sub_in _ _ _ S I).
  - specialize (S m (SN m X)). apply andb_prop in S as [_ S]. rewrite forallb_forall in S. specialize (S r IR). rewrite forallb_forall in S.
    specialize (S q IQ). rewrite forallb_forall in S. exact (sub_in _ _ _ (S p IP) I).
  - specialize (P m IH). apply andb_prop in P as [P _]. exact (sub_in _ _ _ P I).
  - specialize (P m IH). apply andb_prop in P as [_ P]. exact (sub_in _ _ _ P I).
  - specialize (F m IH). apply andb_prop in F as [F _]. exact (sub_in _ _ _ F I).
  - specialize (F m IH). apply andb_prop in F as [_ F]. exact (sub_in _ _ _ F I).
  - specialize (RL m IH). rewrite forallb_forall in RL. specialize (RL o I). unfold typed_node in T. rewrite T in RL.
    rewrite String.eqb_refl in RL. apply andb_prop in RL as [RL _]. exact (sub_in _ _ _ RL (or_introl eq_refl)).
  - specialize (RL m IH). rewrite forallb_forall in RL. specialize (RL o I). unfold typed_node in T. rewrite T in RL.
    rewrite String.eqb_refl in RL. apply andb_prop in RL as [_ RL]. exact (sub_in _ _ _ RL (or_introl eq_refl)).
Qed.
(** a package with a file, a loose file the first depends on, a relationship, an
    annotation and a snippet *)
Definition rich_stmts : list triple :=
  (one_package ++
   [st (ref "P") (spdx "annotation") (iri "a");
    st (iri "a") rdf_type (term "Annotation"); st (iri "a") (spdx "annotator") (lit "Person: Ann"); st (iri "a") (spdx "annotationDate") (lit "now");
    st (ref "S") rdf_type (term "Snippet"); st (ref "S") (spdx "snippetFromFile") (ref "F"); st (ref "S") (spdx "name") (lit "snip");
    st (ref "S") (spdx "range") (iri "b");
    st (iri "b") rdf_type (MkNode NIri (ptr_term "StartEndPointer")); st (iri "b") (ptr_term "startPointer") (iri "c"); st (iri "b") (ptr_term "endPointer") (iri "e");
    st (iri "c") (ptr_term "offset") (lit "3"); st (iri "e") (ptr_term "offset") (lit "9")])%list.
Definition rich : graph := MkGraph (d_stmts ++ rich_stmts) [ref "DOCUMENT"; ref "S"] (fun _ => true).
Lemma rich_reached r n : reached rich r n ->
  match r with RFile => In n [ref "F"; ref "G"] | RPackage => In n [ref "P"] | RRelationship => In n [iri "r"] | RLicense => False end.
Proof.
  assert (W : within rich [ref "F"; ref "G"] [ref "P"] [iri "r"] = true) by (vm_compute; reflexivity).
  assert (L : forall r n, reached rich r n -> r <> RLicense).
  { intros r' n' H. induction H; try discriminate; exfalso; try contradiction; try (now apply IHreached).
    - destruct H as [[<-|[<-|[]]] _]; vm_compute in H0; exact H0.
    - destruct H as (root & t & [<-|[<-|[]]] & E & _ & <-); vm_compute in E; injection E as <-; destruct H0 as [<-|[<-|[]]]; vm_compute in H1; exact H1.
    - apply (within_reached _ _ _ _ W RPackage) in H. destruct H as [<-|[]], H0 as [<-|[<-|[]]]; vm_compute in H1; exact H1.
    - apply (within_reached _ _ _ _ W RFile) in H. destruct H as [<-|[<-|[]]], H0 as [<-|[<-|[]]]; vm_compute in H1; exact H1. }
  intros H. pose proof (within_reached _ _ _ _ W r n H) as X. destruct r; try exact X. exact (L _ _ H eq_refl).
Qed.
Lemma rich_consistent : consistent rich.
Proof.
  split.
  - intros (r & n & r' & n' & A & B & E & N). apply rich_reached in A. apply rich_reached in B.
    destruct r, r'; try congruence; try contradiction; cbn [In] in *;
      repeat match goal with H : _ \/ _ |- _ => destruct H end; subst; try contradiction; discriminate E.
  - intros n m id A B. apply rich_reached in A. apply rich_reached in B. unfold file_id. rewrite <- !file_identifier_spec.
    destruct A as [<-|[<-|[]]], B as [<-|[<-|[]]]; try reflexivity; vm_compute; congruence.
  - intros n m id A B. apply rich_reached in A. apply rich_reached in B. destruct A as [<-|[]], B as [<-|[]]. reflexivity.
  - intros n m A B. apply rich_reached in A. apply rich_reached in B. destruct A as [<-|[]], B as [<-|[]]. reflexivity.
  - intros n m [[<-|[<-|[]]] A] [[<-|[<-|[]]] B]; try reflexivity; vm_compute in A, B; discriminate.
Qed.
Example C35_witness : consistent rich /\ shuffle (fun m => m) /\ exists d, load V23 rich (fun m => m) = Ok d /\
  map p_SPDXIdentifier (d_Packages d) = ["P"] /\ List.length (all_files d) = 2 /\ List.length (d_Annotations d) = 1 /\
  map (fun f => map fst (f_Snippets f)) (flat_map p_Files (d_Packages d)) = [["S"]].
Proof.
  split; [exact rich_consistent|]. split; [intros m; reflexivity|].
  assert (E : match load V23 rich (fun m => m) with
    | Ok d => (map p_SPDXIdentifier (d_Packages d), List.length (all_files d), List.length (d_Annotations d),
               map (fun f => map fst (f_Snippets f)) (flat_map p_Files (d_Packages d)))
    | _ => ([], O, O, []) end = (["P"], 2, 1, [["S"]])) by (vm_compute; reflexivity).
  destruct (load V23 rich (fun m => m)) as [d| |]; [|discriminate E|discriminate E]. exists d. injection E as E1 E2 E3 E4. auto.
Qed.
