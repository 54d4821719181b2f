(** * Saving documents that were read from RDF. *)
From Coq Require Import Permutation.
From Verif Require Import GoStr GoStrFacts Types TvUtil TvParser RdfConst Rdf RdfReader SpecTv SpecId SpecDoc SpecRdf SpecRdfDoc SpecRdfLoad
  SpecRdfContent SpecRdfSave RdfFacts RdfLicenseFacts RdfHelperFacts RdfNodeFacts RdfStepFacts RdfWalkFacts RdfLoadFacts RdfContentFacts
  RdfWholeFacts RdfRead RdfReadFacts Json JsonSpdx JsonText SpecJsonWrite JsonWriteOk.
Local Open Scope string_scope.

Lemma kind_name_det sep x k n k' n' : kind_name sep x k n -> kind_name sep x k' n' -> k = k' /\ n = n'.
Proof. intros A B. apply kind_name_spec in A, B. rewrite A in B. injection B as -> ->. auto. Qed.
Lemma named_iff x k n : kind_name ":" x k n -> named x <-> n <> "".
Proof.
  intros K. split; [|intros N; exists k, n; auto]. intros (k' & n' & K' & N). now destruct (kind_name_det _ _ _ _ _ _ K K') as [_ ->].
Qed.
Lemma not_named_empty : ~ named "".
Proof. intros (k & n & K & _). apply kind_name_spec in K. discriminate K. Qed.

Lemma last_read_last {A B} (R : A -> B -> Prop) d l y z : last_read R d l y -> l <> [] -> R (last l z) y.
Proof. intros (_ & [(-> & _)|(l' & x & -> & H)]) N; [congruence|]. now rewrite last_last. Qed.
Lemma last_read_nil {A B} (R : A -> B -> Prop) d l y : last_read R d l y -> l = [] -> y = d.
Proof. intros (_ & [(_ & H)|(l' & x & -> & _)]) E; [exact H|]. now destruct l'. Qed.

Lemma texts_app p a b : texts p (a ++ b) = (texts p a ++ texts p b)%list.
Proof. unfold texts, objects. now rewrite filter_app, !map_app. Qed.
Lemma texts_again p k ts : (texts p (again (Datatypes.S k) ts) = [] <-> texts p ts = []) /\
  last_text p (again (Datatypes.S k) ts) = last_text p ts.
Proof.
  unfold last_text. induction k as [|k (IH & IL)]; [split; reflexivity|].
  change (again (Datatypes.S (Datatypes.S k)) ts) with (again (Datatypes.S k) ts ++ ts)%list.
  rewrite texts_app. destruct (texts p ts) as [|x l] eqn:E.
  - rewrite app_nil_r. split; [exact IH|exact IL].
  - split; [|apply last_app_ne; discriminate]. split; [|discriminate]. now destruct (texts p (again (Datatypes.S k) ts)).
Qed.
Lemma texts_flat p (f : node -> list triple) l x : In x (texts p (flat_map f l)) <-> exists c, In c l /\ In x (texts p (f c)).
Proof.
  induction l as [|c l IH]; cbn [flat_map].
  - split; [intros []|intros (c & [] & _)].
  - rewrite texts_app, in_app_iff, IH. split.
    + intros [H|(c' & I & H)]; [exists c; split; [now left|exact H]|exists c'; split; [now right|exact H]].
    + intros (c' & [<-|I] & H); [now left|right; eauto].
Qed.

Lemma Forall2_left {A B} (R : A -> B -> Prop) l m x : Forall2 R l m -> In x l -> exists z, R x z.
Proof. intros F. induction F as [|a b l m H F IH]; intros I; [destruct I|]. destruct I as [<-|I]; eauto. Qed.

(** ** The encoder's conditions, for a document without nil pointers *)
Lemma Forall_some {A B} (f : A -> B) (P : B -> Prop) l : Forall (given P) (map (fun x => Some (f x)) l) <-> Forall (fun x => P (f x)) l.
Proof. rewrite Forall_map. reflexivity. Qed.
Lemma Forall_some1 {A} (P : A -> Prop) l : Forall (given P) (map Some l) <-> Forall P l.
Proof. rewrite Forall_map. reflexivity. Qed.

Section Read.
Context (v : version) (g : graph) (d : Document).
Context (ONE : forall m n, document_node g m -> document_node g n -> m = n).
Context (SF : stands_for v g d).

Lemma creators_iff : given creation_writable (d_CreationInfo d) <->
  forall n c x, document_node g n -> In c (objects (spdx "creationInfo") (of_node g n)) -> In x (texts (spdx "creator") (of_node g c)) -> named x.
Proof.
  destruct (sf_document _ _ _ SF) as (n & DN & DS). destruct (ds_creation _ _ _ _ DS) as (c & -> & CS). cbn [given]. unfold creation_writable.
  pose proof (ci_creators _ _ CS) as F.
  assert (H : Forall (fun c => cr_Creator c <> "") (ci_Creators c) <->
    forall x, In x (texts (spdx "creator") (flat_map (of_node g) (objects (spdx "creationInfo") (of_node g n)))) -> named x).
  { rewrite <- Forall_forall. induction F as [|x y l m (K & _) F IH]; [split; constructor|]. rewrite !Forall_cons_iff, IH, (named_iff _ _ _ K). reflexivity. }
  rewrite H. split.
  - intros X m c' x DM I J. rewrite (ONE m n DM DN) in I. apply X. apply texts_flat. eauto.
  - intros X x I. apply texts_flat in I as (c' & I & J). eauto.
Qed.

Lemma annotation_named ts a : annotation_says ts a -> annotation_writable a <-> named (last_text (spdx "annotator") ts).
Proof.
  intros S. pose proof (as_annotator _ _ S) as L. unfold annotation_writable, last_text.
  destruct (texts (spdx "annotator") ts) as [|x l] eqn:E.
  - rewrite (last_read_nil _ _ _ _ L eq_refl). cbn. split; [congruence|intros N; now apply not_named_empty in N].
  - destruct (last_read_last _ _ _ _ "" L ltac:(discriminate)) as (K & _). now rewrite (named_iff _ _ _ K).
Qed.
Lemma annotations_iff : Forall annotation_writable (d_Annotations d) <->
  forall t, statement g (spdx "annotation") t -> named (last_text (spdx "annotator") (of_node g (t_obj t))).
Proof.
  destruct (sf_annotations _ _ _ SF) as (ts & F & ALL).
  assert (H : Forall annotation_writable (d_Annotations d) <-> forall t, In t ts -> named (last_text (spdx "annotator") (of_node g (t_obj t)))).
  { rewrite <- Forall_forall. clear ALL. induction F as [|t a l m (_ & S) F IH]; [split; constructor|].
    rewrite !Forall_cons_iff, IH, (annotation_named _ _ S). reflexivity. }
  rewrite H. split; [auto|]. intros X t I. apply X.
  destruct (Forall2_left _ _ _ _ F I) as (a & S & _). exact S.
Qed.

Lemma plain_ref_writable x f : plain_ref x -> ref_text x f -> reference_writable x.
Proof. intros (_ & (N & _) & _) _. left. exact N. Qed.
Lemma reference_term_writable uri x : reference_term uri x -> reference_writable x.
Proof.
  intros (f & _ & [(S & ->)|(_ & P & T)]); [|exact (plain_ref_writable _ _ P T)]. left. cbn [de_ElementRefID].
  intros E. destruct f as [|c f]; [destruct S as [S|[S|[]]]; discriminate S|]. cbn [to_upper] in E. destruct f as [|c' f]; [discriminate E|]. destruct (_ && _)%bool in E; [discriminate E|]. destruct (_ && _)%bool in E; discriminate E.
Qed.
Lemma related_writable o x : related_term g o x -> reference_writable x.
Proof.
  intros (d0 & R & [(_ & ->)|[(_ & id & (_ & (N & _)) & ->)|[(_ & id & (_ & (N & _)) & ->)|(_ & f & _ & P & T)]]]).
  - exact (reference_term_writable _ _ R).
  - now left.
  - now left.
  - exact (plain_ref_writable _ _ P T).
Qed.
Lemma relationship_given t r : relationship_says g t (of_node g (t_obj t)) r ->
  relationship_writable r <-> objects (spdx "relatedSpdxElement") (of_node g (t_obj t)) <> [].
Proof.
  intros S. pose proof (rls_b _ _ _ _ S) as L. pose proof (reference_term_writable _ _ (rls_a _ _ _ _ S)) as A. split.
  - intros (_ & B) E. rewrite (last_read_nil _ _ _ _ L E) in B. destruct B as [B|B]; now apply B.
  - intros N. split; [exact A|]. exact (related_writable _ _ (last_read_last _ _ _ _ (t_obj t) L N)).
Qed.
Lemma relationship_statement t : statement g (spdx "relationship") t -> reached g RRelationship (t_obj t).
Proof.
  intros (I & P & W). assert (O : In (t_obj t) (objects (spdx "relationship") (of_node g (t_subj t)))).
  { unfold objects. apply in_map. apply filter_In. split; [exact I|]. rewrite P. apply String.eqb_refl. }
  destruct W as [W|[W|W]]; [exact (rc_document_relationship _ _ _ W O)|exact (rc_file_relationship _ _ _ W O)|exact (rc_package_relationship _ _ _ W O)].
Qed.
Lemma relationships_iff : Forall relationship_writable (d_Relationships d) <->
  forall n, reached g RRelationship n -> objects (spdx "relatedSpdxElement") (of_node g n) <> [].
Proof.
  destruct (sf_relationships _ _ _ SF) as (ts & F & ALL).
  assert (H : Forall relationship_writable (d_Relationships d) <-> forall t, In t ts -> objects (spdx "relatedSpdxElement") (of_node g (t_obj t)) <> []).
  { rewrite <- Forall_forall. clear ALL. induction F as [|t a l m (_ & S) F IH]; [split; constructor|].
    rewrite !Forall_cons_iff, IH, (relationship_given _ _ S). reflexivity. }
  rewrite H. split.
  - intros X n R. apply ALL in R. apply Exists_exists in R as (t & I & <-). auto.
  - intros X t I. apply X, relationship_statement. destruct (Forall2_left _ _ _ _ F I) as (a & S & _). exact S.
Qed.

Lemma agent_iff x k n : package_actor_term x k n -> agent_writable k n <-> agent_named x.
Proof.
  unfold package_actor_term, agent_writable, agent_named. cbv zeta. intros [(U & -> & ->)|(U & K & I)].
  - split; auto.
  - rewrite (named_iff _ _ _ K). split.
    + intros [-> | (_ & N)]; right; [discriminate|exact N].
    + intros [E|N]; [contradiction|]. right. split; [|exact N]. destruct I as [<-|[<-|[]]]; discriminate.
Qed.
Lemma package_iff n p : package_entry v g n p ->
  (given (fun s => agent_writable (su_SupplierType s) (su_Supplier s)) (p_Supplier p) /\
   given (fun s => agent_writable (or_OriginatorType s) (or_Originator s)) (p_Originator p)) <->
  forall q, In q [spdx "supplier"; spdx "originator"] -> texts q (of_node g n) <> [] -> agent_named (last_text q (of_node g n)).
Proof.
  intros (_ & k & PS). pose proof (ps_supplier _ _ _ _ _ _ PS) as A. pose proof (ps_originator _ _ _ _ _ _ PS) as B.
  assert (HA : given (fun s => agent_writable (su_SupplierType s) (su_Supplier s)) (p_Supplier p) <->
    (texts (spdx "supplier") (of_node g n) <> [] -> agent_named (last_text (spdx "supplier") (of_node g n)))).
  { destruct (texts_again (spdx "supplier") k (of_node g n)) as (T1 & T2). rewrite <- T1, <- T2. unfold last_text.
    destruct (texts (spdx "supplier") (again (Datatypes.S k) (of_node g n))) as [|x l] eqn:E.
    - rewrite (last_read_nil _ _ _ _ A eq_refl). cbn [given]. split; [congruence|auto].
    - destruct (last_read_last _ _ _ _ "" A ltac:(discriminate)) as (s & -> & K). cbn [given]. rewrite (agent_iff _ _ _ K).
      split; [auto|]. intros X. apply X. discriminate. }
  assert (HB : given (fun s => agent_writable (or_OriginatorType s) (or_Originator s)) (p_Originator p) <->
    (texts (spdx "originator") (of_node g n) <> [] -> agent_named (last_text (spdx "originator") (of_node g n)))).
  { destruct (texts_again (spdx "originator") k (of_node g n)) as (T1 & T2). rewrite <- T1, <- T2. unfold last_text.
    destruct (texts (spdx "originator") (again (Datatypes.S k) (of_node g n))) as [|x l] eqn:E.
    - rewrite (last_read_nil _ _ _ _ B eq_refl). cbn [given]. split; [congruence|auto].
    - destruct (last_read_last _ _ _ _ "" B ltac:(discriminate)) as (s & -> & K). cbn [given]. rewrite (agent_iff _ _ _ K).
      split; [auto|]. intros X. apply X. discriminate. }
  rewrite HA, HB. split.
  - intros (X & Y) q [<-|[<-|[]]]; auto.
  - intros X. split; apply X; [now left|right; now left].
Qed.
Lemma packages_iff : Forall (fun p => given (fun s => agent_writable (su_SupplierType s) (su_Supplier s)) (p_Supplier p) /\
   given (fun s => agent_writable (or_OriginatorType s) (or_Originator s)) (p_Originator p)) (d_Packages d) <->
  forall n q, reached g RPackage n -> In q [spdx "supplier"; spdx "originator"] -> texts q (of_node g n) <> [] -> agent_named (last_text q (of_node g n)).
Proof.
  pose proof (sf_packages _ _ _ SF) as F. rewrite Forall_forall in F. split.
  - intros X n q R. pose proof (sf_all_packages _ _ _ SF n R) as E. apply Exists_exists in E as (p & I & PE).
    rewrite Forall_forall in X. exact (proj1 (package_iff n p PE) (X p I) q).
  - intros X. apply Forall_forall. intros p I. destruct (F p I) as (n & PE). apply (package_iff n p PE). intros q. apply X. exact (proj1 PE).
Qed.

Lemma file_annotations f : In f (all_files d) -> f_Annotations f = [].
Proof.
  intros I. pose proof (sf_files _ _ _ SF) as F. rewrite Forall_forall in F. destruct (F f I) as (n & _ & k & S). exact (fs_annotations _ _ _ _ _ S).
Qed.
Lemma package_annotations p : In p (d_Packages d) -> p_Annotations p = [].
Proof.
  intros I. pose proof (sf_packages _ _ _ SF) as F. rewrite Forall_forall in F. destruct (F p I) as (n & _ & k & S). exact (ps_annotations _ _ _ _ _ _ S).
Qed.

Lemma writable_iff : document_writable (jdoc d) <-> json_ready g.
Proof.
  assert (FW : forall f, In f (all_files d) -> file_writable (jfile f)).
  { intros f I. unfold file_writable. cbn [jfile f_Annotations]. rewrite (file_annotations f I). constructor. }
  assert (PF : forall p f, In p (d_Packages d) -> In f (p_Files p) -> In f (all_files d)).
  { intros p f I J. unfold all_files. apply in_or_app. right. apply in_flat_map. eauto. }
  unfold document_writable. cbn [jdoc d_CreationInfo d_Packages d_Files d_Relationships d_Annotations].
  rewrite creators_iff, (Forall_some jpkg), (Forall_some jfile), !Forall_some1, annotations_iff, relationships_iff.
  assert (P : Forall (fun p => package_writable (jpkg p)) (d_Packages d) <->
    forall n q, reached g RPackage n -> In q [spdx "supplier"; spdx "originator"] -> texts q (of_node g n) <> [] -> agent_named (last_text q (of_node g n))).
  { rewrite <- packages_iff, !Forall_forall. split; intros X p I; specialize (X p I).
    - destruct X as (A & B & _). auto.
    - destruct X as (A & B). split; [exact A|]. split; [exact B|]. cbn [jpkg p_Files p_Annotations]. rewrite (package_annotations p I), (Forall_some jfile).
      split; [|constructor]. apply Forall_forall. intros f J. apply FW. eauto. }
  rewrite P. split.
  - intros (A & B & _ & C & D). now split.
  - intros [A B C D]. split; [exact A|]. split; [exact D|]. split; [|auto]. apply Forall_forall. intros f I. apply FW. unfold all_files. apply in_or_app. now left.
Qed.
End Read.

Lemma one_document g v iter d : consistent g -> load v g iter = Ok d -> forall m n, document_node g m -> document_node g n -> m = n.
Proof.
  intros CN L m n A B. unfold load in L. apply bind_ok in L as (y & S & _). unfold load_state in S. apply bind_ok in S as (x & E & _). destruct (get_doc_node_all _ _ E) as (_ & U).
  apply (cn_document _ CN); [exact A|exact B|]. now rewrite (U m A), (U n B).
Qed.

(** ** Documents read from tag-value text *)
Lemma agent_kind k n : In k actor2 -> agent_writable k n <-> n <> "".
Proof.
  intros I. unfold agent_writable. split; [intros [-> | (_ & N)]; [discriminate|exact N]|]. intros N. right. split; [|exact N].
  destruct I as [<-|[<-|[]]]; discriminate.
Qed.
Lemma supplier_given o : opt_ok supplier_ok o -> given (fun s => agent_writable (su_SupplierType s) (su_Supplier s)) o <-> some_name su_Supplier o.
Proof.
  unfold some_name. destruct o as [s|]; cbn [given opt_ok]; [|intros _; split; [discriminate|auto]]. intros [K| ->].
  - rewrite (agent_kind _ _ K). split; [intros N x E; injection E as <-; exact N|auto].
  - split; [intros _ x E; injection E as <-; discriminate|now left].
Qed.
Lemma originator_given o : opt_ok originator_ok o -> given (fun s => agent_writable (or_OriginatorType s) (or_Originator s)) o <-> some_name or_Originator o.
Proof.
  unfold some_name. destruct o as [s|]; cbn [given opt_ok]; [|intros _; split; [discriminate|auto]]. intros [K| ->].
  - rewrite (agent_kind _ _ K). split; [intros N x E; injection E as <-; exact N|auto].
  - split; [intros _ x E; injection E as <-; discriminate|now left].
Qed.
Lemma well_formed_writable v d : well_formed v d -> document_writable (jdoc d) <-> names_given d.
Proof.
  intros (_ & P & F & R & _). rewrite Forall_forall in P, F, R. unfold document_writable, names_given.
  cbn [jdoc d_CreationInfo d_Packages d_Files d_Relationships d_Annotations].
  rewrite (Forall_some jpkg), (Forall_some jfile), !Forall_some1.
  assert (FW : forall f, file_ok v f -> file_writable (jfile f)).
  { intros f (_ & _ & _ & _ & E). unfold file_writable. cbn [jfile f_Annotations]. rewrite E. constructor. }
  assert (PW : forall p, In p (d_Packages d) -> package_writable (jpkg p) <-> some_name su_Supplier (p_Supplier p) /\ some_name or_Originator (p_Originator p)).
  { intros p I. destruct (P p I) as (_ & _ & S & O & FS & _ & A & _). unfold package_writable. cbn [jpkg p_Supplier p_Originator p_Files p_Annotations].
    rewrite (supplier_given _ S), (originator_given _ O), A, (Forall_some jfile). split; [tauto|]. intros (X & Y). repeat split; auto.
    apply Forall_forall. intros f J. apply FW. rewrite Forall_forall in FS. auto. }
  assert (RW : forall r, In r (d_Relationships d) -> relationship_writable r).
  { intros r I. destruct (R r I) as ((_ & (N & _) & _) & B & _). split; [now left|].
    destruct B as [(_ & (N' & _) & _)|(_ & _ & _ & S)]; [now left|]. right. destruct S as [<-|[<-|[]]]; discriminate. }
  rewrite !Forall_forall. split.
  - intros (C & K & _ & _ & A). split; [|split; [exact A|intros p I; now apply (PW p I), K]].
    intros c x E I. rewrite E in C. cbn [given] in C. unfold creation_writable in C. rewrite Forall_forall in C. auto.
  - intros (C & A & K). split; [|split; [intros p I; now apply (PW p I), K|split; [auto|split; [exact RW|exact A]]]].
    destruct (d_CreationInfo d) as [c|]; [|exact I]. cbn [given]. apply Forall_forall. intros x I. exact (C c x eq_refl I).
Qed.
