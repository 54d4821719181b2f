(** * Property of the RDF reader: a graph is read exactly when its nodes can be read (C55). *)
From Verif Require Import GoStr GoStrFacts Types TvUtil TvParser RdfConst Rdf RdfReader SpecTv SpecId SpecDoc SpecRdf SpecRdfDoc SpecRdfLoad
  SpecRdfContent SpecRdfAccept TvReaderFacts RdfFacts RdfLicenseFacts RdfHelperFacts RdfNodeFacts RdfStepFacts RdfWalkFacts RdfLoadFacts RdfContentFacts
  RdfWholeFacts RdfAcceptFacts RdfReadableFacts RdfAcceptedFacts PropsRdf PropsRdfLoad PropsRdfContent.

(** A graph in which no ID has two roles and no two elements share an identifier is
    read exactly when each of its nodes, by itself, says something that can be read:
    neither the order of the statements, nor the way to a node, nor how often it is
    met, nor the order in which a Go map is walked decides. *)
Theorem C55_reads_exactly : forall v g iter, consistent g -> ((exists d, load v g iter = Ok d) <-> readable v g).
Proof.
  intros v g iter CN. split; [intros (d & H); exact (load_accepted v g CN iter d H)|]. intros RD. exact (load_reads v g CN RD iter).
Qed.
Print Assumptions C55_reads_exactly.

(** Otherwise there is an error; there is a panic only if a root node has no type. *)
Theorem C55_refuses : forall v g iter, consistent g -> ~ untyped_root g -> ~ readable v g -> exists e, load v g iter = Err e.
Proof.
  intros v g iter CN TR NR. destruct (load v g iter) as [d|e|] eqn:E; [|eauto|].
  - exfalso. apply NR. apply (C55_reads_exactly v g iter CN). eauto.
  - exfalso. destruct (load_panic v g iter E) as [C|C]; [exact (cn_roles g CN C)|exact (TR C)].
Qed.
Print Assumptions C55_refuses.

(** ** Graphs that meet the hypotheses *)
(** a document with a package, files, a relationship, an annotation and a snippet can
    be read; a document node alone; not one with a statement that means nothing *)
Definition strange : graph := d_graph [st (ref "DOCUMENT") (spdx "shoeSize") (lit "43")].
Lemma lone_reached more r n : (forall t, In t more -> t_subj t = ref "DOCUMENT" /\ t_pred t = spdx "shoeSize") -> reached (d_graph more) r n -> False.
Proof.
  intros M H.
  assert (OB : forall m p, p <> rdf_type -> p <> spdx "specVersion" -> p <> spdx "shoeSize" -> objects p (of_node (d_graph more) m) = []).
  { intros m p N1 N2 N3. unfold objects, of_node. cbn [g_triples d_graph]. match goal with |- map _ ?x = _ => destruct x as [|t l] eqn:F end; [reflexivity|].
    assert (I : In t (t :: l)) by (left; reflexivity). rewrite <- F in I. apply filter_In in I as [I P]. apply filter_In in I as [I _]. apply String.eqb_eq in P. exfalso.
    apply in_app_or in I as [[I|[I|[]]]|I]; [subst t; now apply N1|subst t; now apply N2|]. destruct (M t I) as [_ Q]. congruence. }
  assert (SN : forall m, snippet_node (d_graph more) m -> False).
  { intros m (root & t & [<-|[]] & F & E & _). unfold about in F. cbn [g_triples d_graph d_stmts app filter] in F. cbn in F. injection F as <- _. cbn in E. discriminate E. }
  induction H; try (exfalso; eapply SN; eassumption); try assumption; rewrite OB in H0; try discriminate; try exact H0.
Qed.
Lemma lone_consistent more : (forall t, In t more -> t_subj t = ref "DOCUMENT" /\ t_pred t = spdx "shoeSize") -> consistent (d_graph more).
Proof.
  intros M. split.
  - intros (r & n & r' & n' & A & _). exact (lone_reached more r n M A).
  - intros n m id A. now destruct (lone_reached more _ _ M A).
  - intros n m id A. now destruct (lone_reached more _ _ M A).
  - intros n m A. now destruct (lone_reached more _ _ M A).
  - intros n m [[<-|[]] _] [[<-|[]] _] _. reflexivity.
Qed.
Lemma lone_readable : readable V22 (d_graph []).
Proof.
  assert (M : forall t, In t [] -> t_subj t = ref "DOCUMENT" /\ t_pred t = spdx "shoeSize") by (intros t []).
  assert (NO : forall r n, reached (d_graph []) r n -> False) by (intros r n; now apply lone_reached).
  assert (SN : forall m, snippet_node (d_graph []) m -> False).
  { intros m (root & t & [<-|[]] & F & E & _). vm_compute in F. injection F as <-. vm_compute in E. discriminate E. }
  assert (STM : forall p t, statement (d_graph []) p t -> p = rdf_type \/ p = spdx "specVersion").
  { intros p t (I & <- & _). unfold of_node in I. apply filter_In in I as [I _]. destruct I as [<-|[<-|[]]]; auto. }
  split; try (intros n H; now destruct (NO _ _ H)); try (intros n H; now destruct (SN _ H)).
  - intros n [<-|[]]. exists (spdx "SpdxDocument"). split; vm_compute; reflexivity.
  - exists (ref "DOCUMENT"). split; [now left|]. vm_compute. reflexivity.
  - intros n m [[<-|[]] _] [[<-|[]] _]. reflexivity.
  - intros n [[<-|[]] _].
    destruct (load V22 (d_graph []) (fun m => m)) as [d| |] eqn:E; [|vm_compute in E; discriminate E|vm_compute in E; discriminate E].
    exists d. vm_compute in E. injection E as <-.
    split; try (vm_compute; reflexivity); try (vm_compute; constructor; fail).
    + unfold only. repeat constructor; vm_compute; tauto.
    + apply kind_name_spec. vm_compute. reflexivity.
    + split; [constructor|now left].
    + eexists. split; [reflexivity|]. vm_compute. split; try reflexivity; constructor.
  - intros t H. destruct (STM _ _ H) as [E|E]; discriminate E.
  - intros t H. destruct (STM _ _ H) as [E|E]; discriminate E.
Qed.
Example C55_witness :
  (consistent (d_graph []) /\ readable V22 (d_graph [])) /\
  (consistent rich /\ readable V23 rich) /\
  (consistent strange /\ ~ untyped_root strange /\ ~ readable V23 strange).
Proof.
  split; [split; [apply lone_consistent; intros t []|exact lone_readable]|]. split.
  - split; [exact rich_consistent|]. apply (C55_reads_exactly V23 rich (fun m => m) rich_consistent).
    destruct C35_witness as (_ & _ & d & L & _). eauto.
  - split; [apply lone_consistent; intros t [<-|[]]; split; reflexivity|]. split.
    + intros (root & [<-|[]] & E). vm_compute in E. discriminate E.
    + intros R. destruct (rd_document _ _ R (ref "DOCUMENT")) as (d & D); [split; [now left|vm_compute; reflexivity]|].
      pose proof (ds_only _ _ _ _ D) as O. unfold only in O. rewrite Forall_forall in O.
      specialize (O (st (ref "DOCUMENT") (spdx "shoeSize") (lit "43"))).
      assert (I : In (st (ref "DOCUMENT") (spdx "shoeSize") (lit "43")) (of_node strange (ref "DOCUMENT"))) by (vm_compute; auto).
      specialize (O I). cbn [In document_predicates t_pred st] in O. repeat (destruct O as [O|O]; [discriminate O|]). exact O.
Qed.
