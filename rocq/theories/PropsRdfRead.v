(** * Property of the public RDF reader: a graph of either version is read into a
    document of any version (C35, C40). *)
From Coq Require Import Permutation.
From Verif Require Import GoStr GoStrFacts Types TvUtil TvParser RdfConst Rdf RdfReader SpecTv SpecId SpecDoc SpecRdf SpecRdfDoc SpecRdfLoad
  SpecRdfContent TvReaderFacts RdfFacts RdfLicenseFacts RdfHelperFacts RdfNodeFacts RdfStepFacts RdfWalkFacts RdfLoadFacts RdfContentFacts
  RdfWholeFacts PropsRdf PropsRdfLoad PropsRdfContent RdfRead RdfReadFacts Convert SpecConvert SpecUpgrade.
From Verif Require ConvertGo ConvertRecord.

(** The version a graph names: the object of its first specVersion statement. *)
Definition names_version (g : graph) (s : string) : Prop :=
  exists before t after, g_triples g = (before ++ t :: after)%list /\ (forall u, In u before -> t_pred u <> spdx "specVersion") /\
    t_pred t = spdx "specVersion" /\ n_id (t_obj t) = s.
Lemma spec_version_names g s : s <> "" -> spec_version (g_triples g) = s <-> names_version g s.
Proof.
  intros NE. unfold names_version. generalize (g_triples g) as ts. change "http://spdx.org/rdf/terms#specVersion" with (spdx "specVersion").
  induction ts as [|t ts IH]; cbn [spec_version].
  - split; [congruence|]. intros (b & t & a & E & _). destruct b; discriminate E.
  - change "http://spdx.org/rdf/terms#specVersion" with (spdx "specVersion"). destruct (String.eqb_spec (t_pred t) (spdx "specVersion")) as [P|P].
    + split.
      * intros E. exists [], t, ts. split; [reflexivity|]. split; [intros u []|auto].
      * intros (b & t' & a & E & N & P' & S). destruct b as [|u b]; injection E as <- E; [exact S|]. destruct (N t (or_introl eq_refl) P).
    + rewrite IH. split.
      * intros (b & t' & a & -> & N & R). exists (t :: b), t', a. split; [reflexivity|]. split; [|exact R]. intros u [<-|I]; auto.
      * intros (b & t' & a & E & N & P' & S). destruct b as [|u b]; injection E as <- E; [contradiction|]. exists b, t', a. split; [exact E|].
        split; [|auto]. intros w I. apply N. now right.
Qed.

(** Reading a graph into a document of any version: a document or an error, unless
    an ID has two roles or a root no type. *)
Theorem C35_read_total : forall dz to g iter, ~ role_conflict g -> ~ untyped_root g ->
  (exists d, rdf_read_to dz to g iter = Ok d /\ typed (T_Document to) d) \/ (exists e, rdf_read_to dz to g iter = Err e).
Proof. exact rdf_to_total. Qed.
Print Assumptions C35_read_total.

(** The document is that of the version the graph names, 2.2 or 2.3, converted. *)
Theorem C35_read_version : forall dz to g iter r, rdf_read_to dz to g iter = Ok r <->
  exists v d, (v = V22 \/ v = V23) /\ names_version g (version_string v) /\ load v g iter = Ok d /\
    convert_document dz v to (ConvertGo.go_document v d) = Ok r.
Proof.
  intros dz to g iter r. unfold rdf_read_to. split.
  - intros H. apply bind_ok in H as ([v d] & R & C). apply rdf_read_load in R as (L & S & N). exists v, d.
    split; [destruct v; auto; now destruct N|]. split; [|auto]. apply spec_version_names; [destruct v; discriminate|exact S].
  - intros (v & d & V & S & L & C). apply spec_version_names in S; [|destruct v; discriminate]. unfold rdf_read. cbv zeta. rewrite S.
    destruct V as [-> | ->]; cbn [version_string]; cbn [String.eqb Ascii.eqb Bool.eqb]; rewrite L; exact C.
Qed.
Print Assumptions C35_read_version.

(** Every value both versions have a place for is the one of the document that the
    graph describes ... *)
Theorem C35_read_carried : forall dz to g iter r, consistent g -> shuffle iter -> rdf_read_to dz to g iter = Ok r ->
  exists v d, names_version g (version_string v) /\ stands_for v g d /\
    forall p, path_of (T_Document v) p = true -> path_of (T_Document to) p = true -> p <> [Fld "SPDXVersion"] ->
      get (T_Document to) r p = get (T_Document v) (ConvertGo.go_document v d) p.
Proof.
  intros dz to g iter r CN SH H. pose proof H as H0. apply C35_read_version in H as (v & d & V & S & L & C). exists v, d. split; [exact S|].
  split; [exact (C35_content v g iter d CN SH L)|]. intros p P P' N.
  assert (R : rdf_read g iter = Ok (v, d)).
  { apply spec_version_names in S; [|destruct v; discriminate]. unfold rdf_read. cbv zeta. rewrite S.
    destruct V as [-> | ->]; cbn [version_string]; cbn [String.eqb Ascii.eqb Bool.eqb]; now rewrite L. }
  destruct (rdf_to_get dz to g iter v d p R P P' N) as (r' & E & G). rewrite H0 in E. now injection E as <-.
Qed.
Print Assumptions C35_read_carried.
(** ... and with Read, the whole document, unless it has entries with nothing in them. *)
Theorem C35_read : forall dz g iter v d, rdf_read g iter = Ok (v, d) -> solid (ConvertGo.go_document v d) ->
  rdf_read_to dz V23 g iter = Ok (ConvertGo.go_document V23 (in_version v V23 d)).
Proof. exact rdf_to_23. Qed.
Print Assumptions C35_read.

(** A 2.2 graph with a package, files, a relationship, an annotation and a snippet. *)
Definition rich_22 : graph := MkGraph (st (ref "DOCUMENT") rdf_type (term "SpdxDocument") :: st (ref "DOCUMENT") (spdx "specVersion") (lit "SPDX-2.2") ::
  st (ref "DOCUMENT") (spdx "creationInfo") (iri "i") :: st (iri "i") rdf_type (term "CreationInfo") :: st (iri "i") (spdx "creator") (lit "Tool: x") :: rich_stmts) [ref "DOCUMENT"; ref "S"] (fun _ => true).
Lemma rich_22_reached r n : reached rich_22 r n ->
  match r with RFile => In n [ref "F"; ref "G"] | RPackage => In n [ref "P"] | RRelationship => In n [iri "r"] | RLicense => False end.
Proof.
  assert (W : within rich_22 [ref "F"; ref "G"] [ref "P"] [iri "r"] = true) by (vm_compute; reflexivity).
  assert (L : forall r n, reached rich_22 r n -> r <> RLicense).
  { intros r' n' H. induction H; try discriminate; exfalso; try contradiction; try (now apply IHreached).
    - destruct H as [[<-|[<-|[]]] _]; vm_compute in H0; exact H0.
    - destruct H as (root & t & [<-|[<-|[]]] & E & _ & <-); vm_compute in E; injection E as <-; destruct H0 as [<-|[<-|[]]]; vm_compute in H1; exact H1.
    - apply (within_reached _ _ _ _ W RPackage) in H. destruct H as [<-|[]], H0 as [<-|[<-|[]]]; vm_compute in H1; exact H1.
    - apply (within_reached _ _ _ _ W RFile) in H. destruct H as [<-|[<-|[]]], H0 as [<-|[<-|[]]]; vm_compute in H1; exact H1. }
  intros H. pose proof (within_reached _ _ _ _ W r n H) as X. destruct r; try exact X. exact (L _ _ H eq_refl).
Qed.
Lemma rich_22_consistent : consistent rich_22.
Proof.
  split.
  - intros (r & n & r' & n' & A & B & E & N). apply rich_22_reached in A. apply rich_22_reached in B.
    destruct r, r'; try congruence; try contradiction; cbn [In] in *;
      repeat match goal with H : _ \/ _ |- _ => destruct H end; subst; try contradiction; discriminate E.
  - intros n m id A B. apply rich_22_reached in A. apply rich_22_reached in B. unfold file_id. rewrite <- !file_identifier_spec.
    destruct A as [<-|[<-|[]]], B as [<-|[<-|[]]]; try reflexivity; vm_compute; congruence.
  - intros n m id A B. apply rich_22_reached in A. apply rich_22_reached in B. destruct A as [<-|[]], B as [<-|[]]. reflexivity.
  - intros n m A B. apply rich_22_reached in A. apply rich_22_reached in B. destruct A as [<-|[]], B as [<-|[]]. reflexivity.
  - intros n m [[<-|[<-|[]]] A] [[<-|[<-|[]]] B]; try reflexivity; vm_compute in A, B; discriminate.
Qed.
Example C35_read_witness : consistent rich_22 /\ names_version rich_22 "SPDX-2.2" /\ ~ untyped_root rich_22 /\
  exists d, rdf_read rich_22 (fun m => m) = Ok (V22, d) /\ solid (ConvertGo.go_document V22 d) /\
    get (T_Document V23) (ConvertGo.go_document V23 (in_version V22 V23 d))
      [Fld "Packages"; Idx 0; Fld "Files"; Idx 0; Fld "Snippets"; Key "S"; Fld "Ranges"; Idx 0; Fld "EndPointer"; Fld "Offset"] = Some (VInt 9).
Proof.
  split; [exact rich_22_consistent|]. split; [apply spec_version_names; [discriminate|vm_compute; reflexivity]|].
  split; [intros (r & [<-|[<-|[]]] & E); vm_compute in E; discriminate E|].
  eexists. split; [vm_compute; reflexivity|]. split; [apply ConvertRecord.solidb_solid; vm_compute; reflexivity|vm_compute; reflexivity].
Qed.
