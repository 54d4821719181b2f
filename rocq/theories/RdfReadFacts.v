(** Lemmas about the public RDF reader. *)
From Verif Require Import GoStr Types TvUtil TvParser Rdf RdfReader SpecRdf SpecRdfLoad RdfFacts RdfStepFacts RdfWalkFacts RdfLoadFacts RdfRead Convert SpecConvert SpecUpgrade.
From Verif Require ConvertGo ConvertDoc ConvertGoFacts ConvertRecord.

Lemma in_deref_files s l f : In f (deref_files s l) -> exists a, nth_error (rs_files s) a = Some f.
Proof. intros H. apply in_deref in H as (a & _ & H). eauto. Qed.
Lemma load_keys v g iter d : load v g iter = Ok d -> keys_distinct d.
Proof.
  intros L. pose proof (load_outcome v g iter) as O. rewrite L in O. destruct O as (s & R & ->).
  assert (K : forall l, Forall file_keys (deref_files s l)).
  { intros l. apply Forall_forall. intros f I. apply in_deref_files in I as (a & H). exact (rt_keys _ _ R a f H). }
  split; [exact (K _)|]. apply Forall_forall. intros q I. apply in_deref_pkgs in I as (a & p & _ & _ & ->). exact (K (p_Files p)).
Qed.
Lemma rdf_read_load g iter v d : rdf_read g iter = Ok (v, d) ->
  load v g iter = Ok d /\ spec_version (g_triples g) = version_string v /\ v <> V21.
Proof.
  unfold rdf_read. destruct (String.eqb_spec (spec_version (g_triples g)) ""); [discriminate|].
  destruct (String.eqb_spec (spec_version (g_triples g)) "SPDX-2.2") as [E|]; [|destruct (String.eqb_spec (spec_version (g_triples g)) "SPDX-2.3") as [E|]; [|discriminate]];
    intros H; apply bind_ok in H as (d' & L & H); injection H as <- <-; (split; [exact L|split; [exact E|discriminate]]).
Qed.
Lemma rdf_keys g iter v d : rdf_read g iter = Ok (v, d) -> keys_distinct d.
Proof. intros H. apply rdf_read_load in H as [L _]. exact (load_keys _ _ _ _ L). Qed.

Section Read.
  Variable dz : bool.
  Lemma rdf_to_total to g iter : ~ role_conflict g -> ~ untyped_root g ->
    (exists d, rdf_read_to dz to g iter = Ok d /\ typed (T_Document to) d) \/ (exists e, rdf_read_to dz to g iter = Err e).
  Proof.
    intros N U. unfold rdf_read_to. destruct (rdf_read g iter) as [[v d]|e|] eqn:R; cbn [bindR].
    - left. destruct (ConvertDoc.convert_ok dz v to _ (ConvertGoFacts.typed_document v d (rdf_keys _ _ _ _ R))) as (d' & E & T). eauto.
    - right. eauto.
    - exfalso. unfold rdf_read in R. destruct (String.eqb _ ""); [discriminate|].
      destruct (String.eqb _ "SPDX-2.2"); [|destruct (String.eqb _ "SPDX-2.3"); [|discriminate]].
      + destruct (load V22 g iter) eqn:L; try discriminate R. apply load_panic in L as []; auto.
      + destruct (load V23 g iter) eqn:L; try discriminate R. apply load_panic in L as []; auto.
  Qed.
  Lemma rdf_to_get to g iter v d p : rdf_read g iter = Ok (v, d) ->
    path_of (T_Document v) p = true -> path_of (T_Document to) p = true -> p <> [Fld "SPDXVersion"] ->
    exists d', rdf_read_to dz to g iter = Ok d' /\ get (T_Document to) d' p = get (T_Document v) (ConvertGo.go_document v d) p.
  Proof.
    intros R P P' N. unfold rdf_read_to. rewrite R. cbn [bindR]. pose proof (ConvertGoFacts.typed_document v d (rdf_keys _ _ _ _ R)) as T.
    destruct (ConvertDoc.convert_ok dz v to _ T) as (d' & E & _). exists d'. split; [exact E|]. exact (ConvertDoc.convert_get dz v to _ d' p T E P P' N).
  Qed.
  Lemma rdf_to_23 g iter v d : rdf_read g iter = Ok (v, d) -> solid (ConvertGo.go_document v d) ->
    rdf_read_to dz V23 g iter = Ok (ConvertGo.go_document V23 (in_version v V23 d)).
  Proof.
    intros R S. unfold rdf_read_to. rewrite R. cbn [bindR]. pose proof (rdf_keys _ _ _ _ R) as K.
    destruct v; [apply ConvertRecord.upgrade_record; auto; constructor|apply ConvertRecord.upgrade_record; auto; constructor|reflexivity].
  Qed.
End Read.
