(** The reading of [SpecRead] gives at most one document. *)
From Verif Require Import GoStr GoStrFacts Types TvUtil TvReader SpecTv SpecId SpecDoc SpecRead
  TvReaderFacts TvUtilFacts TvParserFacts DenoteBase.

Lemma two_lists {A B} (R : A -> B -> Prop) l m m' : (forall x z z', R x z -> R x z' -> z = z') ->
  Forall2 R l m -> Forall2 R l m' -> m = m'.
Proof.
  intros E F. revert m'. induction F; intros m' G; inversion G; subst; [reflexivity|].
  f_equal; [eapply E; eassumption|now apply IHF].
Qed.
Lemma actor_text_fun kinds x k n k' n' :
  actor_text kinds x k n -> actor_text kinds x k' n' -> (k, n) = (k', n').
Proof. intros H H'. apply actor_text_iff in H, H'. congruence. Qed.
Lemma checksum_text_fun v x c c' : checksum_text v x c -> checksum_text v x c' -> c = c'.
Proof. intros H H'. apply checksum_text_iff in H, H'. congruence. Qed.
Lemma ref_fun s d d' : plain_ref d /\ ref_text d s -> plain_ref d' /\ ref_text d' s -> d = d'.
Proof. intros H H'. apply extract_doc_element_id_iff in H, H'. congruence. Qed.
Lemma edr_text_fun x e e' : edr_text x e -> edr_text x e' -> e = e'.
Proof. intros H H'. apply edr_text_iff in H, H'. congruence. Qed.
Lemma code_text_fun x c c' : code_text x c -> code_text x c' -> c = c'.
Proof. intros H H'. apply code_text_iff in H, H'. congruence. Qed.
Lemma range_text_fun x a b a' b' : range_text x a b -> range_text x a' b' -> (a, b) = (a', b').
Proof. intros H H'. apply range_text_iff in H, H'. congruence. Qed.
Lemma supplier_text_fun x s s' : supplier_text x s -> supplier_text x s' -> s = s'.
Proof.
  unfold supplier_text. destruct (String.eqb _ _); [congruence|]. intros H H'.
  pose proof (actor_text_fun _ _ _ _ _ _ H H') as E. destruct s, s'; cbn in E. congruence.
Qed.
Lemma originator_text_fun x s s' : originator_text x s -> originator_text x s' -> s = s'.
Proof.
  unfold originator_text. destruct (String.eqb _ _); [congruence|]. intros H H'.
  pose proof (actor_text_fun _ _ _ _ _ _ H H') as E. destruct s, s'; cbn in E. congruence.
Qed.
Lemma opt_fun {A} (R : string -> A -> Prop) l x x' : (forall s a a', R s a -> R s a' -> a = a') ->
  opt_text_of R l x -> opt_text_of R l x' -> x = x'.
Proof.
  intros E. destruct l as [|z r]; cbn [opt_text_of]; [congruence|].
  intros (y & -> & H) (y' & -> & H'). f_equal. eapply E; eassumption.
Qed.
Lemma id_fun l i i' : id_text_of l i -> id_text_of l i' -> i = i'.
Proof. destruct l; cbn [id_text_of]; [congruence|]. intros H H'. rewrite H in H'. now apply app_inj_l in H'. Qed.

Lemma relationship_text_fun v x r r' : relationship_text v x r -> relationship_text v x r' ->
  r_Comment r = r_Comment r' -> r = r'.
Proof.
  destruct r as [a b k c], r' as [a' b' k' c']. intros H H' E. cbn in E. subst c'.
  apply (relationship_text_iff v x a k b c) in H. apply (relationship_text_iff v x a' k' b' c) in H'. congruence.
Qed.
Lemma relationship_fun v g r r' : relationship_den v g r -> relationship_den v g r' -> r = r'.
Proof. intros [H C] [H' C']. eapply relationship_text_fun; [eassumption..|congruence]. Qed.
Lemma annotation_fun g a a' : annotation_den g a -> annotation_den g a' -> a = a'.
Proof.
  intros (H1 & H2 & H3 & H4 & H5) (G1 & G2 & G3 & G4 & G5).
  pose proof (actor_text_fun _ _ _ _ _ _ H1 G1) as E.
  assert (F : a_SPDXIdentifier a = a_SPDXIdentifier a').
  { destruct (values "SPDXREF" (snd g)); [congruence|]. eapply ref_fun; eassumption. }
  destruct a as [[]], a' as [[]]; cbn in *. congruence.
Qed.
Lemma review_fun g a a' : review_den g a -> review_den g a' -> a = a'.
Proof.
  intros (H1 & H2 & H3) (G1 & G2 & G3). pose proof (actor_text_fun _ _ _ _ _ _ H1 G1) as E.
  destruct a, a'; cbn in *. congruence.
Qed.
Lemma license_fun g a a' : license_den g a -> license_den g a' -> a = a'.
Proof.
  intros (H1 & H2 & H3 & H4 & H5) (G1 & G2 & G3 & G4 & G5). destruct a, a'; cbn in *.
  congruence.
Qed.
Lemma creation_info_fun l c c' : creation_info_den l c -> creation_info_den l c' -> c = c'.
Proof.
  assert (X : forall l, Forall (fun p : string * string => In (fst p) document_tags) l ->
                        Exists (fun p => ~ In (fst p) document_tags) l -> False).
  { intros m F E. apply Exists_exists in E as (p & I & N). rewrite Forall_forall in F. auto. }
  destruct c as [c|], c' as [c'|]; cbn [creation_info_den]; [| | |reflexivity].
  - intros (_ & H2 & H3 & H4 & H5) (_ & G2 & G3 & G4 & G5).
    assert (E : ci_Creators c = ci_Creators c').
    { eapply two_lists; [|exact H3|exact G3]. intros x z z' Z Z'. cbn beta in Z, Z'.
      pose proof (actor_text_fun _ _ _ _ _ _ Z Z') as E. destruct z, z'; cbn in E. congruence. }
    destruct c, c'; cbn in *. congruence.
  - intros [E _] F. destruct (X l F E).
  - intros F [E _]. destruct (X l F E).
Qed.
Lemma range_fun p r r' : range_den p r -> range_den p r' -> r = r'.
Proof.
  intros (a & b & H & E) (a' & b' & H' & E'). pose proof (range_text_fun _ _ _ _ _ H H') as F.
  destruct (String.eqb _ _); congruence.
Qed.
Lemma snippet_fun v g s s' : snippet_den v g s -> snippet_den v g s' -> s = s'.
Proof.
  intros [H1 H2 H3 H4 H5 H6 H7 H8 H9 H10] [G1 G2 G3 G4 G5 G6 G7 G8 G9 G10].
  assert (E1 : s_SPDXIdentifier s = s_SPDXIdentifier s') by (rewrite H1 in G1; now apply app_inj_l in G1).
  assert (E2 : s_FromFile s = s_FromFile s').
  { destruct (values "SnippetFromFileSPDXID" (snd g)); [congruence|].
    destruct H2 as (d & P & T & ->), G2 as (d' & P' & T' & ->). f_equal. eapply ref_fun; eauto. }
  pose proof (two_lists _ _ _ _ range_fun H3 G3) as E3.
  clear - E1 E2 E3 H4 H5 H6 H7 H8 H9 H10 G4 G5 G6 G7 G8 G9 G10.
  rewrite <- H4 in G4. rewrite <- H5 in G5. rewrite <- H6 in G6. rewrite <- H7 in G7. rewrite <- H8 in G8.
  rewrite <- H9 in G9. rewrite <- H10 in G10. clear H4 H5 H6 H7 H8 H9 H10.
  destruct s, s'; cbn in *; congruence.
Qed.
Lemma artifact_fun g s s' : artifact_den g s -> artifact_den g s' -> s = s'.
Proof.
  intros (H1 & H2 & H3) (G1 & G2 & G3). rewrite <- H1 in G1. rewrite <- H2 in G2. rewrite <- H3 in G3.
  clear H1 H2 H3. destruct s, s'; cbn in *; congruence.
Qed.
Lemma file_fields_fun {SN} v g (f f' : FileOf SN Artifact) : file_fields v g f -> file_fields v g f' ->
  f_Snippets f = f_Snippets f' -> f = f'.
Proof.
  intros [] [] S.
  pose proof (id_fun _ _ _ fi_id fi_id0). pose proof (two_lists _ _ _ _ (checksum_text_fun v) fi_sums fi_sums0).
  pose proof (two_lists _ _ _ _ artifact_fun fi_arts fi_arts0).
  clear fi_id fi_id0 fi_sums fi_sums0 fi_arts fi_arts0.
  destruct f, f'; cbn in *. subst. reflexivity.
Qed.
Lemma file_fun v g f f' : file_den v g f -> file_den v g f' -> f = f'.
Proof.
  intros [H S] [H' S']. eapply file_fields_fun; [eassumption..|]. eapply two_lists; [|exact S|exact S'].
  intros x [k z] [k' z'] [K Z] [K' Z']. cbn [fst snd] in *. pose proof (snippet_fun _ _ _ _ Z Z'). congruence.
Qed.
Lemma external_ref_fun g e e' : external_ref_den g e -> external_ref_den g e' -> e = e'.
Proof.
  intros [H C] [H' C']. rewrite H in H'. rewrite <- C in C'. clear H C. destruct e, e'; cbn in *. congruence.
Qed.
Lemma package_fun v g p p' : package_den v g p -> package_den v g p' -> p = p'.
Proof.
  intros [[] F] [[] F'].
  pose proof (two_lists _ _ _ _ (file_fun v) F F').
  pose proof (id_fun _ _ _ pk_id pk_id0). pose proof (two_lists _ _ _ _ (checksum_text_fun v) pk_sums pk_sums0).
  pose proof (two_lists _ _ _ _ external_ref_fun pk_refs pk_refs0).
  pose proof (opt_fun _ _ _ _ supplier_text_fun pk_sup pk_sup0).
  pose proof (opt_fun _ _ _ _ originator_text_fun pk_orig pk_orig0).
  pose proof (opt_fun _ _ _ _ code_text_fun pk_code pk_code0).
  clear pk_id pk_id0 pk_sums pk_sums0 pk_refs pk_refs0 pk_sup pk_sup0 pk_orig pk_orig0 pk_code pk_code0 F F'.
  destruct p, p'; cbn in *. subst. reflexivity.
Qed.

Theorem document_unique v l d d' : document_den v l d -> document_den v l d' -> d = d'.
Proof.
  intros ([] & I & P & F) ([] & I' & P' & F').
  pose proof (id_fun _ _ _ I I'). pose proof (two_lists _ _ _ _ (package_fun v) P P').
  pose proof (two_lists _ _ _ _ (file_fun v) F F').
  pose proof (two_lists _ _ _ _ edr_text_fun g_edrs g_edrs0).
  pose proof (two_lists _ _ _ _ license_fun g_licenses g_licenses0).
  pose proof (two_lists _ _ _ _ (relationship_fun v) g_rels g_rels0).
  pose proof (two_lists _ _ _ _ annotation_fun g_anns g_anns0).
  pose proof (two_lists _ _ _ _ review_fun g_reviews g_reviews0).
  pose proof (creation_info_fun _ _ _ g_ci g_ci0).
  clear I I' P P' F F' g_edrs g_edrs0 g_licenses g_licenses0 g_rels g_rels0 g_anns g_anns0 g_reviews g_reviews0 g_ci g_ci0.
  destruct d, d'; cbn in *. subst. reflexivity.
Qed.
