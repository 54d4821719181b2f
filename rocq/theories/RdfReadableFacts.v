(** A graph is read exactly when its nodes can be read: the document node, the
    snippets, and the way back. *)
From Verif Require Import GoStr GoStrFacts Types TvUtil TvParser RdfConst Rdf RdfReader SpecTv SpecId SpecDoc SpecRdf SpecRdfDoc SpecRdfLoad
  SpecRdfContent SpecRdfAccept TvReaderFacts TvUtilFacts TvParserFacts RdfFacts RdfLicenseFacts RdfHelperFacts RdfNodeFacts RdfStepFacts RdfWalkFacts
  RdfLoadFacts RdfVisitFacts RdfContentFacts RdfWholeFacts RdfAcceptFacts.

Section Readable.
Variables (v : version) (g : graph).
Hypothesis CN : consistent g.
Hypothesis RD : readable v g.
Notation rest := (rest g).
Let NC := cn_roles g CN.

Lemma rest_calm s : rest s -> calm g s.
Proof. intros R m _. apply (rt_grey _ _ R). Qed.
Lemma get_file_noerr n s : rest s -> reached g RFile n -> noerr (get_file v g n s).
Proof. intros R N. exact (pg_file _ _ _ (progress_all v g NC RD (enough g)) [] n s (rt_inv _ _ R) (rest_calm s R) N (room_enough _ _ _)). Qed.
Lemma get_package_noerr n s : rest s -> reached g RPackage n -> noerr (get_package v g n s).
Proof. intros R N. exact (pg_package _ _ _ (progress_all v g NC RD (enough g)) [] n s (rt_inv _ _ R) (rest_calm s R) N (room_enough _ _ _)). Qed.
Lemma parse_relationship_noerr t s : rest s -> statement g (spdx "relationship") t -> noerr (parse_relationship v g t s).
Proof. intros R N. exact (pg_relationship _ _ _ (progress_all v g NC RD (enough g)) [] t s (rt_inv _ _ R) (rest_calm s R) N (room_enough _ _ _)). Qed.

(** ** The document node *)
Lemma creation_noerr ts c : only [spdx "licenseListVersion"; spdx "creator"; spdx "created"; rdfs "comment"; rdf_type] ts ->
  Forall (fun x => exists k n, actor3_term x k n) (texts (spdx "creator") ts) -> noerr (for_each creation_info_step ts c).
Proof.
  intros O A. assert (X : exists c', for_each creation_info_step ts c = Ok c').
  { apply (for_each_total _ _ _ _) with (2 := Forall_and O (texts_forall _ _ _ A)).
    intros t s (I & R). unfold creation_info_step. cbv zeta. destruct I as [E|[E|[E|[E|[E|[]]]]]]; known_pred E; eauto.
    destruct (R (eq_sym E)) as (k & n & Z). rewrite (actor3_read _ _ _ _ _ Z). eauto. }
  destruct X as (c' & ->). apply noerr_ok.
Qed.
Lemma in_texts_flat p o os x : In o os -> In x (texts p (of_node g o)) -> In x (texts p (flat_map (of_node g) os)).
Proof.
  intros I J. unfold texts in *. apply in_map_iff in J as (m & <- & J). apply in_map. apply in_objects in J as (t & T & P & E).
  apply in_objects. exists t. split; [|auto]. apply in_flat_map. eauto.
Qed.
Lemma document_step_noerr d t s : rest s -> document_node g d -> In t (of_node g d) -> noerr (document_step v g t s).
Proof.
  intros R D T. destruct (rd_document _ _ RD d D) as (x & DS).
  assert (OB : forall q, q = t_pred t -> In (t_obj t) (objects q (of_node g d))) by (intros q E; apply in_objects'; auto).
  assert (ST : forall q, q = t_pred t -> statement g q t).
  { intros q E. pose proof (of_node_subject _ _ _ T) as SU. split; [now rewrite SU|]. split; [auto|]. rewrite SU. auto. }
  pose proof (ds_only _ _ _ _ DS) as O. unfold only in O. rewrite Forall_forall in O. specialize (O t T).
  unfold document_step. cbv zeta. cbn [In document_predicates] in O.
  repeat (destruct O as [E|O]; [known_pred E; try apply noerr_ok|]); [| | | | | | | |destruct O].
  - destruct (last_read_in _ _ _ _ _ (ds_license _ _ _ _ DS) (OB _ E)) as (z & Z).
    apply noerr_bind; [|intros [l s1] _; apply noerr_ok].
    apply (license_noerr g) with z; [exact (rest_calm s R)|exact (rc_document_license g d _ D (OB _ E))|exact Z].
  - destruct (Forall2_in _ _ _ _ (ds_external _ _ _ _ DS) (OB _ E)) as (z & Z). apply external_document_node_spec in Z. rewrite Z. apply noerr_ok.
  - destruct (d_CreationInfo (rs_doc s)) as [c|]; [|apply noerr_panic]. apply noerr_bind; [|intros c' _; apply noerr_ok].
    destruct (ds_creation _ _ _ _ DS) as (z & _ & Z). rewrite triples_of_node. apply creation_noerr.
    + pose proof (ci_only _ _ Z) as W. unfold only in *. rewrite Forall_forall in *. intros u U. apply W. apply in_flat_map. exists (t_obj t). auto.
    + apply Forall_forall. intros y Y. destruct (Forall2_in _ _ _ _ (ci_creators _ _ Z) (in_texts_flat _ _ _ _ (OB _ E) Y)) as (w & W). eauto.
  - destruct (Forall2_in _ _ _ _ (ds_reviews _ _ _ _ DS) (OB _ E)) as (z & Z). apply review_node_spec in Z. rewrite Z. apply noerr_ok.
  - apply noerr_bind; [exact (get_package_noerr _ s R (rc_document_package g d _ D (OB _ E)))|]. intros [a s1] _. apply noerr_ok.
  - destruct (Forall2_in _ _ _ _ (ds_licenses _ _ _ _ DS) (OB _ E)) as (z & Z). apply other_license_spec in Z as (l & y & Z & _). rewrite Z. apply noerr_ok.
  - exact (parse_relationship_noerr t s R (ST _ E)).
  - exact (annotation_noerr v g RD t s (ST _ E)).
Qed.
Lemma parse_document_noerr d s : rest s -> document_node g d -> noerr (parse_document_node v g d s).
Proof.
  intros R D. destruct (rd_document _ _ RD d D) as (x & DS). unfold parse_document_node.
  pose proof (ds_names _ _ _ _ DS) as K. apply kind_name_spec in K. rewrite K. cbn [bindR]. rewrite triples_of_node.
  apply noerr_for_each with (I := fun _ s => rest s).
  - apply rest_doc; [exact R|reflexivity|reflexivity|exact (rt_creation _ _ R)].
  - intros done t rst s' TS R'. assert (T : In t (of_node g d)) by (rewrite TS; apply in_or_app; right; now left).
    split; [exact (document_step_noerr d t s' R' D T)|]. intros s'' E. exact (outcome_ok _ _ _ _ (document_step_outcome v g d t s' R' D T) E).
Qed.

(** ** Finding it *)
Lemma root_type n : In n (g_roots g) -> exists t, select (n_id n) RDF_TYPE (of_node g n) = [t] /\
  filter (fun u => t_pred u =? rdf_type) (about g (n_id n)) = [t] /\ t_subj t = n.
Proof.
  intros I. destruct (rd_roots _ _ RD n I) as (ty & A & B). rewrite select_texts in A.
  pose proof (fun t => in_select_of_node g n RDF_TYPE t) as SI.
  destruct (select (n_id n) RDF_TYPE (of_node g n)) as [|t [|u l]] eqn:S; try discriminate A. exists t. split; [reflexivity|].
  assert (SU : t_subj t = n) by (apply (of_node_subject g); apply SI; now left). split; [|exact SU].
  unfold texts, objects in B. rewrite !map_map in B.
  assert (J : In t (filter (fun u => t_pred u =? rdf_type) (about g (n_id n)))).
  { destruct (in_select g n RDF_TYPE t) as [J P]; [rewrite S; now left|]. apply filter_In. split; [|apply String.eqb_eq; exact P].
    unfold about. apply filter_In. split; [unfold of_node in J; apply filter_In in J; tauto|]. rewrite SU. apply String.eqb_refl. }
  destruct (filter _ _) as [|w [|w' ws]]; try discriminate B. destruct J as [->|[]]. reflexivity.
Qed.
Lemma get_doc_node_noerr : noerr (get_doc_node g).
Proof.
  unfold get_doc_node.
  set (I := fun (done : list node) (x : option node) =>
     (forall m, x = Some m -> document_node g m) /\ (x = None -> forall m, In m done -> ~ document_node g m)).
  assert (ST : forall done root rst x, g_roots g = (done ++ root :: rst)%list -> I done x -> noerr (doc_node_step g root x) /\
     forall y, doc_node_step g root x = Ok y -> I (done ++ [root])%list y).
  { intros done root rst x TS [I1 I2]. assert (IR : In root (g_roots g)) by (rewrite TS; apply in_or_app; right; now left).
    destruct (root_type root IR) as (t & S & _ & SU). unfold doc_node_step. cbv zeta. rewrite triples_of_node, S, SU.
    pose proof (select_texts g root) as SX. rewrite S in SX. cbn [map] in SX.
    destruct (String.eqb_spec (n_id (t_obj t)) SPDX_SPDX_DOCUMENT_CAPITALIZED) as [E|N]; cbn [length Nat.eqb negb].
    - assert (DN : document_node g root) by (split; [exact IR|]; unfold typed_node; rewrite SX, E; reflexivity).
      assert (FIN : I (done ++ [root])%list (Some root)) by (split; [intros m H; injection H as <-; exact DN|discriminate]).
      destruct x as [m|].
      + rewrite (rd_one_document _ _ RD m root (I1 m eq_refl) DN), String.eqb_refl. split; [apply noerr_ok|]. intros y H. injection H as <-. exact FIN.
      + split; [apply noerr_ok|]. intros y H. injection H as <-. exact FIN.
    - split; [apply noerr_ok|]. intros y H. injection H as <-. split; [exact I1|]. intros X m J. apply in_app_or in J as [J|[<-|[]]]; [now apply I2|].
      intros [_ DN]. unfold typed_node in DN. rewrite SX in DN. injection DN as DN. contradiction. }
  assert (I0 : I [] None) by (split; [discriminate|intros _ m []]).
  apply noerr_bind; [exact (noerr_for_each I _ _ _ I0 ST)|].
  intros [n|] E; [apply noerr_ok|]. exfalso.
  assert (J : I (g_roots g) None) by (refine (for_each_inv_in I _ _ _ _ I0 _ E); intros done root rst x y TS X H; exact (proj2 (ST done root rst x TS X) y H)).
  destruct (rd_a_document _ _ RD) as (n & D). exact (proj2 J eq_refl n (proj1 D) D).
Qed.

(** ** Snippets *)
Lemma range_reference_noerr n s : rest s -> (about g (n_id n) <> [] -> reached g RFile n) -> noerr (range_reference v g n s).
Proof.
  intros R H. unfold range_reference. change (triples_with_id g (n_id n)) with (about g (n_id n)).
  destruct (about g (n_id n)) as [|t ts]; [apply noerr_ok|].
  apply noerr_bind; [apply get_file_noerr; [exact R|apply H; discriminate]|]. intros [b s1] _. apply noerr_ok.
Qed.
Lemma pointer_step_outcome n t x : rest (snd x) -> In t (of_node g n) ->
  (forall o, In o (objects (ptr_term "reference") (of_node g n)) -> about g (n_id o) <> [] -> reached g RFile o) ->
  forall y, pointer_step v g t x = Ok y -> rest (snd y).
Proof.
  destruct x as [[rt k] s]. cbn [snd]. intros R T H y. unfold pointer_step. cbv zeta. pred_goal t; intros E1.
  - injection E1 as <-. exact R.
  - apply bind_ok in E1 as (s1 & E1 & X). injection X as <-. cbn [snd].
    refine (proj1 (outcome_ok _ _ _ _ (range_reference_outcome v g (t_obj t) s R _) E1)). apply H. apply in_objects'; auto.
  - apply bind_ok in E1 as (z & E1 & X). injection X as <-. exact R.
  - apply bind_ok in E1 as (z & E1 & X). injection X as <-. exact R.
  - discriminate E1.
Qed.
Lemma pointer_noerr n s p : rest s ->
  (forall o, In o (objects (ptr_term "reference") (of_node g n)) -> about g (n_id o) <> [] -> reached g RFile o) ->
  pointer_says (of_node g n) p -> noerr (pointer_from_node v g n s).
Proof.
  intros R H (O & l & t0 & PE & PF & _). unfold pointer_from_node. rewrite triples_of_node.
  unfold only in O. rewrite Forall_forall in O. rewrite Forall_forall in PF.
  apply noerr_bind.
  - apply noerr_for_each with (I := fun _ (x : option range_type * Z * rstate) => rest (snd x)); [exact R|].
    intros done t rst x TS R1. assert (T : In t (of_node g n)) by (rewrite TS; apply in_or_app; right; now left).
    split; [|exact (pointer_step_outcome n t x R1 T H)]. destruct x as [[rt k] s1]. cbn [snd] in R1.
    assert (PT : forall q, q = t_pred t -> (q =? ptr_term "offset") || (q =? ptr_term "lineNumber") = true -> exists z, atoi (n_id (t_obj t)) = Ok z).
    { intros q -> Q. destruct (PF t) as (y & [(_ & z & Z & _)|(_ & z & Z & _)]); [|eauto|eauto]. unfold positions. apply filter_In. auto. }
    unfold pointer_step. cbv zeta. destruct (O t T) as [E|[E|[E|[E|[]]]]]; known_pred E; try apply noerr_ok.
    + apply noerr_bind; [|intros s2 _; apply noerr_ok]. apply range_reference_noerr; [exact R1|]. apply H. apply in_objects'; auto.
    + destruct (PT _ E eq_refl) as (z & ->). apply noerr_ok.
    + destruct (PT _ E eq_refl) as (z & ->). apply noerr_ok.
  - intros [[rt k] s1] E. destruct rt; [apply noerr_ok|]. exfalso.
    assert (X : positions (of_node g n) = []).
    { refine (for_each_inv_in (fun done (x : option range_type * Z * rstate) => fst (fst x) = None -> positions done = []) _ _ _ (None, k, s1) _ _ E eq_refl); [reflexivity|].
      intros done t rst [[a b] c] [[a' b'] c'] _ IH ST. cbn [fst snd]. unfold pointer_step in ST. cbv zeta in ST. revert ST. pred_goal t; intros ST ->.
      - injection ST as -> <- <-. rewrite (positions_other done t _ E0 eq_refl). now apply IH.
      - apply bind_ok in ST as (s4 & _ & ST). injection ST as -> <- <-. rewrite (positions_other done t _ E0 eq_refl). now apply IH.
      - apply bind_ok in ST as (s4 & _ & ST). discriminate ST.
      - apply bind_ok in ST as (s4 & _ & ST). discriminate ST.
      - discriminate ST. }
    rewrite X in PE. destruct l; discriminate PE.
Qed.
Lemma pointer_fun ts p q : pointer_says ts p -> pointer_says ts q -> p = q.
Proof.
  intros (_ & l & t & E & _ & P) (_ & l' & t' & E' & _ & Q). rewrite E in E'. apply app_inj_tail in E' as [_ <-].
  destruct P as [(A & z & Z & ->)|(A & z & Z & ->)], Q as [(B & y & Y & ->)|(B & y & Y & ->)]; try congruence; exfalso; rewrite A in B; discriminate B.
Qed.
Lemma select_objects n p a : objects p (of_node g n) = [a] -> exists t, select (n_id n) p (of_node g n) = [t] /\ t_obj t = a.
Proof.
  rewrite <- select_of_node. destruct (select (n_id n) p (of_node g n)) as [|t [|u l]]; try discriminate. intros H. injection H as <-. eauto.
Qed.
Lemma range_noerr n from s : rest s -> (forall o, range_needs g n o -> reached g RFile o) -> readable_range g n -> noerr (range_from_node v g n from s).
Proof.
  intros R H (file & r & L3 & L1 & a & b & OA & OB & X). unfold range_from_node. cbv zeta. rewrite triples_of_node, L3. cbn [Nat.eqb negb].
  change RDF_TYPE with rdf_type. rewrite <- select_of_node in L1. rewrite map_length in L1. rewrite L1. cbn [Nat.eqb negb].
  destruct (select_objects n (ptr_term "startPointer") a OA) as (ta & SA & <-). destruct (select_objects n (ptr_term "endPointer") b OB) as (tb & SB & <-).
  change PTR_START_POINTER with (ptr_term "startPointer"). change PTR_END_POINTER with (ptr_term "endPointer"). rewrite SA.
  assert (HA : forall o, In o (objects (ptr_term "reference") (of_node g (t_obj ta))) -> about g (n_id o) <> [] -> reached g RFile o).
  { intros o J A. apply H. exists (ptr_term "startPointer"), (t_obj ta). rewrite OA. simpl; auto. }
  assert (HB : forall o, In o (objects (ptr_term "reference") (of_node g (t_obj tb))) -> about g (n_id o) <> [] -> reached g RFile o).
  { intros o J A. apply H. exists (ptr_term "endPointer"), (t_obj tb). rewrite OB. simpl; auto. }
  assert (PS : exists x y, pointer_says (of_node g (t_obj ta)) x /\ pointer_says (of_node g (t_obj tb)) y /\
     match x, y with Offset _, Offset _ | Line _, Line _ => True | _, _ => False end).
  { destruct X as [(x & y & PX & PY & _)|(x & y & PX & PY & _)]; [exists (Offset x), (Offset y)|exists (Line x), (Line y)]; auto. }
  destruct PS as (x & y & PX & PY & K).
  apply noerr_bind; [exact (pointer_noerr _ s x R HA PX)|]. intros [[rta za] s1] EA.
  destruct (pointer_content v g CN (t_obj ta) s rta za s1 R HA EA) as [A1 A2]. rewrite SB.
  apply noerr_bind; [exact (pointer_noerr _ s1 y (proj1 A2) HB PY)|]. intros [[rtb zb] s2] EB.
  destruct (pointer_content v g CN (t_obj tb) s1 rtb zb s2 (proj1 A2) HB EB) as [B1 _].
  pose proof (pointer_fun _ _ _ PX A1) as ->. pose proof (pointer_fun _ _ _ PY B1) as ->. destruct rta, rtb; try destruct K; apply noerr_ok.
Qed.
Lemma snippet_range_needs n t o : snippet_node g n -> In t (of_node g n) -> t_pred t = spdx "range" -> range_needs g (t_obj t) o -> reached g RFile o.
Proof. intros N T P (q & p & Q & IP & O & A). exact (rc_snippet_range g n _ p q o N (in_objects' _ _ _ T P) Q IP O A). Qed.
Lemma snippet_step_noerr n t si s : rest s -> snippet_node g n -> In t (of_node g n) -> noerr (snippet_step v g t (si, s)).
Proof.
  intros R N T. destruct (rd_snippet _ _ RD n N) as (x & SS).
  assert (OB : forall q, q = t_pred t -> In (t_obj t) (objects q (of_node g n))) by (intros q E; apply in_objects'; auto).
  pose proof (sn_only _ _ _ _ _ SS) as O. unfold only in O. rewrite Forall_forall in O. specialize (O t T).
  unfold snippet_step. cbv zeta. cbn [In snippet_predicates] in O.
  repeat (destruct O as [E|O]; [known_pred E; try apply noerr_ok|]); [| | | |destruct O].
  - apply noerr_bind; [exact (get_file_noerr _ s R (rc_snippet_file g n _ N (OB _ E)))|]. intros [b s1] _.
    destruct (last_read_in _ _ _ _ _ (sn_from _ _ _ _ _ SS) (OB _ E)) as (z & f & LP & Z). apply last_part_spec in LP. subst f.
    pose proof (fine_extract_doc_element_id (last_part (n_id (t_obj t)))) as F.
    destruct (extract_doc_element_id _) as [d|e|] eqn:X; [apply noerr_ok| |destruct F].
    destruct Z as [(d & D1 & D2 & _)|(V & _)]; [|rewrite V; apply noerr_ok].
    assert (Y : extract_doc_element_id (last_part (n_id (t_obj t))) = Ok d) by (apply extract_doc_element_id_iff; auto). congruence.
  - apply noerr_bind; [|intros [r s1] _; apply noerr_ok]. apply range_noerr; [exact R|intros o; apply (snippet_range_needs n t o N T); auto|].
    pose proof (rd_ranges _ _ RD n N) as F. rewrite Forall_forall in F. exact (F _ (OB _ E)).
  - destruct (Forall2_in _ _ _ _ (sn_licenses _ _ _ _ _ SS) (OB _ E)) as (z & Z).
    apply noerr_bind; [|intros [l s1] _; apply noerr_ok].
    apply (license_noerr g) with z; [exact (rest_calm s R)|exact (rc_snippet_license g n _ _ N (or_intror (or_introl eq_refl)) (OB _ E))|exact Z].
  - destruct (last_read_in _ _ _ _ _ (sn_concluded _ _ _ _ _ SS) (OB _ E)) as (z & Z).
    apply noerr_bind; [|intros [l s1] _; apply noerr_ok].
    apply (license_noerr g) with z; [exact (rest_calm s R)|exact (rc_snippet_license g n _ _ N (or_introl eq_refl) (OB _ E))|exact Z].
Qed.
Lemma snippet_noerr n s : rest s -> snippet_node g n -> noerr (snippet_from_node v g n s).
Proof.
  intros R N. destruct (rd_snippet _ _ RD n N) as (x & SS). unfold snippet_from_node.
  pose proof (sn_id _ _ _ _ _ SS) as ID. apply element_spec in ID. rewrite ID. cbn [bindR]. rewrite triples_of_node.
  apply noerr_for_each with (I := fun _ (x : Snippet * rstate) => rest (snd x)); [exact R|].
  intros done t rst [si s1] TS R1. cbn [snd] in R1. assert (T : In t (of_node g n)) by (rewrite TS; apply in_or_app; right; now left).
  split; [exact (snippet_step_noerr n t si s1 R1 N T)|]. intros y E. exact (proj1 (outcome_ok _ _ _ _ (snippet_step_outcome v g n t si s1 R1 N T) E)).
Qed.
(** the file of a snippet has been read *)
Lemma snippet_keys n s si s' : rest s -> snippet_node g n -> snippet_from_node v g n s = Ok (si, s') ->
  forall o, In o (objects (spdx "snippetFromFile") (of_node g n)) -> exists id, file_id o id /\ lookup id (rs_map s') <> None.
Proof.
  intros R N H. unfold snippet_from_node in H. apply bind_ok in H as (id & ID & H). rewrite triples_of_node in H.
  refine (proj2 (for_each_inv_in (fun done (x : Snippet * rstate) => rest (snd x) /\ forall o, In o (objects (spdx "snippetFromFile") done) ->
    exists id, file_id o id /\ lookup id (rs_map (snd x)) <> None) _ _ _ (si, s') _ _ H)).
  - split; [exact R|intros o []].
  - intros done t rst [si1 s1] [si2 s2] TS [R1 K1] ST. cbn [snd] in *. assert (T : In t (of_node g n)) by (rewrite TS; apply in_or_app; right; now left).
    destruct (outcome_ok _ _ _ _ (snippet_step_outcome v g n t si1 s1 R1 N T) ST) as [R2 G2]. cbn [snd] in *. split; [exact R2|].
    intros o J. apply in_objects_snoc in J as [J|[P ->]].
    + destruct (K1 o J) as (i & FI & L). exists i. split; [exact FI|]. now apply (gr_keys _ _ G2).
    + unfold snippet_step in ST. cbv zeta in ST. revert ST. symmetry in P. known_pred P. intros ST. symmetry in P. apply bind_ok in ST as ([b s3] & GF & ST).
      pose proof (outcome_ok _ _ _ _ (file_outcome v g (t_obj t) s1 R1 (rc_snippet_file g n _ N (in_objects' _ _ _ T P))) GF) as (_ & _ & i & FI & _ & L).
      cbn [snd] in L. exists i. split; [exact FI|].
      assert (s3 = s2) as <-; [|exact L].
      destruct (extract_doc_element_id _) as [d|e|]; [now injection ST|destruct v; try discriminate ST; now injection ST|discriminate ST].
Qed.
Lemma from_term_fun o x y : from_term v o x -> from_term v o y -> x = y.
Proof.
  intros (f & F & X) (f' & F' & Y). pose proof (last_piece_fun _ _ _ F F') as <-.
  destruct X as [(d & P & T & ->)|(_ & -> & N)], Y as [(d' & P' & T' & ->)|(_ & -> & N')]; try reflexivity; try (exfalso; eauto; fail).
  assert (E : extract_doc_element_id f = Ok d) by (apply extract_doc_element_id_iff; auto).
  assert (E' : extract_doc_element_id f = Ok d') by (apply extract_doc_element_id_iff; auto). congruence.
Qed.
Lemma set_snippet_noerr n s si s' : rest s -> snippet_node g n -> snippet_from_node v g n s = Ok (si, s') -> noerr (set_snippet_to_file si s').
Proof.
  intros R N H. destruct (snippet_content v g CN n s si s' R N H) as [SS _]. destruct (rd_from _ _ RD n N) as (l & o & x & E & FT & FI).
  assert (X : s_FromFile si = x).
  { destruct (sn_from _ _ _ _ _ SS) as [_ [[E' _]|(l' & o' & E' & FT')]]; rewrite E in E'; [destruct l; discriminate E'|].
    apply app_inj_tail in E' as [_ <-]. exact (from_term_fun _ _ _ FT' FT). }
  assert (I : In o (objects (spdx "snippetFromFile") (of_node g n))) by (rewrite E; apply in_or_app; right; now left).
  destruct (snippet_keys n s si s' R N H o I) as (id & FI' & L). rewrite (file_id_fun _ _ _ FI' FI), <- X in L.
  unfold set_snippet_to_file. destruct (lookup (s_FromFile si) (rs_map s')); [|contradiction]. apply noerr_on_file. intros f. apply noerr_ok.
Qed.
Lemma root_noerr root s : rest s -> In root (g_roots g) -> noerr (root_step v g root s).
Proof.
  intros R IR. unfold root_step. rewrite select_root. destruct (root_type root IR) as (t & _ & FE & _). rewrite FE.
  destruct (_ =? _); [apply noerr_ok|]. destruct (String.eqb_spec (n_id (t_obj t)) SPDX_SNIPPET) as [E|]; [|apply noerr_ok].
  assert (N : snippet_node g (t_subj t)) by (exists root, t; auto).
  apply noerr_bind; [exact (snippet_noerr _ s R N)|]. intros [si s1] H. exact (set_snippet_noerr _ s si s1 R N H).
Qed.
Lemma load_reads iter : exists d, load v g iter = Ok d.
Proof.
  assert (NE : noerr (load v g iter)).
  { rewrite load_split. apply noerr_bind; [|intros s _; apply noerr_ok].
    apply noerr_bind; [exact get_doc_node_noerr|]. intros n DN. pose proof (outcome_ok _ _ _ _ (doc_node_outcome g) DN) as D.
    apply noerr_bind; [exact (parse_document_noerr n init_state (rest_init g) D)|]. intros s1 E1.
    pose proof (outcome_ok _ _ _ _ (parse_document_outcome v g n init_state (rest_init g) D) E1) as R1.
    apply noerr_for_each with (I := fun _ s => rest s); [exact R1|]. intros done root rst s TS R.
    assert (IR : In root (g_roots g)) by (rewrite TS; apply in_or_app; right; now left).
    split; [exact (root_noerr root s R IR)|]. intros s' E. exact (outcome_ok _ _ _ _ (root_outcome v g root s R IR) E). }
  assert (NP : ~ may_panic g).
  { intros [C|(root & IR & E)]; [exact (NC C)|]. destruct (rd_roots _ _ RD root IR) as (ty & A & _). congruence. }
  pose proof (load_outcome v g iter) as O. destruct (load v g iter) as [d|e|] eqn:E; [eauto|now destruct (NE e)|now destruct (NP O)].
Qed.
End Readable.
