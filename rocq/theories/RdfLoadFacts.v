(** From the document node and the snippets to the whole document: it ends, panics
    only on an ID with two roles or an untyped root, keeps the books of identifiers. *)
From Coq Require Import Permutation.
From Verif Require Import GoStr GoStrFacts Types TvUtil TvParser RdfConst Rdf RdfReader SpecTv SpecId SpecDoc SpecRdf SpecRdfDoc SpecRdfLoad
  TvReaderFacts TvUtilFacts TvParserFacts RdfFacts RdfLicenseFacts RdfHelperFacts RdfNodeFacts RdfStepFacts RdfWalkFacts.

Lemma outcome_panics {A} (P P' : Prop) (r : res A) Q : (P -> P') -> outcome P r Q -> outcome P' r Q.
Proof. destruct r; simpl; auto. Qed.

Section Load.
Variables (v : version) (g : graph).

(** *** licenses and snippets *)
Lemma inv_license open s c : inv g open s -> cache_more (fun id => exists n, reached g RLicense n /\ n_id n = id) (rs_cache s) c ->
  inv g open (set_rs_cache c s).
Proof.
  intros [M K C P F A] [CG CO CN]. split; simpl; auto.
  intros id o k X. change (cached_ok g s id o). destruct (lookup id (rs_cache s)) as [[o' k']|] eqn:L.
  - destruct (CO _ _ _ L) as (k2 & L2). rewrite L2 in X. injection X as -> _. exact (C _ _ _ L).
  - destruct (CN _ _ _ L X) as (-> & Y). exact Y.
Qed.
Lemma inv_snippet open s a (f f' : File) (l : list File) : inv g open s -> nth_error (rs_files s) a = Some f ->
  f_SPDXIdentifier f' = f_SPDXIdentifier f -> update_nth a (fun _ => f') (rs_files s) = Some l ->
  inv g open (set_rs_files l s).
Proof.
  intros [M K C P F A] H E U.
  assert (FA : forall b id, file_at s b id -> file_at (set_rs_files l s) b id).
  { intros b id. apply (file_at_update s a f f' l b id H E U). reflexivity. }
  assert (PA : forall b id, package_at s b id -> package_at (set_rs_files l s) b id) by (intros b id X; exact X).
  split; simpl.
  - intros k b X. apply FA. auto.
  - exact K.
  - intros id o k X. exact (cached_ok_mono g s _ id o FA PA (C _ _ _ X)).
  - intros b X. exact (P b X).
  - intros a' p b X Y. destruct (F a' p b X Y) as (id & Z & W). exists id. auto.
  - intros id X. destruct (A id X) as (a' & p & b & Y & Z & W & V). exists a', p, b. auto.
Qed.
Lemma inv_others open s h : inv g open s -> (forall d, d_Packages (h d) = d_Packages d) -> inv g open (on_doc h s).
Proof. intros [M K C P F A] H. split; simpl; rewrite ?H; auto. Qed.

(** *** what holds between the elements: nothing is being read *)
Definition may_panic : Prop := role_conflict g \/ untyped_root g.
Record rest (s : rstate) : Prop := {
  rt_inv : inv g [] s;
  rt_creation : d_CreationInfo (rs_doc s) <> None;
  rt_files : d_Files (rs_doc s) = [];
  rt_grey : forall x, is_grey (rs_cache s) x = false;
  rt_keys : forall b f, nth_error (rs_files s) b = Some f -> NoDup (map fst (f_Snippets f))
}.
Lemma others_eq d d' : others d' = others d ->
  d_CreationInfo d' = d_CreationInfo d /\ d_Files d' = d_Files d.
Proof. intros H. split; [exact (f_equal d_CreationInfo H)|exact (f_equal d_Files H)]. Qed.
Lemma rest_grows s s' : rest s -> inv g [] s' -> grows s s' -> rest s'.
Proof.
  intros [I C F W K] I' G. destruct (others_eq _ _ (gr_doc _ _ G)) as [E1 E2]. split; [exact I'|congruence|congruence| |].
  - intros x. now rewrite (gr_grey _ _ G).
  - intros b f' H. destruct (nth_error (rs_files s) b) as [f|] eqn:X.
    + destruct (gr_files _ _ G b f X) as (f1 & H1 & _ & E). assert (f1 = f') by congruence. subst f1. rewrite E. exact (K b f X).
    + rewrite (gr_fresh _ _ G b f' H X). constructor.
Qed.
Lemma rest_doc s h : rest s -> (forall d, d_Packages (h d) = d_Packages d) -> (forall d, d_Files (h d) = d_Files d) ->
  d_CreationInfo (h (rs_doc s)) <> None -> rest (on_doc h s).
Proof. intros [I C F W K] H1 H2 H3. split; [now apply inv_others|exact H3|simpl; congruence|exact W|exact K]. Qed.
Lemma rest_license s c : rest s -> cache_more (fun id => exists n, reached g RLicense n /\ n_id n = id) (rs_cache s) c -> rest (set_rs_cache c s).
Proof. intros [I C F W K] M. split; auto; [now apply inv_license|]. intros x. simpl. now rewrite (cm_grey _ _ _ M). Qed.

Lemma file_outcome n s : rest s -> reached g RFile n -> outcome may_panic (get_file v g n s) (fun bs =>
  rest (snd bs) /\ grows s (snd bs) /\ exists id, file_id n id /\ file_at (snd bs) (fst bs) id /\ lookup id (rs_map (snd bs)) <> None).
Proof.
  intros R N. eapply outcome_panics; [left; eassumption|].
  eapply outcome_weaken; [|apply (wk_file _ _ _ (walks_all v g (enough g)) [] n s (rt_inv _ R) N (room_enough _ _ _))].
  intros [b s'] _ (I & G & id & FI & FA & K). simpl in *. split; [exact (rest_grows _ _ R I G)|]. split; [exact G|].
  exists id. split; [exact FI|]. split; [exact FA|]. apply K. apply (rt_grey _ R).
Qed.
Lemma package_outcome n s : rest s -> reached g RPackage n -> outcome may_panic (get_package v g n s) (fun bs =>
  rest (snd bs) /\ grows s (snd bs) /\ exists id, package_id n id /\ package_at (snd bs) (fst bs) id /\
    In (fst bs) (d_Packages (rs_doc (snd bs)))).
Proof.
  intros R N. eapply outcome_panics; [left; eassumption|].
  eapply outcome_weaken; [|apply (wk_package _ _ _ (walks_all v g (enough g)) [] n s (rt_inv _ R) N (room_enough _ _ _))].
  intros [b s'] _ (I & G & id & FI & FA & K). simpl in *. split; [exact (rest_grows _ _ R I G)|]. split; [exact G|].
  exists id. split; [exact FI|]. split; [exact FA|]. apply K. apply (rt_grey _ R).
Qed.
Lemma relationship_outcome t s : rest s -> reached g RRelationship (t_obj t) -> outcome may_panic (parse_relationship v g t s) (fun s' =>
  rest s' /\ grows s s').
Proof.
  intros R N. eapply outcome_panics; [left; eassumption|].
  eapply outcome_weaken; [|apply (wk_relationship _ _ _ (walks_all v g (enough g)) [] t s (rt_inv _ R) N (room_enough _ _ _))].
  intros s' _ (I & G). split; [exact (rest_grows _ _ R I G)|exact G].
Qed.
Lemma license_outcome n s : rest s -> reached g RLicense n -> outcome may_panic (with_license g n s) (fun ls =>
  rest (snd ls) /\ grows s (snd ls) /\ license_text g [] n (fst ls) /\
  exists c, snd ls = set_rs_cache c s /\ cache_more (fun id => exists n, reached g RLicense n /\ n_id n = id) (rs_cache s) c).
Proof.
  intros R N. unfold with_license. apply (outcome_bind _ _ _ _ _ (outcome_fine _ _ (get_any_license_fine _ _ _))).
  intros [l c] _ L. cbn [outcome fst snd].
  assert (CM : cache_more (fun id => exists n, reached g RLicense n /\ n_id n = id) (rs_cache s) c).
  { apply license_cache in L as [A B C]. split; auto. intros i o j X Y. destruct (C i o j X Y) as (-> & path & m & CH & <-).
    split; [reflexivity|]. exists m. split; [|reflexivity]. exact (reached_chain g _ _ _ N CH). }
  split; [exact (rest_license _ _ R CM)|]. split; [|split; [exact (license_read _ _ _ _ _ L)|exists c; auto]].
  split; simpl; auto using incl_refl.
  - eauto.
  - intros a p X. exists p. split; [exact X|]. split; [reflexivity|apply incl_refl].
  - exact (cm_grey _ _ _ CM).
  - congruence.
Qed.

(** *** the document node *)
Lemma document_step_outcome d t s : rest s -> document_node g d -> In t (of_node g d) ->
  outcome may_panic (document_step v g t s) rest.
Proof.
  intros R D T.
  assert (OB : forall q, t_pred t = q -> In (t_obj t) (objects q (of_node g d))) by (intros q E; apply in_objects; eauto).
  unfold document_step. cbv zeta. pred_goal t; try exact R; try discriminate;
    try (cbn [outcome]; apply rest_doc; [exact R|reflexivity|reflexivity|exact (rt_creation _ R)]).
  - apply (outcome_bind _ _ _ _ _ (license_outcome _ s R (rc_document_license g d _ D (OB _ E)))).
    intros [l s1] _ (R1 & _). cbn [outcome fst snd] in *. apply rest_doc; [exact R1|reflexivity|reflexivity|exact (rt_creation _ R1)].
  - apply (outcome_bind _ _ _ _ _ (outcome_fine _ _ (fine_external_document _ _))). intros x _ _.
    cbn [outcome]. apply rest_doc; [exact R|reflexivity|reflexivity|exact (rt_creation _ R)].
  - destruct (d_CreationInfo (rs_doc s)) as [c|] eqn:C; [|exfalso; exact (rt_creation _ R C)].
    apply (outcome_bind _ _ _ _ _ (outcome_fine _ _ (fine_creation_info _ _))). intros x _ _.
    cbn [outcome]. apply rest_doc; [exact R|reflexivity|reflexivity|discriminate].
  - apply (outcome_bind _ _ _ _ _ (outcome_fine _ _ (fine_review _ _))). intros x _ _.
    cbn [outcome]. apply rest_doc; [exact R|reflexivity|reflexivity|exact (rt_creation _ R)].
  - apply (outcome_bind _ _ _ _ _ (package_outcome _ s R (rc_document_package g d _ D (OB _ E)))).
    intros [a s1] _ ([I1 C1 F1 W1 K1] & _ & id & _ & A & _). cbn [outcome fst snd] in *.
    split; [|exact C1|exact F1|exact W1|exact K1]. exact (inv_store g [] s1 a id (inv_open g [] a s1 I1) A).
  - apply (outcome_bind _ _ _ _ _ (outcome_fine _ _ (fine_extracted _ _))). intros [l x] _ _.
    cbn [outcome]. apply rest_doc; [exact R|reflexivity|reflexivity|exact (rt_creation _ R)].
  - eapply outcome_weaken; [|apply (relationship_outcome t s R (rc_document_relationship g d _ D (OB _ E)))]. intros s1 _ [R1 _]. exact R1.
  - unfold parse_annotation. apply (outcome_bind _ _ _ _ _ (outcome_fine _ _ (fine_annotation _ _))). intros x _ _.
    cbn [outcome]. apply rest_doc; [exact R|reflexivity|reflexivity|exact (rt_creation _ R)].
Qed.
Lemma parse_document_outcome d s : rest s -> document_node g d -> outcome may_panic (parse_document_node v g d s) rest.
Proof.
  intros R D. unfold parse_document_node. apply (outcome_bind _ _ _ _ _ (outcome_fine _ _ (fine_extract_subs_sep _ _))).
  intros [base off] _ _. rewrite triples_of_node.
  apply outcome_for_each with (I := fun _ s => rest s).
  - apply rest_doc; [exact R|reflexivity|reflexivity|exact (rt_creation _ R)].
  - intros done t rst s' TS R'. apply document_step_outcome with d; [exact R'|exact D|]. rewrite TS. apply in_or_app. right. now left.
Qed.

(** *** finding the document node *)
Lemma select_texts n : texts rdf_type (of_node g n) = map (fun t => n_id (t_obj t)) (select (n_id n) RDF_TYPE (of_node g n)).
Proof. unfold texts. rewrite <- select_of_node, map_map. reflexivity. Qed.
Lemma doc_node_outcome : outcome may_panic (get_doc_node g) (document_node g).
Proof.
  unfold get_doc_node.
  apply (outcome_bind _ _ _ (fun x => match x with Some n => document_node g n | None => True end)).
  - apply outcome_for_each with (I := fun _ x => match x with Some n => document_node g n | None => True end); [exact Logic.I|].
    intros done root rst x TS H. assert (IR : In root (g_roots g)) by (rewrite TS; apply in_or_app; right; now left).
    unfold doc_node_step. cbv zeta. rewrite triples_of_node. pose proof (select_texts root) as ST.
    pose proof (fun t => in_select_of_node g root RDF_TYPE t) as SI.
    destruct (select (n_id root) RDF_TYPE (of_node g root)) as [|t l].
    + cbn [outcome]. right. exists root. auto.
    + destruct (String.eqb_spec (n_id (t_obj t)) SPDX_SPDX_DOCUMENT_CAPITALIZED) as [E|]; [|exact H].
      destruct l as [|u l]; cbn [length Nat.eqb negb]; [|discriminate].
      assert (ND : document_node g (t_subj t)).
      { rewrite (of_node_subject g root t (SI t (or_introl eq_refl))). split; [exact IR|]. unfold typed_node. rewrite ST. cbn [map].
        now rewrite E. }
      destruct x as [m|]; [|exact ND]. destruct (_ =? _); [exact ND|discriminate].
  - intros [n|] _ H; [exact H|discriminate].
Qed.

(** *** snippets *)
Lemma range_reference_outcome n s : rest s -> (about g (n_id n) <> [] -> reached g RFile n) ->
  outcome may_panic (range_reference v g n s) (fun s' => rest s' /\ grows s s').
Proof.
  intros R H. unfold range_reference. change (triples_with_id g (n_id n)) with (about g (n_id n)).
  destruct (about g (n_id n)) as [|t ts].
  - cbn [outcome]. split; [exact R|apply grows_refl].
  - apply (outcome_bind _ _ _ _ _ (file_outcome _ s R (H ltac:(discriminate)))). intros [b s1] _ (R1 & G1 & _). cbn [outcome fst snd] in *. auto.
Qed.
Lemma fine_atoi x : fine (atoi x).
Proof.
  unfold atoi. destruct (match x with "" => _ | String a s' => _ end) as [neg body].
  destruct (read_N body); [|fine_leaf]. cbv zeta. destruct (in_int _); fine_leaf.
Qed.
Lemma pointer_outcome n s : rest s ->
  (forall o, In o (objects (ptr_term "reference") (of_node g n)) -> about g (n_id o) <> [] -> reached g RFile o) ->
  outcome may_panic (pointer_from_node v g n s) (fun x => rest (snd x) /\ grows s (snd x)).
Proof.
  intros R H. unfold pointer_from_node. rewrite triples_of_node.
  apply (outcome_bind _ _ _ (fun x => rest (snd x) /\ grows s (snd x))).
  - apply outcome_for_each with (I := fun _ (x : option range_type * Z * rstate) => rest (snd x) /\ grows s (snd x)); [split; [exact R|apply grows_refl]|].
    intros done t rst [[rt k] s1] TS [R1 G1]. cbn [snd] in *.
    assert (T : In t (of_node g n)) by (rewrite TS; apply in_or_app; right; now left).
    unfold pointer_step. cbv zeta. pred_goal t.
    + cbn [outcome snd]. auto.
    + apply (outcome_bind _ _ _ (fun s' => rest s' /\ grows s1 s')).
      * apply range_reference_outcome; [exact R1|]. apply H. apply in_objects. eauto.
      * intros s2 _ [R2 G2]. cbn [outcome snd]. split; [exact R2|exact (grows_trans _ _ _ G1 G2)].
    + apply (outcome_bind _ _ _ _ _ (outcome_fine _ _ (fine_atoi _))). intros z _ _. cbn [outcome snd]. auto.
    + apply (outcome_bind _ _ _ _ _ (outcome_fine _ _ (fine_atoi _))). intros z _ _. cbn [outcome snd]. auto.
    + discriminate.
  - intros [[[rt|] k] s1] _ H1; [exact H1|discriminate].
Qed.
Lemma in_select g' n p t : In t (select (n_id n) p (of_node g' n)) -> In t (of_node g' n) /\ t_pred t = p.
Proof.
  unfold select. rewrite with_subject_of_node, filter_In. intros [A B]. split; [exact A|now apply String.eqb_eq].
Qed.
Lemma range_outcome n from s : rest s ->
  (forall q p o, In q [ptr_term "startPointer"; ptr_term "endPointer"] -> In p (objects q (of_node g n)) ->
     In o (objects (ptr_term "reference") (of_node g p)) -> about g (n_id o) <> [] -> reached g RFile o) ->
  outcome may_panic (range_from_node v g n from s) (fun x => rest (snd x) /\ grows s (snd x)).
Proof.
  intros R H. unfold range_from_node. cbv zeta. rewrite triples_of_node.
  destruct (negb _); [discriminate|]. destruct (negb _); [discriminate|].
  destruct (select (n_id n) PTR_START_POINTER (of_node g n)) as [|ta [|u l]] eqn:SA; try discriminate.
  destruct (in_select g n PTR_START_POINTER ta) as [IA PA]; [rewrite SA; now left|].
  apply (outcome_bind _ _ _ _ _ (pointer_outcome (t_obj ta) s R
    (fun o => H (ptr_term "startPointer") (t_obj ta) o (or_introl eq_refl) (proj2 (in_objects _ _ _) (ex_intro _ ta (conj IA (conj PA eq_refl))))))).
  intros [[rta a] s1] _ [R1 G1]. cbn [snd] in *.
  destruct (select (n_id n) PTR_END_POINTER (of_node g n)) as [|tb [|u l]] eqn:SB; try discriminate.
  destruct (in_select g n PTR_END_POINTER tb) as [IB PB]; [rewrite SB; now left|].
  apply (outcome_bind _ _ _ _ _ (pointer_outcome (t_obj tb) s1 R1
    (fun o => H (ptr_term "endPointer") (t_obj tb) o (or_intror (or_introl eq_refl)) (proj2 (in_objects _ _ _) (ex_intro _ tb (conj IB (conj PB eq_refl))))))).
  intros [[rtb b] s2] _ [R2 G2]. cbn [snd] in *. pose proof (grows_trans _ _ _ G1 G2).
  destruct rta, rtb; try discriminate; cbn [outcome snd]; auto.
Qed.
Lemma snippet_step_outcome n t si s : rest s -> snippet_node g n -> In t (of_node g n) ->
  outcome may_panic (snippet_step v g t (si, s)) (fun x => rest (snd x) /\ grows s (snd x)).
Proof.
  intros R N T.
  assert (OB : forall q, t_pred t = q -> In (t_obj t) (objects q (of_node g n))) by (intros q E; apply in_objects; eauto).
  pose proof (grows_refl s) as G0.
  unfold snippet_step. cbv zeta. pred_goal t; try discriminate; try (cbn [outcome snd]; auto).
  - apply (outcome_bind _ _ _ _ _ (file_outcome _ s R (rc_snippet_file g n _ N (OB _ E)))).
    intros [b s1] _ (R1 & G1 & _). cbn [fst snd] in *.
    pose proof (fine_extract_doc_element_id (last_part (n_id (t_obj t)))) as F. destruct (extract_doc_element_id _) as [d|e|]; cbn [fine] in F.
    + cbn [outcome snd]. auto.
    + destruct v; cbn [outcome snd]; auto.
    + destruct F.
  - apply (outcome_bind _ _ _ (fun x => rest (snd x) /\ grows s (snd x))).
    + apply range_outcome; [exact R|]. intros q p o Q P O A. exact (rc_snippet_range g n _ p q o N (OB _ E) Q P O A).
    + intros [r s1] _ H. exact H.
  - apply (outcome_bind _ _ _ _ _ (license_outcome _ s R (rc_snippet_license g n _ _ N (or_intror (or_introl eq_refl)) (OB _ E)))).
    intros [l s1] _ (R1 & G1 & _). cbn [outcome snd] in *. auto.
  - apply (outcome_bind _ _ _ _ _ (license_outcome _ s R (rc_snippet_license g n _ _ N (or_introl eq_refl) (OB _ E)))).
    intros [l s1] _ (R1 & G1 & _). cbn [outcome snd] in *. auto.
Qed.
Lemma snippet_outcome n s : rest s -> snippet_node g n ->
  outcome may_panic (snippet_from_node v g n s) (fun x => rest (snd x) /\ grows s (snd x)).
Proof.
  intros R N. unfold snippet_from_node. apply (outcome_bind _ _ _ _ _ (outcome_fine _ _ (fine_extract_element_id _))).
  intros id _ _. rewrite triples_of_node.
  apply outcome_for_each with (I := fun _ (x : Snippet * rstate) => rest (snd x) /\ grows s (snd x)); [split; [exact R|apply grows_refl]|].
  intros done t rst [si s1] TS [R1 G1]. cbn [snd] in *.
  eapply outcome_weaken; [|apply (snippet_step_outcome n t si s1 R1 N)].
  - intros x _ [R2 G2]. split; [exact R2|exact (grows_trans _ _ _ G1 G2)].
  - rewrite TS. apply in_or_app. right. now left.
Qed.
Lemma map_put_in {A} k (x : A) m j : In j (map fst (map_put k x m)) -> j = k \/ In j (map fst m).
Proof.
  induction m as [|[i y] m IH]; cbn [map_put]; [cbn; intuition|]. destruct (String.eqb_spec k i) as [->|N]; cbn; [intuition|].
  intros [<-|H]; [auto|]. destruct (IH H); auto.
Qed.
Lemma map_put_keys {A} k (x : A) m : NoDup (map fst m) -> NoDup (map fst (map_put k x m)).
Proof.
  induction m as [|[i y] m IH]; cbn [map_put]; intros N; [repeat constructor; intros []|]. inversion N; subst.
  destruct (String.eqb_spec k i) as [->|NE]; cbn; [constructor; assumption|]. constructor; [|now apply IH].
  intros H. destruct (map_put_in _ _ _ _ H) as [->|]; auto.
Qed.
Lemma set_snippet_outcome si s : rest s -> outcome may_panic (set_snippet_to_file si s) rest.
Proof.
  intros [I C F W K]. unfold set_snippet_to_file. destruct (lookup (s_FromFile si) (rs_map s)) as [a|] eqn:L; [|discriminate].
  destruct (iv_map _ _ _ I _ _ L) as (f & H & _).
  match goal with |- context [on_file a ?r s] => destruct (on_file_ok s a r f _ H eq_refl) as (l & U & ->) end.
  cbn [outcome]. split; [|exact C|exact F|exact W|]; [refine (inv_snippet [] s a f _ l I H _ U); reflexivity|].
  intros b x X. change (nth_error l b = Some x) in X. rewrite (update_nth_nth _ _ _ _ b U) in X. destruct (Nat.eqb_spec b a) as [->|NE]; [|exact (K b x X)].
  rewrite H in X. injection X as <-. exact (map_put_keys _ _ _ (K a f H)).
Qed.
Lemma select_root root : select (n_id root) RDF_TYPE (g_triples g) = filter (fun u => t_pred u =? rdf_type) (about g (n_id root)).
Proof. reflexivity. Qed.
Lemma root_outcome root s : rest s -> In root (g_roots g) -> outcome may_panic (root_step v g root s) rest.
Proof.
  intros R IR. unfold root_step. rewrite select_root.
  destruct (filter (fun u => t_pred u =? rdf_type) (about g (n_id root))) as [|t [|u l]] eqn:FE; try discriminate.
  destruct (_ =? _); [exact R|]. destruct (String.eqb_spec (n_id (t_obj t)) SPDX_SNIPPET) as [E|]; [|exact R].
  assert (N : snippet_node g (t_subj t)) by (exists root, t; auto).
  apply (outcome_bind _ _ _ _ _ (snippet_outcome (t_subj t) s R N)). intros [si s1] _ [R1 _]. now apply set_snippet_outcome.
Qed.
Lemma rest_init : rest init_state.
Proof.
  split; [|discriminate|reflexivity|reflexivity|intros b f H; destruct b; discriminate H]. split; simpl; try discriminate; try contradiction; try constructor.
  intros a p b H. destruct a; discriminate H.
Qed.
Lemma roots_outcome : outcome may_panic
  (let* n := get_doc_node g in let* s1 := parse_document_node v g n init_state in for_each (root_step v g) (g_roots g) s1) rest.
Proof.
  apply (outcome_bind _ _ _ _ _ doc_node_outcome). intros n _ D.
  apply (outcome_bind _ _ _ _ _ (parse_document_outcome n init_state rest_init D)). intros s1 _ R1.
  apply outcome_for_each with (I := fun _ s => rest s); [exact R1|].
  intros done root rst s TS R. apply root_outcome; [exact R|]. rewrite TS. apply in_or_app. right. now left.
Qed.
End Load.

(** ** The result *)
Lemma load_split v g iter : load v g iter = bindR
  (let* n := get_doc_node g in let* s1 := parse_document_node v g n init_state in for_each (root_step v g) (g_roots g) s1)
  (fun s => Ok (deref_doc (on_doc (fun d => set_d_Files (d_Files d ++ unpackaged iter s)%list d) s))).
Proof.
  unfold load, load_state. destruct (get_doc_node g) as [n|e|]; [|reflexivity|reflexivity]. cbn [bindR].
  destruct (parse_document_node v g n init_state); [|reflexivity|reflexivity]. cbn [bindR].
  now destruct (for_each _ _ _).
Qed.
Lemma load_outcome v g iter : outcome (may_panic g) (load v g iter) (fun d => exists s, rest g s /\
  d = deref_doc (on_doc (fun d => set_d_Files (unpackaged iter s) d) s)).
Proof.
  rewrite load_split. apply (outcome_bind _ _ _ _ _ (roots_outcome v g)). intros s _ R. cbn [outcome]. exists s. split; [exact R|].
  unfold on_doc. now rewrite (rt_files _ _ R).
Qed.
Lemma load_ends v g iter : load v g iter <> Err out_of_fuel.
Proof. pose proof (load_outcome v g iter) as H. intros E. rewrite E in H. now apply H. Qed.
Lemma load_panic v g iter : load v g iter = Panic -> role_conflict g \/ untyped_root g.
Proof. pose proof (load_outcome v g iter) as H. intros E. rewrite E in H. exact H. Qed.
Lemma load_same v g iter iter' : (forall d, load v g iter = Ok d -> exists d', load v g iter' = Ok d') /\
  (forall e, load v g iter = Err e -> load v g iter' = Err e) /\ (load v g iter = Panic -> load v g iter' = Panic).
Proof. rewrite !load_split. destruct (bindR (get_doc_node g) _); cbn [bindR]; repeat split; try discriminate; eauto; congruence. Qed.

(** *** the files of the document and those of its packages *)
Lemma lookup_in_nodup {A} (m : list (string * A)) k b : NoDup (map fst m) -> In (k, b) m -> lookup k m = Some b.
Proof.
  induction m as [|[k' b'] m IH]; intros N I; [destruct I|]. inversion N as [|? ? N1 N2]; subst. simpl.
  destruct I as [I|I].
  - injection I as -> ->. now rewrite String.eqb_refl.
  - destruct (String.eqb_spec k k') as [->|]; [|auto]. exfalso. apply N1. apply (in_map fst) in I. exact I.
Qed.
Lemma lookup_in {A} (m : list (string * A)) k b : lookup k m = Some b -> In (k, b) m.
Proof.
  induction m as [|[k' b'] m IH]; simpl; [discriminate|]. destruct (String.eqb_spec k k') as [->|]; [intros H; injection H as ->; now left|auto].
Qed.
Lemma deref_map s (l : list (string * nat)) : (forall k b, In (k, b) l -> file_at s b k) ->
  map f_SPDXIdentifier (deref_files s (map snd l)) = map fst l.
Proof.
  induction l as [|[k b] l IH]; intros H; [reflexivity|]. cbn [map snd fst]. unfold deref_files in *. cbn [flat_map].
  destruct (H k b (or_introl eq_refl)) as (f & F & E). rewrite F. cbn [app map]. rewrite E. f_equal. apply IH.
  intros k' b' I. apply H. now right.
Qed.
Lemma in_deref s l f : In f (deref_files s l) <-> exists a, In a l /\ nth_error (rs_files s) a = Some f.
Proof.
  unfold deref_files. rewrite in_flat_map. split.
  - intros (a & I & H). exists a. split; [exact I|]. destruct (nth_error (rs_files s) a) as [x|]; [|destruct H]. destruct H as [->|[]]. reflexivity.
  - intros (a & I & H). exists a. split; [exact I|]. rewrite H. now left.
Qed.
Lemma in_deref_pkgs s l q : In q (deref_pkgs s l) <-> exists a p, In a l /\ nth_error (rs_pkgs s) a = Some p /\ q = deref_pkg s p.
Proof.
  unfold deref_pkgs. rewrite in_flat_map. split.
  - intros (a & I & H). destruct (nth_error (rs_pkgs s) a) as [x|] eqn:E; [|destruct H]. destruct H as [<-|[]]. eauto.
  - intros (a & p & I & H & ->). exists a. split; [exact I|]. rewrite H. now left.
Qed.
Lemma NoDup_filter_fst {A} (p : string * A -> bool) (l : list (string * A)) : NoDup (map fst l) -> NoDup (map fst (filter p l)).
Proof.
  induction l as [|x l IH]; intros N; [exact N|]. inversion N as [|? ? N1 N2]; subst. simpl. destruct (p x); [|auto].
  simpl. constructor; [|auto]. intros H. apply N1. apply in_map_iff in H as (y & <- & I). apply filter_In in I as [I _]. now apply in_map.
Qed.
Lemma unpackaged_ids g iter s : rest g s -> shuffle iter ->
  map f_SPDXIdentifier (deref_files s (unpackaged iter s)) = map fst (filter (fun kv => negb (mem (fst kv) (rs_assoc s))) (iter (rs_map s))).
Proof.
  intros R P. unfold unpackaged. apply deref_map. intros k b I. apply filter_In in I as [I _].
  apply (Permutation_in _ (P _)) in I. apply (iv_map _ _ _ (rt_inv _ _ R)). apply lookup_in_nodup; [|exact I]. exact (iv_keys _ _ _ (rt_inv _ _ R)).
Qed.
Lemma load_files_distinct v g iter d : shuffle iter -> load v g iter = Ok d -> NoDup (map f_SPDXIdentifier (d_Files d)).
Proof.
  intros P H. pose proof (load_outcome v g iter) as O. rewrite H in O. destruct O as (s & R & ->). cbn [deref_doc d_Files on_doc set_rs_doc rs_doc set_d_Files].
  change (deref_files (on_doc _ s)) with (deref_files s). rewrite (unpackaged_ids g iter s R P). apply NoDup_filter_fst.
  apply (Permutation_NoDup (l := map fst (rs_map s))); [|exact (iv_keys _ _ _ (rt_inv _ _ R))].
  apply Permutation_map. symmetry. apply P.
Qed.
Lemma load_files_apart v g iter d p f f' : shuffle iter -> load v g iter = Ok d -> In p (d_Packages d) -> In f (p_Files p) ->
  In f' (d_Files d) -> f_SPDXIdentifier f <> f_SPDXIdentifier f'.
Proof.
  intros P H. pose proof (load_outcome v g iter) as O. rewrite H in O. destruct O as (s & R & ->). cbn [deref_doc d_Files d_Packages on_doc set_rs_doc rs_doc set_d_Files].
  change (deref_files (on_doc _ s)) with (deref_files s). change (deref_pkgs (on_doc _ s)) with (deref_pkgs s).
  intros IP IF IF' E. apply in_deref_pkgs in IP as (a & q & IA & Q & ->).
  cbn [deref_pkg p_Files] in IF. apply in_deref in IF as (b & IB & F).
  destruct (iv_files _ _ _ (rt_inv _ _ R) a q b Q IB) as (id & (x & X & EX) & AS). assert (x = f) by congruence. subst x.
  apply (in_map f_SPDXIdentifier) in IF'. rewrite (unpackaged_ids g iter s R P) in IF'. apply in_map_iff in IF' as ([k c] & EK & IK).
  apply filter_In in IK as [_ IK]. cbn [fst] in *. apply Bool.negb_true_iff in IK. apply mem_false in IK. apply IK. congruence.
Qed.
(** the order in which Go walks its map only matters for the order of the files *)
Lemma load_order v g iter iter' d d' : shuffle iter -> shuffle iter' -> load v g iter = Ok d -> load v g iter' = Ok d' ->
  Permutation (d_Files d) (d_Files d') /\ set_d_Files [] d = set_d_Files [] d'.
Proof.
  intros P P'. rewrite !load_split. destruct (bindR (get_doc_node g) _) as [s| |]; cbn [bindR]; try discriminate.
  intros H H'. injection H as <-. injection H' as <-. split; [|reflexivity].
  cbn [deref_doc d_Files on_doc set_rs_doc rs_doc set_d_Files]. change (deref_files (on_doc _ s)) with (deref_files s).
  assert (PM : Permutation (filter (fun kv => negb (mem (fst kv) (rs_assoc s))) (iter (rs_map s)))
    (filter (fun kv => negb (mem (fst kv) (rs_assoc s))) (iter' (rs_map s)))).
  { assert (PF : forall (q : string * nat -> bool) l l', Permutation l l' -> Permutation (filter q l) (filter q l')).
    { intros q l l' X. induction X; simpl; auto.
      - destruct (q x); auto.
      - destruct (q x), (q y); auto. constructor.
      - now apply perm_trans with (filter q l'). }
    apply PF. transitivity (rs_map s); [apply P|symmetry; apply P']. }
  assert (U : Permutation (unpackaged iter s) (unpackaged iter' s)) by (unfold unpackaged; now apply Permutation_map).
  unfold deref_files. apply Permutation_flat_map. now apply Permutation_app_head.
Qed.
