(** The document that is read is the one the graph stands for. *)
From Coq Require Import Permutation.
From Verif Require Import GoStr GoStrFacts Types TvUtil TvParser RdfConst Rdf RdfReader SpecTv SpecId SpecDoc SpecRdf SpecRdfDoc SpecRdfLoad
  SpecRdfContent SpecRdfWays TvReaderFacts TvUtilFacts TvParserFacts RdfFacts RdfVisitFacts RdfLicenseFacts RdfHelperFacts RdfNodeFacts RdfStepFacts RdfWalkFacts
  RdfLoadFacts RdfContentFacts.

(** ** Document nodes *)
Lemma creation_info_more ts0 ts c0 c : creation_info_says ts0 c0 -> for_each creation_info_step ts c0 = Ok c -> creation_info_says (ts0 ++ ts) c.
Proof.
  intros S. revert ts c. apply (for_each_inv (fun ts => creation_info_says (ts0 ++ ts))); [now rewrite app_nil_r|].
  intros done t s s' [H1 H2 H3 H4 H5] H. rewrite app_assoc. unfold creation_info_step in H. cbv zeta in H. pred_cases.
  - injection H as <-. record_step E.
  - apply actor3_bind in H as (k & n & A & H). injection H as <-. record_step E.
  - injection H as <-. record_step E.
  - injection H as <-. record_step E.
  - injection H as <-. record_step E.
  - discriminate.
Qed.
Lemma creation_info_zero : creation_info_says [] zero_CreationInfo.
Proof. record_start. Qed.
Lemma document_says_others g n ts d d' : others d' = others d -> document_says g n ts d -> document_says g n ts d'.
Proof.
  intros E. destruct d, d'. unfold others in E. cbn in E. injection E as -> -> -> -> -> -> -> -> -> -> -> ->.
  intros []. split; assumption.
Qed.
Lemma get_doc_node_all g d : get_doc_node g = Ok d -> document_node g d /\ forall m, document_node g m -> n_id m = n_id d.
Proof.
  intros H. split; [pose proof (doc_node_outcome g) as O; now rewrite H in O|].
  unfold get_doc_node in H. apply bind_ok in H as (x & H & X).
  assert (P : forall m, In m (g_roots g) -> document_node g m -> exists y, x = Some y /\ n_id y = n_id m).
  { refine (for_each_inv_in (fun done x => forall m, In m done -> document_node g m -> exists y, x = Some y /\ n_id y = n_id m) _ _ _ _ _ _ H);
      [intros m []|].
    intros done root rest x1 x2 _ IH ST m J M. unfold doc_node_step in ST. cbv zeta in ST. rewrite triples_of_node in ST.
    pose proof (fun t => in_select_of_node g root RDF_TYPE t) as SI. pose proof (select_texts g root) as SX.
    destruct (select (n_id root) RDF_TYPE (of_node g root)) as [|t l]; [discriminate ST|].
    assert (SU : t_subj t = root) by exact (of_node_subject g root t (SI t (or_introl eq_refl))).
    destruct (String.eqb_spec (n_id (t_obj t)) SPDX_SPDX_DOCUMENT_CAPITALIZED) as [E|E].
    - destruct l as [|u l]; cbn [length Nat.eqb negb] in ST; [|discriminate ST].
      assert (X2 : x2 = Some root /\ (x1 = None \/ exists y, x1 = Some y /\ n_id y = n_id root)).
      { destruct x1 as [y|]; [destruct (String.eqb_spec (n_id y) (n_id (t_subj t))); [|discriminate ST]|]; injection ST as <-; rewrite SU in *; split; eauto. }
      destruct X2 as [-> X1]. exists root. split; [reflexivity|]. apply in_app_or in J as [J|[<-|[]]]; [|reflexivity].
      destruct (IH m J M) as (y & -> & Ey). destruct X1 as [X1|(z & X1 & Ez)]; [discriminate X1|]. injection X1 as <-. congruence.
    - injection ST as <-. apply in_app_or in J as [J|[<-|[]]]; [now apply IH|]. destruct M as [_ M]. unfold typed_node in M.
      rewrite SX in M. destruct l; [|discriminate M]. cbn [map] in M. injection M as M. contradiction. }
  intros m M. destruct (P m (proj1 M) M) as (y & -> & E). injection X as ->. now symmetry.
Qed.

Section Whole.
Variables (v : version) (g : graph).
Hypothesis CN : consistent g.
Notation ok := (ok v g).
Notation ext0 := (ext (fun _ => false)).
Notation rest := (rest g).

Lemma ok_doc G s h : ok G s -> (forall a, In a (d_Packages (h (rs_doc s))) <-> In a (d_Packages (rs_doc s))) ->
  d_Relationships (h (rs_doc s)) = d_Relationships (rs_doc s) -> d_Annotations (h (rs_doc s)) = d_Annotations (rs_doc s) ->
  ok G (on_doc h s) /\ ext0 G s G (on_doc h s).
Proof.
  intros O P R A.
  assert (E : ext0 G s G (on_doc h s)).
  { split; cbn; auto using incl_refl, objects_kept_refl.
    - intros b n x H. exists []. now rewrite app_nil_r.
    - intros b n x H. exists []. now rewrite app_nil_r.
    - intros a J. now apply P. }
  split; [|exact E]. pose proof (ext_keeps g _ _ _ _ _ E) as KP. destruct O. split; cbn; auto.
  - now rewrite R.
  - now rewrite A.
  - intros a n x H W. destruct (ok_closed_pkg a n x H W) as (k & X & Y). exists k. split; [exact X|]. intros J. apply Y. now apply P.
  - intros n c RN C. rewrite P. exact (ok_cache_pkg n c RN C).
  - intros a n x J. apply ok_doc_cache. now apply P.
  - intros t u H J. exact (next_rel_keeps _ _ _ _ _ u KP (ok_next_rel t u H J)).
  - intros n RN Z. destruct (ok_met_pkg n RN Z) as (a & x & J & H). exists a, x. split; [now apply P|exact H].
Qed.
Lemma ext_none gry G s G' s' : ext gry G s G' s' -> ext0 G s G' s'.
Proof. apply ext_less. discriminate. Qed.

(** *** from the fuel to the parsers *)
Definition none (x : string) : bool := false.
Notation visits st t := (visit g (enough g) none st t).
Notation onwards st t := (onward g (enough g) none st t).
Lemma visit_rest s st t : rest s -> visit g (enough g) (is_grey (rs_cache s)) st t = visits st t.
Proof. intros R. apply visit_ext. intros x. apply (rt_grey _ _ R). Qed.
Lemma get_file_content n t0 s G b s' : rest s -> ok G s -> reached g RFile n -> t_obj t0 = n -> entering t0 = true -> get_file v g n s = Ok (b, s') ->
  rest s' /\ grows s s' /\ exists G', ok G' s' /\ ext0 G s G' s' /\ held G' s' n b /\ gh_met G' = (gh_met G ++ visits AtFile t0)%list.
Proof.
  intros R O N TO TE H. pose proof (file_outcome v g n s R N) as F. rewrite H in F. destruct F as (R' & GW & _). cbn [fst snd] in *.
  split; [exact R'|]. split; [exact GW|].
  destruct (ct_file _ _ _ (contents_all v g CN (enough g)) [] n t0 s G b s' (rt_inv _ _ R) O N (room_enough _ _ _) TO TE H) as (G' & O' & X & Y & Z).
  rewrite (visit_rest _ _ _ R) in Z.
  exists G'. split; [exact O'|]. split; [exact (ext_none _ _ _ _ _ X)|]. split; [exact Y|exact Z].
Qed.
Lemma get_package_content n t0 s G b s' : rest s -> ok G s -> reached g RPackage n -> t_obj t0 = n -> entering t0 = true -> get_package v g n s = Ok (b, s') ->
  rest s' /\ grows s s' /\ exists G', ok G' s' /\ ext0 G s G' s' /\ held_pkg G' s' n b /\ gh_met G' = (gh_met G ++ visits AtPackage t0)%list.
Proof.
  intros R O N TO TE H. pose proof (package_outcome v g n s R N) as F. rewrite H in F. destruct F as (R' & GW & _). cbn [fst snd] in *.
  split; [exact R'|]. split; [exact GW|].
  destruct (ct_pkg _ _ _ (contents_all v g CN (enough g)) [] n t0 s G b s' (rt_inv _ _ R) O N (room_enough _ _ _) TO TE H) as (G' & O' & X & Y & Z).
  rewrite (visit_rest _ _ _ R) in Z.
  exists G'. split; [exact O'|]. split; [exact (ext_none _ _ _ _ _ X)|]. split; [exact Y|exact Z].
Qed.
Lemma relationship_content t s G s' : rest s -> ok G s -> reached g RRelationship (t_obj t) -> statement g (spdx "relationship") t ->
  parse_relationship v g t s = Ok s' -> rest s' /\ grows s s' /\ exists G', ok G' s' /\ ext0 G s G' s' /\ seen_from g G' s' t /\
    gh_met G' = (gh_met G ++ visits AtRelationship t)%list.
Proof.
  intros R O N ST H. pose proof (relationship_outcome v g t s R N) as F. rewrite H in F. destruct F as (R' & GW).
  split; [exact R'|]. split; [exact GW|].
  destruct (ct_rel _ _ _ (contents_all v g CN (enough g)) [] t s G s' (rt_inv _ _ R) O N ST (room_enough _ _ _) H) as (G' & O' & X & Y & Z).
  rewrite (visit_rest _ _ _ R) in Z.
  exists G'. split; [exact O'|]. split; [exact (ext_none _ _ _ _ _ X)|]. split; [exact Y|exact Z].
Qed.
Lemma license_content n s G l s' : rest s -> ok G s -> reached g RLicense n -> with_license g n s = Ok (l, s') ->
  rest s' /\ grows s s' /\ license_text g [] n l /\ ok G s' /\ ext0 G s G s'.
Proof.
  intros R O N H. pose proof (license_outcome g n s R N) as F. rewrite H in F. destruct F as (R' & GW & L & c & E & CM). cbn [fst snd] in *. subst s'.
  split; [exact R'|]. split; [exact GW|]. split; [exact L|]. split; [now apply ok_license|]. now apply (ext_license g).
Qed.

(** ** The document node *)
Definition next_doc (G : ghost) (s : rstate) (t : triple) : Prop :=
  (t_pred t = spdx "describesPackage" -> exists c, held_pkg G s (t_obj t) c) /\
  (t_pred t = spdx "relationship" -> seen_from g G s t) /\
  (t_pred t = spdx "annotation" -> In t (gh_ann G)).
Lemma next_doc_keeps G s G' s' t : ext0 G s G' s' -> next_doc G s t -> next_doc G' s' t.
Proof.
  intros E. destruct (ext_keeps g _ _ _ _ _ E) as [A B C D]. intros (X & Y & Z). split; [|split].
  - intros P. destruct (X P) as (c & H). eauto.
  - intros P. destruct (Y P). split; auto.
  - intros P. apply D. auto.
Qed.
Definition bare (s : rstate) : Prop := forall b f, nth_error (rs_files s) b = Some f -> f_Snippets f = [].
Lemma bare_grows s s' : bare s -> grows s s' -> bare s'.
Proof.
  intros B GW b f H. destruct (nth_error (rs_files s) b) as [x|] eqn:X; [|exact (gr_fresh _ _ GW b f H X)].
  destruct (gr_files _ _ GW b x X) as (f' & H' & _ & S). assert (f' = f) by congruence. subst f'. rewrite S. exact (B b x X).
Qed.
Record doc_at (d : node) (done : list triple) (s : rstate) : Prop := {
  da_rest : rest s;
  da_bare : bare s;
  da_says : document_says g d done (rs_doc s);
  da_ghost : exists G, ok G s /\ (forall u, In u done -> next_doc G s u) /\ gh_met G = flat_map (onward g (enough g) none AtDocument) done
}.
Lemma next_doc_none G s t : ~ In (t_pred t) [spdx "describesPackage"; spdx "relationship"; spdx "annotation"] -> next_doc G s t.
Proof. intros N. split; [|split]; intros E; exfalso; apply N; rewrite E; simpl; tauto. Qed.
Lemma document_step_content d done t s s' : document_node g d -> In t (of_node g d) -> doc_at d done s ->
  document_step v g t s = Ok s' -> doc_at d (done ++ [t]) s'.
Proof.
  intros D T [R B S (G & O & N & M)] H.
  assert (MN : ~ In (t_pred t) [spdx "describesPackage"; spdx "relationship"; spdx "annotation"] ->
    gh_met G = flat_map (onward g (enough g) none AtDocument) (done ++ [t])).
  { intros NI. rewrite flat_map_app, M. cbn [flat_map]. rewrite app_nil_r. unfold onward. destruct (follow g AtDocument t) as [st|] eqn:FO; [|now rewrite app_nil_r].
    exfalso. apply NI. apply follow_iff in FO. inversion FO as [? Q|? Q|? Q|? Q|? Q|? Q|? Q|? ? ? Q|? ? ? Q|? Q|? Q]; subst; rewrite Q; simpl; tauto. }
  assert (MY : forall st, follows g AtDocument t st -> st <> AtAnnotation -> forall G1, gh_met G1 = (gh_met G ++ visits st t)%list ->
    gh_met G1 = flat_map (onward g (enough g) none AtDocument) (done ++ [t])).
  { intros st FO NA G1 ->. rewrite flat_map_app, M. cbn [flat_map]. rewrite app_nil_r. unfold onward at 3. apply follow_iff in FO. rewrite FO.
    destruct st; try reflexivity. contradiction. }
  pose proof (document_step_outcome v g d t s R D T) as R'. rewrite H in R'. cbn [outcome] in R'.
  assert (OB : forall q, t_pred t = q -> In (t_obj t) (objects q (of_node g d))) by (intros q E; apply in_objects; eauto).
  assert (ST : forall q, t_pred t = q -> statement g q t).
  { intros q E. pose proof (of_node_subject g d t T) as SU. unfold statement. rewrite SU. auto. }
  assert (FIELD : forall h, s' = on_doc h s -> ~ In (t_pred t) [spdx "describesPackage"; spdx "relationship"; spdx "annotation"] ->
    d_Packages (h (rs_doc s)) = d_Packages (rs_doc s) -> d_Relationships (h (rs_doc s)) = d_Relationships (rs_doc s) ->
    d_Annotations (h (rs_doc s)) = d_Annotations (rs_doc s) -> document_says g d (done ++ [t]) (h (rs_doc s)) -> doc_at d (done ++ [t]) s').
  { intros h -> NI P1 P2 P3 S'. destruct (ok_doc G s h O) as [O' E']; [now rewrite P1|exact P2|exact P3|].
    split; auto. exists G. split; [exact O'|]. split; [|now apply MN]. intros u J. apply in_app_or in J as [J|[<-|[]]].
    - exact (next_doc_keeps _ _ _ _ u E' (N u J)).
    - now apply next_doc_none. }
  unfold document_step in H. cbv zeta in H. pred_cases.
  - injection H as <-. apply (FIELD (fun d => d)); try reflexivity; [now destruct s|rewrite E; apply not_in_known; reflexivity|].
    destruct S. record_step E.
  - injection H as <-. eapply FIELD; try reflexivity; [rewrite E; apply not_in_known; reflexivity|]. destruct S. record_step E.
  - apply bind_ok in H as ([l s1] & H1 & H). injection H as <-.
    destruct (license_content _ _ _ _ _ R O (rc_document_license g d _ D (OB _ E)) H1) as (R1 & GW & L & O1 & E1).
    pose proof (document_says_others g d done _ _ (gr_doc _ _ GW) S) as S1.
    destruct (ok_doc G s1 (set_d_DataLicense l) O1) as [O' E']; try reflexivity.
    split; [exact R'|exact (bare_grows _ _ B GW)|destruct S1; record_step E|]. exists G. split; [exact O'|].
    split; [|apply MN; rewrite E; apply not_in_known; reflexivity]. intros u J. apply in_app_or in J as [J|[<-|[]]].
    + exact (next_doc_keeps _ _ _ _ u (ext_trans _ _ _ _ _ _ _ E1 E') (N u J)).
    + apply next_doc_none. rewrite E; apply not_in_known; reflexivity.
  - injection H as <-. eapply FIELD; try reflexivity; [rewrite E; apply not_in_known; reflexivity|]. destruct S. record_step E.
  - apply bind_ok in H as (e & H1 & H). injection H as <-. apply external_document_node_spec in H1.
    eapply FIELD; try reflexivity; [rewrite E; apply not_in_known; reflexivity|]. destruct S. record_step E.
  - destruct (d_CreationInfo (rs_doc s)) as [c|] eqn:C; [|discriminate H]. apply bind_ok in H as (c' & H1 & H). injection H as <-.
    rewrite triples_of_node in H1.
    eapply FIELD; try reflexivity; [rewrite E; apply not_in_known; reflexivity|]. destruct S as [S1 S2 S3 S4 S5 S6 S7 (c0 & C0 & S8) S9 S10 S11].
    assert (c0 = c) by congruence. subst c0. pose proof (creation_info_more _ _ _ _ S8 H1) as S8'.
    record_step E. exists c'. split; [reflexivity|]. rewrite flat_map_app. cbn [flat_map]. now rewrite app_nil_r.
  - injection H as <-. eapply FIELD; try reflexivity; [rewrite E; apply not_in_known; reflexivity|]. destruct S. record_step E.
  - apply bind_ok in H as (e & H1 & H). injection H as <-. apply review_node_spec in H1.
    eapply FIELD; try reflexivity; [rewrite E; apply not_in_known; reflexivity|]. destruct S. record_step E.
  - apply bind_ok in H as ([a s1] & H1 & H). injection H as <-.
    assert (EN : entering t = true) by (unfold entering; rewrite E; reflexivity).
    destruct (get_package_content _ t _ _ _ _ R O (rc_document_package g d _ D (OB _ E)) eq_refl EN H1) as (R1 & GW & G1 & O1 & E1 & HP & M1).
    assert (IA : In a (d_Packages (rs_doc s1))).
    { destruct HP as [_ [X|[X _]]]; [exact X|]. unfold grey in X. rewrite (rt_grey _ _ R1) in X. discriminate X. }
    pose proof (document_says_others g d done _ _ (gr_doc _ _ GW) S) as S1.
    destruct (ok_doc G1 s1 (fun d => set_d_Packages (d_Packages d ++ [a])%list d) O1) as [O' E']; try reflexivity.
    { intros b. cbn. rewrite in_app_iff. cbn. split; [intros [X|[<-|[]]]; auto|auto]. }
    split; [exact R'|exact (bare_grows _ _ B GW)|destruct S1; record_step E|]. exists G1. split; [exact O'|].
    split; [|exact (MY AtPackage (fo_describes g t E) ltac:(discriminate) G1 M1)]. intros u J. apply in_app_or in J as [J|[<-|[]]].
    + exact (next_doc_keeps _ _ _ _ u (ext_trans _ _ _ _ _ _ _ E1 E') (N u J)).
    + split; [|split]; intros Z; rewrite E in Z; try discriminate Z. exists a. exact (kp_pkg _ _ _ _ _ (ext_keeps g _ _ _ _ _ E') _ _ HP).
  - apply bind_ok in H as ([l x] & H1 & H). injection H as <-.
    assert (L : other_license_says g (about g (n_id (t_obj t))) (other_license l x)) by (apply other_license_spec; eauto).
    eapply FIELD; try reflexivity; [rewrite E; apply not_in_known; reflexivity|]. destruct S. record_step E.
  - destruct (relationship_content _ _ _ _ R O (rc_document_relationship g d _ D (OB _ E)) (ST _ E) H) as (R1 & GW & G1 & O1 & E1 & SR & M1).
    pose proof (document_says_others g d done _ _ (gr_doc _ _ GW) S) as S1.
    split; [exact R'|exact (bare_grows _ _ B GW)|destruct S1; record_step E|]. exists G1. split; [exact O1|].
    split; [|exact (MY AtRelationship (fo_relationship g AtDocument t (or_introl eq_refl) E) ltac:(discriminate) G1 M1)]. intros u J. apply in_app_or in J as [J|[<-|[]]].
    + exact (next_doc_keeps _ _ _ _ u E1 (N u J)).
    + split; [|split]; intros Z; rewrite E in Z; try discriminate Z. exact SR.
  - unfold parse_annotation in H. apply bind_ok in H as (an & H1 & H). injection H as <-. apply annotation_node_spec in H1.
    pose proof (ok_annotation v g G s an t O (ST _ E) H1) as O1. pose proof (ext_ann (fun _ => false) G s an t) as E1.
    split; [exact R'|exact B|destruct S; record_step E|]. eexists. split; [exact O1|].
    split; [|cbn [met_ann gh_met]; rewrite flat_map_app, M; cbn [flat_map]; rewrite app_nil_r; unfold onward at 3;
      now rewrite (proj2 (follow_iff g AtDocument t AtAnnotation) (fo_annotation g AtDocument t (or_introl eq_refl) E))].
    intros u J. apply in_app_or in J as [J|[<-|[]]].
    + exact (next_doc_keeps _ _ _ _ u E1 (N u J)).
    + split; [|split]; intros Z; rewrite E in Z; try discriminate Z. cbn. apply in_or_app. right. now left.
  - discriminate H.
Qed.
Lemma ok_init : ok (MkGhost (fun _ => None) (fun _ => None) [] [] []) init_state.
Proof.
  assert (F : forall b f, nth_error (rs_files init_state) b = Some f -> False) by (intros [] f H; discriminate H).
  assert (P : forall b f, nth_error (rs_pkgs init_state) b = Some f -> False) by (intros [] f H; discriminate H).
  assert (C : forall i o, cached_as init_state i o -> False) by (intros i o (k & H); discriminate H).
  split; try (intros; exfalso; eauto; fail); try (intros; discriminate); try constructor; intros; contradiction.
Qed.
Lemma parse_document_content d s : document_node g d -> parse_document_node v g d init_state = Ok s -> doc_at d (of_node g d) s.
Proof.
  intros D H. unfold parse_document_node in H. apply bind_ok in H as ([base off] & KN & H). apply kind_name_spec in KN. rewrite triples_of_node in H.
  refine (for_each_inv_in (doc_at d) _ _ _ _ _ _ H).
  - set (h := fun d0 => _).
    destruct (ok_doc _ _ h ok_init) as [O E]; try reflexivity.
    split.
    + apply rest_doc; [apply rest_init|reflexivity|reflexivity|discriminate].
    + intros b f X. destruct b; discriminate X.
    + split; cbn; try reflexivity; try (constructor; fail); try apply last_read_nil; try exact KN.
      eexists. split; [reflexivity|]. exact creation_info_zero.
    + eexists. split; [exact O|]. split; [intros u []|reflexivity].
  - intros done t rst s1 s2 TS DA ST. apply (document_step_content d done t s1 s2 D); [|exact DA|exact ST].
    rewrite TS. apply in_or_app. right. now left.
Qed.

(** ** Snippets *)
Definition reads (s s' : rstate) (os : node -> Prop) (vs : list triple) : Prop :=
  rest s' /\ grows s s' /\ forall G, ok G s -> exists G', ok G' s' /\ ext0 G s G' s' /\ (forall o, os o -> exists b, held G' s' o b) /\
    gh_met G' = (gh_met G ++ vs)%list.
Lemma reads_weaken s s' (os os' : node -> Prop) vs : (forall o, os' o -> os o) -> reads s s' os vs -> reads s s' os' vs.
Proof.
  intros H (R & W & X). split; [exact R|]. split; [exact W|]. intros G O. destruct (X G O) as (G' & O' & E & Y & M). exists G'. split; [exact O'|].
  split; [exact E|]. split; [|exact M]. intros o I. exact (Y o (H o I)).
Qed.
Lemma reads_refl s (os : node -> Prop) : rest s -> (forall o, ~ os o) -> reads s s os [].
Proof.
  intros R H. split; [exact R|]. split; [apply grows_refl|]. intros G O. exists G. split; [exact O|]. split; [apply ext_refl|].
  split; [|now rewrite app_nil_r]. intros o I. now destruct (H o).
Qed.
Lemma reads_trans s1 s2 s3 (os1 os2 : node -> Prop) vs1 vs2 : reads s1 s2 os1 vs1 -> reads s2 s3 os2 vs2 -> reads s1 s3 (fun o => os1 o \/ os2 o) (vs1 ++ vs2).
Proof.
  intros (R & W & X) (R' & W' & X'). split; [exact R'|]. split; [exact (grows_trans _ _ _ W W')|]. intros G O.
  destruct (X G O) as (G1 & O1 & E1 & Y1 & M1). destruct (X' G1 O1) as (G2 & O2 & E2 & Y2 & M2). exists G2. split; [exact O2|].
  split; [exact (ext_trans _ _ _ _ _ _ _ E1 E2)|]. split; [|now rewrite M2, M1, app_assoc]. intros o [I|I]; [|exact (Y2 o I)]. destruct (Y1 o I) as (b & Z). exists b.
  exact (kp_file _ _ _ _ _ (ext_keeps g _ _ _ _ _ E2) _ _ Z).
Qed.
Lemma reads_file n t0 s b s' : rest s -> reached g RFile n -> t_obj t0 = n -> entering t0 = true -> get_file v g n s = Ok (b, s') ->
  reads s s' (fun o => o = n) (visits AtFile t0).
Proof.
  intros R N TO TE H. pose proof (file_outcome v g n s R N) as F. rewrite H in F. destruct F as (R' & W & _). cbn [fst snd] in *.
  split; [exact R'|]. split; [exact W|]. intros G O. destruct (get_file_content n t0 s G b s' R O N TO TE H) as (_ & _ & G' & O' & E & Y & M).
  exists G'. split; [exact O'|]. split; [exact E|]. split; [|exact M]. intros o ->. eauto.
Qed.
Lemma reads_license n s l s' (os : node -> Prop) : rest s -> reached g RLicense n -> with_license g n s = Ok (l, s') -> (forall o, ~ os o) ->
  reads s s' os [] /\ license_text g [] n l.
Proof.
  intros R N H NO. pose proof (license_outcome g n s R N) as F. rewrite H in F. destruct F as (R' & W & L & _). cbn [fst snd] in *.
  split; [|exact L]. split; [exact R'|]. split; [exact W|]. intros G O.
  destruct (license_content n s G l s' R O N H) as (_ & _ & _ & O' & E). exists G. split; [exact O'|]. split; [exact E|].
  split; [|now rewrite app_nil_r]. intros o I. now destruct (NO o).
Qed.
Lemma range_reference_content n t0 s s' : rest s -> (about g (n_id n) <> [] -> reached g RFile n) -> t_obj t0 = n -> t_pred t0 = ptr_term "reference" ->
  range_reference v g n s = Ok s' -> reads s s' (fun o => o = n /\ about g (n_id o) <> []) (onwards AtPointer t0).
Proof.
  intros R N TO TP H. unfold onward, follow. rewrite TP, TO, String.eqb_refl. unfold range_reference in H. change (triples_with_id g (n_id n)) with (about g (n_id n)) in H.
  destruct (about g (n_id n)) as [|t ts] eqn:A.
  - injection H as <-. apply reads_refl; [exact R|]. intros o [-> X]. contradiction.
  - apply bind_ok in H as ([b s1] & H & X). injection X as <-. eapply reads_weaken; [|apply (reads_file n t0 s b s1 R (N ltac:(discriminate)) TO)]; [|unfold entering; rewrite TP; reflexivity|exact H].
    intros o [-> _]. reflexivity.
Qed.
Definition pos_of (r : range_type) (z : Z) : position := match r with ByteRange => Offset z | LineRange => Line z end.
Definition pointer_part (ts : list triple) (rt : option range_type) (z : Z) : Prop :=
  match rt with None => positions ts = [] | Some r => exists l t, positions ts = (l ++ [t])%list /\ position_term t (pos_of r z) end.
Lemma positions_other ts t p : t_pred t = p -> (p =? ptr_term "offset") || (p =? ptr_term "lineNumber") = false ->
  positions (ts ++ [t]) = positions ts.
Proof. intros <- E. unfold positions. rewrite filter_app. cbn [filter]. rewrite E. apply app_nil_r. Qed.
Lemma positions_more ts t p : t_pred t = p -> (p =? ptr_term "offset") || (p =? ptr_term "lineNumber") = true ->
  positions (ts ++ [t]) = (positions ts ++ [t])%list.
Proof. intros <- E. unfold positions. rewrite filter_app. cbn [filter]. now rewrite E. Qed.
Lemma objects_snoc p ts t : objects p (ts ++ [t]) = (objects p ts ++ objects p [t])%list.
Proof. unfold objects. now rewrite filter_app, map_app. Qed.
Lemma in_objects_snoc p ts t o : In o (objects p (ts ++ [t])) <-> In o (objects p ts) \/ (t_pred t = p /\ o = t_obj t).
Proof.
  rewrite !in_objects. split.
  - intros (u & I & P & <-). apply in_app_or in I as [I|[<-|[]]]; eauto.
  - intros [(u & I & P & <-)|[P ->]]; [exists u|exists t]; rewrite in_app_iff; simpl; auto.
Qed.
Lemma pointer_content n s rt z s' : rest s ->
  (forall o, In o (objects (ptr_term "reference") (of_node g n)) -> about g (n_id o) <> [] -> reached g RFile o) ->
  pointer_from_node v g n s = Ok (rt, z, s') ->
  pointer_says (of_node g n) (pos_of rt z) /\ reads s s' (fun o => In o (objects (ptr_term "reference") (of_node g n)) /\ about g (n_id o) <> [])
    (flat_map (onward g (enough g) none AtPointer) (of_node g n)).
Proof.
  intros R H P. unfold pointer_from_node in P. rewrite triples_of_node in P. apply bind_ok in P as ([[x k] s1] & P & Q).
  set (Inv := fun (done : list triple) (x : option range_type * Z * rstate) =>
    only [rdf_type; ptr_term "reference"; ptr_term "offset"; ptr_term "lineNumber"] done /\
    Forall (fun u => exists q, position_term u q) (positions done) /\ pointer_part done (fst (fst x)) (snd (fst x)) /\
    reads s (snd x) (fun o => In o (objects (ptr_term "reference") done) /\ about g (n_id o) <> [])
      (flat_map (onward g (enough g) none AtPointer) done)).
  assert (I : Inv (of_node g n) (x, k, s1)).
  { refine (for_each_inv_in Inv _ _ _ _ _ _ P).
    - split; [apply only_nil|]. split; [constructor|]. split; [reflexivity|]. apply reads_refl; [exact R|]. intros o [[] _].
    - intros done t rst [[x1 k1] s2] [[x2 k2] s3] TS (I1 & I2 & I3 & I4) ST. cbn [fst snd] in *.
      assert (T : In t (of_node g n)) by (rewrite TS; apply in_or_app; right; now left).
      assert (SAME : forall p, t_pred t = p -> p <> ptr_term "reference" -> s3 = s2 ->
        reads s s3 (fun o => In o (objects (ptr_term "reference") (done ++ [t])) /\ about g (n_id o) <> [])
          (flat_map (onward g (enough g) none AtPointer) (done ++ [t]))).
      { intros p E N ->. rewrite flat_map_app. cbn [flat_map]. unfold onward at 2, follow. rewrite E. apply String.eqb_neq in N. rewrite N, !app_nil_r. apply String.eqb_neq in N.
        eapply reads_weaken; [|exact I4]. intros o [J A]. apply in_objects_snoc in J as [J|[J _]]; [auto|congruence]. }
      unfold pointer_step in ST. cbv zeta in ST. revert ST. pred_goal t; intros ST; unfold Inv; cbn [fst snd].
      + injection ST as <- <- <-. split; [apply only_snoc; [exact I1|rewrite E; simpl; auto]|]. unfold pointer_part.
        rewrite (positions_other done t _ E eq_refl). split; [exact I2|]. split; [exact I3|]. eapply SAME; eauto. discriminate.
      + apply bind_ok in ST as (s4 & RR & ST). injection ST as <- <- <-. split; [apply only_snoc; [exact I1|rewrite E; simpl; auto]|]. unfold pointer_part.
        rewrite (positions_other done t _ E eq_refl). split; [exact I2|]. split; [exact I3|].
        assert (RF : about g (n_id (t_obj t)) <> [] -> reached g RFile (t_obj t)) by (apply H; apply in_objects; eauto).
        rewrite flat_map_app. cbn [flat_map]. rewrite app_nil_r.
        eapply reads_weaken; [|exact (reads_trans _ _ _ _ _ _ _ I4 (range_reference_content _ t _ _ (proj1 I4) RF eq_refl E RR))].
        intros o [J A]. apply in_objects_snoc in J as [J|[_ ->]]; auto.
      + apply bind_ok in ST as (y & AT & ST). injection ST as <- <- <-. split; [apply only_snoc; [exact I1|rewrite E; simpl; auto]|].
        assert (PT : position_term t (Offset y)) by (left; eauto).
        unfold pointer_part. rewrite (positions_more done t _ E eq_refl). split; [apply Forall_app; split; [exact I2|constructor; [eauto|constructor]]|].
        split; [eexists; eexists; split; [reflexivity|exact PT]|]. eapply SAME; eauto. discriminate.
      + apply bind_ok in ST as (y & AT & ST). injection ST as <- <- <-. split; [apply only_snoc; [exact I1|rewrite E; simpl; auto]|].
        assert (PT : position_term t (Line y)) by (right; eauto).
        unfold pointer_part. rewrite (positions_more done t _ E eq_refl). split; [apply Forall_app; split; [exact I2|constructor; [eauto|constructor]]|].
        split; [eexists; eexists; split; [reflexivity|exact PT]|]. eapply SAME; eauto. discriminate.
      + discriminate ST. }
  destruct I as (I1 & I2 & I3 & I4). cbn [fst snd] in *. destruct x as [r|]; [|discriminate Q]. injection Q as <- <- <-.
  split; [|exact I4]. split; [exact I1|]. destruct I3 as (l & t & E & PT). exists l, t. auto.
Qed.
Lemma select_one n p t : select (n_id n) p (of_node g n) = [t] -> objects p (of_node g n) = [t_obj t].
Proof. intros E. rewrite <- select_of_node, E. reflexivity. Qed.
Definition range_needs (n o : node) : Prop := exists q p, In q [ptr_term "startPointer"; ptr_term "endPointer"] /\
  In p (objects q (of_node g n)) /\ In o (objects (ptr_term "reference") (of_node g p)) /\ about g (n_id o) <> [].
Definition refs (p : node) : list triple := flat_map (onward g (enough g) none AtPointer) (of_node g p).
Definition range_met (n : node) : list triple :=
  (flat_map refs (objects (ptr_term "startPointer") (of_node g n)) ++ flat_map refs (objects (ptr_term "endPointer") (of_node g n)))%list.
Lemma range_content n from s r s' : rest s -> (forall o, range_needs n o -> reached g RFile o) ->
  range_from_node v g n from s = Ok (r, s') -> range_says g (of_node g n) from r /\ reads s s' (range_needs n) (range_met n).
Proof.
  intros R H. unfold range_from_node. cbv zeta. rewrite triples_of_node.
  destruct (Nat.eqb_spec (length (of_node g n)) 3) as [L3|]; [|discriminate]. cbn [negb].
  destruct (Nat.eqb_spec (length (select (n_id n) RDF_TYPE (of_node g n))) 1) as [L1|]; [|discriminate]. cbn [negb].
  destruct (select (n_id n) PTR_START_POINTER (of_node g n)) as [|ta [|u l]] eqn:SA; try discriminate.
  intros X. apply bind_ok in X as ([[rta a] s1] & PA & X).
  destruct (select (n_id n) PTR_END_POINTER (of_node g n)) as [|tb [|u l]] eqn:SB; try discriminate.
  apply bind_ok in X as ([[rtb b] s2] & PB & X).
  apply select_one in SA. apply select_one in SB. change PTR_START_POINTER with (ptr_term "startPointer") in SA. change PTR_END_POINTER with (ptr_term "endPointer") in SB.
  destruct (pointer_content (t_obj ta) s rta a s1 R) as [A1 A2]; [|exact PA|].
  { intros o J A. apply H. exists (ptr_term "startPointer"), (t_obj ta). rewrite SA. simpl; auto. }
  destruct (pointer_content (t_obj tb) s1 rtb b s2 (proj1 A2)) as [B1 B2]; [|exact PB|].
  { intros o J A. apply H. exists (ptr_term "endPointer"), (t_obj tb). rewrite SB. simpl; auto. }
  pose proof (reads_trans _ _ _ _ _ _ _ A2 B2) as RD.
  assert (s2 = s' /\ ((rta = ByteRange /\ rtb = ByteRange /\ r = MkRange (MkRP a 0 from) (MkRP b 0 from)) \/
     (rta = LineRange /\ rtb = LineRange /\ r = MkRange (MkRP 0 a from) (MkRP 0 b from)))) as [-> Y].
  { destruct rta, rtb; try discriminate X; injection X as <- <-; auto 6. }
  split.
  - split; [exact L3|]. split; [rewrite <- L1, <- select_of_node; apply map_length|]. exists (t_obj ta), (t_obj tb). split; [exact SA|]. split; [exact SB|].
    destruct Y as [(-> & -> & ->)|(-> & -> & ->)]; [left|right]; exists a, b; auto.
  - unfold range_met. rewrite SA, SB. cbn [flat_map]. rewrite !app_nil_r. eapply reads_weaken; [|exact RD]. intros o (q & p & [<-|[<-|[]]] & IP & J & A); rewrite ?SA, ?SB in IP; destruct IP as [<-|[]]; auto.
Qed.
Lemma from_term_ok o d : extract_doc_element_id (last_part (n_id o)) = Ok d -> from_term v o (de_ElementRefID d).
Proof.
  intros H. apply extract_doc_element_id_iff in H. exists (last_part (n_id o)). split; [now apply last_part_spec|]. left. exists d. tauto.
Qed.
Lemma from_term_bad o e : v = V23 -> extract_doc_element_id (last_part (n_id o)) = Err e -> from_term v o "".
Proof.
  intros V H. exists (last_part (n_id o)). split; [now apply last_part_spec|]. right. split; [exact V|]. split; [reflexivity|].
  intros (d & D). apply extract_doc_element_id_iff in D. congruence.
Qed.
Definition snippet_needs (ts : list triple) (o : node) : Prop :=
  In o (objects (spdx "snippetFromFile") ts) \/ exists r, In r (objects (spdx "range") ts) /\ range_needs r o.
Lemma snippet_needs_snoc ts t o : snippet_needs (ts ++ [t]) o <->
  snippet_needs ts o \/ (t_pred t = spdx "snippetFromFile" /\ o = t_obj t) \/ (t_pred t = spdx "range" /\ range_needs (t_obj t) o).
Proof.
  unfold snippet_needs. rewrite in_objects_snoc. split.
  - intros [[H|H]|(r & H & N)]; auto. apply in_objects_snoc in H as [H|[H ->]]; eauto.
  - intros [[H|(r & H & N)]|[H|[H N]]]; auto; right; [exists r|exists (t_obj t)]; rewrite in_objects_snoc; auto.
Qed.
Lemma ranges_other ts t p l : t_pred t = p -> p <> spdx "range" -> ranges_say v g ts l -> ranges_say v g (ts ++ [t]) l.
Proof.
  intros E N [[A B]|(bef & u & aft & file & r & -> & P & A & F & S & L)].
  - left. split; [|exact B]. rewrite objects_snoc, A. unfold objects. cbn [filter app]. destruct (String.eqb_spec (t_pred t) (spdx "range")); [congruence|reflexivity].
  - right. exists bef, u, (aft ++ [t])%list, file, r. split; [now rewrite <- app_assoc|]. split; [exact P|]. split; [|auto].
    rewrite objects_snoc, A. unfold objects. cbn [filter app]. destruct (String.eqb_spec (t_pred t) (spdx "range")); [congruence|reflexivity].
Qed.
Definition snippet_met (t : triple) : list triple :=
  if t_pred t =? spdx "snippetFromFile" then visits AtFile t else if t_pred t =? spdx "range" then range_met (t_obj t) else [].
Lemma snippet_met_none ts t p : t_pred t = p -> p <> spdx "snippetFromFile" -> p <> spdx "range" ->
  flat_map snippet_met (ts ++ [t]) = flat_map snippet_met ts.
Proof.
  intros E N1 N2. rewrite flat_map_app. cbn [flat_map]. unfold snippet_met at 2. rewrite E. apply String.eqb_neq in N1, N2. rewrite N1, N2. cbn [app]. apply app_nil_r.
Qed.
Lemma snippet_step_content n done t si s0 s si' s' : snippet_node g n -> In t (of_node g n) ->
  snippet_says v g n done si -> reads s0 s (snippet_needs done) (flat_map snippet_met done) -> snippet_step v g t (si, s) = Ok (si', s') ->
  snippet_says v g n (done ++ [t]) si' /\ reads s0 s' (snippet_needs (done ++ [t])) (flat_map snippet_met (done ++ [t])).
Proof.
  intros N T S RD H.
  assert (OB : forall q, t_pred t = q -> In (t_obj t) (objects q (of_node g n))) by (intros q E; apply in_objects; eauto).
  pose proof (proj1 RD) as R.
  assert (SAME : forall p, t_pred t = p -> p <> spdx "snippetFromFile" -> p <> spdx "range" -> s' = s -> reads s0 s' (snippet_needs (done ++ [t])) (flat_map snippet_met (done ++ [t]))).
  { intros p E N1 N2 ->. rewrite (snippet_met_none _ _ _ E N1 N2). eapply reads_weaken; [|exact RD]. intros o J. apply snippet_needs_snoc in J as [J|[[J _]|[J _]]]; [exact J|congruence|congruence]. }
  assert (LIC : forall p, t_pred t = p -> p <> spdx "snippetFromFile" -> p <> spdx "range" -> reads s s' (fun _ => False) [] -> reads s0 s' (snippet_needs (done ++ [t])) (flat_map snippet_met (done ++ [t]))).
  { intros p E N1 N2 X. rewrite (snippet_met_none _ _ _ E N1 N2), <- (app_nil_r (flat_map _ _)). eapply reads_weaken; [|exact (reads_trans _ _ _ _ _ _ _ RD X)]. intros o J.
    apply snippet_needs_snoc in J as [J|[[J _]|[J _]]]; [auto|congruence|congruence]. }
  unfold snippet_step in H. cbv zeta in H. revert H. pred_goal t; intros H.
  - injection H as <- <-. split; [destruct S; record_step E; eapply ranges_other; eauto; discriminate|]. eapply SAME; eauto; discriminate.
  - apply bind_ok in H as ([b s1] & GF & H).
    assert (EN : entering t = true) by (unfold entering; rewrite E; reflexivity).
    pose proof (reads_file _ t _ _ _ R (rc_snippet_file g n _ N (OB _ E)) eq_refl EN GF) as RF.
    assert (exists x, from_term v (t_obj t) x /\ si' = set_s_FromFile x si /\ s' = s1) as (x & FT & -> & ->).
    { destruct (extract_doc_element_id (last_part (n_id (t_obj t)))) as [d|e|] eqn:X; [|destruct v eqn:V; try discriminate H|discriminate H].
      - injection H as <- <-. eauto using from_term_ok.
      - injection H as <- <-. exists "". rewrite <- V. eauto using from_term_bad. }
    split; [destruct S; record_step E; eapply ranges_other; eauto; discriminate|].
    rewrite flat_map_app. cbn [flat_map]. unfold snippet_met at 2. rewrite E, String.eqb_refl, app_nil_r.
    eapply reads_weaken; [|exact (reads_trans _ _ _ _ _ _ _ RD RF)]. intros o J. apply snippet_needs_snoc in J as [J|[[_ ->]|[J _]]]; [auto|auto|].
    rewrite E in J. discriminate J.
  - apply bind_ok in H as ([r s1] & RG & H). injection H as <- <-.
    destruct (range_content _ _ _ _ _ R (fun o X => match X with ex_intro _ q (ex_intro _ p (conj Q (conj P (conj J A)))) =>
      rc_snippet_range g n _ p q o N (OB _ E) Q P J A end) RG) as [RS RR].
    split.
    + destruct S. record_step E. right. exists done, t, [], (s_FromFile si), r. auto 7.
    + rewrite flat_map_app. cbn [flat_map]. unfold snippet_met at 2. rewrite E, String.eqb_refl, app_nil_r.
      change (spdx "range" =? spdx "snippetFromFile") with false. cbv iota.
      eapply reads_weaken; [|exact (reads_trans _ _ _ _ _ _ _ RD RR)]. intros o J. apply snippet_needs_snoc in J as [J|[[J _]|[_ J]]]; [auto| |auto].
      rewrite E in J. discriminate J.
  - apply bind_ok in H as ([l s1] & LI & H). injection H as <- <-.
    destruct (reads_license _ _ _ _ (fun _ => False) R (rc_snippet_license g n _ _ N (or_intror (or_introl eq_refl)) (OB _ E)) LI (fun _ F => F)) as [RL L].
    split; [destruct S; record_step E; eapply ranges_other; eauto; discriminate|]. eapply LIC; eauto; discriminate.
  - injection H as <- <-. split; [destruct S; record_step E; eapply ranges_other; eauto; discriminate|]. eapply SAME; eauto; discriminate.
  - injection H as <- <-. split; [destruct S; record_step E; eapply ranges_other; eauto; discriminate|]. eapply SAME; eauto; discriminate.
  - injection H as <- <-. split; [destruct S; record_step E; eapply ranges_other; eauto; discriminate|]. eapply SAME; eauto; discriminate.
  - injection H as <- <-. split; [destruct S; record_step E; eapply ranges_other; eauto; discriminate|]. eapply SAME; eauto; discriminate.
  - apply bind_ok in H as ([l s1] & LI & H). injection H as <- <-.
    destruct (reads_license _ _ _ _ (fun _ => False) R (rc_snippet_license g n _ _ N (or_introl eq_refl) (OB _ E)) LI (fun _ F => F)) as [RL L].
    split; [destruct S; record_step E; eapply ranges_other; eauto; discriminate|]. eapply LIC; eauto; discriminate.
  - discriminate H.
Qed.
Lemma snippet_content n s si s' : rest s -> snippet_node g n -> snippet_from_node v g n s = Ok (si, s') ->
  snippet_says v g n (of_node g n) si /\ reads s s' (snippet_needs (of_node g n)) (flat_map snippet_met (of_node g n)).
Proof.
  intros R N H. unfold snippet_from_node in H. apply bind_ok in H as (id & ID & H). apply element_spec in ID. rewrite triples_of_node in H.
  refine (for_each_inv_in (fun done x => snippet_says v g n done (fst x) /\ reads s (snd x) (snippet_needs done) (flat_map snippet_met done)) _ _ _ (si, s') _ _ H).
  - split.
    + split; try reflexivity; try apply last_read_nil; try exact ID; try (constructor; fail). left. auto.
    + apply reads_refl; [exact R|]. intros o [[]|(r & [] & _)].
  - intros done t rst [si1 s1] [si2 s2] TS [A B] ST. cbn [fst snd] in *. apply (snippet_step_content n done t si1 s s1); auto.
    rewrite TS. apply in_or_app. right. now left.
Qed.

(** *** snippets are put into files *)
Lemma lookup_map_put {A} k k' (x : A) m : lookup k (map_put k' x m) = if k =? k' then Some x else lookup k m.
Proof.
  induction m as [|[j y] m IH]; cbn [map_put lookup].
  - reflexivity.
  - destruct (String.eqb_spec k' j) as [->|N]; cbn [lookup].
    + destruct (String.eqb_spec k j) as [->|]; reflexivity.
    + rewrite IH. destruct (String.eqb_spec k j) as [->|]; [|reflexivity]. destruct (String.eqb_spec j k') as [->|]; [congruence|reflexivity].
Qed.
Record snips (sis : list Snippet) (s : rstate) : Prop := {
  sp_known : forall si, In si sis -> lookup (s_FromFile si) (rs_map s) <> None;
  sp_in : forall b f, nth_error (rs_files s) b = Some f -> lookup (f_SPDXIdentifier f) (rs_map s) = Some b ->
    forall id, lookup id (f_Snippets f) = named_snippet (f_SPDXIdentifier f) id sis;
  sp_out : forall b f, nth_error (rs_files s) b = Some f -> lookup (f_SPDXIdentifier f) (rs_map s) <> Some b -> f_Snippets f = []
}.
Lemma named_none sis file id : (forall si, In si sis -> s_FromFile si <> file) -> named_snippet file id sis = None.
Proof.
  intros H. unfold named_snippet. destruct (find _ (rev sis)) as [x|] eqn:F; [|reflexivity]. apply find_some in F as [I E].
  apply andb_prop in E as [E _]. apply String.eqb_eq in E. exfalso. apply (H x); [now apply in_rev|exact E].
Qed.
Lemma named_snoc sis si file id : named_snippet file id (sis ++ [si]) =
  if (s_FromFile si =? file) && (s_SPDXIdentifier si =? id) then Some si else named_snippet file id sis.
Proof. unfold named_snippet. rewrite rev_app_distr. reflexivity. Qed.
Lemma snips_grows sis s s' : snips sis s -> inv g [] s -> grows s s' ->
  (forall x b, lookup x (rs_map s) = Some b -> lookup x (rs_map s') = Some b) -> snips sis s'.
Proof.
  intros [K I O] IV W M. split.
  - intros si J. apply (gr_keys _ _ W). auto.
  - intros b f H L id. destruct (nth_error (rs_files s) b) as [f0|] eqn:F0.
    + destruct (gr_files _ _ W b f0 F0) as (f' & F' & E & S). assert (f' = f) by congruence. subst f'. rewrite S, E.
      destruct (lookup (f_SPDXIdentifier f0) (rs_map s)) as [c|] eqn:L0.
      * assert (c = b) by (apply M in L0; congruence). subst c. now apply I with b.
      * rewrite (O b f0 F0) by congruence. symmetry. apply named_none. intros si J E'. apply (K si J). congruence.
    + rewrite (gr_fresh _ _ W b f H F0). symmetry. apply named_none. intros si J E'. apply (K si J).
      destruct (lookup (s_FromFile si) (rs_map s)) as [c|] eqn:L0; [|reflexivity]. exfalso. pose proof (M _ _ L0) as L1. rewrite E', L in L1.
      injection L1 as <-. destruct (iv_map _ _ _ IV _ _ L0) as (x & X & _). congruence.
  - intros b f H L. destruct (nth_error (rs_files s) b) as [f0|] eqn:F0; [|exact (gr_fresh _ _ W b f H F0)].
    destruct (gr_files _ _ W b f0 F0) as (f' & F' & E & S). assert (f' = f) by congruence. subst f'. rewrite S. apply (O b f0 F0).
    intros L0. apply L. rewrite E. auto.
Qed.
Lemma snips_none s : bare s -> snips [] s.
Proof.
  intros B. split.
  - intros si [].
  - intros b f H _ id. now rewrite (B b f H).
  - intros b f H _. exact (B b f H).
Qed.
Lemma file_says_snippets n ts m (f : File) : file_says v g n ts f -> file_says v g n ts (set_f_Snippets m f).
Proof. intros []. split; assumption. Qed.
Lemma ok_files G s l : ok G s -> length l = length (rs_files s) ->
  (forall b f, nth_error l b = Some f -> exists f0 m, nth_error (rs_files s) b = Some f0 /\ f = set_f_Snippets m f0) ->
  ok G (set_rs_files l s) /\ ext0 G s G (set_rs_files l s).
Proof.
  intros O L H. split.
  - destruct O. split; cbn; auto.
    + intros b f X. destruct (H b f X) as (f0 & m & F & ->). destruct (ok_file b f0 F) as (n & h & A & B). exists n, h. split; [exact A|].
      now apply file_says_snippets.
    + intros b n h X. change (b < length l /\ reached g RFile n). rewrite L. exact (ok_file_dom b n h X).
  - split; cbn; auto using incl_refl, objects_kept_refl.
    + intros b n x X. exists []. now rewrite app_nil_r.
    + intros b n x X. exists []. now rewrite app_nil_r.
Qed.
Lemma set_snippet_content si s s' sis G : rest s -> ok G s -> snips sis s -> set_snippet_to_file si s = Ok s' ->
  rest s' /\ rs_doc s' = rs_doc s /\ ok G s' /\ ext0 G s G s' /\ snips (sis ++ [si]) s'.
Proof.
  intros R O SP H. pose proof (set_snippet_outcome g si s R) as R'. rewrite H in R'. cbn [outcome] in R'. split; [exact R'|].
  unfold set_snippet_to_file in H. destruct (lookup (s_FromFile si) (rs_map s)) as [a|] eqn:L; [|discriminate H].
  destruct (iv_map _ _ _ (rt_inv _ _ R) _ _ L) as (f & F & ID).
  match type of H with on_file a ?r s = _ => destruct (on_file_ok s a r f _ F eq_refl) as (l & U & E) end.
  rewrite E in H. injection H as <-. clear E.
  assert (NTH : forall b x, nth_error l b = Some x -> (b = a /\ x = set_f_Snippets (map_put (s_SPDXIdentifier si) si (f_Snippets f)) f) \/
    (b <> a /\ nth_error (rs_files s) b = Some x)).
  { intros b x X. rewrite (update_nth_nth _ _ _ _ b U) in X. destruct (Nat.eqb_spec b a) as [->|N]; [|auto].
    left. split; [reflexivity|]. rewrite F in X. cbn in X. now injection X. }
  destruct (ok_files G s l O) as [O' E'].
  - exact (update_nth_length _ _ _ _ U).
  - intros b x X. destruct (NTH b x X) as [[-> ->]|[_ Y]]; [exists f; eexists; split; [exact F|reflexivity]|].
    exists x, (f_Snippets x). split; [exact Y|]. now destruct x.
  - split; [reflexivity|]. split; [exact O'|]. split; [exact E'|]. destruct SP as [K I OU]. split; cbn.
    + intros x J. apply in_app_or in J as [J|[<-|[]]]; [auto|congruence].
    + intros b x X LX id. rewrite named_snoc. destruct (NTH b x X) as [[-> ->]|[N Y]]; cbn in *.
      * rewrite lookup_map_put, ID, String.eqb_refl. cbn [andb]. rewrite (String.eqb_sym id). destruct (_ =? id); [reflexivity|].
        rewrite <- ID. apply (I a f F). now rewrite ID.
      * destruct (String.eqb_spec (s_FromFile si) (f_SPDXIdentifier x)) as [E|]; [exfalso; congruence|]. cbn [andb]. exact (I b x Y LX id).
    + intros b x X LX. destruct (NTH b x X) as [[-> ->]|[N Y]]; cbn in *; [exfalso; congruence|]. exact (OU b x Y LX).
Qed.

(** *** the root nodes *)
Record roots_at (d : node) (done : list node) (s : rstate) : Prop := {
  ra_rest : rest s;
  ra_says : document_says g d (of_node g d) (rs_doc s);
  ra_more : exists G sis, ok G s /\ (forall u, In u (of_node g d) -> next_doc G s u) /\
    Forall2 (fun n x => snippet_says v g n (of_node g n) x) (flat_map (snippet_of g) done) sis /\
    (forall n o, In n (flat_map (snippet_of g) done) -> snippet_needs (of_node g n) o -> exists b, held G s o b) /\
    snips sis s /\
    gh_met G = (flat_map (onward g (enough g) none AtDocument) (of_node g d) ++
      flat_map (fun n => flat_map snippet_met (of_node g n)) (flat_map (snippet_of g) done))%list
}.
Lemma in_snippet_of root n : In root (g_roots g) -> In n (snippet_of g root) -> snippet_node g n.
Proof.
  unfold snippet_of. intros R. destruct (filter _ _) as [|t [|u l]] eqn:F; try (intros []; fail).
  destruct (String.eqb_spec (n_id (t_obj t)) (spdx "Snippet")) as [E|]; [|intros []]. intros [<-|[]]. exists root, t. auto.
Qed.
Lemma root_step_content d done root s s' : In root (g_roots g) -> roots_at d done s -> root_step v g root s = Ok s' -> roots_at d (done ++ [root]) s'.
Proof.
  intros IR RA H. unfold root_step in H. rewrite select_root in H.
  assert (SKIP : snippet_of g root = [] -> s' = s -> roots_at d (done ++ [root]) s').
  { intros E ->. destruct RA as [A B (G & sis & C)]. split; auto. exists G, sis. rewrite flat_map_app. cbn [flat_map]. rewrite E. cbn [app]. rewrite app_nil_r. exact C. }
  pose proof (in_snippet_of root) as SN. unfold snippet_of in SKIP, SN.
  destruct (filter (fun u => t_pred u =? rdf_type) (about g (n_id root))) as [|t [|u l]] eqn:FE; try discriminate H.
  destruct (String.eqb_spec (n_id (t_obj t)) SPDX_SPDX_DOCUMENT_CAPITALIZED) as [ED|ED].
  { injection H as <-. apply SKIP; [|reflexivity]. rewrite ED. reflexivity. }
  change SPDX_SNIPPET with (spdx "Snippet") in H. destruct (String.eqb_spec (n_id (t_obj t)) (spdx "Snippet")) as [E|E]; [|injection H as <-; now apply SKIP].
  clear SKIP. apply bind_ok in H as ([si s1] & H1 & H).
  assert (N : snippet_node g (t_subj t)) by (apply SN; simpl; auto).
  destruct RA as [R S (G & sis & O & ND & F2 & HN & SP & M)].
  destruct (snippet_content _ _ _ _ R N H1) as [SS (R1 & W1 & X1)]. destruct (X1 G O) as (G1 & O1 & E1 & Y1 & M1).
  pose proof (snips_grows _ _ _ SP (rt_inv _ _ R) W1 (ex_map _ _ _ _ _ E1)) as SP1.
  destruct (set_snippet_content si s1 s' sis G1 R1 O1 SP1 H) as (R2 & D2 & O2 & E2 & SP2).
  pose proof (ext_trans _ _ _ _ _ _ _ E1 E2) as E12.
  split; [exact R2| |].
  - rewrite D2. exact (document_says_others g d _ _ _ (gr_doc _ _ W1) S).
  - exists G1, (sis ++ [si])%list. split; [exact O2|]. split; [intros u J; exact (next_doc_keeps _ _ _ _ u E12 (ND u J))|].
    assert (SO : snippet_of g root = [t_subj t]) by (unfold snippet_of; rewrite FE, E, String.eqb_refl; reflexivity).
    rewrite flat_map_app. cbn [flat_map]. rewrite SO. cbn [app].
    split; [apply Forall2_app; [exact F2|constructor; [exact SS|constructor]]|]. split; [|split; [exact SP2|]].
    2: { rewrite M1, M, flat_map_app. cbn [flat_map]. now rewrite app_nil_r, app_assoc. }
    intros n o J NE. apply in_app_or in J as [J|[<-|[]]].
    + destruct (HN n o J NE) as (b & Z). exists b. exact (kp_file _ _ _ _ _ (ext_keeps g _ _ _ _ _ E12) _ _ Z).
    + destruct (Y1 o NE) as (b & Z). exists b. exact (kp_file _ _ _ _ _ (ext_keeps g _ _ _ _ _ E2) _ _ Z).
Qed.
Lemma roots_content s : (let* n := get_doc_node g in let* s1 := parse_document_node v g n init_state in for_each (root_step v g) (g_roots g) s1) = Ok s ->
  exists d, document_node g d /\ (forall m, document_node g m -> m = d) /\ roots_at d (g_roots g) s.
Proof.
  intros H. apply bind_ok in H as (d & DN & H). apply bind_ok in H as (s1 & PD & H).
  destruct (get_doc_node_all g d DN) as [D A]. exists d. split; [exact D|]. split; [intros m M; apply (cn_document g CN); auto|].
  refine (for_each_inv_in (roots_at d) _ _ _ _ _ _ H).
  - destruct (parse_document_content d s1 D PD) as [R B S (G & O & N & M)]. split; auto. exists G, []. split; [exact O|]. split; [exact N|].
    split; [constructor|]. split; [intros n o []|]. split; [now apply snips_none|]. cbn [flat_map]. now rewrite app_nil_r.
  - intros done root rst s2 s3 TS RA ST. apply (root_step_content d done root s2 s3); auto. rewrite TS. apply in_or_app. right. now left.
Qed.

(** ** Everything reached is there *)
Section Done.
Variables (G : ghost) (s : rstate) (d : node).
Hypothesis O : ok G s.
Hypothesis R : rest s.
Hypothesis ONE : forall m, document_node g m -> m = d.
Hypothesis DOC : forall u, In u (of_node g d) -> next_doc G s u.
Hypothesis SNIP : forall n o, In n (flat_map (snippet_of g) (g_roots g)) -> snippet_needs (of_node g n) o -> exists b, held G s o b.

Lemma no_grey n : grey s n = false.
Proof. apply (rt_grey _ _ R). Qed.
Lemma in_again k ts t : 1 <= k -> In t ts -> In t (again k ts).
Proof. destruct k; [lia|]. intros _ I. cbn. apply in_or_app. now right. Qed.
Lemma held_map n b : held G s n b -> exists x k, file_id n x /\ lookup x (rs_map s) = Some b /\ gh_file G b = Some (n, again (S k) (of_node g n)).
Proof.
  intros [(h & H) [(x & X & L)|[W _]]]; [|rewrite no_grey in W; discriminate W].
  destruct (ok_closed_file _ _ _ _ O b n h H (no_grey n)) as (k & -> & K). specialize (K x X L). destruct k as [|k]; [lia|]. eauto.
Qed.
Lemma held_next n b t : held G s n b -> In t (of_node g n) -> next_file g G s t.
Proof.
  intros H T. destruct (held_map n b H) as (x & k & _ & _ & E). apply (ok_next_file _ _ _ _ O b n _ t E). apply in_again; [lia|exact T].
Qed.
Lemma held_pkg_list n a : held_pkg G s n a -> In a (d_Packages (rs_doc s)) /\ exists k, gh_pkg G a = Some (n, again (S k) (of_node g n)).
Proof.
  intros [(h & H) [X|[W _]]]; [|rewrite no_grey in W; discriminate W]. split; [exact X|].
  destruct (ok_closed_pkg _ _ _ _ O a n h H (no_grey n)) as (k & -> & K). specialize (K X). destruct k as [|k]; [lia|]. eauto.
Qed.
Lemma held_pkg_next n b t : held_pkg G s n b -> In t (of_node g n) -> next_pkg g G s t.
Proof.
  intros H T. destruct (held_pkg_list n b H) as (_ & k & E). apply (ok_next_pkg _ _ _ _ O b n _ t E). apply in_again; [lia|exact T].
Qed.
Lemma seen_list n : seen_rel g G s n -> exists t, In t (gh_rel G) /\ t_obj t = n.
Proof. intros [H|[W _]]; [exact H|]. rewrite no_grey in W. discriminate W. Qed.
Lemma snippet_listed n : snippet_node g n -> In n (flat_map (snippet_of g) (g_roots g)).
Proof.
  intros (root & t & I & F & E & <-). apply in_flat_map. exists root. split; [exact I|]. unfold snippet_of. rewrite F, E, String.eqb_refl. now left.
Qed.
Lemma reached_met r n : reached g r n ->
  match r with
  | RFile => exists b, held G s n b
  | RPackage => exists a, held_pkg G s n a
  | RRelationship => seen_rel g G s n
  | RLicense => True
  end.
Proof.
  intros H. induction H as [m o D I|m o D I|m o D I|m o N I|m r p q o N IR IQ IP I A|m q o N IQ I|m o H IH I|m o H IH I|m q o H IH IQ I|m o H IH I|m o H IH I|m q o H IH IQ I|m o H IH I T|m o H IH I T|m o H IH I];
    try exact Logic.I.
  - apply ONE in D. subst m. apply in_objects in I as (t & T & P & <-). now apply (DOC t T).
  - apply ONE in D. subst m. apply in_objects in I as (t & T & P & <-). now apply (DOC t T).
  - apply (SNIP m); [now apply snippet_listed|]. now left.
  - apply (SNIP m); [now apply snippet_listed|]. right. exists r. split; [exact IR|]. exists q, p. auto.
  - destruct IH as (a & X). apply in_objects in I as (t & T & P & <-). now apply (held_pkg_next _ _ t X T).
  - destruct IH as (a & X). apply in_objects in I as (t & T & P & <-). now apply (held_pkg_next _ _ t X T).
  - destruct IH as (a & X). apply in_objects in I as (t & T & P & <-). now apply (held_next _ _ t X T).
  - destruct IH as (a & X). apply in_objects in I as (t & T & P & <-). now apply (held_next _ _ t X T).
  - destruct (seen_list _ IH) as (u & U & <-). apply in_objects in I as (t & TT & P & <-). now apply (ok_next_rel _ _ _ _ O u t U TT).
  - destruct (seen_list _ IH) as (u & U & <-). apply in_objects in I as (t & TT & P & <-). now apply (ok_next_rel _ _ _ _ O u t U TT).
Qed.
Lemma annotation_met t : statement g (spdx "annotation") t -> In t (gh_ann G).
Proof.
  intros (T & P & [D|[F|F]]).
  - pose proof (ONE _ D) as E. rewrite E in T. now apply (DOC t T).
  - destruct (reached_met _ _ F) as (b & X). now apply (held_next _ _ t X T).
  - destruct (reached_met _ _ F) as (b & X). now apply (held_pkg_next _ _ t X T).
Qed.

(** *** the files of the document *)
Lemma held_file n b : held G s n b -> exists f, nth_error (rs_files s) b = Some f /\ file_entry v g n f /\ lookup (f_SPDXIdentifier f) (rs_map s) = Some b.
Proof.
  intros H. destruct (held_map n b H) as (x & k & X & L & E). destruct (iv_map _ _ _ (rt_inv _ _ R) _ _ L) as (f & F & ID).
  exists f. split; [exact F|]. split; [|congruence]. split; [exact (proj2 (ok_file_dom _ _ _ _ O _ _ _ E))|]. exists k.
  destruct (ok_file _ _ _ _ O b f F) as (n' & h & E' & SY). assert (n' = n /\ h = again (S k) (of_node g n)) as [-> ->] by (split; congruence). exact SY.
Qed.
Lemma Forall2_right {A B} (P : A -> B -> Prop) l l' y : Forall2 P l l' -> In y l' -> exists x, In x l /\ P x y.
Proof. intros F. induction F as [|a b l l' H F IH]; intros [<-|I] || intros []; [exists a; simpl; auto|]. destruct (IH I) as (x & X & Y). exists x. simpl; auto. Qed.
Lemma pkg_files a p b : nth_error (rs_pkgs s) a = Some p -> In b (p_Files p) -> exists n, held G s n b.
Proof.
  intros P I. destruct (ok_pkg _ _ _ _ O a p P) as (n & h & _ & SY).
  destruct (Forall2_right _ _ _ _ (ps_files _ _ _ _ _ _ SY) I) as (o & _ & H). eauto.
Qed.
Lemma pkg_entry n a : held_pkg G s n a -> exists p, nth_error (rs_pkgs s) a = Some p /\ In a (d_Packages (rs_doc s)) /\ package_entry v g n (deref_pkg s p).
Proof.
  intros H. destruct (held_pkg_list n a H) as (I & k & E). destruct (ok_pkg_dom _ _ _ _ O _ _ _ E) as [L RE].
  destruct (nth_error (rs_pkgs s) a) as [p|] eqn:P; [|apply nth_error_None in P; lia]. exists p. split; [reflexivity|]. split; [exact I|].
  split; [exact RE|]. exists k. destruct (ok_pkg _ _ _ _ O a p P) as (n' & h & E' & SY).
  assert (n' = n /\ h = again (S k) (of_node g n)) as [-> ->] by (split; congruence).
  destruct SY. split; try assumption. cbn [deref_pkg p_Files]. clear - ps_files O R. induction ps_files as [|o b l l' X F IH]; [constructor|].
  unfold deref_files. cbn [flat_map]. destruct (held_file o b X) as (f & -> & FE & _). constructor; [exact FE|exact IH].
Qed.
Variable iter : list (string * nat) -> list (string * nat).
Hypothesis SH : shuffle iter.
Notation result := (deref_doc (on_doc (fun d => set_d_Files (unpackaged iter s) d) s)).
Lemma in_all_files f : In f (all_files result) <-> exists b, nth_error (rs_files s) b = Some f /\ lookup (f_SPDXIdentifier f) (rs_map s) = Some b.
Proof.
  unfold all_files. cbn [deref_doc d_Files d_Packages on_doc set_rs_doc rs_doc set_d_Files].
  change (deref_files (on_doc _ s)) with (deref_files s). change (deref_pkgs (on_doc _ s)) with (deref_pkgs s).
  rewrite in_app_iff, in_deref, in_flat_map. split.
  - intros [(b & I & F)|(q & Q & I)].
    + exists b. split; [exact F|]. unfold unpackaged in I. apply in_map_iff in I as ([k c] & <- & I). apply filter_In in I as [I _]. cbn [snd] in *.
      apply (Permutation_in _ (SH _)) in I. apply (lookup_in_nodup _ _ _ (iv_keys _ _ _ (rt_inv _ _ R))) in I.
      destruct (iv_map _ _ _ (rt_inv _ _ R) _ _ I) as (x & X & E). assert (x = f) by congruence. subst x. now rewrite E.
    + apply in_deref_pkgs in Q as (a & p & IA & P & ->). cbn [deref_pkg p_Files] in I. apply in_deref in I as (b & IB & F).
      destruct (pkg_files a p b P IB) as (n & H). destruct (held_file n b H) as (x & X & _ & L). assert (x = f) by congruence. subst x. eauto.
  - intros (b & F & L). destruct (mem (f_SPDXIdentifier f) (rs_assoc s)) eqn:M.
    + right. apply mem_In in M. destruct (iv_assoc _ _ _ (rt_inv _ _ R) _ M) as (a & p & c & [IA|[]] & P & IC & (x & X & E)).
      exists (deref_pkg s p). split; [apply in_deref_pkgs; eauto|]. cbn [deref_pkg p_Files]. apply in_deref. exists c. split; [exact IC|].
      destruct (pkg_files a p c P IC) as (n & H). destruct (held_file n c H) as (y & Y & _ & LY). assert (y = x) by congruence. subst y.
      rewrite E, L in LY. injection LY as ->. exact F.
    + left. exists b. split; [|exact F]. unfold unpackaged. apply in_map_iff. exists (f_SPDXIdentifier f, b). split; [reflexivity|].
      apply filter_In. cbn [fst]. rewrite M. split; [|reflexivity]. apply (Permutation_in _ (Permutation_sym (SH _))). now apply lookup_in.
Qed.
Lemma file_of f b : nth_error (rs_files s) b = Some f -> lookup (f_SPDXIdentifier f) (rs_map s) = Some b -> exists n, file_entry v g n f.
Proof.
  intros F L. destruct (ok_file _ _ _ _ O b f F) as (n & h & E & SY). exists n.
  destruct (held_file n b) as (x & X & FE & _).
  - split; [eauto|]. left. exists (f_SPDXIdentifier f). split; [exact (fs_id _ _ _ _ _ SY)|exact L].
  - assert (x = f) by congruence. now subst x.
Qed.
Lemma stands (sis : list Snippet) : document_node g d -> document_says g d (of_node g d) (rs_doc s) -> snips sis s ->
  Forall2 (fun n x => snippet_says v g n (of_node g n) x) (flat_map (snippet_of g) (g_roots g)) sis -> stands_for v g result.
Proof.
  intros D S SP F2. split.
  - exists d. split; [exact D|]. destruct S. split; assumption.
  - apply Forall_forall. intros f I. apply in_all_files in I as (b & F & L). exact (file_of f b F L).
  - intros n H. destruct (reached_met _ _ H) as (b & X). destruct (held_file n b X) as (f & F & FE & L). apply Exists_exists. exists f.
    split; [|exact FE]. apply in_all_files. eauto.
  - apply Forall_forall. intros q I. cbn [deref_doc d_Packages on_doc set_rs_doc rs_doc set_d_Files] in I. change (deref_pkgs (on_doc _ s)) with (deref_pkgs s) in I.
    apply in_deref_pkgs in I as (a & p & IA & P & ->). destruct (ok_pkg _ _ _ _ O a p P) as (n & h & E & _). exists n.
    destruct (pkg_entry n a) as (p' & P' & _ & PE); [split; [eauto|now left]|]. assert (p' = p) by congruence. now subst p'.
  - intros n H. destruct (reached_met _ _ H) as (a & X). destruct (pkg_entry n a X) as (p & P & IA & PE). apply Exists_exists. exists (deref_pkg s p).
    split; [|exact PE]. cbn [deref_doc d_Packages on_doc set_rs_doc rs_doc set_d_Files]. change (deref_pkgs (on_doc _ s)) with (deref_pkgs s).
    apply in_deref_pkgs. eauto.
  - exists (gh_rel G). split; [exact (ok_rel _ _ _ _ O)|]. intros n H. apply Exists_exists. exact (seen_list n (reached_met _ _ H)).
  - exists (gh_ann G). split; [exact (ok_ann _ _ _ _ O)|]. exact annotation_met.
  - exists sis. split; [exact F2|]. destruct SP as [K I OU]. split.
    + intros si J. apply Exists_exists. destruct (lookup (s_FromFile si) (rs_map s)) as [b|] eqn:L; [|exfalso; exact (K si J L)].
      destruct (iv_map _ _ _ (rt_inv _ _ R) _ _ L) as (f & F & E). exists f. split; [|exact E]. apply in_all_files. exists b. split; [exact F|congruence].
    + intros f id J. apply in_all_files in J as (b & F & L). exact (I b f F L id).
Qed.
End Done.
End Whole.

Theorem load_stands v g iter d : consistent g -> shuffle iter -> load v g iter = Ok d -> stands_for v g d.
Proof.
  intros CN SH H. rewrite load_split in H. apply bind_ok in H as (s & H & E). injection E as <-.
  destruct (roots_content v g CN s H) as (n & D & ONE & [R S (G & sis & O & ND & F2 & HN & SP & _)]).
  unfold on_doc. rewrite (rt_files _ _ R). exact (stands v g G s n O R ONE ND HN iter SH sis D S SP F2).
Qed.
