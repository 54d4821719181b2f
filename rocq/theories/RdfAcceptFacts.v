(** Reading a graph whose nodes can each be read by themselves: no step fails. *)
From Verif Require Import GoStr GoStrFacts Types TvUtil TvParser RdfConst Rdf RdfReader SpecTv SpecId SpecDoc SpecRdf SpecRdfDoc SpecRdfLoad
  SpecRdfContent SpecRdfAccept TvReaderFacts TvUtilFacts TvParserFacts RdfFacts RdfLicenseFacts RdfHelperFacts RdfNodeFacts RdfStepFacts RdfWalkFacts
  RdfLoadFacts.

(** ** No error *)
Definition noerr {A} (r : res A) : Prop := forall e, r <> Err e.
Lemma noerr_ok {A} (x : A) : noerr (Ok x).
Proof. discriminate. Qed.
Lemma noerr_panic {A} : noerr (@Panic A).
Proof. discriminate. Qed.
Lemma noerr_is {A} (r : res A) x : r = Ok x -> noerr r.
Proof. intros -> e. discriminate. Qed.
Lemma noerr_bind {A B} (r : res A) (f : A -> res B) : noerr r -> (forall x, r = Ok x -> noerr (f x)) -> noerr (bindR r f).
Proof. destruct r as [x|e|]; cbn [bindR]; intros N H; [now apply H|exfalso; now apply (N e)|apply noerr_panic]. Qed.
Lemma noerr_for_each {A S} (I : list A -> S -> Prop) (f : A -> S -> res S) l s :
  I [] s ->
  (forall done x rest s', l = (done ++ x :: rest)%list -> I done s' -> noerr (f x s') /\ forall s'', f x s' = Ok s'' -> I (done ++ [x])%list s'') ->
  noerr (for_each f l s).
Proof.
  intros I0 H.
  assert (G : forall rest done s', l = (done ++ rest)%list -> I done s' -> noerr (for_each f rest s')).
  { induction rest as [|x rest IH]; intros done s' E J; cbn [for_each]; [apply noerr_ok|].
    destruct (H _ _ _ _ E J) as [N K]. apply noerr_bind; [exact N|]. intros s1 E1.
    apply (IH (done ++ [x])%list); [now rewrite <- app_assoc|now apply K]. }
  exact (G l [] s eq_refl I0).
Qed.
Lemma noerr_on_file a r s : (forall f, noerr (r f)) -> noerr (on_file a r s).
Proof.
  intros H. unfold on_file. destruct (nth_error _ _) as [f|]; [|apply noerr_panic]. apply noerr_bind; [apply H|].
  intros y _. destruct (update_nth _ _ _); [apply noerr_ok|apply noerr_panic].
Qed.
Lemma noerr_on_pkg a r s : (forall f, noerr (r f)) -> noerr (on_pkg a r s).
Proof.
  intros H. unfold on_pkg. destruct (nth_error _ _) as [f|]; [|apply noerr_panic]. apply noerr_bind; [apply H|].
  intros y _. destruct (update_nth _ _ _); [apply noerr_ok|apply noerr_panic].
Qed.
Lemma noerr_outcome {A} P (r : res A) Q : ~ P -> noerr r -> outcome P r Q -> exists x, r = Ok x /\ Q x.
Proof. destruct r as [x|e|]; cbn [outcome]; intros NP N H; [eauto|exfalso; now apply (N e)|contradiction]. Qed.
Lemma outcome_ok {A} P (r : res A) Q x : outcome P r Q -> r = Ok x -> Q x.
Proof. intros H ->. exact H. Qed.

Lemma Forall2_in {A B} (R : A -> B -> Prop) l m x : Forall2 R l m -> In x l -> exists z, R x z.
Proof. intros F. induction F as [|a b l m H F IH]; intros I; [destruct I|]. destruct I as [<-|I]; eauto. Qed.
Lemma last_read_in {A B} (R : A -> B -> Prop) d l y x : last_read R d l y -> In x l -> exists z, R x z.
Proof. intros [F _] I. rewrite Forall_forall in F. now apply F. Qed.
Lemma in_texts p ts t : In t ts -> t_pred t = p -> In (n_id (t_obj t)) (texts p ts).
Proof. intros I E. unfold texts. apply in_map. apply in_objects. eauto. Qed.
Lemma in_objects' p ts t : In t ts -> t_pred t = p -> In (t_obj t) (objects p ts).
Proof. intros I E. apply in_objects. eauto. Qed.

Section Accept.
Variables (v : version) (g : graph).
Hypothesis NC : ~ role_conflict g.
Hypothesis RD : readable v g.

(** no license is being read *)
Definition calm (s : rstate) : Prop := forall m, reached g RLicense m -> is_grey (rs_cache s) (n_id m) = false.
Lemma calm_grows s s' : calm s -> grows s s' -> calm s'.
Proof. intros C G m R. rewrite (gr_grey _ _ G). now apply C. Qed.
Lemma calm_enter s s' n r o : calm s -> reached g r n -> r <> RLicense -> rs_cache s' = enter (n_id n) o (rs_cache s) -> calm s'.
Proof.
  intros C R N E m M. rewrite E, is_grey_enter. rewrite (C m M), orb_false_r. apply String.eqb_neq. intros X.
  apply NC. exists RLicense, m, r, n. auto.
Qed.
Lemma license_noerr n s x : calm s -> reached g RLicense n -> license_text g [] n x -> noerr (with_license g n s).
Proof.
  intros C R L. unfold with_license. destruct (in_progress_exists (rs_cache s)) as (above & A).
  assert (H : exists l c', get_any_license g n (rs_cache s) = Ok (l, c')).
  { apply (get_any_license_accepts g n (rs_cache s) above A). intros path m CH.
    destruct (license_text_chain g [] n x L path m CH) as [S N]. split; [exact S|]. rewrite in_app_iff. intros [I|I]; [|now apply N].
    apply (proj1 (in_progress_grey (rs_cache s) above) A) in I. rewrite (C m (reached_chain g n path m R CH)) in I. discriminate I. }
  destruct H as (l & c' & ->). apply noerr_ok.
Qed.

Lemma statement_reached t : statement g (spdx "relationship") t -> reached g RRelationship (t_obj t).
Proof.
  intros (I & E & [D|[R|R]]); pose proof (in_objects' _ _ _ I E) as O.
  - now apply rc_document_relationship with (t_subj t).
  - now apply rc_file_relationship with (t_subj t).
  - now apply rc_package_relationship with (t_subj t).
Qed.

Record progress (k : nat) : Prop := {
  pg_file : forall open n s, inv g open s -> calm s -> reached g RFile n -> room g (rs_cache s) (n_id n) < k -> noerr (go_file (go v g k) n s);
  pg_package : forall open n s, inv g open s -> calm s -> reached g RPackage n -> room g (rs_cache s) (n_id n) < k -> noerr (go_pkg (go v g k) n s);
  pg_relationship : forall open t s, inv g open s -> calm s -> statement g (spdx "relationship") t ->
    room g (rs_cache s) (n_id (t_obj t)) < k -> noerr (go_rel (go v g k) t s)
}.
Lemma progress_zero : progress 0.
Proof. split; intros; lia. Qed.

Section Step.
Variable k : nat.
Hypothesis IH : progress k.

Ltac easy_step := first
  [ apply noerr_ok
  | apply noerr_on_file; intros ?; apply noerr_ok
  | apply noerr_on_pkg; intros ?; apply noerr_ok ].
Ltac value_step H Sp := apply noerr_bind; [let z := fresh "z" in destruct H as (z & H); apply Sp in H; exact (noerr_is _ _ H)|intros ? _; apply noerr_ok].

Lemma annotation_noerr t s : statement g (spdx "annotation") t -> noerr (parse_annotation g (t_obj t) s).
Proof.
  intros S. destruct (rd_annotation _ _ RD t S) as (a & A). unfold parse_annotation. apply annotation_node_spec in A. rewrite A. apply noerr_ok.
Qed.
Lemma file_step_noerr open n a s t : inv g open s -> calm s -> reached g RFile n -> In t (of_node g n) ->
  room g (rs_cache s) (n_id (t_obj t)) < k -> noerr (file_step v g (go v g k) a t s).
Proof.
  intros I C R T RM. destruct (rd_file _ _ RD n R) as (f & FS).
  assert (OB : forall q, q = t_pred t -> In (t_obj t) (objects q (of_node g n))) by (intros q E; apply in_objects'; auto).
  assert (TX : forall q, q = t_pred t -> In (n_id (t_obj t)) (texts q (of_node g n))) by (intros q E; apply in_texts; auto).
  assert (ST : forall q, q = t_pred t -> statement g q t).
  { intros q E. pose proof (of_node_subject _ _ _ T) as SU. split; [now rewrite SU|]. split; [auto|]. rewrite SU. auto. }
  pose proof (fs_only _ _ _ _ _ FS) as O. unfold only in O. rewrite Forall_forall in O. specialize (O t T).
  unfold file_step. cbv zeta. cbn [In file_predicates] in O.
  repeat (destruct O as [E|O]; [known_pred E; try easy_step|]); [| | | | | | | |destruct O].
  - apply noerr_on_file. intros y. pose proof (Forall2_in _ _ _ _ (fs_types _ _ _ _ _ FS) (TX _ E)) as Z. value_step Z file_type_spec.
  - apply noerr_on_file. intros y. pose proof (Forall2_in _ _ _ _ (fs_checksums _ _ _ _ _ FS) (OB _ E)) as Z. value_step Z checksum_node_spec.
  - destruct (last_read_in _ _ _ _ _ (fs_concluded _ _ _ _ _ FS) (OB _ E)) as (z & Z).
    apply noerr_bind; [apply license_noerr with z; [exact C|exact (rc_file_license g n _ _ R (or_introl eq_refl) (OB _ E))|exact Z]|].
    intros [l s1] _. easy_step.
  - destruct (Forall2_in _ _ _ _ (fs_licenses _ _ _ _ _ FS) (OB _ E)) as (z & Z).
    apply noerr_bind; [apply license_noerr with z; [exact C|exact (rc_file_license g n _ _ R (or_intror (or_introl eq_refl)) (OB _ E))|exact Z]|].
    intros [l s1] _. easy_step.
  - apply noerr_on_file. intros y. pose proof (Forall2_in _ _ _ _ (fs_artifacts _ _ _ _ _ FS) (OB _ E)) as Z. value_step Z artifact_spec.
  - apply noerr_bind; [exact (pg_file _ IH open (t_obj t) s I C (rc_file_dependency g n _ R (OB _ E)) RM)|].
    intros [b s1] _. destruct (nth_error _ _); [easy_step|apply noerr_panic].
  - exact (annotation_noerr t s (ST _ E)).
  - exact (pg_relationship _ IH open t s I C (ST _ E) RM).
Qed.
Lemma package_step_noerr open n a s t : inv g open s -> calm s -> reached g RPackage n -> In t (of_node g n) ->
  room g (rs_cache s) (n_id (t_obj t)) < k -> noerr (pkg_step v g (go v g k) a t s).
Proof.
  intros I C R T RM. destruct (rd_package _ _ RD n R) as (p & PS).
  assert (OB : forall q, q = t_pred t -> In (t_obj t) (objects q (of_node g n))) by (intros q E; apply in_objects'; auto).
  assert (TX : forall q, q = t_pred t -> In (n_id (t_obj t)) (texts q (of_node g n))) by (intros q E; apply in_texts; auto).
  assert (ST : forall q, q = t_pred t -> statement g q t).
  { intros q E. pose proof (of_node_subject _ _ _ T) as SU. split; [now rewrite SU|]. split; [auto|]. rewrite SU. auto. }
  pose proof (ps_only _ _ _ _ _ _ PS) as O. unfold only in O. rewrite Forall_forall in O. specialize (O t T).
  unfold pkg_step. cbv zeta. unfold package_predicates in O. apply in_app_or in O as [O|O].
  2:{ destruct v; [destruct O|destruct O|]. cbn [In] in O. repeat (destruct O as [E|O]; [known_pred E; easy_step|]). destruct O. }
  cbn [In] in O.
  repeat (destruct O as [E|O]; [known_pred E; try easy_step|]); [| | | | | | | | | | | | |destruct O].
  - apply noerr_on_pkg. intros y. destruct (last_read_in _ _ _ _ _ (ps_supplier _ _ _ _ _ _ PS) (TX _ E)) as (z & x & _ & Z).
    apply package_actor_spec in Z. rewrite Z. apply noerr_ok.
  - apply noerr_on_pkg. intros y. destruct (last_read_in _ _ _ _ _ (ps_originator _ _ _ _ _ _ PS) (TX _ E)) as (z & x & _ & Z).
    apply package_actor_spec in Z. rewrite Z. apply noerr_ok.
  - apply noerr_on_pkg. intros y. pose proof (last_read_in _ _ _ _ _ (ps_location _ _ _ _ _ _ PS) (TX _ E)) as Z. value_step Z location_spec.
  - apply noerr_on_pkg. intros y. pose proof (last_read_in _ _ _ _ _ (ps_analyzed _ _ _ _ _ _ PS) (TX _ E)) as Z. value_step Z bool_spec.
  - apply noerr_on_pkg. intros y.
    assert (X : exists c, verification_from_node g (t_obj t) (p_VerificationCode y) = Ok c).
    { apply verification_total. destruct (ps_verification _ _ _ _ _ _ PS) as [[Z _]|(_ & x & _ & Z)].
      - pose proof (OB _ E) as Y. rewrite Z in Y. destruct Y.
      - pose proof (vs_only _ _ Z) as W. unfold only in *. rewrite Forall_forall in *. intros u U. apply W. apply in_flat_map. exists (t_obj t). auto. }
    destruct X as (c & ->). apply noerr_ok.
  - apply noerr_on_pkg. intros y. pose proof (Forall2_in _ _ _ _ (ps_checksums _ _ _ _ _ _ PS) (OB _ E)) as Z. value_step Z checksum_node_spec.
  - pose proof (ps_home_valid _ _ _ _ _ _ PS) as Z. rewrite Forall_forall in Z. rewrite (Z _ (TX _ E)). easy_step.
  - destruct (last_read_in _ _ _ _ _ (ps_concluded _ _ _ _ _ _ PS) (OB _ E)) as (z & Z).
    apply noerr_bind; [apply license_noerr with z; [exact C|exact (rc_package_license g n _ _ R (or_introl eq_refl) (OB _ E))|exact Z]|].
    intros [l s1] _. easy_step.
  - destruct (last_read_in _ _ _ _ _ (ps_declared _ _ _ _ _ _ PS) (OB _ E)) as (z & Z).
    apply noerr_bind; [apply license_noerr with z; [exact C|exact (rc_package_license g n _ _ R (or_intror (or_introl eq_refl)) (OB _ E))|exact Z]|].
    intros [l s1] _. easy_step.
  - apply noerr_on_pkg. intros y. pose proof (Forall2_in _ _ _ _ (ps_refs _ _ _ _ _ _ PS) (OB _ E)) as Z. value_step Z external_ref_node_spec.
  - apply noerr_bind; [exact (pg_file _ IH open (t_obj t) s I C (rc_package_file g n _ R (OB _ E)) RM)|].
    intros [b s1] _. destruct (nth_error _ _); [|apply noerr_panic]. apply noerr_bind; [easy_step|]. intros s2 _. apply noerr_ok.
  - exact (pg_relationship _ IH open t s I C (ST _ E) RM).
  - exact (annotation_noerr t s (ST _ E)).
Qed.
Lemma relationship_step_noerr open t0 r s t : inv g open s -> calm s -> statement g (spdx "relationship") t0 -> In t (of_node g (t_obj t0)) ->
  room g (rs_cache s) (n_id (t_obj t)) < k -> noerr (rel_step g (go v g k) t (r, s)).
Proof.
  intros I C S T RM. destruct (rd_relationship _ _ RD t0 S) as (x & RS). pose proof (statement_reached t0 S) as R.
  assert (OB : forall q, q = t_pred t -> In (t_obj t) (objects q (of_node g (t_obj t0)))) by (intros q E; apply in_objects'; auto).
  assert (TX : forall q, q = t_pred t -> In (n_id (t_obj t)) (texts q (of_node g (t_obj t0)))) by (intros q E; apply in_texts; auto).
  pose proof (rls_only _ _ _ _ RS) as O. unfold only in O. rewrite Forall_forall in O. specialize (O t T).
  unfold rel_step. cbv zeta. destruct O as [E|[E|[E|[E|[]]]]]; known_pred E; try easy_step.
  - pose proof (last_read_in _ _ _ _ _ (rls_type _ _ _ _ RS) (TX _ E)) as Z. value_step Z relationship_type_spec.
  - destruct (last_read_in _ _ _ _ _ (rls_b _ _ _ _ RS) (OB _ E)) as (d & d0 & RT & Z).
    apply reference_spec in RT. rewrite RT. cbn [bindR]. rewrite triples_of_node.
    assert (TY : forall ty, typed_node g (t_obj t) ty -> exists u, select (n_id (t_obj t)) RDF_TYPE (of_node g (t_obj t)) = [u] /\
              n_id (t_obj u) = spdx ty /\ t_subj u = t_obj t).
    { intros ty H. apply typed_node_select in H as (u & U & X). exists u. split; [exact U|]. split; [exact X|].
      apply (of_node_subject g). apply (in_select_of_node g (t_obj t) RDF_TYPE). rewrite U. now left. }
    destruct Z as [[Z _]|Z]; [rewrite Z; easy_step|].
    destruct (of_node g (t_obj t)) as [|w ws] eqn:ON; [easy_step|]. rewrite <- ON in *.
    destruct Z as [[Z _]|[[Z _]|[Z (f & LP & RF)]]]; pose proof Z as TN; destruct (TY _ Z) as (u & U & X & SU); rewrite U; unfold related_element; rewrite X, SU.
    + change (spdx "File" =? SPDX_FILE) with true. cbv iota.
      apply noerr_bind; [exact (pg_file _ IH open (t_obj t) s I C (rc_related_file g _ _ R (OB _ E) TN) RM)|].
      intros [b s1] _. destruct (nth_error _ _); [apply noerr_ok|apply noerr_panic].
    + change (spdx "Package" =? SPDX_FILE) with false. change (spdx "Package" =? SPDX_PACKAGE) with true. cbv iota.
      apply noerr_bind; [exact (pg_package _ IH open (t_obj t) s I C (rc_related_package g _ _ R (OB _ E) TN) RM)|].
      intros [b s1] _. destruct (nth_error _ _); [apply noerr_ok|apply noerr_panic].
    + change (spdx "SpdxElement" =? SPDX_FILE) with false. change (spdx "SpdxElement" =? SPDX_PACKAGE) with false.
      change (spdx "SpdxElement" =? SPDX_SPDX_ELEMENT) with true. cbv iota.
      apply last_part_spec in LP. subst f. apply extract_doc_element_id_iff in RF. rewrite RF. easy_step.
Qed.

Lemma file_noerr open n s : inv g open s -> calm s -> reached g RFile n -> room g (rs_cache s) (n_id n) < S k -> noerr (file_body v g (go v g k) n s).
Proof.
  intros I C R RM. unfold file_body. destruct (is_grey (rs_cache s) (n_id n)) eqn:GR.
  - destruct (lookup (n_id n) (rs_cache s)) as [[[] ?]|]; first [apply noerr_ok|apply noerr_panic].
  - cbv zeta. destruct (rd_file _ _ RD n R) as (f & FS). pose proof (fs_id _ _ _ _ _ FS) as ID.
    pose proof (inv_new_file g open s n _ I R ID) as I1.
    pose proof (proj2 (file_identifier_spec (n_id n) (f_SPDXIdentifier f)) ID) as FI. rewrite FI. cbn [bindR]. set (id := f_SPDXIdentifier f) in *.
    set (s1 := set_rs_cache _ _) in *.
    assert (C1 : calm s1) by (apply (calm_enter s s1 n RFile (CFile (length (rs_files s)))); [exact C|exact R|discriminate|reflexivity]).
    set (a := match lookup id (rs_map s1) with Some b => b | None => length (rs_files s) end).
    assert (A1 : file_at s1 a id).
    { unfold a. destruct (lookup id (rs_map s1)) as [b|] eqn:L; [exact (iv_map _ _ _ I1 _ _ L)|].
      exists (set_f_SPDXIdentifier id zero_FileOf). split; [|reflexivity]. unfold s1. cbn [rs_files set_rs_cache set_rs_files].
      rewrite nth_error_snoc, Nat.eqb_refl. reflexivity. }
    rewrite triples_of_node. apply noerr_bind.
    2:{ intros s2 _. destruct (nth_error _ _); [apply noerr_ok|apply noerr_panic]. }
    apply noerr_for_each with (I := fun _ s2 => inv g open s2 /\ grows s1 s2); [split; [exact I1|apply grows_refl]|].
    intros done t rest s2 TS [I2 G2].
    assert (T : In t (of_node g n)) by (rewrite TS; apply in_or_app; right; now left).
    assert (RM2 : room g (rs_cache s2) (n_id (t_obj t)) < k).
    { rewrite (room_grey g (rs_cache s1)) by apply (gr_grey _ _ G2).
      pose proof (room_enter g (rs_cache s) (n_id n) (CFile (length (rs_files s))) t GR (of_node_in _ _ _ T)) as X.
      unfold s1. cbn [rs_cache set_rs_cache]. lia. }
    split; [exact (file_step_noerr open n a s2 t I2 (calm_grows _ _ C1 G2) R T RM2)|].
    intros s3 E3. destruct (outcome_ok _ _ _ _ (file_step_walks v g k (walks_all v g k) open n a id s2 t I2 R T (file_at_grows _ _ _ _ G2 A1) RM2) E3) as [I3 G3].
    split; [exact I3|exact (grows_trans _ _ _ G2 G3)].
Qed.
Lemma package_noerr open n s : inv g open s -> calm s -> reached g RPackage n -> room g (rs_cache s) (n_id n) < S k -> noerr (pkg_body v g (go v g k) n s).
Proof.
  intros I C R RM. unfold pkg_body. destruct (is_grey (rs_cache s) (n_id n)) eqn:GR.
  - destruct (lookup (n_id n) (rs_cache s)) as [[[] ?]|]; first [apply noerr_ok|apply noerr_panic].
  - cbv zeta. destruct (rd_package _ _ RD n R) as (p & PS). pose proof (ps_id _ _ _ _ _ _ PS) as ID.
    pose proof (inv_new_package g open s n _ I R ID) as I1.
    pose proof (proj2 (element_spec (n_id n) (p_SPDXIdentifier p)) ID) as FI. rewrite FI. cbn [bindR]. set (id := p_SPDXIdentifier p) in *.
    set (s1 := set_rs_cache _ _) in *.
    assert (C1 : calm s1) by (apply (calm_enter s s1 n RPackage (CPackage (length (rs_pkgs s)))); [exact C|exact R|discriminate|reflexivity]).
    set (ex := find_package s1 id (d_Packages (rs_doc s1))).
    set (a := match ex with Some b => b | None => length (rs_pkgs s) end).
    assert (A1 : package_at s1 a id).
    { unfold a. destruct ex as [b|] eqn:L; [exact (proj2 (find_package_some _ _ _ _ L))|].
      exists (set_p_SPDXIdentifier id zero_PackageOf). split; [|reflexivity]. unfold s1. cbn [rs_pkgs set_rs_cache set_rs_pkgs].
      rewrite nth_error_snoc, Nat.eqb_refl. reflexivity. }
    set (open' := a :: open).
    assert (I1' : inv g open' s1) by now apply inv_open.
    rewrite triples_of_node. apply noerr_bind; [|intros s2 _; apply noerr_ok].
    apply noerr_for_each with (I := fun _ s2 => inv g open' s2 /\ grows s1 s2); [split; [exact I1'|apply grows_refl]|].
    intros done t rest s2 TS [I2 G2].
    assert (T : In t (of_node g n)) by (rewrite TS; apply in_or_app; right; now left).
    assert (RM2 : room g (rs_cache s2) (n_id (t_obj t)) < k).
    { rewrite (room_grey g (rs_cache s1)) by apply (gr_grey _ _ G2).
      pose proof (room_enter g (rs_cache s) (n_id n) (CPackage (length (rs_pkgs s))) t GR (of_node_in _ _ _ T)) as X.
      unfold s1. cbn [rs_cache set_rs_cache]. lia. }
    split; [exact (package_step_noerr open' n a s2 t I2 (calm_grows _ _ C1 G2) R T RM2)|].
    intros s3 E3. destruct (outcome_ok _ _ _ _ (package_step_walks v g k (walks_all v g k) open' n a id s2 t I2 R T (package_at_grows _ _ _ _ G2 A1) (or_intror (or_introl eq_refl)) RM2) E3) as [I3 G3].
    split; [exact I3|exact (grows_trans _ _ _ G2 G3)].
Qed.
Lemma relationship_noerr open t s : inv g open s -> calm s -> statement g (spdx "relationship") t ->
  room g (rs_cache s) (n_id (t_obj t)) < S k -> noerr (rel_body g (go v g k) t s).
Proof.
  intros I C S RM. pose proof (statement_reached t S) as R. destruct (rd_relationship _ _ RD t S) as (x & RS).
  unfold rel_body. pose proof (rls_a _ _ _ _ RS) as RA. apply reference_spec in RA. rewrite RA. cbn [bindR]. cbv zeta.
  destruct (is_grey (rs_cache s) (n_id (t_obj t))) eqn:GR; [apply noerr_ok|].
  pose proof (inv_new_relationship g open s (t_obj t) I R) as I1. set (s1 := set_rs_cache _ _) in *.
  assert (C1 : calm s1) by (apply (calm_enter s s1 (t_obj t) RRelationship CRelationship); [exact C|exact R|discriminate|reflexivity]).
  rewrite triples_of_node. apply noerr_bind; [|intros [r2 s2] _; apply noerr_ok].
  apply noerr_for_each with (I := fun _ (rs2 : Relationship * rstate) => inv g open (snd rs2) /\ grows s1 (snd rs2)); [split; [exact I1|apply grows_refl]|].
  intros done u rest [r2 s2] TS [I2 G2]. cbn [snd] in *.
  assert (T : In u (of_node g (t_obj t))) by (rewrite TS; apply in_or_app; right; now left).
  assert (RM2 : room g (rs_cache s2) (n_id (t_obj u)) < k).
  { rewrite (room_grey g (rs_cache s1)) by apply (gr_grey _ _ G2).
    pose proof (room_enter g (rs_cache s) (n_id (t_obj t)) CRelationship u GR (of_node_in _ _ _ T)) as X.
    unfold s1. cbn [rs_cache set_rs_cache]. lia. }
  split; [exact (relationship_step_noerr open t r2 s2 u I2 (calm_grows _ _ C1 G2) S T RM2)|].
  intros [r3 s3] E3. destruct (outcome_ok _ _ _ _ (relationship_step_walks v g k (walks_all v g k) open (t_obj t) r2 s2 u I2 R T RM2) E3) as [I3 G3].
  cbn [snd] in *. split; [exact I3|exact (grows_trans _ _ _ G2 G3)].
Qed.
End Step.
Lemma progress_all k : progress k.
Proof.
  induction k as [|k IH]; [apply progress_zero|]. split; cbn [go go_file go_pkg go_rel].
  - intros open n s. now apply file_noerr.
  - intros open n s. now apply package_noerr.
  - intros open t s. now apply relationship_noerr.
Qed.
End Accept.
