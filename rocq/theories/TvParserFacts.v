(** Invariant of the tag-value parser: no pointer is nil or dangling where it is
    used, and everything stored so far is well formed. *)
From Verif Require Import GoStr GoStrFacts Types TvState TvUtil TvReader TvParser SpecTv SpecId SpecDoc
  TvReaderFacts TvUtilFacts.

(** ** update_nth *)
Lemma update_nth_some {A} i (f : A -> A) l : i < length l -> exists l', update_nth i f l = Some l'.
Proof.
  revert i. induction l as [|x l IH]; intros i H; simpl in *; [lia|].
  destruct i as [|i]; simpl; [eauto|]. destruct (IH i) as [l' ->]; [lia|eauto].
Qed.
Lemma update_nth_length {A} i (f : A -> A) l l' : update_nth i f l = Some l' -> length l' = length l.
Proof.
  revert i l'. induction l as [|x l IH]; intros i l' H; simpl in *; [discriminate|].
  destruct i as [|i]; simpl in H; [inversion H; reflexivity|].
  destruct (update_nth i f l) eqn:E; [|discriminate]. inversion H; subst. simpl. f_equal. eauto.
Qed.
Lemma update_nth_nth {A} i (f : A -> A) l l' j : update_nth i f l = Some l' ->
  nth_error l' j = if Nat.eqb j i then option_map f (nth_error l j) else nth_error l j.
Proof.
  revert i l' j. induction l as [|x l IH]; intros i l' j H; simpl in *; [discriminate|].
  destruct i as [|i]; simpl in H.
  - inversion H; subst. destruct j; reflexivity.
  - destruct (update_nth i f l) eqn:E; [|discriminate]. inversion H; subst.
    destruct j as [|j]; simpl; [reflexivity|]. now apply IH.
Qed.
Lemma update_nth_in {A} i (f : A -> A) l l' x : update_nth i f l = Some l' -> In x l' ->
  In x l \/ exists y, nth_error l i = Some y /\ x = f y.
Proof.
  intros H Hx. apply In_nth_error in Hx as [j Hj]. rewrite (update_nth_nth _ _ _ _ _ H) in Hj.
  destruct (Nat.eqb_spec j i) as [Eji|Eji]; [subst j|].
  - destruct (nth_error l i) eqn:E; [|discriminate]. simpl in Hj. inversion Hj; eauto.
  - left. eapply nth_error_In; eauto.
Qed.
Lemma update_nth_Forall {A} (P : A -> Prop) i (f : A -> A) l l' :
  update_nth i f l = Some l' -> Forall P l -> (forall x, P x -> P (f x)) -> Forall P l'.
Proof.
  intros H HF Hf. rewrite Forall_forall in *. intros x Hx.
  destruct (update_nth_in _ _ _ _ _ H Hx) as [?|(y & Hy & ->)]; auto.
  apply Hf, HF. eapply nth_error_In; eauto.
Qed.

(** ** Invariant *)
Definition id_opt (x : string) : Prop := x = "" \/ id_ok x.
Definition file_c (v : version) (f : FileArena) : Prop :=
  id_opt (f_SPDXIdentifier f) /\ Forall (checksum_ok v) (f_Checksums f) /\ f_Annotations f = [].
Definition pkg_c (v : version) (p : PackageArena) : Prop :=
  id_opt (p_SPDXIdentifier p) /\ Forall (checksum_ok v) (p_Checksums p) /\
  opt_ok supplier_ok (p_Supplier p) /\ opt_ok originator_ok (p_Originator p) /\
  p_IsUnpackaged p = false /\ p_Annotations p = [] /\
  (p_FilesAnalyzed p = false -> p_IsFilesAnalyzedTagPresent p = true).
Definition doc_c (v : version) (d : DocumentArena) : Prop :=
  id_opt (d_SPDXIdentifier d) /\
  Forall (relationship_ok v) (d_Relationships d) /\ Forall annotation_ok (d_Annotations d) /\
  Forall review_ok (d_Reviews d) /\ opt_ok creation_info_ok (d_CreationInfo d) /\
  Forall edr_ok (d_ExternalDocumentReferences d) /\ d_Snippets d = [].

Definition fref (files : list FileArena) (i : nat) : Prop :=
  exists f, nth_error files i = Some f /\ id_ok (f_SPDXIdentifier f).
Definition pref (pkgs : list PackageArena) (i : nat) : Prop :=
  exists p, nth_error pkgs i = Some p /\ id_ok (p_SPDXIdentifier p).
Definition sref (snips : list Snippet) (e : string * nat) : Prop :=
  exists s, nth_error snips (snd e) = Some s /\ fst e = s_SPDXIdentifier s.

Definition ptr_ok {A} (p : option nat) (l : list A) : Prop :=
  match p with Some i => i < length l | None => True end.
Definition sub_ok {A B} (p : option (nat * nat)) (l : list A) (sub : A -> list B) : Prop :=
  match p with
  | Some (i, j) => exists x, nth_error l i = Some x /\ j < length (sub x)
  | None => True
  end.
Definition doc_list {A} (get : DocumentArena -> list A) (s : pstate) : list A :=
  match ps_doc s with Some d => get d | None => [] end.

Record inv (v : version) (s : pstate) : Prop := {
  i_doc : ps_doc s <> None;
  i_st : match ps_st s with
         | PsPackage => ps_pkg s <> None
         | PsFile => ps_file s <> None
         | PsSnippet => ps_snip s <> None
         | PsOtherLicense => ps_lic s <> None
         | PsReview => ps_rev s <> None
         | _ => True
         end;
  i_pkg : ptr_ok (ps_pkg s) (ps_pkgs s);
  i_file : ptr_ok (ps_file s) (ps_files s);
  i_snip : ptr_ok (ps_snip s) (ps_snips s);
  i_extref : sub_ok (ps_extref s) (ps_pkgs s) p_ExternalReferences;
  i_aop : sub_ok (ps_aop s) (ps_files s) f_Artifacts;
  i_lic : ptr_ok (ps_lic s) (doc_list d_OtherLicenses s);
  i_rln : ptr_ok (ps_rln s) (doc_list d_Relationships s);
  i_ann : ptr_ok (ps_ann s) (doc_list d_Annotations s);
  i_rev : ptr_ok (ps_rev s) (doc_list d_Reviews s);
  i_pkgs : Forall (pkg_c v) (ps_pkgs s);
  i_files : Forall (file_c v) (ps_files s);
  i_snips : Forall snippet_ok (ps_snips s);
  i_docc : opt_ok (doc_c v) (ps_doc s);
  i_pfiles : Forall (fun p => Forall (fref (ps_files s)) (p_Files p)) (ps_pkgs s);
  i_fsnips : Forall (fun f => Forall (sref (ps_snips s)) (f_Snippets f) /\ NoDup (map fst (f_Snippets f)))
                    (ps_files s);
  i_dpkgs : Forall (pref (ps_pkgs s)) (doc_list d_Packages s);
  i_dfiles : Forall (fref (ps_files s)) (doc_list d_Files s)
}.

Definition good (v : version) (r : res pstate) : Prop :=
  match r with Ok s => inv v s | Err _ => True | Panic => False end.

(** the first pair creates the document *)
Definition start_pstate : pstate := set_ps_doc (Some zero_DocumentOf) zero_pstate.
Lemma inv_start v : inv v start_pstate.
Proof.
  constructor; simpl; auto; try congruence; try constructor.
  - now left.
  - repeat split; constructor.
Qed.

(** ** Extension of arenas *)
Definition ext_files (l l' : list FileArena) : Prop :=
  forall i f, nth_error l i = Some f -> exists f', nth_error l' i = Some f' /\
    (id_ok (f_SPDXIdentifier f) -> id_ok (f_SPDXIdentifier f')) /\
    length (f_Artifacts f) <= length (f_Artifacts f').
Definition ext_pkgs (l l' : list PackageArena) : Prop :=
  forall i p, nth_error l i = Some p -> exists p', nth_error l' i = Some p' /\
    (id_ok (p_SPDXIdentifier p) -> id_ok (p_SPDXIdentifier p')) /\
    length (p_ExternalReferences p) <= length (p_ExternalReferences p').
Definition ext_snips (l l' : list Snippet) : Prop :=
  forall i s, nth_error l i = Some s -> exists s', nth_error l' i = Some s' /\
    s_SPDXIdentifier s' = s_SPDXIdentifier s.

Lemma fref_ext l l' i : ext_files l l' -> fref l i -> fref l' i.
Proof. intros E (f & Hf & Hi). destruct (E _ _ Hf) as (f' & ? & ? & _). exists f'. auto. Qed.
Lemma pref_ext l l' i : ext_pkgs l l' -> pref l i -> pref l' i.
Proof. intros E (f & Hf & Hi). destruct (E _ _ Hf) as (f' & ? & ? & _). exists f'. auto. Qed.
Lemma sref_ext l l' e : ext_snips l l' -> sref l e -> sref l' e.
Proof. intros E (f & Hf & Hi). destruct (E _ _ Hf) as (f' & ? & ?). exists f'. split; congruence. Qed.
Lemma Forall_fref_ext l l' r : ext_files l l' -> Forall (fref l) r -> Forall (fref l') r.
Proof. intros E. apply Forall_impl. intros. eapply fref_ext; eauto. Qed.
Lemma Forall_pref_ext l l' r : ext_pkgs l l' -> Forall (pref l) r -> Forall (pref l') r.
Proof. intros E. apply Forall_impl. intros. eapply pref_ext; eauto. Qed.
Lemma Forall_sref_ext l l' r : ext_snips l l' -> Forall (sref l) r -> Forall (sref l') r.
Proof. intros E. apply Forall_impl. intros. eapply sref_ext; eauto. Qed.
Lemma nth_app_l {A} (l l' : list A) i x : nth_error l i = Some x -> nth_error (l ++ l') i = Some x.
Proof. intros H. rewrite nth_error_app1; [assumption|]. apply nth_error_Some. congruence. Qed.
Lemma nth_app_last {A} (l : list A) x : nth_error (l ++ [x]) (length l) = Some x.
Proof. rewrite nth_error_app2, Nat.sub_diag by lia. reflexivity. Qed.

Lemma ext_files_app l f : ext_files l (l ++ [f]).
Proof. intros i x H. exists x. split; [now apply nth_app_l|split; auto]. Qed.
Lemma ext_pkgs_app l f : ext_pkgs l (l ++ [f]).
Proof. intros i x H. exists x. split; [now apply nth_app_l|split; auto]. Qed.
Lemma ext_snips_app l f : ext_snips l (l ++ [f]).
Proof. intros i x H. exists x. split; auto. now apply nth_app_l. Qed.
Lemma ext_files_update i f l l' : update_nth i f l = Some l' ->
  (forall x, id_ok (f_SPDXIdentifier x) -> id_ok (f_SPDXIdentifier (f x))) ->
  (forall x, length (f_Artifacts x) <= length (f_Artifacts (f x))) ->
  ext_files l l'.
Proof.
  intros U H1 H2 j x Hx. rewrite (update_nth_nth _ _ _ _ j U), Hx.
  destruct (Nat.eqb j i); simpl; eexists; split; eauto.
Qed.
Lemma ext_pkgs_update i f l l' : update_nth i f l = Some l' ->
  (forall x, id_ok (p_SPDXIdentifier x) -> id_ok (p_SPDXIdentifier (f x))) ->
  (forall x, length (p_ExternalReferences x) <= length (p_ExternalReferences (f x))) ->
  ext_pkgs l l'.
Proof.
  intros U H1 H2 j x Hx. rewrite (update_nth_nth _ _ _ _ j U), Hx.
  destruct (Nat.eqb j i); simpl; eexists; split; eauto.
Qed.
Lemma ext_snips_update i f l l' : update_nth i f l = Some l' ->
  (forall x, s_SPDXIdentifier (f x) = s_SPDXIdentifier x) -> ext_snips l l'.
Proof.
  intros U H1 j x Hx. rewrite (update_nth_nth _ _ _ _ j U), Hx.
  destruct (Nat.eqb j i); simpl; eexists; split; eauto.
Qed.
Lemma sub_ok_ext_files p l l' : ext_files l l' -> sub_ok p l f_Artifacts -> sub_ok p l' f_Artifacts.
Proof.
  intros E. destruct p as [[i j]|]; simpl; auto. intros (x & Hx & Hj).
  destruct (E _ _ Hx) as (x' & Hx' & _ & L). exists x'. split; [assumption|lia].
Qed.
Lemma sub_ok_ext_pkgs p l l' : ext_pkgs l l' -> sub_ok p l p_ExternalReferences -> sub_ok p l' p_ExternalReferences.
Proof.
  intros E. destruct p as [[i j]|]; simpl; auto. intros (x & Hx & Hj).
  destruct (E _ _ Hx) as (x' & Hx' & _ & L). exists x'. split; [assumption|lia].
Qed.
Lemma ptr_ok_length {A B} p (l : list A) (l' : list B) : length l <= length l' -> ptr_ok p l -> ptr_ok p l'.
Proof. destruct p; simpl; lia. Qed.

(** ** Document updates *)
(** [d'] differs from [d] only in content, no list gets shorter, references are kept *)
Record doc_step (v : version) (d d' : DocumentArena) : Prop := {
  ds_c : doc_c v d -> doc_c v d';
  ds_pk : d_Packages d' = d_Packages d;
  ds_fi : d_Files d' = d_Files d;
  ds_lic : length (d_OtherLicenses d) <= length (d_OtherLicenses d');
  ds_rln : length (d_Relationships d) <= length (d_Relationships d');
  ds_ann : length (d_Annotations d) <= length (d_Annotations d');
  ds_rev : length (d_Reviews d) <= length (d_Reviews d')
}.
Lemma inv_set_doc v s d d' : inv v s -> ps_doc s = Some d -> doc_step v d d' ->
  inv v (set_ps_doc (Some d') s).
Proof.
  intros I E [D1 D2 D3 D4 D5 D6 D7].
  destruct I. unfold doc_list in *. rewrite E in *.
  constructor; unfold doc_list; simpl; auto; try congruence; try (eapply ptr_ok_length; eassumption).
Qed.
Lemma good_upd_doc v f s : inv v s -> ps_doc s <> None ->
  (forall d, ps_doc s = Some d -> doc_step v d (f d)) -> good v (upd_doc f s).
Proof.
  intros I H D. unfold upd_doc. destruct (ps_doc s) as [d|] eqn:E; [|congruence].
  simpl. eapply inv_set_doc; eauto.
Qed.
Lemma good_upd_in_doc {A} v (ptr : option nat) (get : DocumentArena -> list A) put f s :
  inv v s -> ptr <> None -> ptr_ok ptr (doc_list get s) ->
  (forall d i l, update_nth i f (get d) = Some l -> doc_step v d (put l d)) ->
  good v (upd_in_doc ptr get put f s).
Proof.
  intros I H P D. unfold upd_in_doc. destruct ptr as [i|]; [|congruence].
  unfold doc_list in P. simpl in P. destruct (ps_doc s) as [d|] eqn:E; [|simpl in P; lia].
  destruct (update_nth_some i f (get d) P) as [l Hl]. rewrite Hl. simpl.
  eapply inv_set_doc; eauto.
Qed.

Lemma doc_step_rln v f d i l :
  update_nth i f (d_Relationships d) = Some l ->
  (forall x, relationship_ok v x -> relationship_ok v (f x)) -> doc_step v d (set_d_Relationships l d).
Proof.
  intros U Hf. pose proof (update_nth_length _ _ _ _ U) as L.
  constructor; simpl; auto; try lia.
  unfold doc_c. simpl. intuition. eapply update_nth_Forall; eauto.
Qed.
Lemma doc_step_ann v f d i l :
  update_nth i f (d_Annotations d) = Some l ->
  (forall x, annotation_ok x -> annotation_ok (f x)) -> doc_step v d (set_d_Annotations l d).
Proof.
  intros U Hf. pose proof (update_nth_length _ _ _ _ U) as L.
  constructor; simpl; auto; try lia.
  unfold doc_c. simpl. intuition. eapply update_nth_Forall; eauto.
Qed.
Lemma doc_step_rev v f d i l :
  update_nth i f (d_Reviews d) = Some l ->
  (forall x, review_ok x -> review_ok (f x)) -> doc_step v d (set_d_Reviews l d).
Proof.
  intros U Hf. pose proof (update_nth_length _ _ _ _ U) as L.
  constructor; simpl; auto; try lia.
  unfold doc_c. simpl. intuition. eapply update_nth_Forall; eauto.
Qed.
Lemma doc_step_lic v f d i l :
  update_nth i f (d_OtherLicenses d) = Some l -> doc_step v d (set_d_OtherLicenses l d).
Proof.
  intros U. pose proof (update_nth_length _ _ _ _ U) as L.
  constructor; simpl; auto; try lia.
Qed.

(** update of the element just appended *)
Lemma update_nth_last {A} (f : A -> A) l x : update_nth (length l) f (l ++ [x]) = Some (l ++ [f x])%list.
Proof. induction l as [|y l IH]; simpl; [reflexivity|]. now rewrite IH. Qed.

(** ** Relationships, annotations, reviews, licenses: creation *)
Lemma algs_algorithms v : algs v = algorithms v.
Proof. destruct v; reflexivity. Qed.
Lemma extract_checksum_ok v x c : extract_checksum v x = Ok c -> checksum_ok v c.
Proof. intros H. unfold checksum_ok. rewrite <- algs_algorithms. eapply extract_checksum_alg; eauto. Qed.

(** ** Sub-value extraction never panics *)
Definition np {A} (r : res A) : Prop := r <> Panic.
Lemma np_bind {A B} (r : res A) (f : A -> res B) : np r -> (forall a, r = Ok a -> np (f a)) -> np (bindR r f).
Proof. unfold np. destruct r; simpl; intros H1 H2; auto. discriminate. Qed.
Lemma np_extract_subs x : np (extract_subs x).
Proof. unfold np, extract_subs. destruct (cut ":" x) as [[? ?]|]; discriminate. Qed.
Lemma np_extract_element_id x : np (extract_element_id x).
Proof.
  unfold np, extract_element_id. destruct (negb _); [discriminate|].
  destruct (contains _ _); [discriminate|]. cbv zeta. destruct (_ =? ""); discriminate.
Qed.
Lemma np_extract_elt d x : np (extract_elt d x).
Proof.
  unfold np, extract_elt. destruct (negb _); [discriminate|].
  destruct (contains _ _); [discriminate|]. cbv zeta. destruct (_ =? ""); discriminate.
Qed.
Lemma np_extract_doc_element_id x : np (extract_doc_element_id x).
Proof.
  unfold extract_doc_element_id. destruct (has_prefix _ _); [|apply np_extract_elt].
  destruct (split_on ":" x) as [|? [|? [|? ?]]]; try discriminate. cbv zeta.
  destruct (_ =? ""); [discriminate|apply np_extract_elt].
Qed.
Lemma np_extract_special x l : np (extract_doc_element_special x l).
Proof.
  unfold extract_doc_element_special. destruct (existsb _ _); [discriminate|apply np_extract_doc_element_id].
Qed.
Lemma np_extract_actor k x : np (extract_actor k x).
Proof.
  apply np_bind; [apply np_extract_subs|]. intros [? ?] _. destruct (mem _ _); discriminate.
Qed.
Lemma np_extract_checksum v x : np (extract_checksum v x).
Proof.
  apply np_bind; [apply np_extract_subs|]. intros [? ?] _. destruct (mem _ _); discriminate.
Qed.
Lemma np_extract_relationship v x : np (extract_relationship v x).
Proof.
  unfold extract_relationship. destruct (fields_sp x) as [|? [|? [|? [|? ?]]]]; try discriminate.
  apply np_bind; [apply np_extract_doc_element_id|]. intros ? _.
  apply np_bind; [|discriminate]. destruct v; auto using np_extract_doc_element_id, np_extract_special.
Qed.
Lemma np_atoi x : np (atoi x).
Proof.
  unfold np, atoi. repeat (match goal with |- context [match ?e with _ => _ end] => destruct e end; try discriminate).
Qed.
Lemma np_extract_range x : np (extract_range x).
Proof.
  apply np_bind; [apply np_extract_subs|]. intros [? ?] _.
  apply np_bind; [apply np_atoi|]. intros ? _. apply np_bind; [apply np_atoi|]. discriminate.
Qed.
Lemma np_extract_per x : np (extract_package_external_reference x).
Proof.
  unfold extract_package_external_reference. destruct (fields_sp x) as [|? [|? [|? [|? ?]]]]; discriminate.
Qed.
Lemma np_extract_edr x : np (extract_external_document_reference x).
Proof.
  apply np_bind.
  - destruct (fields_sp x) as [|? [|? [|? [|? [|? ?]]]]]; try discriminate.
    + destruct (cut _ _) as [[? ?]|]; discriminate.
    + destruct (has_suffix _ _); discriminate.
  - intros [[[? ?] ?] ?] _. destruct (negb _); [discriminate|]. cbv zeta. destruct (_ =? ""); discriminate.
Qed.
Lemma extract_edr_ok x e : extract_external_document_reference x = Ok e -> edr_ok e.
Proof.
  unfold extract_external_document_reference.
  match goal with |- bindR ?r _ = _ -> _ => destruct r as [[[[d u] a] c]| |] end; simpl; try discriminate.
  destruct (has_prefix document_ref d); simpl; [|discriminate].
  destruct (String.eqb_spec (trim_prefix document_ref d) ""); [discriminate|].
  intros H. inversion H. assumption.
Qed.

(** bind with a never-panicking computation *)
Lemma good_bind {A} v (r : res A) (f : A -> res pstate) :
  np r -> (forall a, r = Ok a -> good v (f a)) -> good v (bindR r f).
Proof. unfold np. destruct r; simpl; intros H1 H2; auto. Qed.
Lemma good_bind_st v (r : res pstate) (f : pstate -> res pstate) :
  good v r -> (forall s, r = Ok s -> inv v s -> good v (f s)) -> good v (bindR r f).
Proof. destruct r; simpl; intros H1 H2; auto. Qed.

(** ** Relationships, annotations, reviews, licenses: creation *)
Lemma good_do_relationship v value s : inv v s -> ps_doc s <> None -> good v (do_relationship v value s).
Proof.
  intros I H. unfold do_relationship. destruct (ps_doc s) as [d|] eqn:E; [|congruence].
  apply good_bind; [apply np_extract_relationship|]. intros [[a r] b] X.
  unfold upd_rln, upd_in_doc. cbn -[update_nth]. rewrite update_nth_last.
  apply extract_relationship_wf in X as (X1 & X2 & X3).
  assert (J : inv v (set_ps_doc (Some (set_d_Relationships
            (d_Relationships d ++ [set_r_RefB b (set_r_Relationship r (set_r_RefA a zero_Relationship))]) d)) s)).
  { eapply inv_set_doc; eauto. constructor; simpl; auto; try (rewrite app_length; simpl; lia).
    unfold doc_c. simpl. intuition. apply Forall_app. split; auto. constructor; [|constructor].
    split; [exact X1|]. split; [exact X2|exact X3]. }
  destruct J. constructor; simpl; auto. unfold doc_list. simpl. rewrite app_length. simpl. lia.
Qed.
Lemma good_do_annotator v value s : inv v s -> ps_doc s <> None -> good v (do_annotator value s).
Proof.
  intros I H. unfold do_annotator. destruct (ps_doc s) as [d|] eqn:E; [|congruence].
  apply good_bind; [apply np_extract_actor|]. intros [k x] X.
  unfold upd_ann, upd_in_doc. cbn -[update_nth]. rewrite update_nth_last.
  apply extract_actor_kind in X.
  assert (J : inv v (set_ps_doc (Some (set_d_Annotations
            (d_Annotations d ++ [set_a_Annotator (MkAnnotator x k) zero_Annotation]) d)) s)).
  { eapply inv_set_doc; eauto. constructor; simpl; auto; try (rewrite app_length; simpl; lia).
    unfold doc_c. simpl. intuition. apply Forall_app. split; auto. constructor; [|constructor].
    split; [exact X|now left]. }
  destruct J. constructor; simpl; auto. unfold doc_list. simpl. rewrite app_length. simpl. lia.
Qed.
Lemma good_do_reviewer v value s : inv v s -> ps_doc s <> None -> good v (do_reviewer value s).
Proof.
  intros I H. unfold do_reviewer. destruct (ps_doc s) as [d|] eqn:E; [|congruence].
  apply good_bind; [apply np_extract_actor|]. intros [k x] X.
  unfold upd_rev, upd_in_doc. cbn -[update_nth]. rewrite update_nth_last.
  apply extract_actor_kind in X.
  assert (J : inv v (set_ps_doc (Some (set_d_Reviews
            (d_Reviews d ++ [set_rv_ReviewerType k (set_rv_Reviewer x zero_Review)]) d)) s)).
  { eapply inv_set_doc; eauto. constructor; simpl; auto; try (rewrite app_length; simpl; lia).
    unfold doc_c. simpl. intuition. apply Forall_app. split; auto. }
  destruct J. constructor; simpl; auto.
  - revert i_st0; simpl; destruct (ps_st s); auto; discriminate.
  - unfold doc_list. simpl. rewrite app_length. simpl. lia.
Qed.
(** the section is entered: only the new pointer matters *)
Lemma good_enter_review v value s : inv v s -> ps_doc s <> None -> good v (enter_review value s).
Proof.
  intros I H. unfold enter_review, do_reviewer. cbn [ps_doc set_ps_st].
  destruct (ps_doc s) as [d|] eqn:E; [|congruence].
  apply good_bind; [apply np_extract_actor|]. intros [k x] X.
  unfold upd_rev, upd_in_doc. cbn -[update_nth]. rewrite update_nth_last.
  apply extract_actor_kind in X.
  assert (J : inv v (set_ps_doc (Some (set_d_Reviews
            (d_Reviews d ++ [set_rv_ReviewerType k (set_rv_Reviewer x zero_Review)]) d)) s)).
  { eapply inv_set_doc; eauto. constructor; simpl; auto; try (rewrite app_length; simpl; lia).
    unfold doc_c. simpl. intuition. apply Forall_app. split; auto. }
  destruct J. constructor; simpl; auto; try congruence.
  unfold doc_list. simpl. rewrite app_length. simpl. lia.
Qed.
Lemma good_do_license_id v value s : inv v s -> ps_doc s <> None -> good v (do_license_id value s).
Proof.
  intros I H. unfold do_license_id. destruct (ps_doc s) as [d|] eqn:E; [|congruence].
  unfold upd_lic, upd_in_doc. cbn -[update_nth]. rewrite update_nth_last.
  assert (J : inv v (set_ps_doc (Some (set_d_OtherLicenses
            (d_OtherLicenses d ++ [set_ol_LicenseIdentifier value zero_OtherLicense]) d)) s)).
  { eapply inv_set_doc; eauto. constructor; simpl; auto; try (rewrite app_length; simpl; lia). }
  destruct J. constructor; simpl; auto.
  - revert i_st0; simpl; destruct (ps_st s); auto; discriminate.
  - unfold doc_list. simpl. rewrite app_length. simpl. lia.
Qed.
Lemma good_enter_license v value s : inv v s -> ps_doc s <> None -> good v (enter_license value s).
Proof.
  intros I H. unfold enter_license, do_license_id. cbn [ps_doc set_ps_st].
  destruct (ps_doc s) as [d|] eqn:E; [|congruence].
  unfold upd_lic, upd_in_doc. cbn -[update_nth]. rewrite update_nth_last.
  assert (J : inv v (set_ps_doc (Some (set_d_OtherLicenses
            (d_OtherLicenses d ++ [set_ol_LicenseIdentifier value zero_OtherLicense]) d)) s)).
  { eapply inv_set_doc; eauto. constructor; simpl; auto; try (rewrite app_length; simpl; lia). }
  destruct J. constructor; simpl; auto; try congruence.
  unfold doc_list. simpl. rewrite app_length. simpl. lia.
Qed.

(** ** Field updates *)
Lemma good_upd_rln v f s : inv v s -> ps_rln s <> None ->
  (forall x, relationship_ok v x -> relationship_ok v (f x)) -> good v (upd_rln f s).
Proof.
  intros I H Hf. apply good_upd_in_doc; auto; [apply I|]. intros d i l U. eapply doc_step_rln; eauto.
Qed.
Lemma good_upd_ann v f s : inv v s -> ps_ann s <> None ->
  (forall x, annotation_ok x -> annotation_ok (f x)) -> good v (upd_ann f s).
Proof.
  intros I H Hf. apply good_upd_in_doc; auto; [apply I|]. intros d i l U. eapply doc_step_ann; eauto.
Qed.
Lemma good_upd_rev v f s : inv v s -> ps_rev s <> None ->
  (forall x, review_ok x -> review_ok (f x)) -> good v (upd_rev f s).
Proof.
  intros I H Hf. apply good_upd_in_doc; auto; [apply I|]. intros d i l U. eapply doc_step_rev; eauto.
Qed.
Lemma good_upd_lic v f s : inv v s -> ps_lic s <> None -> good v (upd_lic f s).
Proof.
  intros I H. apply good_upd_in_doc; auto; [apply I|]. intros d i l U. eapply doc_step_lic; eauto.
Qed.
Lemma good_relationship_comment v value s : inv v s -> good v (do_relationship_comment value s).
Proof.
  intros I. unfold do_relationship_comment. destruct (ps_rln s) eqn:E; [|exact Logic.I].
  apply good_upd_rln; auto. congruence.
Qed.
Lemma good_with_ann v f s : inv v s -> (forall x, annotation_ok x -> annotation_ok (f x)) -> good v (with_ann f s).
Proof.
  intros I Hf. unfold with_ann. destruct (ps_ann s) eqn:E; [|exact Logic.I].
  apply good_upd_ann; auto. congruence.
Qed.
Lemma good_spdxref v value s : inv v s -> good v (do_spdxref value s).
Proof.
  intros I. unfold do_spdxref. destruct (ps_ann s) eqn:E; [|exact Logic.I].
  apply good_bind; [apply np_extract_doc_element_id|]. intros d X.
  apply extract_doc_element_id_iff in X as [X _].
  apply good_upd_ann; auto; [congruence|]. intros x [A1 A2]. split; [exact A1|now right].
Qed.

Definition good_action (v : version) (s : pstate) (a : action) : Prop := forall value, good v (a value s).
Definition good_cases (v : version) (s : pstate) (l : list (string * action)) : Prop :=
  Forall (fun p => good_action v s (snd p)) l.

Lemma good_rel_ann_cases v s : inv v s -> ps_doc s <> None -> good_cases v s (rel_ann_cases v).
Proof.
  intros I H. repeat constructor; intros value; simpl.
  - now apply good_do_relationship.
  - now apply good_relationship_comment.
  - now apply good_do_annotator.
  - apply good_with_ann; auto.
  - apply good_with_ann; auto.
  - now apply good_spdxref.
  - apply good_with_ann; auto.
Qed.
Lemma good_switch v s tag l value dflt : good_cases v s l -> good v (dflt value s) ->
  good v (switch tag l dflt value s).
Proof.
  intros H D. pattern (switch tag l dflt). apply switch_cases.
  - intros t a Hin _. unfold good_cases in H. rewrite Forall_forall in H. apply (H _ Hin).
  - intros _. exact D.
Qed.
Lemma good_cases_app v s l1 l2 : good_cases v s l1 -> good_cases v s l2 -> good_cases v s (l1 ++ l2).
Proof. intros H1 H2. apply Forall_app. auto. Qed.

(** the document exists outside the start state *)
Lemma inv_doc_st v s st : inv v s -> ps_st s = st -> st <> PsStart -> ps_doc s <> None.
Proof. intros I _ _. apply I. Qed.

(** ** Reviews and licenses *)
Lemma good_parse_review v tag value s : inv v s -> ps_st s = PsReview -> good v (parse_review v tag value s).
Proof.
  intros I St. assert (D : ps_doc s <> None) by (eapply inv_doc_st; eauto; discriminate).
  assert (R : ps_rev s <> None) by (pose proof (i_st _ _ I) as H; now rewrite St in H).
  apply good_switch; [|exact Logic.I]. apply good_cases_app.
  - repeat constructor; intros x; simpl.
    + now apply good_do_reviewer.
    + now apply good_upd_rev.
    + now apply good_upd_rev.
  - now apply good_rel_ann_cases.
Qed.
Lemma good_parse_license v tag value s : inv v s -> ps_st s = PsOtherLicense -> good v (parse_license v tag value s).
Proof.
  intros I St. assert (D : ps_doc s <> None) by (eapply inv_doc_st; eauto; discriminate).
  assert (R : ps_lic s <> None) by (pose proof (i_st _ _ I) as H; now rewrite St in H).
  apply good_switch; [|exact Logic.I]. apply good_cases_app.
  - repeat constructor; intros x; simpl; try now apply good_upd_lic. now apply good_do_license_id.
  - apply good_cases_app; [now apply good_rel_ann_cases|].
    repeat constructor. intros x. now apply good_enter_review.
Qed.

(** ** Packages, files, snippets *)
Lemma good_upd_pkg v f s : inv v s -> ps_pkg s <> None ->
  (forall p, pkg_c v p -> pkg_c v (f p)) ->
  (forall p, id_ok (p_SPDXIdentifier p) -> id_ok (p_SPDXIdentifier (f p))) ->
  (forall p, length (p_ExternalReferences p) <= length (p_ExternalReferences (f p))) ->
  (forall p, Forall (fref (ps_files s)) (p_Files p) -> Forall (fref (ps_files s)) (p_Files (f p))) ->
  good v (upd_pkg f s).
Proof.
  intros I H H1 H2 H3 H4. unfold upd_pkg, upd_ptr. pose proof (i_pkg _ _ I) as P.
  destruct (ps_pkg s) as [i|] eqn:E; [|congruence].
  destruct (update_nth_some i f (ps_pkgs s) P) as [l Hl]. rewrite Hl. simpl.
  pose proof (ext_pkgs_update _ _ _ _ Hl H2 H3) as X.
  destruct I. constructor; simpl; auto.
  - rewrite E. simpl. rewrite (update_nth_length _ _ _ _ Hl). exact P.
  - eapply sub_ok_ext_pkgs; eauto.
  - eapply update_nth_Forall; eauto.
  - eapply update_nth_Forall; eauto.
  - eapply Forall_pref_ext; eauto.
Qed.
Lemma good_upd_file v f s : inv v s -> ps_file s <> None ->
  (forall p, file_c v p -> file_c v (f p)) ->
  (forall p, id_ok (f_SPDXIdentifier p) -> id_ok (f_SPDXIdentifier (f p))) ->
  (forall p, length (f_Artifacts p) <= length (f_Artifacts (f p))) ->
  (forall p, Forall (sref (ps_snips s)) (f_Snippets p) /\ NoDup (map fst (f_Snippets p)) ->
             Forall (sref (ps_snips s)) (f_Snippets (f p)) /\ NoDup (map fst (f_Snippets (f p)))) ->
  good v (upd_file f s).
Proof.
  intros I H H1 H2 H3 H4. unfold upd_file, upd_ptr. pose proof (i_file _ _ I) as P.
  destruct (ps_file s) as [i|] eqn:E; [|congruence].
  destruct (update_nth_some i f (ps_files s) P) as [l Hl]. rewrite Hl. simpl.
  pose proof (ext_files_update _ _ _ _ Hl H2 H3) as X.
  destruct I. constructor; simpl; auto.
  - rewrite E. simpl. rewrite (update_nth_length _ _ _ _ Hl). exact P.
  - eapply sub_ok_ext_files; eauto.
  - eapply update_nth_Forall; eauto.
  - eapply Forall_impl; [|eassumption]. intros p. now apply Forall_fref_ext.
  - eapply (update_nth_Forall (fun f => Forall (sref (ps_snips s)) (f_Snippets f) /\ NoDup (map fst (f_Snippets f)))); eauto.
  - eapply Forall_fref_ext; eauto.
Qed.
Lemma good_upd_snip v f s : inv v s -> ps_snip s <> None ->
  (forall x, snippet_ok x -> snippet_ok (f x)) ->
  (forall x, s_SPDXIdentifier (f x) = s_SPDXIdentifier x) ->
  good v (upd_snip f s).
Proof.
  intros I H H1 H2. unfold upd_snip, upd_ptr. pose proof (i_snip _ _ I) as P.
  destruct (ps_snip s) as [i|] eqn:E; [|congruence].
  destruct (update_nth_some i f (ps_snips s) P) as [l Hl]. rewrite Hl. simpl.
  pose proof (ext_snips_update _ _ _ _ Hl H2) as X.
  destruct I. constructor; simpl; auto.
  - rewrite E. simpl. rewrite (update_nth_length _ _ _ _ Hl). exact P.
  - eapply update_nth_Forall; eauto.
  - eapply Forall_impl; [|eassumption]. intros p [P1 P2]. split; auto. eapply Forall_sref_ext; eauto.
Qed.

(** *** The invariant without the state-dependent part *)
Definition winv (v : version) (s : pstate) : Prop := inv v (set_ps_st PsCreationInfo s).
Lemma winv_of_inv v s : inv v s -> ps_doc s <> None -> winv v s.
Proof. intros [] H. constructor; simpl; auto. Qed.
Definition st_ok (s : pstate) : Prop :=
  match ps_st s with
  | PsPackage => ps_pkg s <> None
  | PsFile => ps_file s <> None
  | PsSnippet => ps_snip s <> None
  | PsOtherLicense => ps_lic s <> None
  | PsReview => ps_rev s <> None
  | _ => True
  end.
Lemma inv_of_winv v s : winv v s -> st_ok s -> inv v s.
Proof. intros [] H. simpl in *. constructor; simpl; auto. Qed.
Lemma winv_st v s st : winv v s -> winv v (set_ps_st st s).
Proof. exact (fun H => H). Qed.
Lemma winv_doc v s : winv v s -> ps_doc s <> None.
Proof. intros []. assumption. Qed.
Lemma winv_extref v s : winv v s -> winv v (set_ps_extref None s).
Proof. intros []. constructor; simpl in *; auto. Qed.
Lemma winv_aop v s : winv v s -> winv v (set_ps_aop None s).
Proof. intros []. constructor; simpl in *; auto. Qed.
Lemma winv_snip v s : winv v s -> winv v (set_ps_snip None s).
Proof. intros []. constructor; simpl in *; auto. Qed.
Lemma winv_file v s : winv v s -> winv v (set_ps_file None s).
Proof. intros []. constructor; simpl in *; auto. Qed.
Lemma winv_pkg v s : winv v s -> winv v (set_ps_pkg None s).
Proof. intros []. constructor; simpl in *; auto. Qed.

Lemma np_get_ptr {A} p (l : list A) : ptr_ok p l -> np (get_ptr p l).
Proof.
  unfold np, get_ptr. destruct p as [i|]; simpl; [|discriminate]. intros H.
  destruct (nth_error l i) eqn:E; [discriminate|]. apply nth_error_None in E. lia.
Qed.
Lemma np_check_file v s : winv v s -> np (check_file_id s).
Proof.
  intros I. apply np_bind; [apply np_get_ptr, I|]. intros [f|] _; [|discriminate].
  destruct (_ =? ""); discriminate.
Qed.
Lemma np_check_pkg v s : winv v s -> np (check_pkg_id s).
Proof.
  intros I. apply np_bind; [apply np_get_ptr, I|]. intros [f|] _; [|discriminate].
  destruct (_ =? ""); discriminate.
Qed.

Lemma winv_alloc_pkg v s : winv v s -> winv v (alloc_pkg s).
Proof.
  intros []. unfold alloc_pkg. constructor; simpl in *; auto.
  - rewrite app_length. simpl. lia.
  - eapply sub_ok_ext_pkgs; [apply ext_pkgs_app|assumption].
  - apply Forall_app. split; [assumption|]. constructor; [|constructor].
    split; [now left|]. repeat split; simpl; auto.
  - apply Forall_app. split; [assumption|]. constructor; [|constructor]. constructor.
  - eapply Forall_pref_ext; [apply ext_pkgs_app|assumption].
Qed.
Lemma good_set_name v value s : winv v s -> ps_st s = PsPackage -> ps_pkg s <> None ->
  good v (upd_pkg (set_p_PackageName value) s).
Proof.
  intros W St H. apply good_upd_pkg; auto. apply inv_of_winv; auto. unfold st_ok. now rewrite St.
Qed.
Lemma good_do_package_name v value s : winv v s -> ps_st s = PsPackage -> good v (do_package_name value s).
Proof.
  intros W St. unfold do_package_name. cbv zeta.
  pose proof (winv_extref _ _ W) as W'. set (s' := set_ps_extref None s) in *.
  assert (ps_st s' = PsPackage) as St' by exact St. clearbody s'.
  apply good_bind; [apply np_get_ptr, W'|]. intros [pk|] C.
  - destruct (nonempty (p_PackageName pk)).
    + apply good_bind; [eapply np_check_pkg; eauto|]. intros _ _.
      apply good_set_name; auto using winv_alloc_pkg. discriminate.
    + apply good_set_name; auto. intros E. unfold cur_pkg, get_ptr in C. rewrite E in C. discriminate.
  - apply good_set_name; auto using winv_alloc_pkg. discriminate.
Qed.

Lemma good_do_file_name v value s : winv v s -> ps_st s = PsFile -> good v (do_file_name value s).
Proof.
  intros W St. unfold do_file_name. cbv zeta.
  pose proof (winv_aop _ _ W) as W'. set (s' := set_ps_aop None s) in *.
  assert (ps_st s' = PsFile) as St' by exact St. clearbody s'.
  apply good_bind; [eapply np_check_file; eauto|]. intros _ _. simpl.
  apply inv_of_winv; [|unfold st_ok; simpl; rewrite St'; discriminate].
  destruct W'. constructor; simpl in *; auto.
  - rewrite app_length. simpl. lia.
  - eapply sub_ok_ext_files; [apply ext_files_app|assumption].
  - apply Forall_app. split; [assumption|]. constructor; [|constructor].
    split; [now left|]. repeat split; simpl; auto.
  - eapply Forall_impl; [|eassumption]. intros p. apply Forall_fref_ext, ext_files_app.
  - apply Forall_app. split; [assumption|]. constructor; [|constructor]. split; constructor.
  - eapply Forall_fref_ext; [apply ext_files_app|assumption].
Qed.

Lemma map_put_keys {A} k (x : A) m : NoDup (map fst m) -> NoDup (map fst (map_put k x m)).
Proof.
  assert (forall m, incl (map fst (map_put k x m)) (k :: map fst m)) as Inc.
  { clear. intros m. induction m as [|[k' y] m IH]; simpl.
    - intros z [->|[]]. now left.
    - destruct (String.eqb_spec k k'); simpl; intros z [<-|H]; simpl; auto.
      apply IH in H. simpl in H. tauto. }
  induction m as [|[k' y] m IH]; simpl; intros H; [constructor; [intros []|constructor]|].
  inversion H as [|? ? H1 H2]; subst.
  destruct (String.eqb_spec k k'); simpl.
  - subst. now constructor.
  - constructor; auto. intros Hin. apply Inc in Hin as [?|?]; congruence.
Qed.
Lemma map_put_Forall {A} (P : string * A -> Prop) k x m : P (k, x) -> Forall P m -> Forall P (map_put k x m).
Proof.
  intros Hx H. induction H as [|[k' y] m Hy Hm IH]; simpl; [auto|].
  destruct (String.eqb k k'); auto.
Qed.

Lemma good_do_snippet_id v value s : winv v s -> ps_st s = PsSnippet -> good v (do_snippet_id value s).
Proof.
  intros W St. unfold do_snippet_id.
  apply good_bind; [eapply np_check_file; eauto|]. intros _ _.
  apply good_bind; [apply np_extract_element_id|]. intros eid X. cbv zeta.
  apply extract_element_id_iff in X as [_ X].
  set (sn := set_s_SPDXIdentifier eid zero_Snippet).
  set (s1 := set_ps_snip _ _).
  assert (I1 : inv v s1).
  { unfold s1. apply inv_of_winv; [|unfold st_ok; simpl; rewrite St; discriminate].
    destruct W. constructor; simpl in *; auto.
    - rewrite app_length. simpl. lia.
    - apply Forall_app. split; [assumption|]. constructor; [|constructor]. split; [exact X|now left].
    - eapply Forall_impl; [|eassumption]. intros f [F1 F2]. split; [|assumption].
      eapply Forall_sref_ext; [apply ext_snips_app|assumption]. }
  destruct (ps_file s1) eqn:F; [|exact I1].
  apply good_upd_file; auto; [congruence|]. intros f [F1 F2]. simpl. split.
  - apply map_put_Forall; [|assumption]. exists sn. unfold s1. simpl. split; [apply nth_app_last|reflexivity].
  - now apply map_put_keys.
Qed.

(** ** Section parsers *)
Lemma good_parse_snippet v tag value s : inv v s -> ps_st s = PsSnippet -> good v (parse_snippet v tag value s).
Proof.
  intros I St. assert (D : ps_doc s <> None) by (eapply inv_doc_st; eauto; discriminate).
  assert (R : ps_snip s <> None) by (pose proof (i_st _ _ I) as H; now rewrite St in H).
  pose proof (winv_of_inv _ _ I D) as W.
  apply good_switch; [|exact Logic.I]. unfold snippet_cases. apply good_cases_app; [|apply good_cases_app].
  - repeat constructor; intros x; simpl; try (apply good_upd_snip; auto; fail).
    + now apply good_do_snippet_id.
    + apply good_do_file_name; [|reflexivity]. apply winv_snip. exact W.
    + apply good_do_package_name; [|reflexivity]. apply winv_snip, winv_file. exact W.
    + now apply good_enter_license.
    + apply good_bind; [apply np_extract_doc_element_id|]. intros d X.
      apply extract_doc_element_id_iff in X as [(_ & X & _) _].
      apply good_upd_snip; auto. intros y [Y1 Y2]. split; [exact Y1|now right].
    + apply good_bind; [apply np_extract_range|]. intros [a b] _. apply good_upd_snip; auto.
    + apply good_bind; [apply np_extract_range|]. intros [a b] _. apply good_upd_snip; auto.
  - destruct v; repeat constructor; intros x; simpl; apply good_upd_snip; auto.
  - apply good_cases_app; [now apply good_rel_ann_cases|].
    repeat constructor. intros x. now apply good_enter_review.
Qed.

Lemma good_upd_file_plain v f s : inv v s -> ps_file s <> None ->
  (forall p, f_SPDXIdentifier (f p) = f_SPDXIdentifier p /\ f_Checksums (f p) = f_Checksums p /\
             f_Annotations (f p) = f_Annotations p /\ f_Artifacts (f p) = f_Artifacts p /\
             f_Snippets (f p) = f_Snippets p) ->
  good v (upd_file f s).
Proof.
  intros I H Hf. apply good_upd_file; auto; intros p; destruct (Hf p) as (E1 & E2 & E3 & E4 & E5);
    unfold file_c; rewrite ?E1, ?E2, ?E3, ?E4, ?E5; auto.
Qed.

Lemma Forall_app_one {A} (P : A -> Prop) l x : Forall P l -> P x -> Forall P (l ++ [x]).
Proof. intros. apply Forall_app. auto. Qed.

Lemma good_do_file_spdxid v value s : inv v s -> ps_st s = PsFile -> good v (do_file_spdxid value s).
Proof.
  intros I St. assert (D : ps_doc s <> None) by (eapply inv_doc_st; eauto; discriminate).
  assert (R : ps_file s <> None) by (pose proof (i_st _ _ I) as H; now rewrite St in H).
  unfold do_file_spdxid. apply good_bind; [apply np_extract_element_id|]. intros eid X.
  apply extract_element_id_iff in X as [_ X].
  apply good_bind_st.
  - apply good_upd_file; auto. intros p (P1 & P2 & P3). split; [now right|]. split; assumption.
  - intros s1 E1 I1.
    assert (P : exists i l, ps_file s = Some i /\ update_nth i (set_f_SPDXIdentifier eid) (ps_files s) = Some l
                /\ s1 = set_ps_files l s).
    { unfold upd_file, upd_ptr in E1. destruct (ps_file s) as [i|]; [|discriminate].
      destruct (update_nth i (set_f_SPDXIdentifier eid) (ps_files s)) as [l|] eqn:U; [|discriminate].
      inversion E1. eauto 6. }
    destruct P as (i & l & Ei & U & ->). simpl. rewrite Ei.
    assert (FR : fref l i).
    { pose proof (i_file _ _ I) as P. rewrite Ei in P. simpl in P.
      destruct (nth_error (ps_files s) i) as [f|] eqn:N.
      - exists (set_f_SPDXIdentifier eid f). rewrite (update_nth_nth _ _ _ _ i U), Nat.eqb_refl, N.
        split; [reflexivity|exact X].
      - apply nth_error_None in N. lia. }
    destruct (ps_pkg s) as [pi|] eqn:Ep.
    + apply good_upd_pkg; auto; [simpl; congruence|]. intros p F. simpl. now apply Forall_app_one.
    + unfold upd_doc. simpl. destruct (ps_doc s) as [d|] eqn:Ed; [|congruence]. simpl.
      destruct I1. unfold doc_list in *. simpl in *. rewrite Ed in *.
      constructor; unfold doc_list; simpl; auto; try congruence. now apply Forall_app_one.
Qed.

Lemma good_aop v g s : inv v s -> good v (upd_aop g s).
Proof.
  intros I. unfold upd_aop. pose proof (i_aop _ _ I) as P. destruct (ps_aop s) as [[fi ai]|] eqn:E; [|exact Logic.I].
  destruct P as (f & N & L). rewrite N.
  destruct (update_nth_some ai g (f_Artifacts f) L) as [l U]. rewrite U.
  assert (fi < length (ps_files s)) as Lf by (apply nth_error_Some; congruence).
  destruct (update_nth_some fi (set_f_Artifacts l) (ps_files s) Lf) as [fs U2]. rewrite U2. simpl.
  assert (EX : ext_files (ps_files s) fs).
  { intros j x Hx. rewrite (update_nth_nth _ _ _ _ j U2), Hx. destruct (Nat.eqb_spec j fi) as [Ej|Ej].
    - subst j. rewrite N in Hx. inversion Hx; subst. simpl. eexists. split; [reflexivity|]. simpl. split; auto.
      rewrite (update_nth_length _ _ _ _ U). auto.
    - eexists. split; [reflexivity|auto]. }
  destruct I. constructor; simpl; auto.
  - eapply ptr_ok_length; [|eassumption]. now rewrite (update_nth_length _ _ _ _ U2).
  - eapply sub_ok_ext_files; eauto.
  - eapply update_nth_Forall; eauto.
  - eapply Forall_impl; [|eassumption]. intros p. now apply Forall_fref_ext.
  - eapply (update_nth_Forall (fun f => Forall (sref (ps_snips s)) (f_Snippets f) /\ NoDup (map fst (f_Snippets f)))); eauto.
  - eapply Forall_fref_ext; eauto.
Qed.

Lemma good_aop_name v value s : inv v s -> ps_st s = PsFile -> good v (do_aop_name value s).
Proof.
  intros I St. assert (R : ps_file s <> None) by (pose proof (i_st _ _ I) as H; now rewrite St in H).
  unfold do_aop_name. pose proof (i_file _ _ I) as P. destruct (ps_file s) as [fi|] eqn:E; [|congruence].
  simpl in P. destruct (nth_error (ps_files s) fi) as [f|] eqn:N; [|apply nth_error_None in N; lia].
  apply good_bind_st.
  - apply good_upd_file; auto; [congruence|]. intros p. simpl. rewrite app_length. lia.
  - intros s1 E1 I1. unfold upd_file, upd_ptr in E1. rewrite E in E1.
    match type of E1 with context [update_nth fi ?g _] => destruct (update_nth fi g (ps_files s)) as [l|] eqn:U end;
      [|discriminate]. inversion E1; subst. simpl.
    destruct I1. constructor; simpl in *; auto.
    eexists. rewrite (update_nth_nth _ _ _ _ fi U), Nat.eqb_refl, N. split; [reflexivity|]. simpl.
    rewrite app_length. simpl. lia.
Qed.

Lemma good_parse_file v tag value s : inv v s -> ps_st s = PsFile -> good v (parse_file v tag value s).
Proof.
  intros I0 St0. unfold parse_file. 
  set (s1 := if (tag =? "ArtifactOfProjectHomePage") || (tag =? "ArtifactOfProjectURI") then s else set_ps_aop None s).
  assert (I : inv v s1).
  { unfold s1. destruct (_ || _); [assumption|]. destruct I0. constructor; simpl; auto. }
  assert (St : ps_st s1 = PsFile) by (unfold s1; now destruct (_ || _)). clearbody s1. clear I0 St0 s. rename s1 into s.
  assert (D : ps_doc s <> None) by (eapply inv_doc_st; eauto; discriminate).
  assert (R : ps_file s <> None) by (pose proof (i_st _ _ I) as H; now rewrite St in H).
  pose proof (winv_of_inv _ _ I D) as W.
  apply good_switch; [|exact Logic.I]. unfold file_cases. apply good_cases_app; [|apply good_cases_app].
  - repeat constructor; intros x; simpl; try (apply good_upd_file_plain; auto; fail).
    + now apply good_do_file_name.
    + unfold file_to_package. cbv zeta. apply good_bind; [eapply np_check_file; exact W|].
      intros _ _. apply good_do_package_name; [|reflexivity]. now apply winv_file.
    + apply good_do_snippet_id; [|reflexivity]. exact W.
    + now apply good_enter_license.
    + now apply good_do_file_spdxid.
    + apply good_bind; [apply np_extract_checksum|]. intros c X. apply extract_checksum_ok in X.
      apply good_upd_file; auto. intros p (P1 & P2 & P3). split; [exact P1|]. split; [|exact P3].
      simpl. now apply Forall_app_one.
    + now apply good_aop_name.
    + now apply good_aop.
    + now apply good_aop.
  - destruct v; repeat constructor; intros x; simpl; apply good_upd_file_plain; auto.
  - apply good_cases_app; [now apply good_rel_ann_cases|].
    repeat constructor. intros x. now apply good_enter_review.
Qed.

Lemma good_upd_pkg_plain v f s : inv v s -> ps_pkg s <> None ->
  (forall p, p_SPDXIdentifier (f p) = p_SPDXIdentifier p /\ p_Checksums (f p) = p_Checksums p /\
             p_Supplier (f p) = p_Supplier p /\ p_Originator (f p) = p_Originator p /\
             p_IsUnpackaged (f p) = p_IsUnpackaged p /\ p_Annotations (f p) = p_Annotations p /\
             p_FilesAnalyzed (f p) = p_FilesAnalyzed p /\
             p_IsFilesAnalyzedTagPresent (f p) = p_IsFilesAnalyzedTagPresent p /\
             p_ExternalReferences (f p) = p_ExternalReferences p /\ p_Files (f p) = p_Files p) ->
  good v (upd_pkg f s).
Proof.
  intros I H Hf. apply good_upd_pkg; auto; intros p;
    destruct (Hf p) as (E1 & E2 & E3 & E4 & E5 & E6 & E7 & E8 & E9 & E10); unfold pkg_c;
    rewrite ?E1, ?E2, ?E3, ?E4, ?E5, ?E6, ?E7, ?E8, ?E9, ?E10; auto.
Qed.

Lemma good_do_pkg_spdxid v value s : inv v s -> ps_st s = PsPackage -> good v (do_pkg_spdxid value s).
Proof.
  intros I St. assert (D : ps_doc s <> None) by (eapply inv_doc_st; eauto; discriminate).
  assert (R : ps_pkg s <> None) by (pose proof (i_st _ _ I) as H; now rewrite St in H).
  unfold do_pkg_spdxid. apply good_bind; [apply np_extract_element_id|]. intros eid X.
  apply extract_element_id_iff in X as [_ X].
  apply good_bind_st.
  - apply good_upd_pkg; auto. intros p (P1 & P2). split; [now right|]. exact P2.
  - intros s1 E1 I1.
    assert (P : exists i l, ps_pkg s = Some i /\ update_nth i (set_p_SPDXIdentifier eid) (ps_pkgs s) = Some l
                /\ s1 = set_ps_pkgs l s).
    { unfold upd_pkg, upd_ptr in E1. destruct (ps_pkg s) as [i|]; [|discriminate].
      destruct (update_nth i (set_p_SPDXIdentifier eid) (ps_pkgs s)) as [l|] eqn:U; [|discriminate].
      inversion E1. eauto 6. }
    destruct P as (i & l & Ei & U & ->). simpl. rewrite Ei.
    assert (FR : pref l i).
    { pose proof (i_pkg _ _ I) as P. rewrite Ei in P. simpl in P.
      destruct (nth_error (ps_pkgs s) i) as [f|] eqn:N.
      - exists (set_p_SPDXIdentifier eid f). rewrite (update_nth_nth _ _ _ _ i U), Nat.eqb_refl, N.
        split; [reflexivity|exact X].
      - apply nth_error_None in N. lia. }
    unfold upd_doc. simpl. destruct (ps_doc s) as [d|] eqn:Ed; [|congruence]. simpl.
    destruct I1. unfold doc_list in *. simpl in *. rewrite Ed in *.
    constructor; unfold doc_list; simpl; auto; try congruence. now apply Forall_app_one.
Qed.

Lemma good_external_ref v value s : inv v s -> ps_st s = PsPackage -> good v (do_external_ref value s).
Proof.
  intros I St. assert (R : ps_pkg s <> None) by (pose proof (i_st _ _ I) as H; now rewrite St in H).
  unfold do_external_ref. pose proof (i_pkg _ _ I) as P. destruct (ps_pkg s) as [fi|] eqn:E; [|congruence].
  simpl in P. destruct (nth_error (ps_pkgs s) fi) as [f|] eqn:N; [|apply nth_error_None in N; lia].
  apply good_bind; [apply np_extract_per|]. intros [[c t] lo] _.
  apply good_bind_st.
  - apply good_upd_pkg; auto; [congruence|]. intros p. simpl. rewrite app_length. lia.
  - intros s1 E1 I1. unfold upd_pkg, upd_ptr in E1. rewrite E in E1.
    match type of E1 with context [update_nth fi ?g _] => destruct (update_nth fi g (ps_pkgs s)) as [l|] eqn:U end;
      [|discriminate]. inversion E1; subst. simpl.
    destruct I1. constructor; simpl in *; auto.
    eexists. rewrite (update_nth_nth _ _ _ _ fi U), Nat.eqb_refl, N. split; [reflexivity|]. simpl.
    rewrite app_length. simpl. lia.
Qed.
Lemma good_external_ref_comment v value s : inv v s -> good v (do_external_ref_comment value s).
Proof.
  intros I. unfold do_external_ref_comment. pose proof (i_extref _ _ I) as P.
  destruct (ps_extref s) as [[fi ai]|] eqn:E; [|exact Logic.I].
  destruct P as (f & N & L). rewrite N.
  destruct (update_nth_some ai (set_er_Comment value) (p_ExternalReferences f) L) as [l U]. rewrite U.
  assert (fi < length (ps_pkgs s)) as Lf by (apply nth_error_Some; congruence).
  destruct (update_nth_some fi (set_p_ExternalReferences l) (ps_pkgs s) Lf) as [fs U2]. rewrite U2. simpl.
  assert (EX : ext_pkgs (ps_pkgs s) fs).
  { intros j x Hx. rewrite (update_nth_nth _ _ _ _ j U2), Hx. destruct (Nat.eqb_spec j fi) as [Ej|Ej].
    - subst j. rewrite N in Hx. inversion Hx; subst. simpl. eexists. split; [reflexivity|]. simpl. split; auto.
      rewrite (update_nth_length _ _ _ _ U). auto.
    - eexists. split; [reflexivity|auto]. }
  destruct I. constructor; simpl; auto.
  - eapply ptr_ok_length; [|eassumption]. now rewrite (update_nth_length _ _ _ _ U2).
  - eapply update_nth_Forall; eauto.
  - eapply update_nth_Forall; eauto.
  - eapply Forall_pref_ext; eauto.
Qed.

Lemma good_parse_package v tag value s : inv v s -> ps_st s = PsPackage -> good v (parse_package v tag value s).
Proof.
  intros I0 St0. unfold parse_package. 
  set (s1 := if tag =? "ExternalRefComment" then s else set_ps_extref None s).
  assert (I : inv v s1).
  { unfold s1. destruct (tag =? "ExternalRefComment"); [assumption|]. destruct I0. constructor; simpl; auto. }
  assert (St : ps_st s1 = PsPackage) by (unfold s1; now destruct (tag =? "ExternalRefComment")).
  clearbody s1. clear I0 St0 s. rename s1 into s.
  assert (D : ps_doc s <> None) by (eapply inv_doc_st; eauto; discriminate).
  assert (R : ps_pkg s <> None) by (pose proof (i_st _ _ I) as H; now rewrite St in H).
  pose proof (winv_of_inv _ _ I D) as W.
  assert (PL : forall f, (forall p, p_SPDXIdentifier (f p) = p_SPDXIdentifier p /\ p_Checksums (f p) = p_Checksums p /\
             p_Supplier (f p) = p_Supplier p /\ p_Originator (f p) = p_Originator p /\
             p_IsUnpackaged (f p) = p_IsUnpackaged p /\ p_Annotations (f p) = p_Annotations p /\
             p_FilesAnalyzed (f p) = p_FilesAnalyzed p /\
             p_IsFilesAnalyzedTagPresent (f p) = p_IsFilesAnalyzedTagPresent p /\
             p_ExternalReferences (f p) = p_ExternalReferences p /\ p_Files (f p) = p_Files p) ->
             good v (upd_pkg f s)) by (intros; now apply good_upd_pkg_plain).
  apply good_switch; [|exact Logic.I]. unfold package_cases.
  apply good_cases_app; [|apply good_cases_app; [|apply good_cases_app; [|apply good_cases_app]]].
  - repeat constructor; intros x; simpl; try (apply PL; intros p; repeat split; fail).
    + now apply good_do_package_name.
    + now apply good_do_file_name.
    + now apply good_enter_license.
    + now apply good_do_pkg_spdxid.
    + unfold do_supplier. destruct (String.eqb_spec x "NOASSERTION").
      * apply good_upd_pkg; auto. unfold pkg_c. simpl. intuition. right. now subst.
      * apply good_bind; [apply np_extract_actor|]. intros [k y] X. apply extract_actor_kind in X.
        apply good_upd_pkg; auto. unfold pkg_c. simpl. intuition; try (left; exact X).
    + unfold do_originator. destruct (String.eqb_spec x "NOASSERTION").
      * apply good_upd_pkg; auto. unfold pkg_c. simpl. intuition. right. now subst.
      * apply good_bind; [apply np_extract_actor|]. intros [k y] X. apply extract_actor_kind in X.
        apply good_upd_pkg; auto. unfold pkg_c. simpl. intuition; try (left; exact X).
    + unfold do_files_analyzed. apply good_upd_pkg; auto; intros p;
        destruct (x =? "false"); [|destruct (x =? "true")| |destruct (x =? "true")| |destruct (x =? "true")| |destruct (x =? "true")];
        simpl; auto; unfold pkg_c; simpl; intuition.
    + apply good_bind; [apply np_extract_checksum|]. intros c X. apply extract_checksum_ok in X.
      apply good_upd_pkg; auto. unfold pkg_c. simpl. intuition. now apply Forall_app_one.
  - destruct v; repeat constructor; intros x; simpl; apply PL; intros p; repeat split.
  - destruct v; repeat constructor; intros x; simpl; apply PL; intros p; repeat split.
  - repeat constructor; intros x; simpl.
    + now apply good_external_ref.
    + now apply good_external_ref_comment.
  - apply good_cases_app; [now apply good_rel_ann_cases|].
    repeat constructor. intros x. now apply good_enter_review.
Qed.

(** ** Creation info and start *)
Lemma good_document_comment v value s : inv v s -> ps_doc s <> None -> good v (do_document_comment value s).
Proof. intros I D. apply good_upd_doc; auto. intros d _. constructor; simpl; auto. Qed.
Lemma good_external_document_ref v value s : inv v s -> ps_doc s <> None -> good v (do_external_document_ref value s).
Proof.
  intros I D. apply good_bind; [apply np_extract_edr|]. intros e X. apply extract_edr_ok in X.
  apply good_upd_doc; auto. intros d _. constructor; simpl; auto.
  unfold doc_c. simpl. intuition. now apply Forall_app_one.
Qed.
Definition has_ci (s : pstate) : Prop := exists d ci, ps_doc s = Some d /\ d_CreationInfo d = Some ci.
Lemma good_upd_ci v f s : inv v s -> has_ci s ->
  (forall c, creation_info_ok c -> creation_info_ok (f c)) -> good v (upd_ci f s).
Proof.
  intros I (d & ci & E1 & E2) Hf. unfold upd_ci. rewrite E1, E2. simpl.
  eapply inv_set_doc; eauto. constructor; simpl; auto.
  unfold doc_c. simpl. rewrite E2. simpl. intuition.
Qed.
Lemma inv_st_start v s : inv v s -> inv v (set_ps_st PsStart s).
Proof. intros []. constructor; simpl; auto. Qed.

Lemma good_parse_creation_info v tag value s : inv v s -> ps_st s = PsCreationInfo ->
  good v (parse_creation_info v tag value s).
Proof.
  intros I0 St0. assert (D0 : ps_doc s <> None) by (eapply inv_doc_st; eauto; discriminate).
  unfold parse_creation_info. destruct (ps_doc s) as [d|] eqn:E0; [|congruence]. cbv zeta.
  match goal with |- good v (switch _ _ _ _ ?t) => set (s1 := t) end.
  assert (I : inv v s1 /\ has_ci s1 /\ ps_st s1 = PsCreationInfo).
  { unfold s1. destruct (d_CreationInfo d) as [ci|] eqn:Ec.
    - split; [assumption|]. split; [exists d, ci; auto|assumption].
    - split; [|split; [do 2 eexists; simpl; split; reflexivity|exact St0]].
      eapply inv_set_doc; eauto. constructor; simpl; auto.
      unfold doc_c. simpl. intuition. constructor. }
  destruct I as (I & HC & St). clearbody s1. clear I0 St0 D0 E0 d s. rename s1 into s.
  assert (D : ps_doc s <> None) by (eapply inv_doc_st; eauto; discriminate).
  pose proof (winv_of_inv _ _ I D) as W.
  apply good_switch; [|exact Logic.I]. unfold ci_cases.
  apply good_cases_app; [|apply good_cases_app; [|apply good_cases_app]].
  - repeat constructor; intros x; simpl; try (apply good_upd_ci; auto; fail).
    + apply good_bind; [apply np_extract_actor|]. intros [k y] X. apply extract_actor_kind in X.
      apply good_upd_ci; auto. intros c C. unfold creation_info_ok. simpl. now apply Forall_app_one.
    + unfold ci_to_package. apply good_bind; [eapply np_check_file; exact W|]. intros _ _.
      apply good_do_package_name; [|reflexivity]. apply winv_alloc_pkg. exact W.
    + unfold ci_to_file. apply good_do_file_name; [|reflexivity]. apply winv_pkg. exact W.
    + now apply good_enter_license.
    + now apply good_enter_review.
  - now apply good_rel_ann_cases.
  - destruct v; repeat constructor; intros x; simpl; apply good_document_comment; auto using inv_st_start.
  - repeat constructor; intros x; simpl. apply good_external_document_ref; auto using inv_st_start.
Qed.

Lemma good_parse_start v tag value s : inv v s -> good v (parse_start v tag value s).
Proof.
  intros I. assert (D : ps_doc s <> None) by apply I. unfold parse_start.
  destruct (ps_doc s) as [d0|] eqn:E0; [|congruence]. cbv zeta. rewrite <- E0 in D. clear d0 E0.
  apply good_switch.
  - repeat constructor; intros x; simpl; try (apply good_upd_doc; auto; intros d _; constructor; simpl; auto; fail).
    + apply good_bind; [apply np_extract_element_id|]. intros e X. apply extract_element_id_iff in X as [_ X].
      apply good_upd_doc; auto. intros d _. constructor; simpl; auto.
      unfold doc_c. simpl. intuition. now right.
    + now apply good_external_document_ref.
  - apply good_parse_creation_info; [|reflexivity]. now apply winv_of_inv.
Qed.

Lemma good_parse_pair v s p : inv v s -> good v (parse_pair v s p).
Proof.
  intros I. destruct p as [tag value]. simpl. destruct (ps_st s) eqn:St.
  - now apply good_parse_start.
  - now apply good_parse_creation_info.
  - now apply good_parse_package.
  - now apply good_parse_file.
  - now apply good_parse_snippet.
  - now apply good_parse_license.
  - now apply good_parse_review.
Qed.
Lemma good_parse_pairs v ps : forall s, inv v s -> good v (parse_pairs v s ps).
Proof.
  induction ps as [|p ps IH]; intros s I; simpl; [exact I|].
  apply good_bind_st; [now apply good_parse_pair|]. intros s' _ I'. now apply IH.
Qed.

Lemma parse_pairs_start v ps : ps <> [] -> parse_pairs v zero_pstate ps = parse_pairs v start_pstate ps.
Proof. destruct ps as [|[t x] ps]; [congruence|]. reflexivity. Qed.

(** ** The document seen by the caller *)
Lemma mapO_some {A B} (f : A -> option B) (P : A -> Prop) (Q : B -> Prop) l :
  (forall x, P x -> exists y, f x = Some y /\ Q y) -> Forall P l ->
  exists l', mapO f l = Some l' /\ Forall Q l'.
Proof.
  intros H HP. induction HP as [|x l Hx Hl IH]; simpl; [eauto|].
  destruct (H _ Hx) as (y & -> & ?), IH as (l' & -> & ?). eauto.
Qed.
Lemma mapO_map {A B C} (f : A -> option B) (g : A -> C) (h : B -> C) l l' :
  (forall x y, f x = Some y -> h y = g x) -> mapO f l = Some l' -> map h l' = map g l.
Proof.
  intros H. revert l'. induction l as [|x l IH]; intros l' E; simpl in *; [inversion E; reflexivity|].
  destruct (f x) eqn:F; [|discriminate]. destruct (mapO f l); [|discriminate]. inversion E; subst.
  simpl. f_equal; auto.
Qed.

Lemma deref_file_ok v s f : inv v s -> In f (ps_files s) -> id_ok (f_SPDXIdentifier f) ->
  exists x, deref_file (ps_snips s) f = Some x /\ file_ok v x.
Proof.
  intros I Hin Hid.
  pose proof (proj1 (Forall_forall _ _) (i_files _ _ I) _ Hin) as (_ & C2 & C3).
  pose proof (proj1 (Forall_forall _ _) (i_fsnips _ _ I) _ Hin) as (S1 & S2).
  unfold deref_file.
  set (g := fun '(k, i) => match nth_error (ps_snips s) i with Some x => Some (k, x) | None => None end).
  destruct (mapO_some g (sref (ps_snips s))
              (fun p => fst p = s_SPDXIdentifier (snd p) /\ snippet_ok (snd p)) (f_Snippets f)) as (l & E & F).
  - intros [k i] (x & N & K). simpl in *. rewrite N. eexists. split; [reflexivity|]. simpl. split; [exact K|].
    exact (proj1 (Forall_forall _ _) (i_snips _ _ I) _ (nth_error_In _ _ N)).
  - exact S1.
  - rewrite E. eexists. split; [reflexivity|]. unfold file_ok. simpl.
    split; [assumption|]. split; [assumption|]. split; [|split; assumption].
    replace (map fst l) with (map fst (f_Snippets f)); [exact S2|]. symmetry.
    apply (mapO_map g); [|assumption].
    intros [k i] [k' y]. simpl. destruct (nth_error _ _); [|discriminate]. intros X; inversion X; reflexivity.
Qed.
Lemma deref_file_at_ok v s i : inv v s -> fref (ps_files s) i ->
  exists x, deref_file_at s i = Some x /\ file_ok v x.
Proof.
  intros I (f & N & K). unfold deref_file_at. rewrite N. apply deref_file_ok; auto. eapply nth_error_In; eauto.
Qed.
Lemma deref_pkg_at_ok v s i : inv v s -> pref (ps_pkgs s) i ->
  exists x, deref_pkg_at s i = Some x /\ package_ok v x.
Proof.
  intros I (p & N & K). unfold deref_pkg_at, deref_pkg. rewrite N. apply nth_error_In in N.
  pose proof (proj1 (Forall_forall _ _) (i_pkgs _ _ I) _ N) as (_ & C).
  pose proof (proj1 (Forall_forall _ _) (i_pfiles _ _ I) _ N) as F. simpl in F.
  destruct (mapO_some (deref_file_at s) _ (file_ok v) _ (fun i => deref_file_at_ok v s i I) F) as (l & -> & Fl).
  eexists. split; [reflexivity|]. unfold package_ok. simpl. intuition.
Qed.
Lemma deref_doc_ok v s d : inv v s -> ps_doc s = Some d ->
  exists x, deref_doc s d = Some x /\ well_formed v x.
Proof.
  intros I E. pose proof (i_docc _ _ I) as C. rewrite E in C.
  pose proof (i_dpkgs _ _ I) as P. pose proof (i_dfiles _ _ I) as F. unfold doc_list in *. rewrite E in P, F.
  unfold deref_doc.
  destruct (mapO_some (deref_pkg_at s) _ (package_ok v) _ (fun i => deref_pkg_at_ok v s i I) P) as (l & -> & Fl).
  destruct (mapO_some (deref_file_at s) _ (file_ok v) _ (fun i => deref_file_at_ok v s i I) F) as (l' & -> & Fl').
  eexists. split; [reflexivity|]. simpl in C. unfold doc_c, well_formed in *. simpl. unfold id_opt in C. tauto.
Qed.

(** What [parse_tag_values] does on a non-empty list. *)
Lemma parse_tag_values_ok v ps : ps <> [] ->
  match parse_tag_values v ps with
  | Ok (Some d) => well_formed v d
  | Err _ => True
  | _ => False
  end.
Proof.
  intros H. unfold parse_tag_values. rewrite parse_pairs_start by assumption.
  pose proof (good_parse_pairs v ps _ (inv_start v)) as G.
  destruct (parse_pairs v start_pstate ps) as [s| |]; simpl; auto. simpl in G.
  pose proof (winv_of_inv _ _ G (i_doc _ _ G)) as W.
  pose proof (np_check_file _ _ W) as N1. unfold np in N1.
  destruct (check_file_id s); simpl; auto.
  pose proof (np_check_pkg _ _ W) as N2. unfold np in N2.
  destruct (check_pkg_id s); simpl; auto.
  destruct (ps_doc s) as [d|] eqn:E; [|now apply (i_doc _ _ G)].
  destruct (deref_doc_ok _ _ _ G E) as (x & -> & ?). assumption.
Qed.
Lemma parse_nil v : parse_tag_values v [] = Ok None.
Proof. reflexivity. Qed.

Lemma read_into_ok content :
  match read_into content with
  | Ok (v, Some d) => well_formed v d
  | Ok (_, None) => False
  | Err _ => True
  | Panic => False
  end.
Proof.
  unfold read_into. pose proof (read_tag_values_never_panics content) as N.
  destruct (read_tag_values content) as [ps| |]; simpl; auto.
  destruct ps as [|p ps]; simpl; auto.
  set (l := p :: ps). assert (l <> []) as H by discriminate. clearbody l.
  destruct (first_version l =? "SPDX-2.1"); [|destruct (first_version l =? "SPDX-2.2"); [|destruct (first_version l =? "SPDX-2.3"); [|exact Logic.I]]].
  - pose proof (parse_tag_values_ok V21 l H). destruct (parse_tag_values V21 l) as [[]| |]; simpl; auto.
  - pose proof (parse_tag_values_ok V22 l H). destruct (parse_tag_values V22 l) as [[]| |]; simpl; auto.
  - pose proof (parse_tag_values_ok V23 l H). destruct (parse_tag_values V23 l) as [[]| |]; simpl; auto.
Qed.

(** ** Version dispatch *)
Lemma find_first t a x b : Forall (fun p : string * string => fst p <> t) a ->
  find (fun p => String.eqb (fst p) t) (a ++ (t, x) :: b) = Some (t, x).
Proof.
  intros H. induction H as [|[k y] a Hk Ha IH]; simpl.
  - now rewrite String.eqb_refl.
  - simpl in Hk. destruct (String.eqb_spec k t); [congruence|]. exact IH.
Qed.
Lemma find_split t l : forall p, find (fun p => String.eqb (fst p) t) l = Some p ->
  exists a b, l = (a ++ p :: b)%list /\ fst p = t /\ Forall (fun p : string * string => fst p <> t) a.
Proof.
  induction l as [|[k y] l IH]; intros p H; simpl in H; [discriminate|].
  destruct (String.eqb_spec k t).
  - inversion H; subst. exists [], l. auto.
  - destruct (IH _ H) as (a & b & -> & E & F). exists ((k, y) :: a), b. auto.
Qed.
Lemma dispatch content a b v :
  read_tag_values content = Ok (a ++ ("SPDXVersion", version_string v) :: b)%list ->
  Forall (fun p => fst p <> "SPDXVersion") a ->
  read_into content =
  match parse_tag_values v (a ++ ("SPDXVersion", version_string v) :: b) with
  | Ok d => Ok (v, d) | Err e => Err e | Panic => Panic
  end.
Proof.
  intros H F. unfold read_into. rewrite H. cbn [bindR].
  assert (N : (a ++ ("SPDXVersion", version_string v) :: b)%list <> []) by (destruct a; discriminate).
  assert (V : first_version (a ++ ("SPDXVersion", version_string v) :: b) = version_string v)
    by (unfold first_version; now rewrite find_first).
  destruct (a ++ ("SPDXVersion", version_string v) :: b)%list as [|p l]; [congruence|]. cbv zeta.
  rewrite V. destruct v; reflexivity.
Qed.
Lemma dispatch_inv content v d : read_into content = Ok (v, d) ->
  exists a b, read_tag_values content = Ok (a ++ ("SPDXVersion", version_string v) :: b)%list /\
  Forall (fun p => fst p <> "SPDXVersion") a /\
  parse_tag_values v (a ++ ("SPDXVersion", version_string v) :: b) = Ok d.
Proof.
  unfold read_into. destruct (read_tag_values content) as [ps| |]; try discriminate. cbn [bindR].
  destruct ps as [|p ps]; [discriminate|]. set (l := p :: ps). clearbody l. cbv zeta. clear p ps.
  intros H.
  assert (X : first_version l = version_string v /\ parse_tag_values v l = Ok d).
  { destruct (String.eqb_spec (first_version l) "SPDX-2.1");
      [|destruct (String.eqb_spec (first_version l) "SPDX-2.2");
        [|destruct (String.eqb_spec (first_version l) "SPDX-2.3"); [|discriminate]]].
    - destruct (parse_tag_values V21 l) eqn:P; simpl in H; try discriminate. inversion H; subst. auto.
    - destruct (parse_tag_values V22 l) eqn:P; simpl in H; try discriminate. inversion H; subst. auto.
    - destruct (parse_tag_values V23 l) eqn:P; simpl in H; try discriminate. inversion H; subst. auto. }
  destruct X as [X P]. unfold first_version in X.
  destruct (find _ l) as [[k y]|] eqn:F; [|destruct v; discriminate].
  destruct (find_split _ _ _ F) as (a & b & -> & E & Fa). simpl in E. subst.
  exists a, b. auto.
Qed.

(** ** Totality *)
Lemma read_total content :
  (exists v d, read_into content = Ok (v, Some d)) \/ (exists e, read_into content = Err e).
Proof.
  pose proof (read_into_ok content) as G.
  destruct (read_into content) as [[v [d|]]|e|]; [left|easy|right|easy]; eauto.
Qed.
Lemma parse_total v ps : ps <> [] ->
  (exists d, parse_tag_values v ps = Ok (Some d)) \/ (exists e, parse_tag_values v ps = Err e).
Proof.
  intros H. pose proof (parse_tag_values_ok v ps H) as G.
  destruct (parse_tag_values v ps) as [[d|]|e|]; [left|easy|right|easy]; eauto.
Qed.
Lemma read_well_formed content v d : read_into content = Ok (v, Some d) -> well_formed v d.
Proof. intros H. pose proof (read_into_ok content) as G. now rewrite H in G. Qed.
Lemma read_rejects_version content ps :
  read_tag_values content = Ok ps ->
  (forall a b v, ps = (a ++ ("SPDXVersion", version_string v) :: b)%list ->
                 Exists (fun p => fst p = "SPDXVersion") a) ->
  exists e, read_into content = Err e.
Proof.
  intros H N. destruct (read_total content) as [(v & d & X)|?]; [|assumption].
  destruct (dispatch_inv _ _ _ X) as (a & b & E & F & _). rewrite H in E. inversion E; subst.
  specialize (N a b v eq_refl). apply Exists_exists in N as (p & Hin & Hp).
  rewrite Forall_forall in F. now apply F in Hin.
Qed.
