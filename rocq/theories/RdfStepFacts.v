(** What one statement of a file, package or relationship node does to the state. *)
From Verif Require Import GoStr GoStrFacts Types TvUtil TvParser RdfConst Rdf RdfReader SpecTv SpecId SpecDoc SpecRdf SpecRdfDoc
  TvReaderFacts TvUtilFacts TvParserFacts RdfFacts RdfLicenseFacts RdfHelperFacts RdfNodeFacts.

(** ** No panic, no exhausted recursion in the flat functions *)
Lemma fine_extract_element_id x : fine (extract_element_id x).
Proof. unfold extract_element_id. cbv zeta. destruct (negb _); [fine_leaf|]. destruct (contains _ _); [fine_leaf|]. destruct (_ =? _); fine_leaf. Qed.
Lemma fine_extract_elt d x : fine (extract_elt d x).
Proof. unfold extract_elt. cbv zeta. destruct (negb _); [fine_leaf|]. destruct (contains _ _); [fine_leaf|]. destruct (_ =? _); fine_leaf. Qed.
Lemma fine_extract_doc_element_id x : fine (extract_doc_element_id x).
Proof.
  unfold extract_doc_element_id. destruct (has_prefix _ _); [|apply fine_extract_elt].
  destruct (split_on _ _) as [|d [|e []]]; try fine_leaf. cbv zeta. destruct (_ =? _); [fine_leaf|apply fine_extract_elt].
Qed.
Lemma fine_file_identifier x : fine (file_identifier x).
Proof. apply fine_extract_element_id. Qed.
Lemma fine_reference x : fine (reference_from_uri x).
Proof. unfold reference_from_uri. cbv zeta. destruct (_ || _); [fine_leaf|apply fine_extract_doc_element_id]. Qed.
Lemma fine_relationship_type x : fine (relationship_type_from_uri x).
Proof. unfold relationship_type_from_uri. cbv zeta. destruct (negb _); [fine_leaf|]. destruct (mem _ _); fine_leaf. Qed.
Lemma fine_file_type x : fine (file_type_from_uri x).
Proof. unfold file_type_from_uri. cbv zeta. destruct (negb _); fine_leaf. Qed.
Lemma fine_location g x : fine (location_from_uri g x).
Proof. unfold location_from_uri. destruct (_ || _); [fine_leaf|]. destruct (_ || _); [fine_leaf|]. destruct (g_valid_uri g x); fine_leaf. Qed.
Lemma fine_element_checksum v g n : fine (element_checksum v g n).
Proof. unfold element_checksum. apply fine_bind; [apply fine_checksum|]. intros c _. destruct (mem _ _); fine_leaf. Qed.
Lemma fine_actor {B} (x : string) l (f : string -> string -> B) e : e <> out_of_fuel ->
  fine (let* (k, n) := extract_subs_sep x ":" in if mem k l then Ok (f k n) else Err e).
Proof. intros N. apply fine_bind; [apply fine_extract_subs_sep|]. intros [k n] _. destruct (mem _ _); [fine_leaf|exact N]. Qed.
Lemma fine_annotation g n : fine (annotation_from_node g n).
Proof.
  apply fine_for_each. intros t s _. unfold annotation_step. fine_cases.
  - apply fine_actor. discriminate.
  - apply fine_bind; [|intros; fine_leaf]. unfold annotation_type. destruct (_ =? _); [fine_leaf|]. destruct (_ =? _); fine_leaf.
Qed.
Lemma fine_creation_info ts c : fine (for_each creation_info_step ts c).
Proof. apply fine_for_each. intros t s _. unfold creation_info_step. fine_cases. apply fine_actor. discriminate. Qed.
Lemma fine_review g n : fine (review_from_node g n).
Proof. apply fine_for_each. intros t s _. unfold review_step. fine_cases. apply fine_bind; [apply fine_extract_subs_sep|intros [] _; fine_leaf]. Qed.
Lemma fine_artifact g n : fine (artifact_from_node g n).
Proof. apply fine_for_each. intros t s _. unfold artifact_step. fine_cases. Qed.
Lemma fine_external_ref g n : fine (external_ref_from_node g n).
Proof. apply fine_for_each. intros t s _. unfold external_ref_step. fine_cases. fine_cases. Qed.
Lemma fine_verification g n old : fine (verification_from_node g n old).
Proof. apply fine_for_each. intros t s _. unfold verification_step. fine_cases. Qed.
Lemma fine_external_document g n : fine (external_document_from_node g n).
Proof.
  apply fine_for_each. intros t s _. unfold external_document_step. cbv zeta. fine_cases.
  apply fine_bind; [apply fine_checksum|intros; fine_leaf].
Qed.
Lemma fine_package_actor x : fine (package_actor x).
Proof. unfold package_actor. cbv zeta. destruct (_ =? _); [fine_leaf|]. apply fine_actor. discriminate. Qed.
Global Hint Resolve fine_file_type fine_location fine_element_checksum fine_annotation fine_creation_info fine_review fine_artifact
  fine_external_ref fine_verification fine_external_document fine_package_actor fine_bool fine_reference fine_relationship_type
  fine_extract_doc_element_id fine_extract_element_id fine_file_identifier get_any_license_fine : fine.

(** ** The cache only grows *)
Record cache_more (ids : string -> Prop) (c c' : cache) : Prop := {
  cm_grey : forall x, is_grey c' x = is_grey c x;
  cm_old : forall id o k, lookup id c = Some (o, k) -> exists k', lookup id c' = Some (o, k');
  cm_new : forall id o k, lookup id c = None -> lookup id c' = Some (o, k) -> o = CNil /\ ids id
}.
Lemma cache_more_refl ids c : cache_more ids c c.
Proof. split; [reflexivity|eauto|congruence]. Qed.
(** the same with the greys left open, for what happens between enter and leave *)
Definition objects_kept (c c' : cache) : Prop := forall id o k, lookup id c = Some (o, k) -> exists k', lookup id c' = Some (o, k').
Definition objects_new (P : string -> cached -> Prop) (c c' : cache) : Prop :=
  forall id o k, lookup id c = None -> lookup id c' = Some (o, k) -> P id o.
Lemma lookup_enter id x o c : lookup id (enter x o c) =
  if id =? x then Some (match lookup x c with Some (o', _) => o' | None => o end, GREY) else lookup id c.
Proof.
  unfold enter. destruct (String.eqb_spec id x) as [->|N].
  - destruct (lookup x c) as [[o' k]|]; now rewrite lookup_assign_eq.
  - destruct (lookup x c) as [[o' k]|]; now rewrite lookup_assign_ne.
Qed.
Lemma lookup_leave id x c : lookup id (leave x c) =
  if id =? x then match lookup x c with Some (o, _) => Some (o, BLACK) | None => None end else lookup id c.
Proof.
  unfold leave. destruct (String.eqb_spec id x) as [->|N].
  - destruct (lookup x c) as [[o' k]|] eqn:E; [now rewrite lookup_assign_eq|exact E].
  - destruct (lookup x c) as [[o' k]|]; [now rewrite lookup_assign_ne|reflexivity].
Qed.
Lemma objects_kept_refl c : objects_kept c c.
Proof. intros id o k H. eauto. Qed.
Lemma objects_kept_trans c1 c2 c3 : objects_kept c1 c2 -> objects_kept c2 c3 -> objects_kept c1 c3.
Proof. intros H1 H2 id o k H. destruct (H1 _ _ _ H) as (k1 & H'). eauto. Qed.
Lemma objects_kept_enter c x o : objects_kept c (enter x o c).
Proof.
  intros id o' k H. rewrite lookup_enter. destruct (String.eqb_spec id x) as [->|]; [|eauto]. rewrite H. eauto.
Qed.
Lemma objects_kept_leave c x : objects_kept c (leave x c).
Proof.
  intros id o' k H. rewrite lookup_leave. destruct (String.eqb_spec id x) as [->|]; [|eauto]. rewrite H. eauto.
Qed.
Lemma objects_new_trans P c1 c2 c3 : objects_kept c2 c3 -> objects_new P c1 c2 -> objects_new P c2 c3 -> objects_new P c1 c3.
Proof.
  intros K H1 H2 id o k N H. destruct (lookup id c2) as [[o' k']|] eqn:E.
  - destruct (K _ _ _ E) as (k2 & E2). rewrite E2 in H. injection H as -> _. exact (H1 _ _ _ N E).
  - exact (H2 _ _ _ E H).
Qed.

Lemma members_cache g (any : node -> cache -> res (license * cache)) strict n (M : node -> Prop) :
  (forall o, In o (objects (spdx "member") (of_node g n)) -> M o) ->
  (forall o c l c', M o -> any o c = Ok (l, c') -> objects_kept c c' /\
     objects_new (fun id x => x = CNil /\ exists path m, chain g o path m /\ n_id m = id) c c') ->
  forall ms c ms' c', for_each (members_step any strict) (triples_of g n) (ms, c) = Ok (ms', c') ->
  objects_kept c c' /\
  objects_new (fun id x => x = CNil /\ exists o path m, In o (objects (spdx "member") (of_node g n)) /\ chain g o path m /\ n_id m = id) c c'.
Proof.
  intros HM HA ms c ms' c' H. rewrite triples_of_node in H.
  assert (G : forall ts, (forall t, In t ts -> In t (of_node g n)) -> forall ms c,
    for_each (members_step any strict) ts (ms, c) = Ok (ms', c') -> objects_kept c c' /\
    objects_new (fun id x => x = CNil /\ exists o path m, In o (objects (spdx "member") (of_node g n)) /\ chain g o path m /\ n_id m = id) c c').
  { clear ms c H. induction ts as [|t ts IH]; intros I ms c H; cbn [for_each] in H.
    - injection H as <- <-. split; [apply objects_kept_refl|]. intros id o k; congruence.
    - apply bind_ok in H as ([ms1 c1] & H1 & H).
      assert (J : forall t, In t ts -> In t (of_node g n)) by (intros; apply I; now right).
      destruct (IH J _ _ H) as [K N]. unfold members_step in H1. cbn [switch] in H1.
      destruct (t_pred t =? RDF_TYPE); [injection H1 as <- <-; auto|].
      destruct (String.eqb_spec (t_pred t) SPDX_MEMBER) as [E|].
      + apply bind_ok in H1 as ([l c2] & H1 & H2). injection H2 as _ <-.
        assert (O : In (t_obj t) (objects (spdx "member") (of_node g n))).
        { apply in_objects. exists t. split; [apply I; now left|]. split; [exact E|reflexivity]. }
        destruct (HA _ _ _ _ (HM _ O) H1) as [K1 N1]. split; [exact (objects_kept_trans _ _ _ K1 K)|].
        apply (objects_new_trans _ c c2 c' K); [|exact N]. intros id o k X Y.
        destruct (N1 id o k X Y) as (-> & path & m & C & D). eauto 8.
      + destruct strict; [discriminate H1|]. injection H1 as <- <-. auto. }
  exact (G _ (fun t X => X) _ _ H).
Qed.
Lemma any_license_cache g k : forall n c l c', any_license g k n c = Ok (l, c') -> objects_kept c c' /\
  objects_new (fun id x => x = CNil /\ exists path m, chain g n path m /\ n_id m = id) c c'.
Proof.
  induction k as [|k IH]; intros n c l c' H; cbn [any_license] in H; [discriminate H|].
  destruct (is_grey c (n_id n)) eqn:G; [discriminate H|]. cbv zeta in H.
  apply bind_ok in H as ([l1 c2] & H & E). injection E as _ <-.
  set (c1 := enter (n_id n) CNil c) in *.
  assert (N1 : objects_new (fun id x => x = CNil /\ exists path m, chain g n path m /\ n_id m = id) c c1).
  { intros id o j X Y. unfold c1 in Y. rewrite lookup_enter in Y. destruct (String.eqb_spec id (n_id n)) as [->|]; [|congruence].
    rewrite X in Y. injection Y as <- _. split; [reflexivity|]. exists [], n. split; [constructor|reflexivity]. }
  assert (D : objects_kept c1 c2 /\ objects_new (fun id x => x = CNil /\ exists path m, chain g n path m /\ n_id m = id) c1 c2).
  { assert (R : c2 = c1 -> objects_kept c1 c2 /\ objects_new (fun id x => x = CNil /\ exists path m, chain g n path m /\ n_id m = id) c1 c2).
    { intros ->. split; [apply objects_kept_refl|]. intros id o j; congruence. }
    destruct (triples_with_id g (n_id n)) as [|t ts] eqn:TW.
    - apply bind_ok in H as (s & _ & H). injection H as _ <-. auto.
    - apply bind_ok in H as (ty & T & H). rewrite <- TW in T. cbn [switch] in H.
      change (triples_with_id g (n_id n)) with (about g (n_id n)) in T. apply node_type_spec in T.
      assert (MM : forall strict a, has_type g n "ConjunctiveLicenseSet" \/ has_type g n "DisjunctiveLicenseSet" ->
        for_each (members_step (any_license g k) strict) (triples_of g n) ([], c1) = Ok (a, c2) ->
        objects_kept c1 c2 /\ objects_new (fun id x => x = CNil /\ exists path m, chain g n path m /\ n_id m = id) c1 c2).
      { intros strict a TY M.
        destruct (members_cache g _ strict n (fun _ => True) (fun _ _ => Logic.I)
           (fun o c l c' _ E => IH o c l c' E) _ _ _ _ M) as [K N]. split; [exact K|].
        intros id o j X Y. destruct (N id o j X Y) as (-> & o1 & path & m & O & C & D). split; [reflexivity|].
        exists (n :: path), m. split; [|exact D]. apply ch_step with (k := o1); [|exact C]. split; assumption. }
      repeat match type of H with (if ?b =? ?d then _ else _) = _ => destruct (String.eqb_spec b d) end; try discriminate H; subst ty;
        apply bind_ok in H as ([a b] & H1 & H) || apply bind_ok in H as (a & H1 & H); injection H as _ <-; auto;
        first [apply (MM _ _ (or_introl T) H1) | apply (MM _ _ (or_intror T) H1)]. }
  destruct D as [K N]. split.
  - apply objects_kept_trans with c1; [apply objects_kept_enter|]. apply objects_kept_trans with c2; [exact K|apply objects_kept_leave].
  - intros id o j X Y. rewrite lookup_leave in Y.
    assert (Z : exists j', lookup id c2 = Some (o, j')).
    { destruct (String.eqb_spec id (n_id n)) as [->|]; [|eauto]. destruct (lookup (n_id n) c2) as [[o' j']|]; [|discriminate].
      injection Y as -> _. eauto. }
    destruct Z as (j' & Z). exact (objects_new_trans _ c c1 c2 K N1 N id o j' X Z).
Qed.
Lemma license_cache g n c l c' : get_any_license g n c = Ok (l, c') ->
  cache_more (fun id => exists path m, chain g n path m /\ n_id m = id) c c'.
Proof.
  intros H. destruct (any_license_cache g _ _ _ _ _ H) as [K N].
  split; [exact (any_license_grey _ _ _ _ _ _ H)|exact K|exact N].
Qed.
Lemma license_read g n c l c' : get_any_license g n c = Ok (l, c') -> license_text g [] n (license_string l).
Proof.
  intros H. destruct (in_progress_exists c) as (above & A). apply (license_text_weaken g above).
  - apply (any_license_sound _ _ _ _ _ _ _ A H).
  - intros x [].
Qed.

(** ** Files *)
Definition file_more (v : version) (g : graph) (t : triple) (f f' : File) : Prop :=
  f_SPDXIdentifier f' = f_SPDXIdentifier f /\ f_Snippets f' = f_Snippets f /\
  forall n ts, file_says v g n ts f -> file_says v g n (ts ++ [t]) f'.
Inductive file_effect (v : version) (g : graph) (rec : parsers) (a : nat) (t : triple) (s : rstate) (f : File) : res rstate -> Prop :=
| fe_err e : e <> out_of_fuel -> file_effect v g rec a t s f (Err e)
| fe_own c f' l :
    ~ In (t_pred t) [spdx "fileDependency"; spdx "relationship"; spdx "annotation"] ->
    cache_more (fun id => In (t_pred t) [spdx "licenseConcluded"; spdx "licenseInfoInFile"] /\
                          exists path m, chain g (t_obj t) path m /\ n_id m = id) (rs_cache s) c ->
    file_more v g t f f' -> update_nth a (fun _ => f') (rs_files s) = Some l ->
    file_effect v g rec a t s f (Ok (set_rs_files l (set_rs_cache c s)))
| fe_annotation an :
    t_pred t = spdx "annotation" -> annotation_says (of_node g (t_obj t)) an ->
    file_effect v g rec a t s f (Ok (on_doc (fun d => set_d_Annotations (d_Annotations d ++ [an])%list d) s))
| fe_dependency : t_pred t = spdx "fileDependency" ->
    file_effect v g rec a t s f
      (let* (b, s1) := go_file rec (t_obj t) s in
        match nth_error (rs_files s1) b with
        | None => Panic
        | Some fb => on_file a (fun f => Ok (set_f_Dependencies (f_Dependencies f ++ [f_SPDXIdentifier fb])%list f)) s1
        end)
| fe_relationship : t_pred t = spdx "relationship" -> file_effect v g rec a t s f (go_rel rec t s).

Lemma set_rs_cache_id s : set_rs_cache (rs_cache s) s = s.
Proof. now destruct s. Qed.
Lemma update_nth_same {A} (l : list A) i x : nth_error l i = Some x -> update_nth i (fun _ => x) l = Some l.
Proof.
  revert i. induction l as [|y l IH]; intros [|i] H; try discriminate; simpl in *; [now injection H as ->|].
  now rewrite (IH i H).
Qed.
Lemma nth_error_some_lt {A} (l : list A) i x : nth_error l i = Some x -> i < length l.
Proof. intros H. apply nth_error_Some. congruence. Qed.

Ltac pred_goal t :=
  cbn [switch app];
  repeat match goal with
  | |- context [if String.eqb (t_pred t) ?k then _ else _] =>
      let E := fresh "E" in destruct (String.eqb_spec (t_pred t) k) as [E|_]
  end.
Lemma not_in_known p l : mem p l = false -> ~ In p l.
Proof. apply mem_false. Qed.
Lemma fine_err {A} (r : res A) e : fine r -> r = Err e -> e <> out_of_fuel.
Proof. intros F ->. exact F. Qed.

Lemma file_more_same v g t f : In (t_pred t) [spdx "name"; rdf_type; spdx "licenseInfoFromFiles"; spdx "annotation"; spdx "relationship"] ->
  file_more v g t f f.
Proof.
  intros I. split; [reflexivity|]. split; [reflexivity|]. intros n ts [].
  destruct I as [E|[E|[E|[E|[E|[]]]]]]; symmetry in E; record_step E.
Qed.
Lemma file_more_dependency v g t f id : t_pred t = spdx "fileDependency" -> file_id (t_obj t) id ->
  file_more v g t f (set_f_Dependencies (f_Dependencies f ++ [id])%list f).
Proof.
  intros E I. split; [reflexivity|]. split; [reflexivity|]. intros n ts []. record_step E.
Qed.
Lemma notice_spec n : notice_term (n_id n) (notice_text n).
Proof.
  unfold notice_term, notice_text. change SPDX_NOASSERTION_CAPS with (spdx "NOASSERTION"). change SPDX_NOASSERTION_SMALL with (spdx "noassertion").
  destruct (String.eqb_spec (n_id n) (spdx "NOASSERTION")) as [->|N1]; [left; simpl; auto|].
  destruct (String.eqb_spec (n_id n) (spdx "noassertion")) as [->|N2]; [left; simpl; auto|].
  right. simpl. split; [|reflexivity]. intros [H|[H|[]]]; congruence.
Qed.

Lemma file_own v g rec a t s f f' : nth_error (rs_files s) a = Some f ->
  ~ In (t_pred t) [spdx "fileDependency"; spdx "relationship"; spdx "annotation"] ->
  file_more v g t f f' ->
  file_effect v g rec a t s f (match update_nth a (fun _ => f') (rs_files s) with Some l => Ok (set_rs_files l s) | None => Panic end).
Proof.
  intros H N M. destruct (update_nth_some a (fun _ => f') (rs_files s)) as (l & U); [now apply nth_error_some_lt in H|].
  rewrite U. rewrite <- (set_rs_cache_id s) at 2. apply fe_own with (f' := f'); auto. apply cache_more_refl.
Qed.
Lemma file_same v g rec a t s f : nth_error (rs_files s) a = Some f ->
  ~ In (t_pred t) [spdx "fileDependency"; spdx "relationship"; spdx "annotation"] ->
  file_more v g t f f -> file_effect v g rec a t s f (Ok s).
Proof.
  intros H N M. replace (Ok s) with (match update_nth a (fun _ => f) (rs_files s) with Some l => Ok (set_rs_files l s) | None => Panic end).
  - now apply file_own.
  - rewrite (update_nth_same _ _ _ H). now destruct s.
Qed.
Lemma file_license v g rec a t s f (h : string -> File -> File) : nth_error (rs_files s) a = Some f ->
  In (t_pred t) [spdx "licenseConcluded"; spdx "licenseInfoInFile"] ->
  (forall x, license_text g [] (t_obj t) x -> file_more v g t f (h x f)) ->
  file_effect v g rec a t s f
    (let* (l, s1) := with_license g (t_obj t) s in on_file a (fun f => Ok (h l f)) s1).
Proof.
  intros H I M. unfold with_license. destruct (get_any_license g (t_obj t) (rs_cache s)) as [[l c]|e|] eqn:L; cbn [bindR].
  - unfold on_file. change (rs_files (set_rs_cache c s)) with (rs_files s). rewrite H. cbn [bindR].
    destruct (update_nth_some a (fun _ => h (license_string l) f) (rs_files s)) as (fs & U); [now apply nth_error_some_lt in H|].
    rewrite U. apply fe_own with (f' := h (license_string l) f).
    + destruct I as [<-|[<-|[]]]; apply not_in_known; reflexivity.
    + apply license_cache in L as [A B C]. split; auto. intros id o k X Y. destruct (C id o k X Y). auto.
    + apply M. eapply license_read; eauto.
    + exact U.
  - apply fe_err. apply (fine_err (get_any_license g (t_obj t) (rs_cache s))); [apply get_any_license_fine|exact L].
  - exfalso. pose proof (get_any_license_fine g (t_obj t) (rs_cache s)) as F. now rewrite L in F.
Qed.
Ltac more E := split; [reflexivity|]; split; [reflexivity|]; let n := fresh "n" in let ts := fresh "ts" in intros n ts []; record_step E.
Ltac read_value r :=
  let x := fresh "x" in let e := fresh "e" in let R := fresh "R" in
  let F := fresh "F" in assert (F : fine r) by auto with fine;
  destruct r as [x|e|] eqn:R; cbn [bindR]; [|apply fe_err; exact F|destruct F].

Lemma file_step_effect v g rec a t s f : nth_error (rs_files s) a = Some f ->
  file_effect v g rec a t s f (file_step v g rec a t s).
Proof.
  intros H. unfold file_step. cbv zeta.
  assert (ON : forall (r : File -> res File), on_file a r s =
     bindR (r f) (fun y => match update_nth a (fun _ => y) (rs_files s) with Some l => Ok (set_rs_files l s) | None => Panic end))
    by (intros r; unfold on_file; now rewrite H).
  rewrite !ON. cbn [bindR]. clear ON.
  pred_goal t.
  - apply file_own; [exact H|rewrite E; apply not_in_known; reflexivity|]. more E.
  - apply file_same; [exact H|rewrite E; apply not_in_known; reflexivity|]. apply file_more_same. in_vocabulary E.
  - apply file_same; [exact H|rewrite E; apply not_in_known; reflexivity|]. apply file_more_same. in_vocabulary E.
  - read_value (file_type_from_uri (n_id (t_obj t))). apply file_type_spec in R.
    apply file_own; [exact H|rewrite E; apply not_in_known; reflexivity|]. more E.
  - read_value (element_checksum v g (t_obj t)). apply checksum_node_spec in R.
    apply file_own; [exact H|rewrite E; apply not_in_known; reflexivity|]. more E.
  - apply (file_license v g rec a t s f (fun l f => set_f_LicenseConcluded l f)); [exact H|in_vocabulary E|].
    intros x L. more E.
  - apply (file_license v g rec a t s f (fun l f => set_f_LicenseInfoInFiles (f_LicenseInfoInFiles f ++ [l])%list f)); [exact H|in_vocabulary E|].
    intros x L. more E.
  - apply file_own; [exact H|rewrite E; apply not_in_known; reflexivity|]. more E.
  - apply file_own; [exact H|rewrite E; apply not_in_known; reflexivity|]. more E.
  - apply file_same; [exact H|rewrite E; apply not_in_known; reflexivity|]. apply file_more_same. in_vocabulary E.
  - read_value (artifact_from_node g (t_obj t)). apply artifact_spec in R.
    apply file_own; [exact H|rewrite E; apply not_in_known; reflexivity|]. more E.
  - apply file_own; [exact H|rewrite E; apply not_in_known; reflexivity|]. more E.
  - pose proof (notice_spec (t_obj t)) as R. apply file_own; [exact H|rewrite E; apply not_in_known; reflexivity|]. more E.
  - apply file_own; [exact H|rewrite E; apply not_in_known; reflexivity|]. more E.
  - now apply fe_dependency.
  - apply file_own; [exact H|rewrite E; apply not_in_known; reflexivity|]. more E.
  - unfold parse_annotation. read_value (annotation_from_node g (t_obj t)). apply annotation_node_spec in R. now apply fe_annotation.
  - now apply fe_relationship.
  - apply fe_err. discriminate.
Qed.

(** ** Packages *)
Definition package_more (v : version) (g : graph) (t : triple) (p p' : PackageArena) : Prop :=
  p_SPDXIdentifier p' = p_SPDXIdentifier p /\ p_Files p' = p_Files p /\
  forall F n ts, package_says v g F n ts p -> package_says v g F n (ts ++ [t]) p'.
Inductive package_effect (v : version) (g : graph) (rec : parsers) (a : nat) (t : triple) (s : rstate) (p : PackageArena) : res rstate -> Prop :=
| pe_err e : e <> out_of_fuel -> package_effect v g rec a t s p (Err e)
| pe_own c p' l :
    ~ In (t_pred t) [spdx "hasFile"; spdx "relationship"; spdx "annotation"] ->
    cache_more (fun id => In (t_pred t) [spdx "licenseConcluded"; spdx "licenseDeclared"] /\
                          exists path m, chain g (t_obj t) path m /\ n_id m = id) (rs_cache s) c ->
    package_more v g t p p' -> update_nth a (fun _ => p') (rs_pkgs s) = Some l ->
    package_effect v g rec a t s p (Ok (set_rs_pkgs l (set_rs_cache c s)))
| pe_annotation an :
    t_pred t = spdx "annotation" -> annotation_says (of_node g (t_obj t)) an ->
    package_effect v g rec a t s p (Ok (on_doc (fun d => set_d_Annotations (d_Annotations d ++ [an])%list d) s))
| pe_file : t_pred t = spdx "hasFile" ->
    package_effect v g rec a t s p
      (let* (b, s1) := go_file rec (t_obj t) s in
        match nth_error (rs_files s1) b with
        | None => Panic
        | Some fb =>
            let* s2 := on_pkg a (fun p => Ok (set_p_Files (p_Files p ++ [b])%list p)) s1 in
            Ok (set_rs_assoc (f_SPDXIdentifier fb :: rs_assoc s2) s2)
        end)
| pe_relationship : t_pred t = spdx "relationship" -> package_effect v g rec a t s p (go_rel rec t s).

Lemma package_more_same v g t p : In (t_pred t) [rdf_type; spdx "annotation"; spdx "relationship"] -> package_more v g t p p.
Proof.
  intros I. split; [reflexivity|]. split; [reflexivity|]. intros F n ts [].
  destruct I as [E|[E|[E|[]]]]; symmetry in E; record_step E.
Qed.
Lemma package_files v g (F : node -> nat -> Prop) n ts t p b : t_pred t = spdx "hasFile" -> F (t_obj t) b ->
  package_says v g F n ts p -> package_says v g F n (ts ++ [t]) (set_p_Files (p_Files p ++ [b])%list p).
Proof. intros E I []. record_step E. Qed.
Lemma package_own v g rec a t s p p' : nth_error (rs_pkgs s) a = Some p ->
  ~ In (t_pred t) [spdx "hasFile"; spdx "relationship"; spdx "annotation"] ->
  package_more v g t p p' ->
  package_effect v g rec a t s p (match update_nth a (fun _ => p') (rs_pkgs s) with Some l => Ok (set_rs_pkgs l s) | None => Panic end).
Proof.
  intros H N M. destruct (update_nth_some a (fun _ => p') (rs_pkgs s)) as (l & U); [now apply nth_error_some_lt in H|].
  rewrite U. rewrite <- (set_rs_cache_id s) at 2. apply pe_own with (p' := p'); auto. apply cache_more_refl.
Qed.
Lemma package_same v g rec a t s p : nth_error (rs_pkgs s) a = Some p ->
  ~ In (t_pred t) [spdx "hasFile"; spdx "relationship"; spdx "annotation"] ->
  package_more v g t p p -> package_effect v g rec a t s p (Ok s).
Proof.
  intros H N M. replace (Ok s) with (match update_nth a (fun _ => p) (rs_pkgs s) with Some l => Ok (set_rs_pkgs l s) | None => Panic end).
  - now apply package_own.
  - rewrite (update_nth_same _ _ _ H). now destruct s.
Qed.
Lemma package_license v g rec a t s p (h : string -> PackageArena -> PackageArena) : nth_error (rs_pkgs s) a = Some p ->
  In (t_pred t) [spdx "licenseConcluded"; spdx "licenseDeclared"] ->
  (forall x, license_text g [] (t_obj t) x -> package_more v g t p (h x p)) ->
  package_effect v g rec a t s p
    (let* (l, s1) := with_license g (t_obj t) s in on_pkg a (fun p => Ok (h l p)) s1).
Proof.
  intros H I M. unfold with_license. destruct (get_any_license g (t_obj t) (rs_cache s)) as [[l c]|e|] eqn:L; cbn [bindR].
  - unfold on_pkg. change (rs_pkgs (set_rs_cache c s)) with (rs_pkgs s). rewrite H. cbn [bindR].
    destruct (update_nth_some a (fun _ => h (license_string l) p) (rs_pkgs s)) as (fs & U); [now apply nth_error_some_lt in H|].
    rewrite U. apply pe_own with (p' := h (license_string l) p).
    + destruct I as [<-|[<-|[]]]; apply not_in_known; reflexivity.
    + apply license_cache in L as [A B C]. split; auto. intros id o k X Y. destruct (C id o k X Y). auto.
    + apply M. eapply license_read; eauto.
    + exact U.
  - apply pe_err. apply (fine_err (get_any_license g (t_obj t) (rs_cache s))); [apply get_any_license_fine|exact L].
  - exfalso. pose proof (get_any_license_fine g (t_obj t) (rs_cache s)) as F. now rewrite L in F.
Qed.
Ltac read_value_p r :=
  let x := fresh "x" in let e := fresh "e" in let R := fresh "R" in
  let F := fresh "F" in assert (F : fine r) by auto with fine;
  destruct r as [x|e|] eqn:R; cbn [bindR]; [|apply pe_err; exact F|destruct F].
Ltac more_p E := split; [reflexivity|]; split; [reflexivity|];
  let F := fresh "F" in let n := fresh "n" in let ts := fresh "ts" in intros F n ts []; record_step E.
Ltac own_p H E := apply package_own; [exact H|rewrite E; apply not_in_known; reflexivity|].

Lemma verification_of_snoc g os c n x : verification_of g os c ->
  verification_from_node g n c = Ok x -> verification_of g (os ++ [n]) (Some x).
Proof.
  intros V R. right. split; [now destruct os|]. exists x. split; [reflexivity|]. rewrite flat_map_app. cbn [flat_map]. rewrite app_nil_r.
  destruct V as [[-> ->]|(_ & y & -> & V)].
  - apply (verification_more g n [] zero_VerificationCode); [apply verification_zero|exact R].
  - now apply (verification_more g n _ y).
Qed.

Lemma analyzed_more ts t b : t_pred t = spdx "filesAnalyzed" ->
  (b = true <-> texts (spdx "filesAnalyzed") ts <> []) -> (true = true <-> texts (spdx "filesAnalyzed") (ts ++ [t]) <> []).
Proof. intros E _. rewrite (texts_eq _ _ _ E). split; [|reflexivity]. intros _. now destruct (texts _ _). Qed.
Global Hint Resolve verification_of_snoc analyzed_more : rdf.
Lemma Forall_snoc {A} (P : A -> Prop) l x : Forall P l -> P x -> Forall P (l ++ [x]).
Proof. intros F H. apply Forall_app. auto. Qed.
Global Hint Resolve Forall_snoc : rdf.
Lemma supplier_read x k y : package_actor_term x k y -> supplier_term x (Some (MkSupplier y k)).
Proof. intros H. eexists. split; [reflexivity|exact H]. Qed.
Lemma originator_read x k y : package_actor_term x k y -> originator_term x (Some (MkOriginator y k)).
Proof. intros H. eexists. split; [reflexivity|exact H]. Qed.

Lemma package_step_effect v g rec a t s p : nth_error (rs_pkgs s) a = Some p ->
  package_effect v g rec a t s p (pkg_step v g rec a t s).
Proof.
  intros H. unfold pkg_step. cbv zeta.
  assert (ON : forall (r : PackageArena -> res PackageArena), on_pkg a r s =
     bindR (r p) (fun y => match update_nth a (fun _ => y) (rs_pkgs s) with Some l => Ok (set_rs_pkgs l s) | None => Panic end))
    by (intros r; unfold on_pkg; now rewrite H).
  rewrite !ON. cbn [bindR]. clear ON. 

  pred_goal t.
  - apply package_same; [exact H|rewrite E; apply not_in_known; reflexivity|]. apply package_more_same. in_vocabulary E.
  - own_p H E. more_p E.
  - own_p H E. more_p E.
  - own_p H E. more_p E.
  - read_value_p (package_actor (n_id (t_obj t))). destruct x as [k y]. apply package_actor_spec, supplier_read in R. own_p H E. more_p E.
  - read_value_p (package_actor (n_id (t_obj t))). destruct x as [k y]. apply package_actor_spec, originator_read in R. own_p H E. more_p E.
  - read_value_p (location_from_uri g (n_id (t_obj t))). apply location_spec in R. own_p H E. more_p E.
  - read_value_p (bool_from_string (n_id (t_obj t))). apply bool_spec in R. own_p H E. more_p E.
    split; [|reflexivity]. intros _ X. apply app_eq_nil in X as [_ X]. discriminate X.
  - read_value_p (verification_from_node g (t_obj t) (p_VerificationCode p)). own_p H E. more_p E.
  - read_value_p (element_checksum v g (t_obj t)). apply checksum_node_spec in R. own_p H E. more_p E.
  - destruct (g_valid_uri g (n_id (t_obj t))) eqn:R; [|apply pe_err; discriminate]. own_p H E. more_p E.
  - own_p H E. more_p E.
  - apply (package_license v g rec a t s p (fun l p => set_p_LicenseConcluded l p)); [exact H|in_vocabulary E|]. intros x L. more_p E.
  - pose proof (proj1 (license_name_spec (n_id (t_obj t)) _) eq_refl) as R. own_p H E. more_p E.
  - apply (package_license v g rec a t s p (fun l p => set_p_LicenseDeclared l p)); [exact H|in_vocabulary E|]. intros x L. more_p E.
  - own_p H E. more_p E.
  - own_p H E. more_p E.
  - own_p H E. more_p E.
  - own_p H E. more_p E.
  - own_p H E. more_p E.
  - read_value_p (external_ref_from_node g (t_obj t)). apply external_ref_node_spec in R. own_p H E. more_p E.
  - now apply pe_file.
  - now apply pe_relationship.
  - own_p H E. more_p E.
  - unfold parse_annotation. read_value_p (annotation_from_node g (t_obj t)). apply annotation_node_spec in R. now apply pe_annotation.
  - destruct v; try (apply pe_err; discriminate). pred_goal t.
    + pose proof (proj1 (purpose_spec (n_id (t_obj t)) _) eq_refl) as R. own_p H E. more_p E.
    + own_p H E. more_p E.
    + own_p H E. more_p E.
    + own_p H E. more_p E.
    + apply pe_err. discriminate.
Qed.

(** ** Relationships *)
Lemma same_kind_eq a b : same_kind a b = true -> a = b.
Proof. destruct a, b; simpl; try discriminate; [reflexivity|]. intros H. apply String.eqb_eq in H. now subst. Qed.
Lemma of_node_subject g n t : In t (of_node g n) -> t_subj t = n.
Proof.
  unfold of_node. rewrite filter_In. intros [_ H]. apply andb_prop in H as [H1 H2]. apply same_kind_eq in H1. apply String.eqb_eq in H2.
  destruct (t_subj t), n. simpl in *. now subst.
Qed.
Definition relationship_more (g : graph) (t : triple) (r r' : Relationship) : Prop :=
  forall t0 ts, relationship_says g t0 ts r -> relationship_says g t0 (ts ++ [t]) r'.
Inductive relationship_effect (g : graph) (rec : parsers) (t : triple) (r : Relationship) (s : rstate) : res (Relationship * rstate) -> Prop :=
| re_err e : e <> out_of_fuel -> relationship_effect g rec t r s (Err e)
| re_own r' : (t_pred t = spdx "relatedSpdxElement" -> ~ typed_node g (t_obj t) "File" /\ ~ typed_node g (t_obj t) "Package") ->
    relationship_more g t r r' -> relationship_effect g rec t r s (Ok (r', s))
| re_file r1 : t_pred t = spdx "relatedSpdxElement" -> typed_node g (t_obj t) "File" ->
    (forall id, file_id (t_obj t) id -> relationship_more g t r (set_r_RefB (MkDEID "" id "") r1)) ->
    relationship_effect g rec t r s
      (let* (b, s1) := go_file rec (t_obj t) s in
       match nth_error (rs_files s1) b with
       | None => Panic
       | Some f => Ok (set_r_RefB (MkDEID "" (f_SPDXIdentifier f) "") r1, s1)
       end)
| re_package r1 : t_pred t = spdx "relatedSpdxElement" -> typed_node g (t_obj t) "Package" ->
    (forall id, package_id (t_obj t) id -> relationship_more g t r (set_r_RefB (MkDEID "" id "") r1)) ->
    relationship_effect g rec t r s
      (let* (b, s1) := go_pkg rec (t_obj t) s in
       match nth_error (rs_pkgs s1) b with
       | None => Panic
       | Some p => Ok (set_r_RefB (MkDEID "" (p_SPDXIdentifier p) "") r1, s1)
       end).
Lemma typed_node_select g o ty : typed_node g o ty <-> exists t, select (n_id o) RDF_TYPE (of_node g o) = [t] /\ n_id (t_obj t) = spdx ty.
Proof.
  unfold typed_node, texts. rewrite <- select_of_node. change RDF_TYPE with rdf_type.
  destruct (select (n_id o) rdf_type (of_node g o)) as [|t [|u l]]; cbn [map]; split; try discriminate.
  - intros (t & H & _). discriminate H.
  - intros H. injection H as H. eauto.
  - intros (t' & H & <-). now injection H as <-.
  - intros (t' & H & _). discriminate H.
Qed.
Lemma in_select_of_node g o p t : In t (select (n_id o) p (of_node g o)) -> In t (of_node g o).
Proof. unfold select. rewrite with_subject_of_node. rewrite filter_In. tauto. Qed.
Lemma typed_node_fun g o a b : typed_node g o a -> typed_node g o b -> spdx a = spdx b.
Proof. unfold typed_node. congruence. Qed.

Lemma related_more g t r d r1 : t_pred t = spdx "relatedSpdxElement" -> related_term g (t_obj t) d ->
  r_RefA r1 = r_RefA r -> r_Relationship r1 = r_Relationship r -> r_Comment r1 = r_Comment r ->
  relationship_more g t r (set_r_RefB d r1).
Proof. intros E D A B C t0 ts []. record_step E. Qed.

Lemma relationship_step_effect g rec t r s : relationship_effect g rec t r s (rel_step g rec t (r, s)).
Proof.
  unfold rel_step. cbv zeta. pred_goal t.
  - destruct (relationship_type_from_uri (n_id (t_obj t))) as [x|e|] eqn:R; cbn [bindR].
    + apply relationship_type_spec in R. apply re_own; [rewrite E; discriminate|]. intros t0 ts []. record_step E.
    + apply re_err. apply (fine_err _ _ (fine_relationship_type _) R).
    + pose proof (fine_relationship_type (n_id (t_obj t))) as F. now rewrite R in F.
  - apply re_own; [rewrite E; discriminate|]. intros t0 ts []. record_step E.
  - destruct (reference_from_uri (n_id (t_obj t))) as [d|e|] eqn:R; cbn [bindR].
    2: { apply re_err. apply (fine_err _ _ (fine_reference _) R). }
    2: { pose proof (fine_reference (n_id (t_obj t))) as F. now rewrite R in F. }
    apply reference_spec in R. rewrite triples_of_node. destruct (of_node g (t_obj t)) as [|t1 ts1] eqn:TS.
    { apply re_own.
      - intros _. split; intros H; unfold typed_node in H; rewrite TS in H; discriminate H.
      - apply related_more; try reflexivity; [exact E|]. exists d. split; [exact R|]. now left. }
    rewrite <- TS. clear t1 ts1 TS. pose proof (typed_node_select g (t_obj t)) as TN.
    destruct (select (n_id (t_obj t)) RDF_TYPE (of_node g (t_obj t))) as [|ty [|u l]] eqn:SE;
      [apply re_err; discriminate| |apply re_err; discriminate].
    assert (SU : t_subj ty = t_obj t).
    { apply (of_node_subject g). apply (in_select_of_node g _ RDF_TYPE). rewrite SE. now left. }
    unfold related_element. cbv zeta. rewrite SU.
    destruct (String.eqb_spec (n_id (t_obj ty)) SPDX_FILE) as [T|N1].
    { assert (TY : typed_node g (t_obj t) "File") by (apply TN; eauto).
      apply re_file; [exact E|exact TY|]. intros id I. apply related_more; try reflexivity; [exact E|].
      exists d. split; [exact R|]. right. left. eauto. }
    destruct (String.eqb_spec (n_id (t_obj ty)) SPDX_PACKAGE) as [T|N2].
    { assert (TY : typed_node g (t_obj t) "Package") by (apply TN; eauto).
      apply re_package; [exact E|exact TY|]. intros id I. apply related_more; try reflexivity; [exact E|].
      exists d. split; [exact R|]. right. right. left. eauto. }
    destruct (String.eqb_spec (n_id (t_obj ty)) SPDX_SPDX_ELEMENT) as [T|N3]; [|apply re_err; discriminate].
    assert (TY : typed_node g (t_obj t) "SpdxElement") by (apply TN; eauto).
    destruct (extract_doc_element_id (last_part (n_id (t_obj t)))) as [d'|e|] eqn:X; cbn [bindR].
    + apply re_own.
      * intros _. split; intros H; pose proof (typed_node_fun _ _ _ _ H TY) as Z; discriminate Z.
      * apply related_more; try reflexivity; [exact E|]. exists d. split; [exact R|]. right. right. right. split; [exact TY|].
        exists (last_part (n_id (t_obj t))). split; [now apply last_part_spec|]. now apply extract_doc_element_id_iff in X.
    + apply re_err. apply (fine_err _ _ (fine_extract_doc_element_id _) X).
    + pose proof (fine_extract_doc_element_id (last_part (n_id (t_obj t)))) as F. now rewrite X in F.
  - apply re_own; [rewrite E; discriminate|]. intros t0 ts []. record_step E.
  - apply re_err. discriminate.
Qed.
