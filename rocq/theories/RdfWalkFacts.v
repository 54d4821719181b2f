(** The walk over files, packages and relationships: it ends, panics only on an ID
    with two roles, and keeps the books of identifiers. *)
From Verif Require Import GoStr GoStrFacts Types TvUtil TvParser RdfConst Rdf RdfReader SpecTv SpecId SpecDoc SpecRdf SpecRdfDoc SpecRdfLoad
  TvReaderFacts TvUtilFacts TvParserFacts RdfFacts RdfLicenseFacts RdfHelperFacts RdfNodeFacts RdfStepFacts.

(** ** Outcomes *)
Definition outcome {A} (panics : Prop) (r : res A) (Q : A -> Prop) : Prop :=
  match r with Ok x => Q x | Err e => e <> out_of_fuel | Panic => panics end.
Lemma outcome_bind {A B} P (r : res A) (f : A -> res B) Q R :
  outcome P r Q -> (forall x, r = Ok x -> Q x -> outcome P (f x) R) -> outcome P (bindR r f) R.
Proof. destruct r; simpl; auto. Qed.
Lemma outcome_weaken {A} P (r : res A) (Q R : A -> Prop) : (forall x, r = Ok x -> Q x -> R x) -> outcome P r Q -> outcome P r R.
Proof. destruct r; simpl; auto. Qed.
Lemma outcome_fine {A} P (r : res A) : fine r -> outcome P r (fun x => r = Ok x).
Proof. destruct r; simpl; tauto. Qed.
Lemma outcome_for_each {A S} P (I : list A -> S -> Prop) (f : A -> S -> res S) l s :
  I [] s ->
  (forall done x rest s', l = (done ++ x :: rest)%list -> I done s' -> outcome P (f x s') (I (done ++ [x])%list)) ->
  outcome P (for_each f l s) (I l).
Proof.
  intros I0 H.
  assert (G : forall rest done s', l = (done ++ rest)%list -> I done s' -> outcome P (for_each f rest s') (I l)).
  { induction rest as [|x rest IH]; intros done s' E J; cbn [for_each].
    - rewrite app_nil_r in E. subst l. exact J.
    - apply (outcome_bind P _ _ (I (done ++ [x])%list)); [apply (H _ _ _ _ E J)|].
      intros s1 _ J1. apply (IH (done ++ [x])%list); [now rewrite <- app_assoc|exact J1]. }
  exact (G l [] s eq_refl I0).
Qed.

(** ** The invariant *)
Section Walk.
Variables (v : version) (g : graph).

Definition file_at (s : rstate) (b : nat) (id : string) : Prop :=
  exists f : File, nth_error (rs_files s) b = Some f /\ f_SPDXIdentifier f = id.
Definition package_at (s : rstate) (b : nat) (id : string) : Prop :=
  exists p, nth_error (rs_pkgs s) b = Some p /\ p_SPDXIdentifier p = id.
(** what the cache knows of an ID *)
Definition cached_ok (s : rstate) (id : string) (o : cached) : Prop :=
  match o with
  | CNil => exists n, reached g RLicense n /\ n_id n = id
  | CFile a => exists n x, reached g RFile n /\ n_id n = id /\ file_id n x /\ file_at s a x
  | CPackage a => exists n x, reached g RPackage n /\ n_id n = id /\ package_id n x /\ package_at s a x
  | CRelationship => exists n, reached g RRelationship n /\ n_id n = id
  end.
(** [open]: packages that have not been stored in the document yet *)
Record inv (open : list nat) (s : rstate) : Prop := {
  iv_map : forall k b, lookup k (rs_map s) = Some b -> file_at s b k;
  iv_keys : NoDup (map fst (rs_map s));
  iv_cache : forall id o k, lookup id (rs_cache s) = Some (o, k) -> cached_ok s id o;
  iv_packages : forall a, In a (d_Packages (rs_doc s)) -> exists x, package_at s a x;
  iv_files : forall a p b, nth_error (rs_pkgs s) a = Some p -> In b (p_Files p) ->
    exists id, file_at s b id /\ In id (rs_assoc s);
  iv_assoc : forall id, In id (rs_assoc s) -> exists a p b,
    (In a (d_Packages (rs_doc s)) \/ In a open) /\ nth_error (rs_pkgs s) a = Some p /\ In b (p_Files p) /\ file_at s b id
}.
(** the document but for its packages, relationships and annotations *)
Definition others (d : DocumentArena) : DocumentArena :=
  set_d_Packages [] (set_d_Relationships [] (set_d_Annotations [] d)).
Record grows (s s' : rstate) : Prop := {
  gr_files : forall b f, nth_error (rs_files s) b = Some f ->
    exists f', nth_error (rs_files s') b = Some f' /\ f_SPDXIdentifier f' = f_SPDXIdentifier f /\ f_Snippets f' = f_Snippets f;
  gr_pkgs : forall a p, nth_error (rs_pkgs s) a = Some p ->
    exists p', nth_error (rs_pkgs s') a = Some p' /\ p_SPDXIdentifier p' = p_SPDXIdentifier p /\ incl (p_Files p) (p_Files p');
  gr_keys : forall k, lookup k (rs_map s) <> None -> lookup k (rs_map s') <> None;
  gr_packages : incl (d_Packages (rs_doc s)) (d_Packages (rs_doc s'));
  gr_doc : others (rs_doc s') = others (rs_doc s);
  gr_grey : forall x, is_grey (rs_cache s') x = is_grey (rs_cache s) x;
  gr_fresh : forall b f', nth_error (rs_files s') b = Some f' -> nth_error (rs_files s) b = None -> f_Snippets f' = []
}.
Lemma grows_refl s : grows s s.
Proof. split; [eauto|intros a p H; exists p; split; [exact H|split; [reflexivity|apply incl_refl]]|auto|apply incl_refl|auto|auto|congruence]. Qed.
Lemma grows_trans s1 s2 s3 : grows s1 s2 -> grows s2 s3 -> grows s1 s3.
Proof.
  intros [A B C D O E N] [A' B' C' D' O' E' N']. split.
  - intros b f H. destruct (A b f H) as (f1 & H1 & I1 & S1). destruct (A' b f1 H1) as (f2 & H2 & I2 & S2). exists f2. repeat split; congruence.
  - intros b p H. destruct (B b p H) as (p1 & H1 & I1 & J1). destruct (B' b p1 H1) as (p2 & H2 & I2 & J2). exists p2.
    repeat split; [exact H2|congruence|]. eapply incl_tran; eauto.
  - auto.
  - eapply incl_tran; eauto.
  - congruence.
  - intros x. now rewrite E'.
  - intros b f3 H3 H1. destruct (nth_error (rs_files s2) b) as [f2|] eqn:H2; [|exact (N' b f3 H3 H2)].
    destruct (A' b f2 H2) as (x & X & _ & S). rewrite H3 in X. injection X as <-. rewrite S. exact (N b f2 H2 H1).
Qed.
Lemma file_at_grows s s' b id : grows s s' -> file_at s b id -> file_at s' b id.
Proof. intros G (f & H & <-). destruct (gr_files _ _ G b f H) as (f' & H' & E & _). exists f'. auto. Qed.
Lemma package_at_grows s s' b id : grows s s' -> package_at s b id -> package_at s' b id.
Proof. intros G (f & H & <-). destruct (gr_pkgs _ _ G b f H) as (f' & H' & E & _). exists f'. auto. Qed.

(** What the parts of the state must be for the invariant *)
Lemma file_at_same s s' b id : rs_files s' = rs_files s -> file_at s b id -> file_at s' b id.
Proof. unfold file_at. now intros ->. Qed.
Lemma cached_ok_mono s s' id o : (forall b x, file_at s b x -> file_at s' b x) -> (forall b x, package_at s b x -> package_at s' b x) ->
  cached_ok s id o -> cached_ok s' id o.
Proof.
  intros F P. destruct o; simpl; auto.
  - intros (n & x & A & B & C & D). exists n, x. auto.
  - intros (n & x & A & B & C & D). exists n, x. auto.
Qed.

(** *** licenses *)
Lemma reached_chain n path m : reached g RLicense n -> chain g n path m -> reached g RLicense m.
Proof. intros R C. induction C as [|n k l m M C IH]; [exact R|]. apply IH. now apply rc_member with n. Qed.

(** *** one file replaced by one with the same identifier *)
Lemma file_at_update s a (f f' : File) (l : list File) b id : nth_error (rs_files s) a = Some f -> f_SPDXIdentifier f' = f_SPDXIdentifier f ->
  update_nth a (fun _ => f') (rs_files s) = Some l -> forall s', rs_files s' = l -> file_at s b id -> file_at s' b id.
Proof.
  intros H E U s' L (x & X & <-). unfold file_at. rewrite L, (update_nth_nth _ _ _ _ b U). destruct (Nat.eqb_spec b a) as [->|].
  - rewrite X. simpl. exists f'. split; [reflexivity|]. congruence.
  - eauto.
Qed.
Lemma inv_file_update open s a (f f' : File) (l : list File) c : inv open s -> nth_error (rs_files s) a = Some f ->
  f_SPDXIdentifier f' = f_SPDXIdentifier f -> f_Snippets f' = f_Snippets f -> update_nth a (fun _ => f') (rs_files s) = Some l ->
  cache_more (fun id => exists n, reached g RLicense n /\ n_id n = id) (rs_cache s) c ->
  inv open (set_rs_files l (set_rs_cache c s)) /\ grows s (set_rs_files l (set_rs_cache c s)).
Proof.
  intros [M K C P F A] H E SN U [CG CO CN].
  assert (FA : forall b id, file_at s b id -> file_at (set_rs_files l (set_rs_cache c s)) b id).
  { intros b id. apply (file_at_update s a f f' l b id H E U). reflexivity. }
  assert (PA : forall b id, package_at s b id -> package_at (set_rs_files l (set_rs_cache c s)) b id) by (intros b id X; exact X).
  split; split; simpl.
  - intros k b X. apply FA. auto.
  - exact K.
  - intros id o k X. apply (cached_ok_mono s _ id o FA PA). destruct (lookup id (rs_cache s)) as [[o' k']|] eqn:L.
    + destruct (CO _ _ _ L) as (k2 & L2). rewrite L2 in X. injection X as -> _. exact (C _ _ _ L).
    + destruct (CN _ _ _ L X) as (-> & Y). exact Y.
  - intros b X. exact (P b X).
  - intros a' p b X Y. destruct (F a' p b X Y) as (id & Z & W). exists id. auto.
  - intros id X. destruct (A id X) as (a' & p & b & Y & Z & W & V). exists a', p, b. auto.
  - intros b x X. rewrite (update_nth_nth _ _ _ _ b U). destruct (Nat.eqb_spec b a) as [->|].
    + rewrite X. simpl. exists f'. split; [reflexivity|]. split; congruence.
    + eauto.
  - intros a' p X. exists p. split; [exact X|]. split; [reflexivity|apply incl_refl].
  - auto.
  - apply incl_refl.
  - reflexivity.
  - exact CG.
  - intros b x X N. rewrite (update_nth_nth _ _ _ _ b U) in X. destruct (Nat.eqb_spec b a) as [->|]; congruence.
Qed.
Lemma inv_pkg_update open s a p p' l c : inv open s -> nth_error (rs_pkgs s) a = Some p ->
  p_SPDXIdentifier p' = p_SPDXIdentifier p -> p_Files p' = p_Files p -> update_nth a (fun _ => p') (rs_pkgs s) = Some l ->
  cache_more (fun id => exists n, reached g RLicense n /\ n_id n = id) (rs_cache s) c ->
  inv open (set_rs_pkgs l (set_rs_cache c s)) /\ grows s (set_rs_pkgs l (set_rs_cache c s)).
Proof.
  intros [M K C P F A] H E FE U [CG CO CN].
  assert (FA : forall b id, file_at s b id -> file_at (set_rs_pkgs l (set_rs_cache c s)) b id) by (intros b id X; exact X).
  assert (UP : forall b q, nth_error (rs_pkgs s) b = Some q -> exists q', nth_error l b = Some q' /\
     p_SPDXIdentifier q' = p_SPDXIdentifier q /\ p_Files q' = p_Files q).
  { intros b q X. rewrite (update_nth_nth _ _ _ _ b U). destruct (Nat.eqb_spec b a) as [->|]; [|eauto].
    rewrite X. simpl. exists p'. split; [reflexivity|]. split; congruence. }
  assert (DN : forall b q', nth_error l b = Some q' -> exists q, nth_error (rs_pkgs s) b = Some q /\ p_Files q = p_Files q').
  { intros b q' X. rewrite (update_nth_nth _ _ _ _ b U) in X. destruct (Nat.eqb_spec b a) as [->|]; [|eauto].
    rewrite H in X. simpl in X. injection X as <-. exists p. auto. }
  assert (PA : forall b id, package_at s b id -> package_at (set_rs_pkgs l (set_rs_cache c s)) b id).
  { intros b id (q & X & <-). destruct (UP b q X) as (q' & Y & Z & _). exists q'. auto. }
  split; split; simpl.
  - intros k b X. apply FA. auto.
  - exact K.
  - intros id o k X. apply (cached_ok_mono s _ id o FA PA). destruct (lookup id (rs_cache s)) as [[o' k']|] eqn:L.
    + destruct (CO _ _ _ L) as (k2 & L2). rewrite L2 in X. injection X as -> _. exact (C _ _ _ L).
    + destruct (CN _ _ _ L X) as (-> & Y). exact Y.
  - intros b X. destruct (P b X) as (x & Y). exists x. auto.
  - intros a' q b X Y. destruct (DN _ _ X) as (q0 & X0 & Y0). rewrite <- Y0 in Y. destruct (F a' q0 b X0 Y) as (id & Z & W). exists id. auto.
  - intros id X. destruct (A id X) as (a' & q & b & Y & Z & W & V). destruct (UP _ _ Z) as (q' & Z1 & Z2 & Z3).
    exists a', q', b. rewrite Z3. auto.
  - eauto.
  - intros a' q X. destruct (UP _ _ X) as (q' & Y & Z & W). exists q'. split; [exact Y|]. split; [exact Z|]. rewrite W. apply incl_refl.
  - auto.
  - apply incl_refl.
  - reflexivity.
  - exact CG.
  - congruence.
Qed.
(** *** a file put into a package *)
Lemma inv_add_file open s a p b id l : inv open s -> nth_error (rs_pkgs s) a = Some p -> file_at s b id ->
  In a (d_Packages (rs_doc s)) \/ In a open ->
  update_nth a (fun _ => set_p_Files (p_Files p ++ [b])%list p) (rs_pkgs s) = Some l ->
  let s' := set_rs_assoc (id :: rs_assoc s) (set_rs_pkgs l s) in inv open s' /\ grows s s'.
Proof.
  intros [M K C P F A] H B O U s'.
  assert (UP : forall x q, nth_error (rs_pkgs s) x = Some q -> exists q', nth_error l x = Some q' /\
     p_SPDXIdentifier q' = p_SPDXIdentifier q /\ incl (p_Files q) (p_Files q')).
  { intros x q X. rewrite (update_nth_nth _ _ _ _ x U). destruct (Nat.eqb_spec x a) as [->|].
    - rewrite X. simpl. eexists. split; [reflexivity|]. assert (q = p) by congruence. subst q. split; [reflexivity|].
      simpl. apply incl_appl, incl_refl.
    - exists q. split; [exact X|]. split; [reflexivity|apply incl_refl]. }
  assert (DN : forall x q' y, nth_error l x = Some q' -> In y (p_Files q') -> y = b \/
     exists q, nth_error (rs_pkgs s) x = Some q /\ In y (p_Files q)).
  { intros x q' y X Y. rewrite (update_nth_nth _ _ _ _ x U) in X. destruct (Nat.eqb_spec x a) as [->|]; [|eauto].
    rewrite H in X. simpl in X. injection X as <-. simpl in Y. apply in_app_or in Y as [Y|[<-|[]]]; eauto. }
  assert (FA : forall b id, file_at s b id -> file_at s' b id) by (intros ? ? X; exact X).
  assert (PA : forall b id, package_at s b id -> package_at s' b id).
  { intros x i (q & X & <-). destruct (UP x q X) as (q' & Y & Z & _). exists q'. auto. }
  split; split; simpl.
  - intros k x X. apply FA. auto.
  - exact K.
  - intros i o k X. exact (cached_ok_mono s _ i o FA PA (C _ _ _ X)).
  - intros x X. destruct (P x X) as (i & Y). exists i. auto.
  - intros x q y X Y. destruct (DN _ _ _ X Y) as [->|(q0 & X0 & Y0)].
    + exists id. split; [exact B|now left].
    + destruct (F x q0 y X0 Y0) as (i & Z & W). exists i. auto.
  - intros i [<-|X].
    + assert (N : nth_error l a = Some (set_p_Files (p_Files p ++ [b])%list p)).
      { rewrite (update_nth_nth _ _ _ _ a U), Nat.eqb_refl, H. reflexivity. }
      exists a, (set_p_Files (p_Files p ++ [b])%list p), b. split; [exact O|]. split; [exact N|]. split; [|exact B].
      simpl. apply in_or_app. right. now left.
    + destruct (A i X) as (x & q & y & Y & Z & W & V). destruct (UP _ _ Z) as (q' & Z1 & Z2 & Z3). exists x, q', y. auto.
  - eauto.
  - intros x q X. destruct (UP _ _ X) as (q' & Y & Z & W). exists q'. auto.
  - auto.
  - apply incl_refl.
  - reflexivity.
  - auto.
  - congruence.
Qed.
(** *** changes of the document that leave the packages alone *)
Lemma inv_doc open s h : inv open s -> (forall d, d_Packages (h d) = d_Packages d) -> (forall d, others (h d) = others d) ->
  inv open (on_doc h s) /\ grows s (on_doc h s).
Proof.
  intros [M K C P F A] H HO. split; split; simpl; rewrite ?H; auto.
  - eauto.
  - intros a p X. exists p. split; [exact X|]. split; [reflexivity|apply incl_refl].
  - apply incl_refl.
  - congruence.
Qed.
(** *** colours *)
Lemma inv_leave open s id : inv open s -> inv open (set_rs_cache (leave id (rs_cache s)) s).
Proof.
  intros [M K C P F A]. split; simpl; auto. intros i o k X. rewrite lookup_leave in X.
  assert (Y : exists k', lookup i (rs_cache s) = Some (o, k')).
  { destruct (String.eqb_spec i id) as [->|]; [|eauto]. destruct (lookup id (rs_cache s)) as [[o' k']|]; [|discriminate].
    injection X as -> _. eauto. }
  destruct Y as (k' & Y). exact (C _ _ _ Y).
Qed.

(** *** a new file, a new package *)
Lemma nth_error_snoc {A} (l : list A) x b : nth_error (l ++ [x]) b =
  if Nat.eqb b (length l) then Some x else nth_error l b.
Proof.
  destruct (Nat.eqb_spec b (length l)) as [->|N].
  - rewrite nth_error_app2 by lia. now rewrite Nat.sub_diag.
  - destruct (Nat.lt_ge_cases b (length l)) as [L|L].
    + now rewrite nth_error_app1.
    + rewrite nth_error_app2 by lia. destruct (b - length l) as [|d] eqn:D; [lia|]. simpl.
      rewrite (proj2 (nth_error_None l b)) by lia. now destruct d.
Qed.
Lemma nth_error_snoc_old {A} (l : list A) x b y : nth_error l b = Some y -> nth_error (l ++ [x]) b = Some y.
Proof. intros H. rewrite nth_error_app1; [exact H|]. now apply nth_error_some_lt in H. Qed.
Lemma inv_new_file open s n id : inv open s -> reached g RFile n -> file_id n id ->
  inv open (set_rs_cache (enter (n_id n) (CFile (length (rs_files s))) (rs_cache s))
             (set_rs_files (rs_files s ++ [set_f_SPDXIdentifier id zero_FileOf])%list s)).
Proof.
  intros [M K C P F A] R I. set (s' := set_rs_cache _ _).
  assert (FA : forall b x, file_at s b x -> file_at s' b x).
  { intros b x (f & X & Y). exists f. split; [now apply nth_error_snoc_old|exact Y]. }
  assert (PA : forall b x, package_at s b x -> package_at s' b x) by (intros ? ? X; exact X).
  split; simpl.
  - intros k b X. apply FA. auto.
  - exact K.
  - intros i o k X. rewrite lookup_enter in X. destruct (String.eqb_spec i (n_id n)) as [->|].
    + injection X as <- _. destruct (lookup (n_id n) (rs_cache s)) as [[o k']|] eqn:L.
      * exact (cached_ok_mono s _ _ o FA PA (C _ _ _ L)).
      * simpl. exists n, id. split; [exact R|]. split; [reflexivity|]. split; [exact I|].
        exists (set_f_SPDXIdentifier id zero_FileOf). split; [|reflexivity]. simpl. rewrite nth_error_snoc, Nat.eqb_refl. reflexivity.
    + exact (cached_ok_mono s _ _ o FA PA (C _ _ _ X)).
  - exact P.
  - intros a p b X Y. destruct (F a p b X Y) as (i & Z & W). exists i. auto.
  - intros i X. destruct (A i X) as (a & p & b & Y & Z & W & V). exists a, p, b. auto.
Qed.
Lemma inv_new_package open s n id : inv open s -> reached g RPackage n -> package_id n id ->
  inv open (set_rs_cache (enter (n_id n) (CPackage (length (rs_pkgs s))) (rs_cache s))
             (set_rs_pkgs (rs_pkgs s ++ [set_p_SPDXIdentifier id zero_PackageOf])%list s)).
Proof.
  intros [M K C P F A] R I. set (s' := set_rs_cache _ _).
  assert (FA : forall b x, file_at s b x -> file_at s' b x) by (intros ? ? X; exact X).
  assert (PA : forall b x, package_at s b x -> package_at s' b x).
  { intros b x (f & X & Y). exists f. split; [now apply nth_error_snoc_old|exact Y]. }
  split; simpl.
  - intros k b X. apply FA. auto.
  - exact K.
  - intros i o k X. rewrite lookup_enter in X. destruct (String.eqb_spec i (n_id n)) as [->|].
    + injection X as <- _. destruct (lookup (n_id n) (rs_cache s)) as [[o k']|] eqn:L.
      * exact (cached_ok_mono s _ _ o FA PA (C _ _ _ L)).
      * simpl. exists n, id. split; [exact R|]. split; [reflexivity|]. split; [exact I|].
        exists (set_p_SPDXIdentifier id zero_PackageOf). split; [|reflexivity]. simpl. rewrite nth_error_snoc, Nat.eqb_refl. reflexivity.
    + exact (cached_ok_mono s _ _ o FA PA (C _ _ _ X)).
  - intros a X. destruct (P a X) as (i & Y). exists i. auto.
  - intros a p b X Y. rewrite nth_error_snoc in X. destruct (Nat.eqb_spec a (length (rs_pkgs s))) as [->|].
    + injection X as <-. destruct Y.
    + destruct (F a p b X Y) as (i & Z & W). exists i. auto.
  - intros i X. destruct (A i X) as (a & p & b & Y & Z & W & V). exists a, p, b. split; [exact Y|]. split; [|auto].
    now apply nth_error_snoc_old.
Qed.
Lemma inv_new_relationship open s n : inv open s -> reached g RRelationship n ->
  inv open (set_rs_cache (enter (n_id n) CRelationship (rs_cache s)) s).
Proof.
  intros [M K C P F A] R. split; simpl; auto. intros i o k X. rewrite lookup_enter in X.
  destruct (String.eqb_spec i (n_id n)) as [->|]; [|exact (C _ _ _ X)].
  injection X as <- _. destruct (lookup (n_id n) (rs_cache s)) as [[o k']|] eqn:L; [exact (C _ _ _ L)|].
  exists n. auto.
Qed.

(** [grows] but for the colours *)
Record grows0 (s s' : rstate) : Prop := {
  g0_files : forall b f, nth_error (rs_files s) b = Some f ->
    exists f', nth_error (rs_files s') b = Some f' /\ f_SPDXIdentifier f' = f_SPDXIdentifier f /\ f_Snippets f' = f_Snippets f;
  g0_pkgs : forall a p, nth_error (rs_pkgs s) a = Some p ->
    exists p', nth_error (rs_pkgs s') a = Some p' /\ p_SPDXIdentifier p' = p_SPDXIdentifier p /\ incl (p_Files p) (p_Files p');
  g0_keys : forall k, lookup k (rs_map s) <> None -> lookup k (rs_map s') <> None;
  g0_packages : incl (d_Packages (rs_doc s)) (d_Packages (rs_doc s'));
  g0_doc : others (rs_doc s') = others (rs_doc s);
  g0_fresh : forall b f', nth_error (rs_files s') b = Some f' -> nth_error (rs_files s) b = None -> f_Snippets f' = []
}.
Lemma grows_grows0 s s' : grows s s' -> grows0 s s'.
Proof. intros [A B C D O E N]. now split. Qed.
Lemma grows0_grows s s' : grows0 s s' -> (forall x, is_grey (rs_cache s') x = is_grey (rs_cache s) x) -> grows s s'.
Proof. intros [A B C D O N] E. now split. Qed.
Lemma grows0_trans s1 s2 s3 : grows0 s1 s2 -> grows0 s2 s3 -> grows0 s1 s3.
Proof.
  intros [A B C D O N] [A' B' C' D' O' N']. split.
  - intros b f H. destruct (A b f H) as (f1 & H1 & I1 & S1). destruct (A' b f1 H1) as (f2 & H2 & I2 & S2). exists f2. repeat split; congruence.
  - intros b p H. destruct (B b p H) as (p1 & H1 & I1 & J1). destruct (B' b p1 H1) as (p2 & H2 & I2 & J2). exists p2.
    repeat split; [exact H2|congruence|]. eapply incl_tran; eauto.
  - auto.
  - eapply incl_tran; eauto.
  - congruence.
  - intros b f3 H3 H1. destruct (nth_error (rs_files s2) b) as [f2|] eqn:H2; [|exact (N' b f3 H3 H2)].
    destruct (A' b f2 H2) as (x & X & _ & S). rewrite H3 in X. injection X as <-. rewrite S. exact (N b f2 H2 H1).
Qed.
Lemma grows0_parts s s' : (exists fs, rs_files s' = (rs_files s ++ fs)%list /\ Forall (fun f => f_Snippets f = []) fs) -> (exists ps, rs_pkgs s' = (rs_pkgs s ++ ps)%list) ->
  (forall k, lookup k (rs_map s) <> None -> lookup k (rs_map s') <> None) ->
  incl (d_Packages (rs_doc s)) (d_Packages (rs_doc s')) -> others (rs_doc s') = others (rs_doc s) -> grows0 s s'.
Proof.
  intros (fs & Ef & NS) (ps & Ep) K P O. split; auto.
  - intros b f H. exists f. rewrite Ef, nth_error_app1; [auto|]. now apply nth_error_some_lt in H.
  - intros b q H. exists q. rewrite Ep, nth_error_app1; [|now apply nth_error_some_lt in H]. split; [exact H|]. split; [reflexivity|apply incl_refl].
  - intros b f H N. apply nth_error_None in N. rewrite Ef, nth_error_app2 in H by exact N. rewrite Forall_forall in NS. apply NS.
    now apply nth_error_In in H.
Qed.
Ltac same_files := exists []; split; [now rewrite app_nil_r|constructor].

Lemma file_at_grows0 s s' b id : grows0 s s' -> file_at s b id -> file_at s' b id.
Proof. intros G (f & H & <-). destruct (g0_files _ _ G b f H) as (f' & H' & E & _). exists f'. auto. Qed.

(** *** the map *)
Lemma assign_keys {A} k (x : A) m : NoDup (map fst m) -> NoDup (map fst (assign k x m)).
Proof.
  assert (I : forall m y, In y (map fst (assign k x m)) -> y = k \/ In y (map fst m)).
  { induction m0 as [|[k' z] m0 IH]; intros y H; simpl in *; [intuition|].
    destruct (String.eqb_spec k k') as [->|]; simpl in H; intuition. destruct (IH y H0); auto. }
  induction m as [|[k' z] m IH]; intros N; simpl; [constructor; [intros []|constructor]|].
  inversion N as [|? ? N1 N2]; subst. destruct (String.eqb_spec k k') as [->|Ne]; simpl; [now constructor|].
  constructor; [|auto]. intros J. apply I in J as [J|J]; [congruence|contradiction].
Qed.
Lemma lookup_assign_some {A} k k' (x : A) m : lookup k m <> None -> lookup k (assign k' x m) <> None.
Proof.
  intros H. destruct (String.eqb_spec k k') as [->|]; [now rewrite lookup_assign_eq|now rewrite lookup_assign_ne].
Qed.
Lemma inv_map open s id a : inv open s -> file_at s a id -> inv open (set_rs_map (assign id a (rs_map s)) s).
Proof.
  intros [M K C P F A] H. split; simpl; auto.
  - intros k b X. destruct (String.eqb_spec k id) as [->|].
    + rewrite lookup_assign_eq in X. injection X as <-. exact H.
    + rewrite lookup_assign_ne in X by assumption. exact (M _ _ X).
  - now apply assign_keys.
Qed.

(** ** The walk *)
Record walks (k : nat) : Prop := {
  wk_file : forall open n s, inv open s -> reached g RFile n -> room g (rs_cache s) (n_id n) < k ->
    outcome (role_conflict g) (go_file (go v g k) n s) (fun bs =>
      inv open (snd bs) /\ grows s (snd bs) /\
      exists id, file_id n id /\ file_at (snd bs) (fst bs) id /\
        (is_grey (rs_cache s) (n_id n) = false -> lookup id (rs_map (snd bs)) <> None));
  wk_package : forall open n s, inv open s -> reached g RPackage n -> room g (rs_cache s) (n_id n) < k ->
    outcome (role_conflict g) (go_pkg (go v g k) n s) (fun bs =>
      inv open (snd bs) /\ grows s (snd bs) /\
      exists id, package_id n id /\ package_at (snd bs) (fst bs) id /\
        (is_grey (rs_cache s) (n_id n) = false -> In (fst bs) (d_Packages (rs_doc (snd bs)))));
  wk_relationship : forall open t s, inv open s -> reached g RRelationship (t_obj t) ->
    room g (rs_cache s) (n_id (t_obj t)) < k ->
    outcome (role_conflict g) (go_rel (go v g k) t s) (fun s' => inv open s' /\ grows s s')
}.
Lemma room_grey c c' id : (forall x, is_grey c' x = is_grey c x) -> room g c' id = room g c id.
Proof. intros H. unfold room. now rewrite (white_ext _ _ _ H). Qed.

Lemma conflict r n r' n' : reached g r n -> reached g r' n' -> n_id n = n_id n' -> r <> r' -> role_conflict g.
Proof. intros A B C D. exists r, n, r', n'. auto. Qed.

Lemma walks_zero : walks 0.
Proof. split; intros; lia. Qed.

Section Step.
Variable k : nat.
Hypothesis IH : walks k.

Lemma on_file_ok s a (r : File -> res File) (f y : File) : nth_error (rs_files s) a = Some f -> r f = Ok y -> exists l,
  update_nth a (fun _ : File => y) (rs_files s) = Some l /\ on_file a r s = Ok (set_rs_files l s).
Proof.
  intros H E. destruct (update_nth_some a (fun _ : File => y) (rs_files s)) as (l & U); [now apply nth_error_some_lt in H|].
  exists l. split; [exact U|]. unfold on_file. rewrite H, E. cbn [bindR]. now rewrite U.
Qed.
Lemma on_pkg_ok s a (r : PackageArena -> res PackageArena) (p y : PackageArena) : nth_error (rs_pkgs s) a = Some p -> r p = Ok y -> exists l,
  update_nth a (fun _ : PackageArena => y) (rs_pkgs s) = Some l /\ on_pkg a r s = Ok (set_rs_pkgs l s).
Proof.
  intros H E. destruct (update_nth_some a (fun _ : PackageArena => y) (rs_pkgs s)) as (l & U); [now apply nth_error_some_lt in H|].
  exists l. split; [exact U|]. unfold on_pkg. rewrite H, E. cbn [bindR]. now rewrite U.
Qed.
Lemma file_step_walks open n a id s t : inv open s -> reached g RFile n -> In t (of_node g n) ->
  file_at s a id -> room g (rs_cache s) (n_id (t_obj t)) < k ->
  outcome (role_conflict g) (file_step v g (go v g k) a t s) (fun s' => inv open s' /\ grows s s').
Proof.
  intros I R T (f & F & ID) RM.
  assert (OB : forall q, t_pred t = q -> In (t_obj t) (objects q (of_node g n))) by (intros q E; apply in_objects; eauto).
  destruct (file_step_effect v g (go v g k) a t s f F) as [e Ne|c f' l _ CM (E1 & E2 & _) U|an _ _|E|E].
  - exact Ne.
  - cbn [outcome]. apply (inv_file_update open s a f f' l c I F E1 E2 U). destruct CM as [A B C]. split; auto.
    intros i o j X Y. destruct (C i o j X Y) as (-> & Q & path & m & CH & <-). split; [reflexivity|].
    exists m. split; [|reflexivity]. apply (reached_chain (t_obj t) path m); [|exact CH].
    apply rc_file_license with n (t_pred t); auto.
  - cbn [outcome]. now apply inv_doc.
  - apply (outcome_bind _ _ _ _ _ (wk_file _ IH open (t_obj t) s I (rc_file_dependency g n _ R (OB _ E)) RM)).
    intros [b s1] _ (I1 & G1 & i & _ & (fb & FB & <-) & _). cbn [fst snd] in *. rewrite FB. cbv beta iota.
    destruct (gr_files _ _ G1 a f F) as (f1 & F1 & EI & _).
    match goal with |- context [on_file a ?r s1] => destruct (on_file_ok s1 a r f1 _ F1 eq_refl) as (l & U & ->) end.
    destruct ((fun A B => inv_file_update open s1 a f1 _ l (rs_cache s1) I1 F1 A B U (cache_more_refl _ _)) eq_refl eq_refl) as [I2 G2].
    rewrite set_rs_cache_id in *. split; [exact I2|]. exact (grows_trans _ _ _ G1 G2).
  - apply (wk_relationship _ IH open t s I); [|exact RM]. exact (rc_file_relationship g n _ R (OB _ E)).
Qed.
Lemma package_step_walks open n a id s t : inv open s -> reached g RPackage n -> In t (of_node g n) ->
  package_at s a id -> In a (d_Packages (rs_doc s)) \/ In a open -> room g (rs_cache s) (n_id (t_obj t)) < k ->
  outcome (role_conflict g) (pkg_step v g (go v g k) a t s) (fun s' => inv open s' /\ grows s s').
Proof.
  intros I R T (p & F & ID) O RM.
  assert (OB : forall q, t_pred t = q -> In (t_obj t) (objects q (of_node g n))) by (intros q E; apply in_objects; eauto).
  destruct (package_step_effect v g (go v g k) a t s p F) as [e Ne|c f' l _ CM (E1 & E2 & _) U|an _ _|E|E].
  - exact Ne.
  - cbn [outcome]. apply (inv_pkg_update open s a p f' l c I F E1 E2 U). destruct CM as [A B C]. split; auto.
    intros i o j X Y. destruct (C i o j X Y) as (-> & Q & path & m & CH & <-). split; [reflexivity|].
    exists m. split; [|reflexivity]. apply (reached_chain (t_obj t) path m); [|exact CH].
    apply rc_package_license with n (t_pred t); auto.
  - cbn [outcome]. now apply inv_doc.
  - apply (outcome_bind _ _ _ _ _ (wk_file _ IH open (t_obj t) s I (rc_package_file g n _ R (OB _ E)) RM)).
    intros [b s1] _ (I1 & G1 & i & _ & (fb & FB & EI) & _). cbn [fst snd] in *. rewrite FB. cbv beta iota.
    destruct (gr_pkgs _ _ G1 a p F) as (p1 & F1 & _).
    match goal with |- context [on_pkg a ?r s1] => destruct (on_pkg_ok s1 a r p1 _ F1 eq_refl) as (l & U & ->) end. cbn [bindR outcome].
    destruct (inv_add_file open s1 a p1 b (f_SPDXIdentifier fb) l I1 F1) as [I2 G2]; [exists fb; auto| |exact U|].
    + destruct O as [O|O]; [left; now apply (gr_packages _ _ G1)|now right].
    + split; [exact I2|]. exact (grows_trans _ _ _ G1 G2).
  - apply (wk_relationship _ IH open t s I); [|exact RM]. exact (rc_package_relationship g n _ R (OB _ E)).
Qed.
Lemma relationship_step_walks open n r s t : inv open s -> reached g RRelationship n -> In t (of_node g n) ->
  room g (rs_cache s) (n_id (t_obj t)) < k ->
  outcome (role_conflict g) (rel_step g (go v g k) t (r, s)) (fun rs' => inv open (snd rs') /\ grows s (snd rs')).
Proof.
  intros I R T RM.
  assert (OB : forall q, t_pred t = q -> In (t_obj t) (objects q (of_node g n))) by (intros q E; apply in_objects; eauto).
  destruct (relationship_step_effect g (go v g k) t r s) as [e Ne|r' _ _|r1 E TY _|r1 E TY _].
  - exact Ne.
  - cbn [outcome snd]. split; [exact I|apply grows_refl].
  - apply (outcome_bind _ _ _ _ _ (wk_file _ IH open (t_obj t) s I (rc_related_file g n _ R (OB _ E) TY) RM)).
    intros [b s1] _ (I1 & G1 & i & _ & (fb & FB & EI) & _). cbn [fst snd] in *. rewrite FB. cbv beta iota. cbn [outcome snd]. auto.
  - apply (outcome_bind _ _ _ _ _ (wk_package _ IH open (t_obj t) s I (rc_related_package g n _ R (OB _ E) TY) RM)).
    intros [b s1] _ (I1 & G1 & i & _ & (fb & FB & EI) & _). cbn [fst snd] in *. rewrite FB. cbv beta iota. cbn [outcome snd]. auto.
Qed.

Lemma file_walks open n s : inv open s -> reached g RFile n -> room g (rs_cache s) (n_id n) < S k ->
    outcome (role_conflict g) (file_body v g (go v g k) n s) (fun bs =>
      inv open (snd bs) /\ grows s (snd bs) /\
      exists id, file_id n id /\ file_at (snd bs) (fst bs) id /\
        (is_grey (rs_cache s) (n_id n) = false -> lookup id (rs_map (snd bs)) <> None)).
Proof.
  intros I R RM. unfold file_body. destruct (is_grey (rs_cache s) (n_id n)) eqn:GR.
  - apply is_grey_true in GR as (o & L). rewrite L. pose proof (iv_cache _ _ I _ _ _ L) as C.
    destruct o as [|a|a|]; cbn [cached_ok] in C.
    + destruct C as (m & RM' & E). cbn [outcome]. apply (conflict _ _ _ _ R RM'); [now symmetry|discriminate].
    + destruct C as (m & x & RM' & E & FI & FA). cbn [outcome fst snd]. split; [exact I|]. split; [apply grows_refl|].
      exists x. split; [unfold file_id in *; now rewrite <- E|]. split; [exact FA|discriminate].
    + destruct C as (m & x & RM' & E & _). cbn [outcome]. apply (conflict _ _ _ _ R RM'); [now symmetry|discriminate].
    + destruct C as (m & RM' & E). cbn [outcome]. apply (conflict _ _ _ _ R RM'); [now symmetry|discriminate].
  - cbv zeta. apply (outcome_bind _ _ _ _ _ (outcome_fine _ _ (fine_file_identifier _))).
    intros id _ ID. apply file_identifier_spec in ID. change (file_id n id) in ID.
    pose proof (inv_new_file open s n id I R ID) as I1. set (s1 := set_rs_cache _ _) in *.
    set (a := match lookup id (rs_map s1) with Some b => b | None => length (rs_files s) end).
    assert (A1 : file_at s1 a id).
    { unfold a. destruct (lookup id (rs_map s1)) as [b|] eqn:L; [exact (iv_map _ _ I1 _ _ L)|].
      exists (set_f_SPDXIdentifier id zero_FileOf). split; [|reflexivity]. unfold s1. cbn [rs_files set_rs_cache set_rs_files].
      rewrite nth_error_snoc, Nat.eqb_refl. reflexivity. }
    rewrite triples_of_node.
    apply (outcome_bind _ _ _ (fun s2 => inv open s2 /\ grows s1 s2)).
    { apply outcome_for_each with (I := fun _ s2 => inv open s2 /\ grows s1 s2); [split; [exact I1|apply grows_refl]|].
      intros done t rest s2 TS [I2 G2].
      assert (T : In t (of_node g n)) by (rewrite TS; apply in_or_app; right; now left).
      eapply outcome_weaken; [|apply (file_step_walks open n a id s2 t I2 R T)].
      - intros s3 _ [I3 G3]. split; [exact I3|]. exact (grows_trans _ _ _ G2 G3).
      - exact (file_at_grows _ _ _ _ G2 A1).
      - rewrite (room_grey (rs_cache s1)) by apply (gr_grey _ _ G2).
        pose proof (room_enter g (rs_cache s) (n_id n) (CFile (length (rs_files s))) t GR (of_node_in _ _ _ T)) as X.
        unfold s1. cbn [rs_cache set_rs_cache]. lia. }
    intros s2 _ [I2 G2]. destruct (file_at_grows _ _ _ _ G2 A1) as (f & F & EF). rewrite F, EF. cbn [outcome fst snd].
    assert (A2 : file_at s2 a id) by (exists f; auto).
    pose proof (inv_leave open _ (n_id n) (inv_map open s2 id a I2 A2)) as I3. cbn [rs_cache set_rs_map] in I3.
    split; [exact I3|]. split.
    + apply grows0_grows.
      * apply grows0_trans with s1.
        { apply grows0_parts; cbn; auto using incl_refl; [eexists; split; [reflexivity|repeat constructor]|exists []; now rewrite app_nil_r]. }
        apply grows0_trans with s2; [now apply grows_grows0|].
        apply grows0_parts; cbn; [same_files|exists []; now rewrite app_nil_r| |apply incl_refl|reflexivity].
        intros j X. now apply lookup_assign_some.
      * cbn [rs_cache set_rs_cache]. apply leave_enter with (o := CFile (length (rs_files s))); [exact GR|].
        exact (gr_grey _ _ G2).
    + exists id. split; [exact ID|]. split; [exact A2|]. intros _. cbn. now rewrite lookup_assign_eq.
Qed.

Lemma find_package_some s id l a : find_package s id l = Some a -> In a l /\ package_at s a id.
Proof.
  induction l as [|b l IHl]; simpl; [discriminate|]. destruct (nth_error (rs_pkgs s) b) as [p|] eqn:E.
  - destruct (String.eqb_spec (p_SPDXIdentifier p) id) as [EI|].
    + intros H. injection H as <-. split; [now left|]. exists p. auto.
    + intros H. apply IHl in H as [H1 H2]. auto.
  - intros H. apply IHl in H as [H1 H2]. auto.
Qed.
Lemma inv_store open s a id : inv (a :: open) s -> package_at s a id ->
  inv open (on_doc (fun d => set_d_Packages (d_Packages d ++ [a])%list d) s).
Proof.
  intros [M K C P F A] H. split; simpl; auto.
  - intros b X. apply in_app_or in X as [X|[<-|[]]]; eauto.
  - intros i X. destruct (A i X) as (b & p & c & Y & Z & W & V). exists b, p, c. split; [|auto].
    destruct Y as [Y|[<-|Y]]; [left; apply in_or_app; auto|left; apply in_or_app; right; now left|now right].
Qed.
Lemma inv_open open a s : inv open s -> inv (a :: open) s.
Proof.
  intros [M K C P F A]. split; auto. intros i X. destruct (A i X) as (b & p & c & Y & Z). exists b, p, c.
  split; [|exact Z]. destruct Y; [now left|right; now right].
Qed.
Lemma package_walks open n s : inv open s -> reached g RPackage n -> room g (rs_cache s) (n_id n) < S k ->
    outcome (role_conflict g) (pkg_body v g (go v g k) n s) (fun bs =>
      inv open (snd bs) /\ grows s (snd bs) /\
      exists id, package_id n id /\ package_at (snd bs) (fst bs) id /\
        (is_grey (rs_cache s) (n_id n) = false -> In (fst bs) (d_Packages (rs_doc (snd bs))))).
Proof.
  intros I R RM. unfold pkg_body. destruct (is_grey (rs_cache s) (n_id n)) eqn:GR.
  - apply is_grey_true in GR as (o & L). rewrite L. pose proof (iv_cache _ _ I _ _ _ L) as C.
    destruct o as [|a|a|]; cbn [cached_ok] in C.
    + destruct C as (m & RM' & E). cbn [outcome]. apply (conflict _ _ _ _ R RM'); [now symmetry|discriminate].
    + destruct C as (m & x & RM' & E & _). cbn [outcome]. apply (conflict _ _ _ _ R RM'); [now symmetry|discriminate].
    + destruct C as (m & x & RM' & E & FI & FA). cbn [outcome fst snd]. split; [exact I|]. split; [apply grows_refl|].
      exists x. split; [unfold package_id in *; now rewrite <- E|]. split; [exact FA|discriminate].
    + destruct C as (m & RM' & E). cbn [outcome]. apply (conflict _ _ _ _ R RM'); [now symmetry|discriminate].
  - cbv zeta. apply (outcome_bind _ _ _ _ _ (outcome_fine _ _ (fine_extract_element_id _))).
    intros id _ ID. apply element_spec in ID. change (package_id n id) in ID.
    pose proof (inv_new_package open s n id I R ID) as I1. set (s1 := set_rs_cache _ _) in *.
    set (ex := find_package s1 id (d_Packages (rs_doc s1))).
    set (a := match ex with Some b => b | None => length (rs_pkgs s) end).
    assert (A1 : package_at s1 a id).
    { unfold a. destruct ex as [b|] eqn:L; [exact (proj2 (find_package_some _ _ _ _ L))|].
      exists (set_p_SPDXIdentifier id zero_PackageOf). split; [|reflexivity]. unfold s1. cbn [rs_pkgs set_rs_cache set_rs_pkgs].
      rewrite nth_error_snoc, Nat.eqb_refl. reflexivity. }
    set (open' := match ex with Some _ => open | None => a :: open end).
    assert (I1' : inv open' s1) by (unfold open'; destruct ex; [exact I1|now apply inv_open]).
    assert (O1 : forall s2, grows s1 s2 -> In a (d_Packages (rs_doc s2)) \/ In a open').
    { intros s2 G2. unfold open', a. destruct ex as [b|] eqn:L; [|right; now left].
      left. apply (gr_packages _ _ G2). exact (proj1 (find_package_some _ _ _ _ L)). }
    rewrite triples_of_node.
    apply (outcome_bind _ _ _ (fun s2 => inv open' s2 /\ grows s1 s2)).
    { apply outcome_for_each with (I := fun _ s2 => inv open' s2 /\ grows s1 s2); [split; [exact I1'|apply grows_refl]|].
      intros done t rest s2 TS [I2 G2].
      assert (T : In t (of_node g n)) by (rewrite TS; apply in_or_app; right; now left).
      eapply outcome_weaken; [|apply (package_step_walks open' n a id s2 t I2 R T)].
      - intros s3 _ [I3 G3]. split; [exact I3|]. exact (grows_trans _ _ _ G2 G3).
      - exact (package_at_grows _ _ _ _ G2 A1).
      - exact (O1 s2 G2).
      - rewrite (room_grey (rs_cache s1)) by apply (gr_grey _ _ G2).
        pose proof (room_enter g (rs_cache s) (n_id n) (CPackage (length (rs_pkgs s))) t GR (of_node_in _ _ _ T)) as X.
        unfold s1. cbn [rs_cache set_rs_cache]. lia. }
    intros s2 _ [I2 G2]. pose proof (package_at_grows _ _ _ _ G2 A1) as A2. cbn [outcome fst snd].
    set (s3 := match ex with Some _ => s2 | None => _ end).
    assert (X3 : inv open s3 /\ grows0 s2 s3 /\ In a (d_Packages (rs_doc s3)) /\ package_at s3 a id /\ rs_cache s3 = rs_cache s2).
    { pose proof (O1 s2 G2) as O2. unfold s3, open' in *. destruct ex as [b|] eqn:L.
      - split; [exact I2|]. split; [apply grows_grows0, grows_refl|]. split; [|auto].
        unfold a. apply (gr_packages _ _ G2). exact (proj1 (find_package_some _ _ _ _ L)).
      - split; [exact (inv_store open s2 a id I2 A2)|]. split.
        + apply grows0_parts; cbn; [same_files|exists []; now rewrite app_nil_r|auto|apply incl_appl, incl_refl|reflexivity].
        + split; [cbn; apply in_or_app; right; now left|]. auto. }
    destruct X3 as (I3 & G3 & D3 & A3 & C3).
    split; [exact (inv_leave open s3 (n_id n) I3)|]. split.
    + apply grows0_grows.
      * apply grows0_trans with s1.
        { apply grows0_parts; cbn; eauto using incl_refl. same_files. }
        apply grows0_trans with s2; [now apply grows_grows0|]. apply grows0_trans with s3; [exact G3|].
        apply grows0_parts; cbn; [same_files|exists []; now rewrite app_nil_r|auto|apply incl_refl|reflexivity].
      * cbn [rs_cache set_rs_cache]. rewrite C3. apply leave_enter with (o := CPackage (length (rs_pkgs s))); [exact GR|].
        exact (gr_grey _ _ G2).
    + exists id. split; [exact ID|]. split; [exact A3|]. intros _. exact D3.
Qed.
Lemma relationship_walks open t s : inv open s -> reached g RRelationship (t_obj t) ->
    room g (rs_cache s) (n_id (t_obj t)) < S k ->
    outcome (role_conflict g) (rel_body g (go v g k) t s) (fun s' => inv open s' /\ grows s s').
Proof.
  intros I R RM. unfold rel_body. apply (outcome_bind _ _ _ _ _ (outcome_fine _ _ (fine_reference _))).
  intros ra _ RA. cbv zeta. destruct (is_grey (rs_cache s) (n_id (t_obj t))) eqn:GR.
  - cbn [outcome]. split; [exact I|apply grows_refl].
  - pose proof (inv_new_relationship open s (t_obj t) I R) as I1. set (s1 := set_rs_cache _ _) in *.
    rewrite triples_of_node.
    apply (outcome_bind _ _ _ (fun rs2 => inv open (snd rs2) /\ grows s1 (snd rs2))).
    { apply outcome_for_each with (I := fun _ (rs2 : Relationship * rstate) => inv open (snd rs2) /\ grows s1 (snd rs2)); [split; [exact I1|apply grows_refl]|].
      intros done u rest [r2 s2] TS [I2 G2]. cbn [snd] in *.
      assert (T : In u (of_node g (t_obj t))) by (rewrite TS; apply in_or_app; right; now left).
      eapply outcome_weaken; [|apply (relationship_step_walks open (t_obj t) r2 s2 u I2 R T)].
      - intros [r3 s3] _ [I3 G3]. split; [exact I3|]. exact (grows_trans _ _ _ G2 G3).
      - rewrite (room_grey (rs_cache s1)) by apply (gr_grey _ _ G2).
        pose proof (room_enter g (rs_cache s) (n_id (t_obj t)) CRelationship u GR (of_node_in _ _ _ T)) as X.
        unfold s1. cbn [rs_cache set_rs_cache]. lia. }
    intros [r2 s2] _ [I2 G2]. cbn [snd] in *. cbn [outcome].
    destruct (inv_doc open s2 (fun d => set_d_Relationships (d_Relationships d ++ [r2])%list d) I2 (fun _ => eq_refl) (fun _ => eq_refl)) as [I3 G3].
    split; [exact (inv_leave open _ (n_id (t_obj t)) I3)|]. apply grows0_grows.
    + apply grows0_trans with s1; [apply grows0_parts; cbn; auto using incl_refl; [same_files|exists []; now rewrite app_nil_r]|].
      apply grows0_trans with s2; [now apply grows_grows0|].
      apply grows0_parts; cbn; [same_files|exists []; now rewrite app_nil_r|auto|apply incl_refl|reflexivity].
    + cbn. apply leave_enter with (o := CRelationship); [exact GR|]. exact (gr_grey _ _ G2).
Qed.
End Step.

Lemma walks_all k : walks k.
Proof.
  induction k as [|k IH]; [apply walks_zero|]. split; cbn [go go_file go_pkg go_rel].
  - intros open n s. now apply file_walks.
  - intros open n s. now apply package_walks.
  - intros open t s. now apply relationship_walks.
Qed.
End Walk.
