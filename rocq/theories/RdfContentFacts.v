(** What the walk reads: every file, package, relationship and annotation is the one
    its node describes. *)
From Verif Require Import GoStr GoStrFacts Types TvUtil TvParser RdfConst Rdf RdfReader SpecTv SpecId SpecDoc SpecRdf SpecRdfDoc SpecRdfLoad SpecRdfWays
  TvReaderFacts TvUtilFacts TvParserFacts RdfFacts RdfVisitFacts RdfLicenseFacts RdfHelperFacts RdfNodeFacts RdfStepFacts RdfWalkFacts.

(** ** Lemmas on the specification *)
Lemma file_id_fun n x y : file_id n x -> file_id n y -> x = y.
Proof. unfold file_id. intros A B. apply element_spec in A. apply element_spec in B. congruence. Qed.
Lemma package_id_fun n x y : package_id n x -> package_id n y -> x = y.
Proof. unfold package_id. intros A B. apply element_spec in A. apply element_spec in B. congruence. Qed.
Lemma package_says_weaken {FI} v g (F F' : node -> FI -> Prop) n ts p : (forall o b, F o b -> F' o b) ->
  package_says v g F n ts p -> package_says v g F' n ts p.
Proof. intros H []. split; auto. eapply Forall2_weaken; [|eassumption]. auto. Qed.
Lemma file_says_start v g n id : file_id n id -> file_says (SN := Snippet) v g n [] (set_f_SPDXIdentifier id zero_FileOf).
Proof. intros I. split; try reflexivity; try apply last_read_nil; try exact I; try constructor. Qed.
Lemma package_says_start v g (F : node -> nat -> Prop) n id : package_id n id -> package_says v g F n [] (set_p_SPDXIdentifier id zero_PackageOf).
Proof.
  intros I. split; try reflexivity; try apply last_read_nil; try exact I; try (constructor; fail).
  - split; [discriminate|]. intros H. now destruct H.
  - left. auto.
Qed.
Lemma for_each_inv_in {A S} (P : list A -> S -> Prop) (f : A -> S -> res S) l s s' :
  P [] s ->
  (forall done x rest s1 s2, l = (done ++ x :: rest)%list -> P done s1 -> f x s1 = Ok s2 -> P (done ++ [x])%list s2) ->
  for_each f l s = Ok s' -> P l s'.
Proof.
  intros P0 H.
  assert (G : forall rest done s, l = (done ++ rest)%list -> P done s -> for_each f rest s = Ok s' -> P l s').
  { induction rest as [|x rest IH]; intros done s1 E J; cbn [for_each].
    - intros X. injection X as <-. rewrite app_nil_r in E. now subst l.
    - intros X. apply bind_ok in X as (s2 & X & Y). apply (IH (done ++ [x])%list s2); [now rewrite <- app_assoc| |exact Y].
      exact (H _ _ _ _ _ E J X). }
  exact (G l [] s eq_refl P0).
Qed.

(** ** Ghost state: the node each record was read from and the statements so far *)
Record ghost := MkGhost {
  gh_file : nat -> option (node * list triple);
  gh_pkg : nat -> option (node * list triple);
  gh_rel : list triple;
  gh_ann : list triple;
  gh_met : list triple      (* the statements followed to files, packages, relationships and annotations *)
}.
Definition put {A} (a : nat) (x : A) (h : nat -> option A) : nat -> option A := fun b => if Nat.eqb b a then Some x else h b.
Lemma put_eq {A} a (x : A) h : put a x h a = Some x.
Proof. unfold put. now rewrite Nat.eqb_refl. Qed.
Lemma put_ne {A} a (x : A) h b : b <> a -> put a x h b = h b.
Proof. unfold put. intros N. now destruct (Nat.eqb_spec b a). Qed.
Lemma put_case {A} a (x : A) h b y : put a x h b = Some y -> (b = a /\ y = x) \/ (b <> a /\ h b = Some y).
Proof. unfold put. destruct (Nat.eqb_spec b a); [intros H; injection H as <-|]; auto. Qed.
Definition set_gf f G := MkGhost f (gh_pkg G) (gh_rel G) (gh_ann G) (gh_met G).
Definition set_gp f G := MkGhost (gh_file G) f (gh_rel G) (gh_ann G) (gh_met G).
Definition met_rel t G := MkGhost (gh_file G) (gh_pkg G) (gh_rel G ++ [t])%list (gh_ann G) (gh_met G ++ [t])%list.
Definition met_ann t G := MkGhost (gh_file G) (gh_pkg G) (gh_rel G) (gh_ann G ++ [t])%list (gh_met G ++ [t])%list.
Definition met t G := MkGhost (gh_file G) (gh_pkg G) (gh_rel G) (gh_ann G) (gh_met G ++ [t])%list.
Definition is_pred (p : string) (t : triple) : bool := t_pred t =? p.
Lemma filter_is p l t : t_pred t = p -> filter (is_pred p) (l ++ [t]) = (filter (is_pred p) l ++ [t])%list.
Proof. intros E. rewrite filter_app. cbn [filter]. unfold is_pred at 2. rewrite E, String.eqb_refl. reflexivity. Qed.
Lemma filter_is_not p l t : t_pred t <> p -> filter (is_pred p) (l ++ [t]) = filter (is_pred p) l.
Proof. intros E. rewrite filter_app. cbn [filter]. unfold is_pred at 2. apply String.eqb_neq in E. rewrite E. apply app_nil_r. Qed.
Lemma entering_not t : entering t = true -> t_pred t <> spdx "relationship" /\ t_pred t <> spdx "annotation".
Proof. unfold entering. intros H. split; intros E; rewrite E in H; discriminate H. Qed.

Definition cached_as (s : rstate) (id : string) (o : cached) : Prop := exists k, lookup id (rs_cache s) = Some (o, k).
Lemma cached_as_fun s id o o' : cached_as s id o -> cached_as s id o' -> o = o'.
Proof. intros (k & A) (k' & B). congruence. Qed.
Lemma cached_as_kept s s' id o : objects_kept (rs_cache s) (rs_cache s') -> cached_as s id o -> cached_as s' id o.
Proof. intros K (k & A). exact (K _ _ _ A). Qed.

Section Content.
Variables (v : version) (g : graph).
Hypothesis CN : consistent g.

Definition grey (s : rstate) (n : node) : bool := is_grey (rs_cache s) (n_id n).
(** address [b] stands for file node [o], package node [o]; relationship node [o] has been or is being read *)
Definition held (G : ghost) (s : rstate) (o : node) (b : nat) : Prop :=
  (exists h, gh_file G b = Some (o, h)) /\
  ((exists x, file_id o x /\ lookup x (rs_map s) = Some b) \/ (grey s o = true /\ cached_as s (n_id o) (CFile b))).
Definition held_pkg (G : ghost) (s : rstate) (o : node) (a : nat) : Prop :=
  (exists h, gh_pkg G a = Some (o, h)) /\
  (In a (d_Packages (rs_doc s)) \/ (grey s o = true /\ cached_as s (n_id o) (CPackage a))).
Definition seen_rel (G : ghost) (s : rstate) (o : node) : Prop :=
  (exists t, In t (gh_rel G) /\ t_obj t = o) \/ (grey s o = true /\ cached_as s (n_id o) CRelationship /\ reached g RRelationship o).
(** and so has relationship statement [t], whose subject can be referred to *)
Definition seen_from (G : ghost) (s : rstate) (t : triple) : Prop :=
  seen_rel G s (t_obj t) /\ exists d, reference_term (n_id (t_subj t)) d.
(** what a statement refers to has been met *)
Definition next_file (G : ghost) (s : rstate) (t : triple) : Prop :=
  (t_pred t = spdx "fileDependency" -> exists c, held G s (t_obj t) c) /\
  (t_pred t = spdx "relationship" -> seen_from G s t) /\
  (t_pred t = spdx "annotation" -> In t (gh_ann G)).
Definition next_pkg (G : ghost) (s : rstate) (t : triple) : Prop :=
  (t_pred t = spdx "hasFile" -> exists c, held G s (t_obj t) c) /\
  (t_pred t = spdx "relationship" -> seen_from G s t) /\
  (t_pred t = spdx "annotation" -> In t (gh_ann G)).
Definition next_rel (G : ghost) (s : rstate) (t : triple) : Prop :=
  t_pred t = spdx "relatedSpdxElement" ->
  (typed_node g (t_obj t) "File" -> exists c, held G s (t_obj t) c) /\
  (typed_node g (t_obj t) "Package" -> exists c, held_pkg G s (t_obj t) c).

Record ok (G : ghost) (s : rstate) : Prop := {
  ok_file : forall b f, nth_error (rs_files s) b = Some f -> exists n h, gh_file G b = Some (n, h) /\ file_says v g n h f;
  ok_file_dom : forall b n h, gh_file G b = Some (n, h) -> b < length (rs_files s) /\ reached g RFile n;
  ok_pkg : forall a p, nth_error (rs_pkgs s) a = Some p -> exists n h, gh_pkg G a = Some (n, h) /\ package_says v g (held G s) n h p;
  ok_pkg_dom : forall a n h, gh_pkg G a = Some (n, h) -> a < length (rs_pkgs s) /\ reached g RPackage n;
  ok_rel : Forall2 (fun t r => statement g (spdx "relationship") t /\ relationship_says g t (of_node g (t_obj t)) r)
             (gh_rel G) (d_Relationships (rs_doc s));
  ok_ann : Forall2 (fun t a => statement g (spdx "annotation") t /\ annotation_says (of_node g (t_obj t)) a)
             (gh_ann G) (d_Annotations (rs_doc s));
  ok_closed_file : forall b n h, gh_file G b = Some (n, h) -> grey s n = false ->
    exists k, h = again k (of_node g n) /\ forall x, file_id n x -> lookup x (rs_map s) = Some b -> 1 <= k /\ k = times (gh_met G) n;
  ok_closed_pkg : forall a n h, gh_pkg G a = Some (n, h) -> grey s n = false ->
    exists k, h = again k (of_node g n) /\ (In a (d_Packages (rs_doc s)) -> 1 <= k /\ k = times (gh_met G) n);
  ok_cache_file : forall n c x, reached g RFile n -> cached_as s (n_id n) (CFile c) -> file_id n x ->
    lookup x (rs_map s) = Some c \/ grey s n = true;
  ok_map_cache : forall n b x, reached g RFile n -> file_id n x -> lookup x (rs_map s) = Some b -> cached_as s (n_id n) (CFile b);
  ok_cache_pkg : forall n c, reached g RPackage n -> cached_as s (n_id n) (CPackage c) ->
    In c (d_Packages (rs_doc s)) \/ grey s n = true;
  ok_doc_cache : forall a n h, In a (d_Packages (rs_doc s)) -> gh_pkg G a = Some (n, h) -> cached_as s (n_id n) (CPackage a);
  ok_next_file : forall b n h t, gh_file G b = Some (n, h) -> In t h -> next_file G s t;
  ok_next_pkg : forall a n h t, gh_pkg G a = Some (n, h) -> In t h -> next_pkg G s t;
  ok_next_rel : forall t u, In t (gh_rel G) -> In u (of_node g (t_obj t)) -> next_rel G s u;
  ok_rel_met : gh_rel G = filter (is_pred (spdx "relationship")) (gh_met G);
  ok_ann_met : gh_ann G = filter (is_pred (spdx "annotation")) (gh_met G);
  ok_met_file : forall n, reached g RFile n -> times (gh_met G) n <> 0 -> exists x b, file_id n x /\ lookup x (rs_map s) = Some b;
  ok_met_pkg : forall n, reached g RPackage n -> times (gh_met G) n <> 0 -> exists a h, In a (d_Packages (rs_doc s)) /\ gh_pkg G a = Some (n, h)
}.

(** ** What is kept *)
Record keeps (G : ghost) (s : rstate) (G' : ghost) (s' : rstate) : Prop := {
  kp_file : forall o b, held G s o b -> held G' s' o b;
  kp_pkg : forall o a, held_pkg G s o a -> held_pkg G' s' o a;
  kp_rel : forall o, seen_rel G s o -> seen_rel G' s' o;
  kp_ann : incl (gh_ann G) (gh_ann G')
}.
Lemma next_file_keeps G s G' s' t : keeps G s G' s' -> next_file G s t -> next_file G' s' t.
Proof.
  intros [A B C D] (X & Y & Z). split; [|split].
  - intros E. destruct (X E) as (c & H). eauto.
  - intros E. destruct (Y E). split; auto.
  - intros E. apply D. auto.
Qed.
Lemma next_pkg_keeps G s G' s' t : keeps G s G' s' -> next_pkg G s t -> next_pkg G' s' t.
Proof.
  intros [A B C D] (X & Y & Z). split; [|split].
  - intros E. destruct (X E) as (c & H). eauto.
  - intros E. destruct (Y E). split; auto.
  - intros E. apply D. auto.
Qed.
Lemma next_rel_keeps G s G' s' t : keeps G s G' s' -> next_rel G s t -> next_rel G' s' t.
Proof.
  intros [A B C D] X E. destruct (X E) as [Y Z]. split; intros T; [destruct (Y T) as (c & H)|destruct (Z T) as (c & H)]; eauto.
Qed.
(** [gry]: the IDs whose records must not change *)
Record ext (gry : string -> bool) (G : ghost) (s : rstate) (G' : ghost) (s' : rstate) : Prop := {
  ex_file : forall b n h, gh_file G b = Some (n, h) -> exists h', gh_file G' b = Some (n, h ++ h')%list;
  ex_file_grey : forall b n h, gh_file G' b = Some (n, h) -> gry (n_id n) = true -> gh_file G b = Some (n, h);
  ex_pkg : forall b n h, gh_pkg G b = Some (n, h) -> exists h', gh_pkg G' b = Some (n, h ++ h')%list;
  ex_pkg_grey : forall b n h, gh_pkg G' b = Some (n, h) -> gry (n_id n) = true -> gh_pkg G b = Some (n, h);
  ex_rel : incl (gh_rel G) (gh_rel G');
  ex_ann : incl (gh_ann G) (gh_ann G');
  ex_map : forall x b, lookup x (rs_map s) = Some b -> lookup x (rs_map s') = Some b;
  ex_cache : objects_kept (rs_cache s) (rs_cache s');
  ex_grey : forall x, is_grey (rs_cache s) x = true -> is_grey (rs_cache s') x = true;
  ex_packages : incl (d_Packages (rs_doc s)) (d_Packages (rs_doc s'))
}.
Lemma ext_refl gry G s : ext gry G s G s.
Proof.
  split; auto using incl_refl, objects_kept_refl.
  - intros b n h H. exists []. now rewrite app_nil_r.
  - intros b n h H. exists []. now rewrite app_nil_r.
Qed.
Lemma ext_trans gry G1 s1 G2 s2 G3 s3 : ext gry G1 s1 G2 s2 -> ext gry G2 s2 G3 s3 -> ext gry G1 s1 G3 s3.
Proof.
  intros [A B C D E F M K W P] [A' B' C' D' E' F' M' K' W' P']. split; auto.
  - intros b n h H. destruct (A b n h H) as (h1 & H1). destruct (A' b n _ H1) as (h2 & H2). exists (h1 ++ h2)%list. now rewrite app_assoc.
  - intros b n h H. destruct (C b n h H) as (h1 & H1). destruct (C' b n _ H1) as (h2 & H2). exists (h1 ++ h2)%list. now rewrite app_assoc.
  - eapply incl_tran; eauto.
  - eapply incl_tran; eauto.
  - eapply objects_kept_trans; eauto.
  - eapply incl_tran; eauto.
Qed.
Lemma ext_less (gry gry' : string -> bool) G s G' s' : (forall x, gry' x = true -> gry x = true) -> ext gry G s G' s' -> ext gry' G s G' s'.
Proof. intros H [A B C D E F M K W P]. split; auto. Qed.
Lemma ext_keeps gry G s G' s' : ext gry G s G' s' -> keeps G s G' s'.
Proof.
  intros [A B C D E F M K W P]. split.
  - intros o b [(h & H) X]. split; [destruct (A b o h H) as (h' & H'); eauto|]. destruct X as [(x & I & L)|[X Y]].
    + left. eauto.
    + right. split; [now apply W|]. eapply cached_as_kept; eauto.
  - intros o b [(h & H) X]. split; [destruct (C b o h H) as (h' & H'); eauto|]. destruct X as [X|[X Y]].
    + left. auto.
    + right. split; [now apply W|]. eapply cached_as_kept; eauto.
  - intros o [(t & I & H)|(X & Y & Z)]; [left; eauto|]. right. split; [now apply W|]. split; [|exact Z]. eapply cached_as_kept; eauto.
  - exact F.
Qed.
Lemma no_conflict r n r' n' : reached g r n -> reached g r' n' -> n_id n = n_id n' -> r = r'.
Proof.
  intros A B E. destruct r, r'; try reflexivity; exfalso; apply (cn_roles g CN); refine (conflict g _ _ _ _ A B E _); discriminate.
Qed.

(** ** One change after another *)
(** *** licenses *)
Lemma cached_more s c id o : cache_more (fun id => exists n, reached g RLicense n /\ n_id n = id) (rs_cache s) c ->
  o <> CNil -> cached_as (set_rs_cache c s) id o -> cached_as s id o.
Proof.
  intros [A B C] N (k & H). cbn [rs_cache set_rs_cache] in H. destruct (lookup id (rs_cache s)) as [[o' k']|] eqn:L.
  - destruct (B _ _ _ L) as (k2 & H2). exists k'. congruence.
  - destruct (C _ _ _ L H). contradiction.
Qed.
Lemma ext_license gry G s c : cache_more (fun id => exists n, reached g RLicense n /\ n_id n = id) (rs_cache s) c ->
  ext gry G s G (set_rs_cache c s).
Proof.
  intros [A B C]. split; simpl; auto using incl_refl.
  - intros b n h H. exists []. now rewrite app_nil_r.
  - intros b n h H. exists []. now rewrite app_nil_r.
  - intros x. now rewrite A.
Qed.
Lemma ok_license G s c : ok G s -> cache_more (fun id => exists n, reached g RLicense n /\ n_id n = id) (rs_cache s) c ->
  ok G (set_rs_cache c s).
Proof.
  intros O CM. pose proof (ext_keeps _ _ _ _ _ (ext_license (fun _ => true) G s c CM)) as KP.
  pose proof (cm_grey _ _ _ CM) as CG.
  assert (KE : forall id o, cached_as s id o -> cached_as (set_rs_cache c s) id o) by (intros id o; apply cached_as_kept; exact (cm_old _ _ _ CM)).
  destruct O. split; simpl; auto.
  - intros a p H. destruct (ok_pkg0 a p H) as (n & h & A & B). exists n, h. split; [exact A|].
    revert B. apply package_says_weaken. apply (kp_file _ _ _ _ KP).
  - intros b n h H W. apply ok_closed_file0; [exact H|]. unfold grey in *. simpl in W. now rewrite CG in W.
  - intros b n h H W. apply ok_closed_pkg0; [exact H|]. unfold grey in *. simpl in W. now rewrite CG in W.
  - intros n x y R C F. unfold grey. simpl. rewrite CG. apply (ok_cache_file0 n x y R); [|exact F]. apply (cached_more s c); [exact CM|discriminate|exact C].
  - intros n b x R F L. apply KE. exact (ok_map_cache0 n b x R F L).
  - intros n x R C. unfold grey. simpl. rewrite CG. apply (ok_cache_pkg0 n x R). apply (cached_more s c); [exact CM|discriminate|exact C].
  - intros a n h I H. apply KE. exact (ok_doc_cache0 a n h I H).
  - intros b n h t H I. exact (next_file_keeps _ _ _ _ t KP (ok_next_file0 b n h t H I)).
  - intros b n h t H I. exact (next_pkg_keeps _ _ _ _ t KP (ok_next_pkg0 b n h t H I)).
  - intros t u H I. exact (next_rel_keeps _ _ _ _ u KP (ok_next_rel0 t u H I)).
Qed.

(** *** a statement of a file *)
Lemma ext_own_file (gry : string -> bool) G s a n h l t : gh_file G a = Some (n, h) -> gry (n_id n) = false ->
  ext gry G s (set_gf (put a (n, h ++ [t])%list (gh_file G)) G) (set_rs_files l s).
Proof.
  intros A W. split; simpl; auto using incl_refl, objects_kept_refl.
  - intros b m k H. destruct (Nat.eq_dec b a) as [->|N].
    + rewrite put_eq. assert ((m, k) = (n, h)) by congruence. exists [t]. congruence.
    + rewrite put_ne by exact N. exists []. now rewrite app_nil_r.
  - intros b m k H Y. apply put_case in H as [[-> H]|[N H]]; [|exact H]. injection H as -> _. congruence.
  - intros b m k H. exists []. now rewrite app_nil_r.
Qed.
Lemma ok_own_file G s a n h (f f' : File) l t : ok G s -> gh_file G a = Some (n, h) -> nth_error (rs_files s) a = Some f ->
  grey s n = true -> (file_says v g n h f -> file_says v g n (h ++ [t]) f') ->
  update_nth a (fun _ : File => f') (rs_files s) = Some l -> next_file G s t ->
  ok (set_gf (put a (n, h ++ [t])%list (gh_file G)) G) (set_rs_files l s).
Proof.
  intros O GA F W M U NX.
  assert (KP : keeps G s (set_gf (put a (n, h ++ [t])%list (gh_file G)) G) (set_rs_files l s)).
  { apply (ext_keeps (fun _ => false)). now apply ext_own_file. }
  destruct O. split; simpl; auto.
  - intros b x H. rewrite (update_nth_nth _ _ _ _ b U) in H. destruct (Nat.eqb_spec b a) as [->|N].
    + rewrite F in H. simpl in H. injection H as <-. exists n, (h ++ [t])%list. rewrite put_eq. split; [reflexivity|]. apply M.
      destruct (ok_file0 a f F) as (m & k & A & B). assert ((m, k) = (n, h)) by congruence. congruence.
    + rewrite put_ne by exact N. auto.
  - intros b m k H. rewrite (update_nth_length _ _ _ _ U). apply put_case in H as [[-> H]|[N H]]; [|eauto].
    injection H as -> _. eauto.
  - intros b p H. destruct (ok_pkg0 b p H) as (m & k & A & B). exists m, k. split; [exact A|].
    revert B. apply package_says_weaken. apply (kp_file _ _ _ _ KP).
  - intros b m k H Y. apply put_case in H as [[-> H]|[N H]]; [|eauto]. injection H as -> _. unfold grey in *. simpl in Y. congruence.
  - intros b m k u H I. apply (next_file_keeps _ _ _ _ u KP). apply put_case in H as [[-> H]|[N H]]; [|eauto].
    injection H as -> ->. apply in_app_or in I as [I|[<-|[]]]; [eauto|exact NX].
  - intros b m k u H I. exact (next_pkg_keeps _ _ _ _ u KP (ok_next_pkg0 b m k u H I)).
  - intros u w H I. exact (next_rel_keeps _ _ _ _ w KP (ok_next_rel0 u w H I)).
Qed.
(** *** a statement of a package *)
Lemma ext_own_pkg (gry : string -> bool) G s a n h l t : gh_pkg G a = Some (n, h) -> gry (n_id n) = false ->
  ext gry G s (set_gp (put a (n, h ++ [t])%list (gh_pkg G)) G) (set_rs_pkgs l s).
Proof.
  intros A W. split; simpl; auto using incl_refl, objects_kept_refl.
  - intros b m k H. exists []. now rewrite app_nil_r.
  - intros b m k H. destruct (Nat.eq_dec b a) as [->|N].
    + rewrite put_eq. assert ((m, k) = (n, h)) by congruence. exists [t]. congruence.
    + rewrite put_ne by exact N. exists []. now rewrite app_nil_r.
  - intros b m k H Y. apply put_case in H as [[-> H]|[N H]]; [|exact H]. injection H as -> _. congruence.
Qed.
Lemma ok_own_pkg G s a n h p p' l t : ok G s -> gh_pkg G a = Some (n, h) -> nth_error (rs_pkgs s) a = Some p ->
  grey s n = true -> (package_says v g (held G s) n h p -> package_says v g (held G s) n (h ++ [t]) p') ->
  update_nth a (fun _ : PackageArena => p') (rs_pkgs s) = Some l -> next_pkg G s t ->
  ok (set_gp (put a (n, h ++ [t])%list (gh_pkg G)) G) (set_rs_pkgs l s).
Proof.
  intros O GA F W M U NX.
  assert (KP : keeps G s (set_gp (put a (n, h ++ [t])%list (gh_pkg G)) G) (set_rs_pkgs l s)).
  { apply (ext_keeps (fun _ => false)). now apply ext_own_pkg. }
  destruct O. split; simpl; auto.
  - intros b x H. rewrite (update_nth_nth _ _ _ _ b U) in H. destruct (Nat.eqb_spec b a) as [->|N].
    + rewrite F in H. simpl in H. injection H as <-. exists n, (h ++ [t])%list. rewrite put_eq. split; [reflexivity|].
      apply (package_says_weaken v g (held G s)); [apply (kp_file _ _ _ _ KP)|]. apply M.
      destruct (ok_pkg0 a p F) as (m & k & A & B). assert ((m, k) = (n, h)) by congruence. congruence.
    + rewrite put_ne by exact N. destruct (ok_pkg0 b x H) as (m & k & A & B). exists m, k. split; [exact A|].
      revert B. apply package_says_weaken. apply (kp_file _ _ _ _ KP).
  - intros b m k H. rewrite (update_nth_length _ _ _ _ U). apply put_case in H as [[-> H]|[N H]]; [|eauto].
    injection H as -> _. eauto.
  - intros b m k H Y. apply put_case in H as [[-> H]|[N H]]; [|eauto]. injection H as -> _. unfold grey in *. simpl in Y. congruence.
  - intros b m k I H. apply put_case in H as [[-> H]|[N H]]; [injection H as -> _|]; eapply ok_doc_cache0; eauto.
  - intros b m k u H I. apply (next_pkg_keeps _ _ _ _ u KP). apply put_case in H as [[-> H]|[N H]]; [|eauto].
    injection H as -> ->. apply in_app_or in I as [I|[<-|[]]]; [eauto|exact NX].
  - intros u w H I. exact (next_rel_keeps _ _ _ _ w KP (ok_next_rel0 u w H I)).
  - intros m RM Z. destruct (ok_met_pkg0 m RM Z) as (b & k & J & H). exists b. destruct (Nat.eq_dec b a) as [->|N].
    + exists (h ++ [t])%list. rewrite put_eq. split; [exact J|]. assert ((m, k) = (n, h)) by congruence. congruence.
    + exists k. rewrite put_ne by exact N. auto.
Qed.
(** *** the set of packaged identifiers does not matter *)
Lemma ok_assoc G s l : ok G s -> ok G (set_rs_assoc l s).
Proof. intros []. split; auto. Qed.
Lemma ext_assoc gry G s G' s' l : ext gry G s G' s' -> ext gry G s G' (set_rs_assoc l s').
Proof. intros []. split; auto. Qed.
Lemma times_not_entering l t n : entering t = false -> times (l ++ [t]) n = times l n.
Proof. intros E. rewrite times_app, times_one, (enters_not _ _ E). lia. Qed.
(** *** annotations *)
Lemma ext_ann (gry : string -> bool) G s a t :
  ext gry G s (met_ann t G) (on_doc (fun d => set_d_Annotations (d_Annotations d ++ [a])%list d) s).
Proof.
  split; simpl; auto using incl_refl, objects_kept_refl.
  - intros b m k H. exists []. now rewrite app_nil_r.
  - intros b m k H. exists []. now rewrite app_nil_r.
  - apply incl_appl, incl_refl.
Qed.
Lemma ok_annotation G s a t : ok G s -> statement g (spdx "annotation") t -> annotation_says (of_node g (t_obj t)) a ->
  ok (met_ann t G) (on_doc (fun d => set_d_Annotations (d_Annotations d ++ [a])%list d) s).
Proof.
  intros O T A. pose proof (ext_keeps _ _ _ _ _ (ext_ann (fun _ => true) G s a t)) as KP.
  assert (EN : entering t = false) by (unfold entering; destruct T as (_ & -> & _); reflexivity).
  assert (TI : forall n, times (gh_met G ++ [t]) n = times (gh_met G) n) by (intros n; now apply times_not_entering).
  destruct O. split; try assumption.
  - cbn. apply Forall2_snoc; auto.
  - intros b m h. cbn [met_ann gh_met]. rewrite TI. apply ok_closed_file0.
  - intros b m h. cbn [met_ann gh_met]. rewrite TI. apply ok_closed_pkg0.
  - intros b m k u H I. exact (next_file_keeps _ _ _ _ u KP (ok_next_file0 b m k u H I)).
  - intros b m k u H I. exact (next_pkg_keeps _ _ _ _ u KP (ok_next_pkg0 b m k u H I)).
  - cbn [met_ann gh_rel gh_met]. rewrite filter_is_not; [exact ok_rel_met0|]. destruct T as (_ & -> & _). discriminate.
  - cbn [met_ann gh_ann gh_met]. rewrite filter_is; [now rewrite <- ok_ann_met0|]. exact (proj1 (proj2 T)).
  - intros m. cbn [met_ann gh_met]. rewrite TI. apply ok_met_file0.
  - intros m. cbn [met_ann gh_met]. rewrite TI. apply ok_met_pkg0.
Qed.

(** *** a file is begun *)
Definition new_file (n : node) (id : string) (s : rstate) : rstate :=
  set_rs_cache (enter (n_id n) (CFile (length (rs_files s))) (rs_cache s))
    (set_rs_files (rs_files s ++ [set_f_SPDXIdentifier id zero_FileOf])%list s).
Definition ghost_file (n : node) (s : rstate) (G : ghost) : ghost := set_gf (put (length (rs_files s)) (n, []) (gh_file G)) G.
Lemma cached_enter s s' x o id o' : rs_cache s' = enter x o (rs_cache s) -> id <> x -> cached_as s' id o' -> cached_as s id o'.
Proof. intros E N (k & H). rewrite E, lookup_enter in H. exists k. destruct (String.eqb_spec id x); [contradiction|exact H]. Qed.
Lemma ext_new_file G s n id : ok G s -> grey s n = false ->
  ext (is_grey (rs_cache s)) G s (ghost_file n s G) (new_file n id s).
Proof.
  intros O W. split; simpl; auto using incl_refl, objects_kept_enter.
  - intros b m h H. destruct (ok_file_dom _ _ O _ _ _ H) as [L _]. rewrite put_ne by lia. exists []. now rewrite app_nil_r.
  - intros b m h H Y. apply put_case in H as [[-> H]|[N H]]; [|exact H]. injection H as -> _. unfold grey in W. congruence.
  - intros b m h H. exists []. now rewrite app_nil_r.
  - intros x H. rewrite is_grey_enter, H. apply Bool.orb_true_r.
Qed.
Lemma ok_new_file G s n id : ok G s -> reached g RFile n -> file_id n id -> grey s n = false ->
  ok (ghost_file n s G) (new_file n id s).
Proof.
  intros O R I W. pose proof (ext_keeps _ _ _ _ _ (ext_new_file G s n id O W)) as KP.
  assert (GR : forall m, grey (new_file n id s) m = (n_id m =? n_id n) || grey s m) by (intros m; apply is_grey_enter).
  assert (KE : forall id' o, cached_as s id' o -> cached_as (new_file n id s) id' o) by (intros id' o; apply cached_as_kept, objects_kept_enter).
  assert (KN : forall i o, i <> n_id n -> cached_as (new_file n id s) i o -> cached_as s i o)
    by (intros i o; exact (cached_enter s (new_file n id s) (n_id n) (CFile (length (rs_files s))) i o eq_refl)).
  destruct O. split; auto.
  - intros b f H. cbn [new_file rs_files set_rs_files set_rs_cache] in H. rewrite nth_error_snoc in H. cbn [ghost_file gh_file set_gf].
    destruct (Nat.eqb_spec b (length (rs_files s))) as [->|N].
    + injection H as <-. rewrite put_eq. exists n, []. split; [reflexivity|now apply file_says_start].
    + rewrite put_ne by exact N. auto.
  - intros b m h H. cbn [new_file rs_files set_rs_files set_rs_cache]. rewrite app_length. cbn [length].
    apply put_case in H as [[-> H]|[N H]].
    + injection H as -> _. split; [lia|exact R].
    + destruct (ok_file_dom0 _ _ _ H). split; [lia|assumption].
  - intros b p H. destruct (ok_pkg0 b p H) as (m & k & X & B). exists m, k. split; [exact X|].
    revert B. apply package_says_weaken. apply (kp_file _ _ _ _ KP).
  - intros b m h H Y. rewrite GR in Y. apply Bool.orb_false_iff in Y as [Y1 Y2]. apply put_case in H as [[-> H]|[N H]].
    + injection H as -> _. rewrite String.eqb_refl in Y1. discriminate Y1.
    + exact (ok_closed_file0 b m h H Y2).
  - intros b m h H Y. rewrite GR in Y. apply Bool.orb_false_iff in Y as [Y1 Y2]. exact (ok_closed_pkg0 b m h H Y2).
  - intros m c x RM C F. rewrite GR. destruct (String.eqb_spec (n_id m) (n_id n)) as [E|E]; [now right|]. cbn [orb].
    apply (ok_cache_file0 m c x RM); [|exact F]. exact (KN _ _ E C).
  - intros m b x RM F L. apply KE. exact (ok_map_cache0 m b x RM F L).
  - intros m c RM C. rewrite GR. destruct (String.eqb_spec (n_id m) (n_id n)) as [E|E]; [now right|]. cbn [orb].
    apply (ok_cache_pkg0 m c RM). exact (KN _ _ E C).
  - intros a m h J H. apply KE. exact (ok_doc_cache0 a m h J H).
  - intros b m h t H J. apply (next_file_keeps _ _ _ _ t KP). apply put_case in H as [[-> H]|[N H]]; [|exact (ok_next_file0 b m h t H J)].
    injection H as _ ->. destruct J.
  - intros b m h t H J. exact (next_pkg_keeps _ _ _ _ t KP (ok_next_pkg0 b m h t H J)).
  - intros t u H J. exact (next_rel_keeps _ _ _ _ u KP (ok_next_rel0 t u H J)).
Qed.
(** *** a package is begun *)
Definition new_pkg (n : node) (id : string) (s : rstate) : rstate :=
  set_rs_cache (enter (n_id n) (CPackage (length (rs_pkgs s))) (rs_cache s))
    (set_rs_pkgs (rs_pkgs s ++ [set_p_SPDXIdentifier id zero_PackageOf])%list s).
Definition ghost_pkg (n : node) (s : rstate) (G : ghost) : ghost := set_gp (put (length (rs_pkgs s)) (n, []) (gh_pkg G)) G.
Lemma ext_new_pkg G s n id : ok G s -> grey s n = false ->
  ext (is_grey (rs_cache s)) G s (ghost_pkg n s G) (new_pkg n id s).
Proof.
  intros O W. split; simpl; auto using incl_refl, objects_kept_enter.
  - intros b m h H. exists []. now rewrite app_nil_r.
  - intros b m h H. destruct (ok_pkg_dom _ _ O _ _ _ H) as [L _]. rewrite put_ne by lia. exists []. now rewrite app_nil_r.
  - intros b m h H Y. apply put_case in H as [[-> H]|[N H]]; [|exact H]. injection H as -> _. unfold grey in W. congruence.
  - intros x H. rewrite is_grey_enter, H. apply Bool.orb_true_r.
Qed.
Lemma ok_new_pkg open G s n id : inv g open s -> ok G s -> reached g RPackage n -> package_id n id -> grey s n = false ->
  ok (ghost_pkg n s G) (new_pkg n id s).
Proof.
  intros IV O R I W. pose proof (ext_keeps _ _ _ _ _ (ext_new_pkg G s n id O W)) as KP.
  assert (GR : forall m, grey (new_pkg n id s) m = (n_id m =? n_id n) || grey s m) by (intros m; apply is_grey_enter).
  assert (KE : forall id' o, cached_as s id' o -> cached_as (new_pkg n id s) id' o) by (intros id' o; apply cached_as_kept, objects_kept_enter).
  assert (KN : forall i o, i <> n_id n -> cached_as (new_pkg n id s) i o -> cached_as s i o)
    by (intros i o; exact (cached_enter s (new_pkg n id s) (n_id n) (CPackage (length (rs_pkgs s))) i o eq_refl)).
  destruct O. split; auto.
  - intros b f H. cbn [new_pkg rs_pkgs set_rs_pkgs set_rs_cache] in H. rewrite nth_error_snoc in H. cbn [ghost_pkg gh_pkg set_gp].
    destruct (Nat.eqb_spec b (length (rs_pkgs s))) as [->|N].
    + injection H as <-. rewrite put_eq. exists n, []. split; [reflexivity|now apply package_says_start].
    + rewrite put_ne by exact N. destruct (ok_pkg0 b f H) as (m & k & X & B). exists m, k. split; [exact X|].
      revert B. apply package_says_weaken. apply (kp_file _ _ _ _ KP).
  - intros b m h H. cbn [new_pkg rs_pkgs set_rs_pkgs set_rs_cache]. rewrite app_length. cbn [length].
    apply put_case in H as [[-> H]|[N H]].
    + injection H as -> _. split; [lia|exact R].
    + destruct (ok_pkg_dom0 _ _ _ H). split; [lia|assumption].
  - intros b m h H Y. rewrite GR in Y. apply Bool.orb_false_iff in Y as [Y1 Y2]. exact (ok_closed_file0 b m h H Y2).
  - intros b m h H Y. rewrite GR in Y. apply Bool.orb_false_iff in Y as [Y1 Y2]. apply put_case in H as [[-> H]|[N H]].
    + injection H as -> _. rewrite String.eqb_refl in Y1. discriminate Y1.
    + exact (ok_closed_pkg0 b m h H Y2).
  - intros m c x RM C F. rewrite GR. destruct (String.eqb_spec (n_id m) (n_id n)) as [E|E]; [now right|]. cbn [orb].
    apply (ok_cache_file0 m c x RM); [|exact F]. exact (KN _ _ E C).
  - intros m b x RM F L. apply KE. exact (ok_map_cache0 m b x RM F L).
  - intros m c RM C. rewrite GR. destruct (String.eqb_spec (n_id m) (n_id n)) as [E|E]; [now right|]. cbn [orb].
    apply (ok_cache_pkg0 m c RM). exact (KN _ _ E C).
  - intros a m h J H. apply KE. destruct (iv_packages _ _ _ IV a J) as (x & q & Q & _). apply nth_error_some_lt in Q.
    cbn [ghost_pkg gh_pkg set_gp] in H. rewrite put_ne in H by lia. exact (ok_doc_cache0 a m h J H).
  - intros b m h t H J. exact (next_file_keeps _ _ _ _ t KP (ok_next_file0 b m h t H J)).
  - intros b m h t H J. apply (next_pkg_keeps _ _ _ _ t KP). apply put_case in H as [[-> H]|[N H]]; [|exact (ok_next_pkg0 b m h t H J)].
    injection H as _ ->. destruct J.
  - intros t u H J. exact (next_rel_keeps _ _ _ _ u KP (ok_next_rel0 t u H J)).
  - intros m RM Z. destruct (ok_met_pkg0 m RM Z) as (a & k & J & H). exists a, k. split; [exact J|].
    destruct (iv_packages _ _ _ IV a J) as (x & q & Q & _). apply nth_error_some_lt in Q. cbn [ghost_pkg gh_pkg set_gp]. now rewrite put_ne by lia.
Qed.
(** *** a relationship is begun *)
Definition new_rel (n : node) (s : rstate) : rstate := set_rs_cache (enter (n_id n) CRelationship (rs_cache s)) s.
Lemma ext_new_rel gry G s n : ext gry G s G (new_rel n s).
Proof.
  split; simpl; auto using incl_refl, objects_kept_enter.
  - intros b m h H. exists []. now rewrite app_nil_r.
  - intros b m h H. exists []. now rewrite app_nil_r.
  - intros x H. rewrite is_grey_enter, H. apply Bool.orb_true_r.
Qed.
Lemma ok_new_rel G s n : ok G s -> ok G (new_rel n s).
Proof.
  intros O. pose proof (ext_keeps _ _ _ _ _ (ext_new_rel (fun _ => true) G s n)) as KP.
  assert (GR : forall m, grey (new_rel n s) m = (n_id m =? n_id n) || grey s m) by (intros m; apply is_grey_enter).
  assert (KE : forall id' o, cached_as s id' o -> cached_as (new_rel n s) id' o) by (intros id' o; apply cached_as_kept, objects_kept_enter).
  assert (KN : forall i o, i <> n_id n -> cached_as (new_rel n s) i o -> cached_as s i o)
    by (intros i o; exact (cached_enter s (new_rel n s) (n_id n) CRelationship i o eq_refl)).
  destruct O. split; auto.
  - intros b p H. destruct (ok_pkg0 b p H) as (m & k & X & B). exists m, k. split; [exact X|].
    revert B. apply package_says_weaken. apply (kp_file _ _ _ _ KP).
  - intros b m h H Y. rewrite GR in Y. apply Bool.orb_false_iff in Y as [Y1 Y2]. exact (ok_closed_file0 b m h H Y2).
  - intros b m h H Y. rewrite GR in Y. apply Bool.orb_false_iff in Y as [Y1 Y2]. exact (ok_closed_pkg0 b m h H Y2).
  - intros m c x RM C F. rewrite GR. destruct (String.eqb_spec (n_id m) (n_id n)) as [E|E]; [now right|]. cbn [orb].
    apply (ok_cache_file0 m c x RM); [|exact F]. exact (KN _ _ E C).
  - intros m b x RM F L. apply KE. exact (ok_map_cache0 m b x RM F L).
  - intros m c RM C. rewrite GR. destruct (String.eqb_spec (n_id m) (n_id n)) as [E|E]; [now right|]. cbn [orb].
    apply (ok_cache_pkg0 m c RM). exact (KN _ _ E C).
  - intros a m h J H. apply KE. exact (ok_doc_cache0 a m h J H).
  - intros b m h t H J. exact (next_file_keeps _ _ _ _ t KP (ok_next_file0 b m h t H J)).
  - intros b m h t H J. exact (next_pkg_keeps _ _ _ _ t KP (ok_next_pkg0 b m h t H J)).
  - intros t u H J. exact (next_rel_keeps _ _ _ _ u KP (ok_next_rel0 t u H J)).
Qed.

(** *** a file is finished *)
Definition end_file (n : node) (id : string) (a : nat) (s : rstate) : rstate :=
  set_rs_cache (leave (n_id n) (rs_cache s)) (set_rs_map (assign id a (rs_map s)) s).
Lemma cached_leave s s' x id o : rs_cache s' = leave x (rs_cache s) -> (cached_as s' id o <-> cached_as s id o).
Proof.
  intros E. unfold cached_as. rewrite E, lookup_leave. destruct (String.eqb_spec id x) as [->|]; [|tauto].
  destruct (lookup x (rs_cache s)) as [[o' k']|]; split; intros (k & H); try discriminate; injection H as -> _; eauto.
Qed.
Section EndFile.
Variables (G : ghost) (s : rstate) (a : nat) (n : node) (id : string) (k0 : nat) (t0 : triple).
Hypothesis O : ok G s.
Hypothesis A : gh_file G a = Some (n, again (S k0) (of_node g n)).
Hypothesis C : cached_as s (n_id n) (CFile a).
Hypothesis I : file_id n id.
Hypothesis TO : t_obj t0 = n.
Hypothesis TE : entering t0 = true.
Hypothesis TK : k0 = times (gh_met G) n.
Let G' := met t0 G.
Let s' := end_file n id a s.
Lemma end_file_grey m : grey s' m = negb (n_id m =? n_id n) && grey s m.
Proof. apply is_grey_leave. Qed.
Lemma end_file_reached : reached g RFile n.
Proof. exact (proj2 (ok_file_dom _ _ O _ _ _ A)). Qed.
Lemma end_file_cached i o : cached_as s' i o <-> cached_as s i o.
Proof. now apply cached_leave with (n_id n). Qed.
Lemma end_file_map m x b : reached g RFile m -> file_id m x -> lookup x (rs_map s) = Some b -> lookup x (rs_map s') = Some b.
Proof.
  intros R F L. cbn [s' end_file rs_map set_rs_map set_rs_cache]. destruct (String.eqb_spec x id) as [->|N]; [|now rewrite lookup_assign_ne].
  assert (m = n) by exact (cn_file g CN m n id R end_file_reached F I). subst m. rewrite lookup_assign_eq.
  pose proof (cached_as_fun _ _ _ _ C (ok_map_cache _ _ O n b id R I L)) as E. congruence.
Qed.
Lemma end_file_keeps : keeps G s G' s'.
Proof.
  split; [| | |apply incl_refl].
  - intros o b [(h & H) X]. split; [eauto|]. destruct (ok_file_dom _ _ O _ _ _ H) as [_ RO].
    destruct X as [(x & F & L)|[X Y]].
    + left. exists x. split; [exact F|]. now apply (end_file_map o).
    + destruct (String.eqb_spec (n_id o) (n_id n)) as [E|E].
      * left. exists id. split; [unfold file_id in *; now rewrite E|]. cbn [s' end_file rs_map set_rs_map set_rs_cache]. rewrite lookup_assign_eq.
        rewrite E in Y. pose proof (cached_as_fun _ _ _ _ C Y) as Z. congruence.
      * right. rewrite end_file_grey, end_file_cached. apply String.eqb_neq in E. rewrite E. auto.
  - intros o b [(h & H) X]. split; [eauto|]. destruct X as [X|[X Y]]; [now left|]. right.
    rewrite end_file_grey, end_file_cached. split; [|exact Y]. destruct (String.eqb_spec (n_id o) (n_id n)) as [E|E]; [|exact X].
    rewrite E in Y. pose proof (cached_as_fun _ _ _ _ C Y) as Z. discriminate Z.
  - intros o [X|(X & Y & Z)]; [now left|]. right.
    rewrite end_file_grey, end_file_cached. split; [|auto]. destruct (String.eqb_spec (n_id o) (n_id n)) as [E|E]; [|exact X].
    rewrite E in Y. pose proof (cached_as_fun _ _ _ _ C Y) as W. discriminate W.
Qed.
Lemma end_file_held : held G' s' n a.
Proof. split; [eauto|]. left. exists id. split; [exact I|]. cbn [s' end_file rs_map set_rs_map set_rs_cache]. apply lookup_assign_eq. Qed.
Hypothesis FR : forall b h, b <> a -> gh_file G b = Some (n, h) -> exists k, h = again k (of_node g n).
Lemma end_file_times m : times (gh_met G') m = if node_dec n m then S (times (gh_met G) m) else times (gh_met G) m.
Proof.
  cbn [G' met gh_met]. rewrite times_app, times_one. destruct (node_dec n m) as [<-|N].
  - rewrite <- TO, (enters_self _ TE). lia.
  - rewrite enters_other by congruence. lia.
Qed.
Lemma end_file_other m : m <> n -> times (gh_met G') m = times (gh_met G) m.
Proof. intros N. rewrite end_file_times. destruct (node_dec n m); [congruence|reflexivity]. Qed.
Lemma ok_end_file : ok G' s'.
Proof.
  pose proof end_file_keeps as KP. pose proof end_file_reached as RN. pose proof end_file_map as MP.
  pose proof (ok_file_dom _ _ O) as DF. pose proof (ok_pkg_dom _ _ O) as DP.
  assert (LK : forall x, lookup x (rs_map s') = if x =? id then Some a else lookup x (rs_map s)).
  { intros x. cbn [s' end_file rs_map set_rs_map set_rs_cache]. destruct (String.eqb_spec x id) as [->|]; [apply lookup_assign_eq|now apply lookup_assign_ne]. }
  assert (WN : forall r m, reached g r m -> n_id m = n_id n -> r = RFile) by (intros r m RM E; exact (no_conflict _ _ _ _ RM RN E)).
  destruct O. split; auto.
  - intros b p H. destruct (ok_pkg0 b p H) as (m & k & X & B). exists m, k. split; [exact X|].
    revert B. apply package_says_weaken. apply (kp_file _ _ _ _ KP).
  - intros b m h H Y. change (gh_file G b = Some (m, h)) in H. rewrite end_file_grey in Y. destruct (DF _ _ _ H) as [_ RM]. destruct (String.eqb_spec (n_id m) (n_id n)) as [E|E].
    + assert (m = n). { apply (cn_file g CN m n id RM RN); [|exact I]. unfold file_id in *. now rewrite E. } subst m.
      destruct (Nat.eq_dec b a) as [->|N].
      * rewrite A in H. injection H as <-. exists (S k0). split; [reflexivity|]. intros x F L. rewrite end_file_times. destruct (node_dec n n); [|contradiction]. lia.
      * destruct (FR b h N H) as (k & ->). exists k. split; [reflexivity|]. intros x F L. assert (x = id) by exact (file_id_fun _ _ _ F I).
        subst x. rewrite LK, String.eqb_refl in L. congruence.
    + destruct (ok_closed_file0 b m h H Y) as (k & X & Z). exists k. split; [exact X|]. intros x F L.
      rewrite end_file_other by congruence. apply (Z x F).
      rewrite LK in L. destruct (String.eqb_spec x id) as [->|]; [|exact L]. exfalso. apply E. f_equal. exact (cn_file g CN m n id RM RN F I).
  - intros b m h H Y. change (gh_pkg G b = Some (m, h)) in H. rewrite end_file_grey in Y. destruct (DP _ _ _ H) as [_ RM]. destruct (String.eqb_spec (n_id m) (n_id n)) as [E|E].
    + discriminate (WN _ _ RM E).
    + rewrite end_file_other by congruence. exact (ok_closed_pkg0 b m h H Y).
  - intros m c x RM CM F. rewrite end_file_cached in CM. rewrite end_file_grey. destruct (String.eqb_spec (n_id m) (n_id n)) as [E|E].
    + left. rewrite E in CM. pose proof (cached_as_fun _ _ _ _ C CM) as Z. injection Z as <-.
      assert (x = id). { apply (file_id_fun n); [|exact I]. unfold file_id in *. now rewrite <- E. } subst x. rewrite LK. now rewrite String.eqb_refl.
    + destruct (ok_cache_file0 m c x RM CM F) as [L|L]; [left|now right]. now apply (MP m).
  - intros m b x RM F L. apply end_file_cached. rewrite LK in L. destruct (String.eqb_spec x id) as [->|N].
    + injection L as <-. assert (m = n) by exact (cn_file g CN m n id RM RN F I). now subst m.
    + exact (ok_map_cache0 m b x RM F L).
  - intros m c RM CM. rewrite end_file_cached in CM. rewrite end_file_grey. destruct (String.eqb_spec (n_id m) (n_id n)) as [E|E].
    + discriminate (WN _ _ RM E).
    + exact (ok_cache_pkg0 m c RM CM).
  - intros b m h J H. apply end_file_cached. exact (ok_doc_cache0 b m h J H).
  - intros b m h t H J. exact (next_file_keeps _ _ _ _ t KP (ok_next_file0 b m h t H J)).
  - intros b m h t H J. exact (next_pkg_keeps _ _ _ _ t KP (ok_next_pkg0 b m h t H J)).
  - intros t u H J. exact (next_rel_keeps _ _ _ _ u KP (ok_next_rel0 t u H J)).
  - change (gh_rel G = filter (is_pred (spdx "relationship")) (gh_met G ++ [t0])). rewrite filter_is_not; [exact ok_rel_met0|]. now apply entering_not.
  - change (gh_ann G = filter (is_pred (spdx "annotation")) (gh_met G ++ [t0])). rewrite filter_is_not; [exact ok_ann_met0|]. now apply entering_not.
  - intros m RM Z. destruct (node_dec m n) as [->|N].
    + exists id, a. split; [exact I|]. rewrite LK. now rewrite String.eqb_refl.
    + rewrite end_file_other in Z by exact N. destruct (ok_met_file0 m RM Z) as (x & b & F & L). exists x, b. split; [exact F|]. now apply (MP m).
  - intros m RM Z. rewrite end_file_other in Z; [exact (ok_met_pkg0 m RM Z)|]. intros ->. discriminate (WN _ _ RM eq_refl).
Qed.
End EndFile.

(** *** a package is finished *)
Definition end_pkg (n : node) (l : list nat) (s : rstate) : rstate :=
  set_rs_cache (leave (n_id n) (rs_cache s)) (on_doc (set_d_Packages l) s).
Section EndPkg.
Variables (G : ghost) (s : rstate) (a : nat) (n : node) (l : list nat) (k0 : nat) (t0 : triple).
Hypothesis O : ok G s.
Hypothesis A : gh_pkg G a = Some (n, again (S k0) (of_node g n)).
Hypothesis C : cached_as s (n_id n) (CPackage a).
Hypothesis TO : t_obj t0 = n.
Hypothesis TE : entering t0 = true.
Hypothesis TK : k0 = times (gh_met G) n.
Let G' := met t0 G.
Hypothesis LO : incl (d_Packages (rs_doc s)) l.
Hypothesis LA : In a l.
Hypothesis LN : forall b, In b l -> In b (d_Packages (rs_doc s)) \/ b = a.
Hypothesis UN : forall m, reached g RPackage m -> n_id m = n_id n -> m = n.
Let s' := end_pkg n l s.
Lemma end_pkg_grey m : grey s' m = negb (n_id m =? n_id n) && grey s m.
Proof. apply is_grey_leave. Qed.
Lemma end_pkg_reached : reached g RPackage n.
Proof. exact (proj2 (ok_pkg_dom _ _ O _ _ _ A)). Qed.
Lemma end_pkg_cached i o : cached_as s' i o <-> cached_as s i o.
Proof. now apply cached_leave with (n_id n). Qed.
Lemma end_pkg_keeps : keeps G s G' s'.
Proof.
  split; [| | |apply incl_refl].
  - intros o b [(h & H) X]. split; [eauto|]. destruct X as [X|[X Y]]; [now left|]. right.
    rewrite end_pkg_grey, end_pkg_cached. split; [|exact Y]. destruct (String.eqb_spec (n_id o) (n_id n)) as [E|E]; [|exact X].
    rewrite E in Y. pose proof (cached_as_fun _ _ _ _ C Y) as Z. discriminate Z.
  - intros o b [(h & H) X]. split; [eauto|]. destruct X as [X|[X Y]]; [left; exact (LO _ X)|].
    rewrite end_pkg_grey, end_pkg_cached. destruct (String.eqb_spec (n_id o) (n_id n)) as [E|E]; [|now right].
    left. rewrite E in Y. pose proof (cached_as_fun _ _ _ _ C Y) as Z. injection Z as <-. exact LA.
  - intros o [X|(X & Y & Z)]; [now left|]. right.
    rewrite end_pkg_grey, end_pkg_cached. split; [|auto]. destruct (String.eqb_spec (n_id o) (n_id n)) as [E|E]; [|exact X].
    rewrite E in Y. pose proof (cached_as_fun _ _ _ _ C Y) as W. discriminate W.
Qed.
Lemma end_pkg_held : held_pkg G' s' n a.
Proof. split; [eauto|]. left. exact LA. Qed.
Hypothesis FR : forall b h, b <> a -> gh_pkg G b = Some (n, h) -> exists k, h = again k (of_node g n).
Lemma end_pkg_times m : times (gh_met G') m = if node_dec n m then S (times (gh_met G) m) else times (gh_met G) m.
Proof.
  cbn [G' met gh_met]. rewrite times_app, times_one. destruct (node_dec n m) as [<-|N].
  - rewrite <- TO, (enters_self _ TE). lia.
  - rewrite enters_other by congruence. lia.
Qed.
Lemma end_pkg_other m : m <> n -> times (gh_met G') m = times (gh_met G) m.
Proof. intros N. rewrite end_pkg_times. destruct (node_dec n m); [congruence|reflexivity]. Qed.
Lemma ok_end_pkg : ok G' s'.
Proof.
  pose proof end_pkg_keeps as KP. pose proof end_pkg_reached as RN.
  pose proof (ok_file_dom _ _ O) as DF. pose proof (ok_pkg_dom _ _ O) as DP. pose proof (ok_doc_cache _ _ O) as DC.
  assert (WN : forall r m, reached g r m -> n_id m = n_id n -> r = RPackage) by (intros r m RM E; exact (no_conflict _ _ _ _ RM RN E)).
  destruct O. split; auto.
  - intros b p H. destruct (ok_pkg0 b p H) as (m & k & X & B). exists m, k. split; [exact X|].
    revert B. apply package_says_weaken. apply (kp_file _ _ _ _ KP).
  - intros b m h H Y. change (gh_file G b = Some (m, h)) in H. rewrite end_pkg_grey in Y. destruct (DF _ _ _ H) as [_ RM]. destruct (String.eqb_spec (n_id m) (n_id n)) as [E|E].
    + discriminate (WN _ _ RM E).
    + rewrite end_pkg_other by congruence. exact (ok_closed_file0 b m h H Y).
  - intros b m h H Y. change (gh_pkg G b = Some (m, h)) in H. rewrite end_pkg_grey in Y. destruct (DP _ _ _ H) as [_ RM]. destruct (String.eqb_spec (n_id m) (n_id n)) as [E|E].
    + assert (m = n) by exact (UN m RM E). subst m. destruct (Nat.eq_dec b a) as [->|N].
      * rewrite A in H. injection H as <-. exists (S k0). split; [reflexivity|]. intros J. rewrite end_pkg_times. destruct (node_dec n n); [|contradiction]. lia.
      * destruct (FR b h N H) as (k & ->). exists k. split; [reflexivity|]. intros J. destruct (LN b J) as [J'|J']; [|contradiction].
        pose proof (cached_as_fun _ _ _ _ C (DC b n _ J' H)). congruence.
    + destruct (ok_closed_pkg0 b m h H Y) as (k & X & Z). exists k. split; [exact X|]. intros J.
      rewrite end_pkg_other by congruence. apply Z.
      destruct (LN b J) as [J'| ->]; [exact J'|]. exfalso. apply E. congruence.
  - intros m c x RM CM F. rewrite end_pkg_cached in CM. rewrite end_pkg_grey. destruct (String.eqb_spec (n_id m) (n_id n)) as [E|E].
    + discriminate (WN _ _ RM E).
    + exact (ok_cache_file0 m c x RM CM F).
  - intros m b x RM F L. apply end_pkg_cached. exact (ok_map_cache0 m b x RM F L).
  - intros m c RM CM. rewrite end_pkg_cached in CM. rewrite end_pkg_grey. destruct (String.eqb_spec (n_id m) (n_id n)) as [E|E].
    + left. rewrite E in CM. pose proof (cached_as_fun _ _ _ _ C CM) as Z. injection Z as <-. exact LA.
    + destruct (ok_cache_pkg0 m c RM CM) as [L|L]; [left; exact (LO _ L)|now right].
  - intros b m h J H. change (gh_pkg G b = Some (m, h)) in H. apply end_pkg_cached. destruct (LN b J) as [J'| ->]; [exact (ok_doc_cache0 b m h J' H)|].
    assert ((m, h) = (n, again (S k0) (of_node g n))) as E by congruence. injection E as -> _. exact C.
  - intros b m h t H J. exact (next_file_keeps _ _ _ _ t KP (ok_next_file0 b m h t H J)).
  - intros b m h t H J. exact (next_pkg_keeps _ _ _ _ t KP (ok_next_pkg0 b m h t H J)).
  - intros t u H J. exact (next_rel_keeps _ _ _ _ u KP (ok_next_rel0 t u H J)).
  - change (gh_rel G = filter (is_pred (spdx "relationship")) (gh_met G ++ [t0])). rewrite filter_is_not; [exact ok_rel_met0|]. now apply entering_not.
  - change (gh_ann G = filter (is_pred (spdx "annotation")) (gh_met G ++ [t0])). rewrite filter_is_not; [exact ok_ann_met0|]. now apply entering_not.
  - intros m RM Z. rewrite end_pkg_other in Z; [exact (ok_met_file0 m RM Z)|]. intros ->. discriminate (WN _ _ RM eq_refl).
  - intros m RM Z. destruct (node_dec m n) as [->|N].
    + exists a. eexists. split; [exact LA|exact A].
    + rewrite end_pkg_other in Z by exact N. destruct (ok_met_pkg0 m RM Z) as (b & h & J & H). exists b, h. split; [exact (LO _ J)|exact H].
Qed.
End EndPkg.

(** *** a relationship is finished *)
Definition end_rel (n : node) (r : Relationship) (s : rstate) : rstate :=
  set_rs_cache (leave (n_id n) (rs_cache s)) (on_doc (fun d => set_d_Relationships (d_Relationships d ++ [r])%list d) s).
Section EndRel.
Variables (G : ghost) (s : rstate) (t : triple) (r : Relationship).
Hypothesis O : ok G s.
Hypothesis C : cached_as s (n_id (t_obj t)) CRelationship.
Hypothesis ST : statement g (spdx "relationship") t.
Hypothesis RN : reached g RRelationship (t_obj t).
Hypothesis SA : relationship_says g t (of_node g (t_obj t)) r.
Let G' := met_rel t G.
Let s' := end_rel (t_obj t) r s.
Lemma end_rel_grey m : grey s' m = negb (n_id m =? n_id (t_obj t)) && grey s m.
Proof. apply is_grey_leave. Qed.
Lemma end_rel_cached i o : cached_as s' i o <-> cached_as s i o.
Proof. now apply cached_leave with (n_id (t_obj t)). Qed.
Lemma end_rel_keeps : keeps G s G' s'.
Proof.
  split; [| | |apply incl_refl].
  - intros o b [(h & H) X]. split; [exists h; exact H|]. destruct X as [X|[X Y]]; [now left|]. right.
    rewrite end_rel_grey, end_rel_cached. split; [|exact Y]. destruct (String.eqb_spec (n_id o) (n_id (t_obj t))) as [E|E]; [|exact X].
    rewrite E in Y. pose proof (cached_as_fun _ _ _ _ C Y) as Z. discriminate Z.
  - intros o b [(h & H) X]. split; [exists h; exact H|]. destruct X as [X|[X Y]]; [now left|]. right.
    rewrite end_rel_grey, end_rel_cached. split; [|exact Y]. destruct (String.eqb_spec (n_id o) (n_id (t_obj t))) as [E|E]; [|exact X].
    rewrite E in Y. pose proof (cached_as_fun _ _ _ _ C Y) as Z. discriminate Z.
  - intros o [(u & X & <-)|(X & Y & Z)]; [left; exists u; split; [apply in_or_app; now left|reflexivity]|].
    destruct (String.eqb_spec (n_id o) (n_id (t_obj t))) as [E|E].
    + left. exists t. split; [apply in_or_app; right; now left|]. symmetry. exact (cn_relationship g CN o _ Z RN E).
    + right. rewrite end_rel_grey, end_rel_cached. apply String.eqb_neq in E. rewrite E. auto.
Qed.
Lemma end_rel_seen : seen_rel G' s' (t_obj t).
Proof. left. exists t. split; [apply in_or_app; right; now left|reflexivity]. Qed.
Hypothesis NX : forall u, In u (of_node g (t_obj t)) -> next_rel G s u.
Lemma end_rel_times m : times (gh_met G') m = times (gh_met G) m.
Proof. cbn [G' met_rel gh_met]. apply times_not_entering. unfold entering. destruct ST as (_ & -> & _). reflexivity. Qed.
Lemma ok_end_rel : ok G' s'.
Proof.
  pose proof end_rel_keeps as KP.
  pose proof (ok_file_dom _ _ O) as DF. pose proof (ok_pkg_dom _ _ O) as DP.
  assert (WN : forall r m, reached g r m -> n_id m = n_id (t_obj t) -> r = RRelationship) by (intros q m RM E; exact (no_conflict _ _ _ _ RM RN E)).
  destruct O. split; auto.
  - intros b p H. destruct (ok_pkg0 b p H) as (m & k & X & B). exists m, k. split; [exact X|].
    revert B. apply package_says_weaken. apply (kp_file _ _ _ _ KP).
  - cbn. apply Forall2_snoc; auto.
  - intros b m h H Y. rewrite end_rel_grey in Y. destruct (DF _ _ _ H) as [_ RM]. destruct (String.eqb_spec (n_id m) (n_id (t_obj t))) as [E|E].
    + discriminate (WN _ _ RM E).
    + rewrite end_rel_times. exact (ok_closed_file0 b m h H Y).
  - intros b m h H Y. rewrite end_rel_grey in Y. destruct (DP _ _ _ H) as [_ RM]. destruct (String.eqb_spec (n_id m) (n_id (t_obj t))) as [E|E].
    + discriminate (WN _ _ RM E).
    + rewrite end_rel_times. exact (ok_closed_pkg0 b m h H Y).
  - intros m c x RM CM F. rewrite end_rel_cached in CM. rewrite end_rel_grey. destruct (String.eqb_spec (n_id m) (n_id (t_obj t))) as [E|E].
    + discriminate (WN _ _ RM E).
    + exact (ok_cache_file0 m c x RM CM F).
  - intros m b x RM F L. apply end_rel_cached. exact (ok_map_cache0 m b x RM F L).
  - intros m c RM CM. rewrite end_rel_cached in CM. rewrite end_rel_grey. destruct (String.eqb_spec (n_id m) (n_id (t_obj t))) as [E|E].
    + discriminate (WN _ _ RM E).
    + exact (ok_cache_pkg0 m c RM CM).
  - intros b m h J H. apply end_rel_cached. exact (ok_doc_cache0 b m h J H).
  - intros b m h u H J. exact (next_file_keeps _ _ _ _ u KP (ok_next_file0 b m h u H J)).
  - intros b m h u H J. exact (next_pkg_keeps _ _ _ _ u KP (ok_next_pkg0 b m h u H J)).
  - intros u w H J. apply (next_rel_keeps _ _ _ _ w KP). apply in_app_or in H as [H|[<-|[]]]; [exact (ok_next_rel0 u w H J)|exact (NX w J)].
  - cbn [G' met_rel gh_rel gh_met]. rewrite filter_is; [now rewrite <- ok_rel_met0|]. exact (proj1 (proj2 ST)).
  - cbn [G' met_rel gh_ann gh_met]. rewrite filter_is_not; [exact ok_ann_met0|]. destruct ST as (_ & -> & _). discriminate.
  - intros m. rewrite end_rel_times. apply ok_met_file0.
  - intros m. rewrite end_rel_times. apply ok_met_pkg0.
Qed.
End EndRel.

(** the state after a record is finished, seen from before it was begun *)
Lemma ext_end gry G s G2 s2 G3 s3 : ext gry G s G2 s2 -> gh_file G3 = gh_file G2 -> gh_pkg G3 = gh_pkg G2 ->
  incl (gh_rel G2) (gh_rel G3) -> incl (gh_ann G2) (gh_ann G3) ->
  (forall x b, lookup x (rs_map s2) = Some b -> lookup x (rs_map s3) = Some b) ->
  objects_kept (rs_cache s2) (rs_cache s3) -> (forall x, is_grey (rs_cache s) x = true -> is_grey (rs_cache s3) x = true) ->
  incl (d_Packages (rs_doc s2)) (d_Packages (rs_doc s3)) -> ext gry G s G3 s3.
Proof.
  intros [A B C D E F M K W P] EF EP ER EA MM KK GG PP. split; rewrite ?EF, ?EP; auto.
  - eapply incl_tran; eauto.
  - eapply incl_tran; eauto.
  - eapply objects_kept_trans; eauto.
  - eapply incl_tran; eauto.
Qed.
Lemma set_rs_files_id s : set_rs_files (rs_files s) s = s.
Proof. now destruct s. Qed.
Lemma set_rs_pkgs_id s : set_rs_pkgs (rs_pkgs s) s = s.
Proof. now destruct s. Qed.
Lemma license_more ids s c : cache_more ids (rs_cache s) c -> (forall id, ids id -> exists n, reached g RLicense n /\ n_id n = id) ->
  cache_more (fun id => exists n, reached g RLicense n /\ n_id n = id) (rs_cache s) c.
Proof. intros [A B C] H. split; auto. intros i o j X Y. destruct (C i o j X Y). auto. Qed.

(** ** The walk *)
Record contents (k : nat) : Prop := {
  ct_file : forall open n t0 s G b s', inv g open s -> ok G s -> reached g RFile n -> room g (rs_cache s) (n_id n) < k ->
    t_obj t0 = n -> entering t0 = true ->
    go_file (go v g k) n s = Ok (b, s') -> exists G', ok G' s' /\ ext (is_grey (rs_cache s)) G s G' s' /\ held G' s' n b /\
      gh_met G' = (gh_met G ++ visit g k (is_grey (rs_cache s)) AtFile t0)%list;
  ct_pkg : forall open n t0 s G b s', inv g open s -> ok G s -> reached g RPackage n -> room g (rs_cache s) (n_id n) < k ->
    t_obj t0 = n -> entering t0 = true ->
    go_pkg (go v g k) n s = Ok (b, s') -> exists G', ok G' s' /\ ext (is_grey (rs_cache s)) G s G' s' /\ held_pkg G' s' n b /\
      gh_met G' = (gh_met G ++ visit g k (is_grey (rs_cache s)) AtPackage t0)%list;
  ct_rel : forall open t s G s', inv g open s -> ok G s -> reached g RRelationship (t_obj t) -> statement g (spdx "relationship") t ->
    room g (rs_cache s) (n_id (t_obj t)) < k ->
    go_rel (go v g k) t s = Ok s' -> exists G', ok G' s' /\ ext (is_grey (rs_cache s)) G s G' s' /\ seen_from G' s' t /\
      gh_met G' = (gh_met G ++ visit g k (is_grey (rs_cache s)) AtRelationship t)%list
}.
Lemma contents_zero : contents 0.
Proof. split; intros; lia. Qed.

Section Step.
Variable k : nat.
Hypothesis IH : contents k.
Let W := walks_all v g k.

Section Loop.
(** the IDs being read when the record was begun *)
Variable gry : string -> bool.

Lemma file_finish n a h t G s G1 s1 (f1 f' : File) l :
  gry (n_id n) = false -> (forall x, gry x = true -> is_grey (rs_cache s) x = true) -> grey s n = true ->
  gh_file G a = Some (n, h) -> ok G1 s1 -> ext (is_grey (rs_cache s)) G s G1 s1 ->
  nth_error (rs_files s1) a = Some f1 -> (file_says v g n h f1 -> file_says v g n (h ++ [t]) f') ->
  update_nth a (fun _ : File => f') (rs_files s1) = Some l -> next_file G1 s1 t ->
  exists G', ok G' (set_rs_files l s1) /\ ext gry G s G' (set_rs_files l s1) /\ gh_file G' a = Some (n, h ++ [t])%list /\ gh_met G' = gh_met G1 /\
    (forall b h', b <> a -> gh_file G' b = Some (n, h') -> gh_file G b = Some (n, h')).
Proof.
  intros N S GR A O E F M U NX. destruct (ex_file _ _ _ _ _ E a n h A) as (h' & A1).
  pose proof (ex_file_grey _ _ _ _ _ E a n _ A1 GR) as A2. assert (h' = []) as ->.
  { assert (X : Some (n, h) = Some (n, h ++ h')%list) by congruence. injection X as X.
    apply (app_inv_head h). rewrite app_nil_r. now symmetry. }
  rewrite app_nil_r in A1. assert (GR1 : grey s1 n = true) by exact (ex_grey _ _ _ _ _ E _ GR).
  exists (set_gf (put a (n, h ++ [t])%list (gh_file G1)) G1). split; [exact (ok_own_file G1 s1 a n h f1 f' l t O A1 F GR1 M U NX)|].
  split; [|split; [apply put_eq|split; [reflexivity|]]].
  - apply ext_trans with G1 s1; [exact (ext_less _ _ _ _ _ _ S E)|]. now apply ext_own_file.
  - intros b h' Nb H. cbn in H. rewrite put_ne in H by exact Nb. exact (ex_file_grey _ _ _ _ _ E b n h' H GR).
Qed.
Lemma file_step_content open n a id s t s' G h : inv g open s -> ok G s -> reached g RFile n -> In t (of_node g n) ->
  file_at s a id -> room g (rs_cache s) (n_id (t_obj t)) < k ->
  gry (n_id n) = false -> (forall x, gry x = true -> is_grey (rs_cache s) x = true) -> grey s n = true ->
  gh_file G a = Some (n, h) -> file_step v g (go v g k) a t s = Ok s' ->
  exists G', ok G' s' /\ ext gry G s G' s' /\ gh_file G' a = Some (n, h ++ [t])%list /\ gh_met G' = (gh_met G ++ onward g k (is_grey (rs_cache s)) AtFile t)%list /\
    (forall b h', b <> a -> gh_file G' b = Some (n, h') -> gh_file G b = Some (n, h')).
Proof.
  intros I O R T (f & F & ID) RM N S GR A.
  assert (OB : forall q, t_pred t = q -> In (t_obj t) (objects q (of_node g n))) by (intros q E; apply in_objects; eauto).
  assert (ST : forall q, t_pred t = q -> statement g q t).
  { intros q E. pose proof (of_node_subject g n t T) as SU. unfold statement. rewrite SU. auto. }
  destruct (file_step_effect v g (go v g k) a t s f F) as [e Ne|c f' l NI CM (E1 & E2 & M) U|an E AN|E|E]; intros X.
  - discriminate X.
  - injection X as <-. apply license_more in CM.
    2: { intros i (Q & path & m & CH & <-). exists m. split; [|reflexivity]. apply (reached_chain g (t_obj t) path m); [|exact CH].
         apply rc_file_license with n (t_pred t); auto. }
    assert (ON : onward g k (is_grey (rs_cache s)) AtFile t = []).
    { unfold onward. destruct (follow g AtFile t) as [st|] eqn:FO; [|reflexivity]. exfalso. apply NI. apply follow_iff in FO.
      inversion FO as [? Q|? Q|? Q|? Q|? Q|? Q|? Q|? ? ? Q|? ? ? Q|? Q|? Q]; subst; rewrite Q; simpl; tauto. }
    rewrite ON, app_nil_r.
    apply (file_finish n a h t G s G (set_rs_cache c s) f f' l N S GR A); auto using ok_license, ext_license.
    split; [|split]; intros E; exfalso; apply NI; rewrite E; simpl; tauto.
  - injection X as <-. set (s1 := on_doc _ s).
    destruct (file_finish n a h t G s (met_ann t G) s1 f f (rs_files s1) N S GR A) as (G' & Y1 & Y2 & Y3 & Y4 & Y5);
      [now apply ok_annotation; auto|apply ext_ann|exact F| |now apply update_nth_same| |].
    + apply (file_more_same v g t f). rewrite E. simpl. tauto.
    + split; [|split]; intros Z; rewrite E in Z; try discriminate Z. apply in_or_app. right. now left.
    + rewrite set_rs_files_id in Y1, Y2. exists G'. split; [exact Y1|]. split; [exact Y2|]. split; [exact Y3|]. split; [|exact Y5].
      rewrite Y4. unfold onward. rewrite (proj2 (follow_iff g AtFile t AtAnnotation)) by (constructor; [simpl; tauto|exact E]). reflexivity.
  - apply bind_ok in X as ([b s1] & X & Y).
    pose proof (rc_file_dependency g n _ R (OB _ E)) as RD.
    pose proof (wk_file _ _ _ W open (t_obj t) s I RD RM) as WF. rewrite X in WF. cbn [outcome fst snd] in WF.
    destruct WF as (I1 & GW & i & FI & (fb & FB & EB) & _). rewrite FB in Y. cbv beta iota in Y.
    assert (EN : entering t = true) by (unfold entering; rewrite E; reflexivity).
    destruct (ct_file _ IH open (t_obj t) t s G b s1 I O RD RM eq_refl EN X) as (G1 & O1 & X1 & H1 & M1).
    assert (ON : onward g k (is_grey (rs_cache s)) AtFile t = visit g k (is_grey (rs_cache s)) AtFile t).
    { unfold onward. rewrite (proj2 (follow_iff g AtFile t AtFile)) by (constructor; exact E). reflexivity. }
    rewrite ON, <- M1.
    destruct (gr_files _ _ GW a f F) as (f1 & F1 & _).
    match type of Y with on_file a ?r s1 = _ => destruct (on_file_ok s1 a r f1 _ F1 eq_refl) as (l & U & Y') end. rewrite Y' in Y. injection Y as <-.
    eapply (file_finish n a h t G s G1 s1 f1 _ l N S GR A O1 X1 F1); [|exact U|].
    + apply (file_more_dependency v g t f1 (f_SPDXIdentifier fb) E). now rewrite EB.
    + split; [|split]; intros Z; try (rewrite E in Z; discriminate Z). eauto.
  - pose proof (rc_file_relationship g n _ R (OB _ E)) as RD.
    pose proof (wk_relationship _ _ _ W open t s I RD RM) as WF. rewrite X in WF. cbn [outcome] in WF.
    destruct WF as (I1 & GW).
    destruct (ct_rel _ IH open t s G s' I O RD (ST _ E) RM X) as (G1 & O1 & X1 & H1 & M1).
    destruct (gr_files _ _ GW a f F) as (f1 & F1 & _).
    destruct (file_finish n a h t G s G1 s' f1 f1 (rs_files s') N S GR A O1 X1 F1) as (G' & Y1 & Y2 & Y3 & Y4 & Y5); [|now apply update_nth_same| |].
    + apply (file_more_same v g t f1). rewrite E. simpl. tauto.
    + split; [|split]; intros Z; try (rewrite E in Z; discriminate Z). exact H1.
    + rewrite set_rs_files_id in Y1, Y2. exists G'. split; [exact Y1|]. split; [exact Y2|]. split; [exact Y3|]. split; [|exact Y5].
      rewrite Y4, M1. unfold onward. rewrite (proj2 (follow_iff g AtFile t AtRelationship)) by (constructor; [simpl; tauto|exact E]). reflexivity.
Qed.
Lemma pkg_finish n a h t G s G1 s1 (p1 p' : PackageArena) l :
  gry (n_id n) = false -> (forall x, gry x = true -> is_grey (rs_cache s) x = true) -> grey s n = true ->
  gh_pkg G a = Some (n, h) -> ok G1 s1 -> ext (is_grey (rs_cache s)) G s G1 s1 ->
  nth_error (rs_pkgs s1) a = Some p1 -> (package_says v g (held G1 s1) n h p1 -> package_says v g (held G1 s1) n (h ++ [t]) p') ->
  update_nth a (fun _ : PackageArena => p') (rs_pkgs s1) = Some l -> next_pkg G1 s1 t ->
  exists G', ok G' (set_rs_pkgs l s1) /\ ext gry G s G' (set_rs_pkgs l s1) /\ gh_pkg G' a = Some (n, h ++ [t])%list /\ gh_met G' = gh_met G1 /\
    (forall b h', b <> a -> gh_pkg G' b = Some (n, h') -> gh_pkg G b = Some (n, h')).
Proof.
  intros N S GR A O E F M U NX. destruct (ex_pkg _ _ _ _ _ E a n h A) as (h' & A1).
  pose proof (ex_pkg_grey _ _ _ _ _ E a n _ A1 GR) as A2. assert (h' = []) as ->.
  { assert (X : Some (n, h) = Some (n, h ++ h')%list) by congruence. injection X as X.
    apply (app_inv_head h). rewrite app_nil_r. now symmetry. }
  rewrite app_nil_r in A1. assert (GR1 : grey s1 n = true) by exact (ex_grey _ _ _ _ _ E _ GR).
  exists (set_gp (put a (n, h ++ [t])%list (gh_pkg G1)) G1). split; [exact (ok_own_pkg G1 s1 a n h p1 p' l t O A1 F GR1 M U NX)|].
  split; [|split; [apply put_eq|split; [reflexivity|]]].
  - apply ext_trans with G1 s1; [exact (ext_less _ _ _ _ _ _ S E)|]. now apply ext_own_pkg.
  - intros b h' Nb H. cbn in H. rewrite put_ne in H by exact Nb. exact (ex_pkg_grey _ _ _ _ _ E b n h' H GR).
Qed.
Lemma pkg_step_content open n a id s t s' G h : inv g open s -> ok G s -> reached g RPackage n -> In t (of_node g n) ->
  package_at s a id -> room g (rs_cache s) (n_id (t_obj t)) < k ->
  gry (n_id n) = false -> (forall x, gry x = true -> is_grey (rs_cache s) x = true) -> grey s n = true ->
  gh_pkg G a = Some (n, h) -> pkg_step v g (go v g k) a t s = Ok s' ->
  exists G', ok G' s' /\ ext gry G s G' s' /\ gh_pkg G' a = Some (n, h ++ [t])%list /\ gh_met G' = (gh_met G ++ onward g k (is_grey (rs_cache s)) AtPackage t)%list /\
    (forall b h', b <> a -> gh_pkg G' b = Some (n, h') -> gh_pkg G b = Some (n, h')).
Proof.
  intros I O R T (f & F & ID) RM N S GR A.
  assert (OB : forall q, t_pred t = q -> In (t_obj t) (objects q (of_node g n))) by (intros q E; apply in_objects; eauto).
  assert (ST : forall q, t_pred t = q -> statement g q t).
  { intros q E. pose proof (of_node_subject g n t T) as SU. unfold statement. rewrite SU. auto. }
  destruct (package_step_effect v g (go v g k) a t s f F) as [e Ne|c f' l NI CM (E1 & E2 & M) U|an E AN|E|E]; intros X.
  - discriminate X.
  - injection X as <-. apply license_more in CM.
    2: { intros i (Q & path & m & CH & <-). exists m. split; [|reflexivity]. apply (reached_chain g (t_obj t) path m); [|exact CH].
         apply rc_package_license with n (t_pred t); auto. }
    assert (ON : onward g k (is_grey (rs_cache s)) AtPackage t = []).
    { unfold onward. destruct (follow g AtPackage t) as [st|] eqn:FO; [|reflexivity]. exfalso. apply NI. apply follow_iff in FO.
      inversion FO as [? Q|? Q|? Q|? Q|? Q|? Q|? Q|? ? ? Q|? ? ? Q|? Q|? Q]; subst; rewrite Q; simpl; tauto. }
    rewrite ON, app_nil_r.
    apply (pkg_finish n a h t G s G (set_rs_cache c s) f f' l N S GR A); auto using ok_license, ext_license.
    split; [|split]; intros E; exfalso; apply NI; rewrite E; simpl; tauto.
  - injection X as <-. set (s1 := on_doc _ s).
    destruct (pkg_finish n a h t G s (met_ann t G) s1 f f (rs_pkgs s1) N S GR A) as (G' & Y1 & Y2 & Y3 & Y4 & Y5);
      [now apply ok_annotation; auto|apply ext_ann|exact F| |now apply update_nth_same| |].
    + apply (package_more_same v g t f). rewrite E. simpl. tauto.
    + split; [|split]; intros Z; rewrite E in Z; try discriminate Z. apply in_or_app. right. now left.
    + rewrite set_rs_pkgs_id in Y1, Y2. exists G'. split; [exact Y1|]. split; [exact Y2|]. split; [exact Y3|]. split; [|exact Y5].
      rewrite Y4. unfold onward. rewrite (proj2 (follow_iff g AtPackage t AtAnnotation)) by (constructor; [simpl; tauto|exact E]). reflexivity.
  - apply bind_ok in X as ([b s1] & X & Y).
    pose proof (rc_package_file g n _ R (OB _ E)) as RD.
    pose proof (wk_file _ _ _ W open (t_obj t) s I RD RM) as WF. rewrite X in WF. cbn [outcome fst snd] in WF.
    destruct WF as (I1 & GW & i & FI & (fb & FB & EB) & _). rewrite FB in Y. cbv beta iota in Y.
    assert (EN : entering t = true) by (unfold entering; rewrite E; reflexivity).
    destruct (ct_file _ IH open (t_obj t) t s G b s1 I O RD RM eq_refl EN X) as (G1 & O1 & X1 & H1 & M1).
    assert (ON : onward g k (is_grey (rs_cache s)) AtPackage t = visit g k (is_grey (rs_cache s)) AtFile t).
    { unfold onward. rewrite (proj2 (follow_iff g AtPackage t AtFile)) by (constructor; exact E). reflexivity. }
    rewrite ON, <- M1.
    destruct (gr_pkgs _ _ GW a f F) as (f1 & F1 & _).
    match type of Y with bindR (on_pkg a ?r s1) _ = _ => destruct (on_pkg_ok s1 a r f1 _ F1 eq_refl) as (l & U & Y') end.
    rewrite Y' in Y. cbn [bindR] in Y. injection Y as <-.
    destruct (fun M NX => pkg_finish n a h t G s G1 s1 f1 _ l N S GR A O1 X1 F1 M U NX) as (G' & OK & EX & GA & MT & FR).
    + apply package_files; [exact E|exact H1].
    + split; [|split]; intros Z; try (rewrite E in Z; discriminate Z). eauto.
    + exists G'. split; [now apply ok_assoc|]. split; [now apply ext_assoc|]. auto.
  - pose proof (rc_package_relationship g n _ R (OB _ E)) as RD.
    pose proof (wk_relationship _ _ _ W open t s I RD RM) as WF. rewrite X in WF. cbn [outcome] in WF.
    destruct WF as (I1 & GW).
    destruct (ct_rel _ IH open t s G s' I O RD (ST _ E) RM X) as (G1 & O1 & X1 & H1 & M1).
    destruct (gr_pkgs _ _ GW a f F) as (f1 & F1 & _).
    destruct (pkg_finish n a h t G s G1 s' f1 f1 (rs_pkgs s') N S GR A O1 X1 F1) as (G' & Y1 & Y2 & Y3 & Y4 & Y5); [|now apply update_nth_same| |].
    + apply (package_more_same v g t f1). rewrite E. simpl. tauto.
    + split; [|split]; intros Z; try (rewrite E in Z; discriminate Z). exact H1.
    + rewrite set_rs_pkgs_id in Y1, Y2. exists G'. split; [exact Y1|]. split; [exact Y2|]. split; [exact Y3|]. split; [|exact Y5].
      rewrite Y4, M1. unfold onward. rewrite (proj2 (follow_iff g AtPackage t AtRelationship)) by (constructor; [simpl; tauto|exact E]). reflexivity.
Qed.
Lemma rel_step_content open n s u r r' s' G t0 done : inv g open s -> ok G s -> reached g RRelationship n -> In u (of_node g n) ->
  room g (rs_cache s) (n_id (t_obj u)) < k -> (forall x, gry x = true -> is_grey (rs_cache s) x = true) ->
  relationship_says g t0 done r -> rel_step g (go v g k) u (r, s) = Ok (r', s') ->
  exists G', ok G' s' /\ ext gry G s G' s' /\ relationship_says g t0 (done ++ [u]) r' /\ next_rel G' s' u /\
    gh_met G' = (gh_met G ++ onward g k (is_grey (rs_cache s)) AtRelationship u)%list.
Proof.
  intros I O R T RM S SA.
  assert (OB : forall q, t_pred u = q -> In (t_obj u) (objects q (of_node g n))) by (intros q E; apply in_objects; eauto).
  destruct (relationship_step_effect g (go v g k) u r s) as [e Ne|r2 NT M|r1 E TY M|r1 E TY M]; intros X.
  - discriminate X.
  - injection X as <- <-. exists G. split; [exact O|]. split; [apply ext_refl|]. split; [now apply M|].
    split; [intros E; destruct (NT E) as [A B]; split; intros C; contradiction|].
    unfold onward. destruct (follow g AtRelationship u) as [st|] eqn:FO; [|now rewrite app_nil_r]. exfalso. apply follow_iff in FO.
    inversion FO as [? Q|? Q|? Q|? Q|? Q|? Q|? Q|? ? Q|? ? Q|? Q T'|? Q T']; subst; try (simpl in Q; intuition discriminate); destruct (NT Q); contradiction.
  - apply bind_ok in X as ([b s1] & X & Y). pose proof (rc_related_file g n _ R (OB _ E) TY) as RD.
    pose proof (wk_file _ _ _ W open (t_obj u) s I RD RM) as WF. rewrite X in WF. cbn [outcome fst snd] in WF.
    destruct WF as (I1 & GW & i & FI & (fb & FB & EB) & _). rewrite FB in Y. cbv beta iota in Y. injection Y as <- <-.
    assert (EN : entering u = true) by (unfold entering; rewrite E; reflexivity).
    destruct (ct_file _ IH open (t_obj u) u s G b s1 I O RD RM eq_refl EN X) as (G1 & O1 & X1 & H1 & M1).
    exists G1. split; [exact O1|]. split; [exact (ext_less _ _ _ _ _ _ S X1)|]. split; [apply M; [now rewrite EB|exact SA]|].
    split; [intros _; split; [eauto|]; intros TP; pose proof (typed_node_fun _ _ _ _ TY TP) as Z; discriminate Z|].
    rewrite M1. unfold onward. rewrite (proj2 (follow_iff g AtRelationship u AtFile)) by (now constructor). reflexivity.
  - apply bind_ok in X as ([b s1] & X & Y). pose proof (rc_related_package g n _ R (OB _ E) TY) as RD.
    pose proof (wk_package _ _ _ W open (t_obj u) s I RD RM) as WF. rewrite X in WF. cbn [outcome fst snd] in WF.
    destruct WF as (I1 & GW & i & FI & (fb & FB & EB) & _). rewrite FB in Y. cbv beta iota in Y. injection Y as <- <-.
    assert (EN : entering u = true) by (unfold entering; rewrite E; reflexivity).
    destruct (ct_pkg _ IH open (t_obj u) u s G b s1 I O RD RM eq_refl EN X) as (G1 & O1 & X1 & H1 & M1).
    exists G1. split; [exact O1|]. split; [exact (ext_less _ _ _ _ _ _ S X1)|]. split; [apply M; [now rewrite EB|exact SA]|].
    split; [intros _; split; [|eauto]; intros TP; pose proof (typed_node_fun _ _ _ _ TY TP) as Z; discriminate Z|].
    rewrite M1. unfold onward. rewrite (proj2 (follow_iff g AtRelationship u AtPackage)) by (now constructor). reflexivity.
Qed.
End Loop.

Lemma ok_file_id G s a id : ok G s -> file_at s a id -> exists n h, gh_file G a = Some (n, h) /\ reached g RFile n /\ file_id n id.
Proof.
  intros O (f & F & <-). destruct (ok_file _ _ O a f F) as (n & h & A & B). exists n, h. split; [exact A|].
  split; [exact (proj2 (ok_file_dom _ _ O _ _ _ A))|exact (fs_id _ _ _ _ _ B)].
Qed.
Lemma ok_pkg_id G s a id : ok G s -> package_at s a id -> exists n h, gh_pkg G a = Some (n, h) /\ reached g RPackage n /\ package_id n id.
Proof.
  intros O (f & F & <-). destruct (ok_pkg _ _ O a f F) as (n & h & A & B). exists n, h. split; [exact A|].
  split; [exact (proj2 (ok_pkg_dom _ _ O _ _ _ A))|exact (ps_id _ _ _ _ _ _ B)].
Qed.
Lemma cached_file open s n o c : inv g open s -> reached g RFile n -> lookup (n_id n) (rs_cache s) = Some (o, c) -> exists a, o = CFile a.
Proof.
  intros I R L. pose proof (iv_cache _ _ _ I _ _ _ L) as C. destruct o as [|a|a|]; cbn [cached_ok] in C.
  - destruct C as (m & RM & E). discriminate (no_conflict _ _ _ _ RM R E).
  - eauto.
  - destruct C as (m & x & RM & E & _). discriminate (no_conflict _ _ _ _ RM R E).
  - destruct C as (m & RM & E). discriminate (no_conflict _ _ _ _ RM R E).
Qed.
Lemma cached_pkg open s n o c : inv g open s -> reached g RPackage n -> lookup (n_id n) (rs_cache s) = Some (o, c) -> exists a, o = CPackage a.
Proof.
  intros I R L. pose proof (iv_cache _ _ _ I _ _ _ L) as C. destruct o as [|a|a|]; cbn [cached_ok] in C.
  - destruct C as (m & RM & E). discriminate (no_conflict _ _ _ _ RM R E).
  - destruct C as (m & x & RM & E & _). discriminate (no_conflict _ _ _ _ RM R E).
  - eauto.
  - destruct C as (m & RM & E). discriminate (no_conflict _ _ _ _ RM R E).
Qed.
Lemma cached_rel open s n o c : inv g open s -> reached g RRelationship n -> lookup (n_id n) (rs_cache s) = Some (o, c) -> o = CRelationship.
Proof.
  intros I R L. pose proof (iv_cache _ _ _ I _ _ _ L) as C. destruct o as [|a|a|]; cbn [cached_ok] in C.
  - destruct C as (m & RM & E). discriminate (no_conflict _ _ _ _ RM R E).
  - destruct C as (m & x & RM & E & _). discriminate (no_conflict _ _ _ _ RM R E).
  - destruct C as (m & x & RM & E & _). discriminate (no_conflict _ _ _ _ RM R E).
  - reflexivity.
Qed.
Lemma file_content open n t0 s G b s' : inv g open s -> ok G s -> reached g RFile n -> room g (rs_cache s) (n_id n) < S k -> t_obj t0 = n -> entering t0 = true ->
  file_body v g (go v g k) n s = Ok (b, s') -> exists G', ok G' s' /\ ext (is_grey (rs_cache s)) G s G' s' /\ held G' s' n b /\
    gh_met G' = (gh_met G ++ visit g (S k) (is_grey (rs_cache s)) AtFile t0)%list.
Proof.
  intros I O R RM TO TE H. rewrite visit_S, TO.
  pose proof (wk_file _ _ _ (walks_all v g (S k)) open n s I R RM) as WF. cbn [go go_file] in WF. rewrite H in WF. cbn [outcome fst snd] in WF.
  destruct WF as (I' & GW & _). unfold file_body in H. destruct (is_grey (rs_cache s) (n_id n)) eqn:GR.
  - pose proof GR as GR'. apply is_grey_true in GR as (o & L). rewrite L in H. destruct (cached_file open s n o _ I R L) as (a & ->).
    injection H as <- <-. exists G. split; [exact O|]. split; [apply ext_refl|].
    destruct (iv_cache _ _ _ I _ _ _ L) as (m & x & RM' & E & FI & FA). destruct (ok_file_id G s a x O FA) as (n' & h & A & RN & FN).
    assert (n' = n). { apply (cn_file g CN n' n x RN R FN). unfold file_id in *. now rewrite <- E. } subst n'.
    rewrite app_nil_r. split; [|reflexivity].
    split; [eauto|]. right. split; [exact GR'|]. exists GREY. exact L.
  - cbv zeta in H. apply bind_ok in H as (id & ID & H). apply file_identifier_spec in ID. change (file_id n id) in ID.
    change (set_rs_cache (enter (n_id n) (CFile (length (rs_files s))) (rs_cache s))
              (set_rs_files (rs_files s ++ [set_f_SPDXIdentifier id zero_FileOf])%list s)) with (new_file n id s) in H.
    pose proof (ok_new_file G s n id O R ID GR) as O1. pose proof (ext_new_file G s n id O GR) as X1.
    pose proof (inv_new_file g open s n id I R ID) as I1. change (inv g open (new_file n id s)) in I1.
    assert (GR1 : forall x, is_grey (rs_cache (new_file n id s)) x = (x =? n_id n) || is_grey (rs_cache s) x) by (intros x; apply is_grey_enter).
    set (s1 := new_file n id s) in *. set (G1 := ghost_file n s G) in *.
    set (a := match lookup id (rs_map s1) with Some c => c | None => length (rs_files s) end) in *.
    apply bind_ok in H as (s2 & H2 & H). rewrite triples_of_node in H2.
    assert (B1 : file_at s1 a id /\ (exists k0, gh_file G1 a = Some (n, again k0 (of_node g n)) /\ k0 = times (gh_met G) n) /\ cached_as s1 (n_id n) (CFile a)).
    { unfold a. change (rs_map s1) with (rs_map s). destruct (lookup id (rs_map s)) as [c|] eqn:L.
      - assert (FA : file_at s1 c id) by exact (iv_map _ _ _ I1 id c L). split; [exact FA|]. split.
        + destruct (ok_file_id G s c id O (iv_map _ _ _ I id c L)) as (m & h & A & RN & FN).
          assert (m = n) by exact (cn_file g CN m n id RN R FN ID). subst m. destruct (ok_closed_file _ _ O c n h A GR) as (k0 & -> & K0).
          exists k0. split; [|exact (proj2 (K0 id ID L))]. destruct (ok_file_dom _ _ O _ _ _ A) as [LT _]. cbn. rewrite put_ne by lia. exact A.
        + apply (cached_as_kept s); [exact (ex_cache _ _ _ _ _ X1)|]. exact (ok_map_cache _ _ O n c id R ID L).
      - split; [|split].
        + exists (set_f_SPDXIdentifier id zero_FileOf). split; [|reflexivity]. cbn [s1 new_file rs_files set_rs_cache set_rs_files].
          rewrite nth_error_snoc, Nat.eqb_refl. reflexivity.
        + exists 0. split; [cbn; apply put_eq|]. destruct (times (gh_met G) n) eqn:Z; [reflexivity|]. exfalso.
          destruct (ok_met_file _ _ O n R ltac:(congruence)) as (x & c & FX & LX). assert (x = id) by exact (file_id_fun _ _ _ FX ID). congruence.
        + exists GREY. cbn [s1 new_file rs_cache set_rs_cache]. rewrite lookup_enter, String.eqb_refl.
          destruct (lookup (n_id n) (rs_cache s)) as [[o c]|] eqn:LC; [|reflexivity].
          destruct (cached_file open s n o c I R LC) as (d & ->). exfalso.
          destruct (ok_cache_file _ _ O n d id R (ex_intro _ c LC) ID) as [X|X]; [congruence|]. unfold grey in X. congruence. }
    destruct B1 as (A1 & (k0 & GA & K0) & CA).
    assert (FR : forall c h, c <> a -> gh_file G1 c = Some (n, h) -> exists k, h = again k (of_node g n)).
    { intros c h _ X. cbn in X. apply put_case in X as [[-> X]|[_ X]].
      - injection X as ->. now exists 0.
      - destruct (ok_closed_file _ _ O c n h X GR) as (j & -> & _). now exists j. }
    set (P := fun done s2 => inv g open s2 /\ grows s1 s2 /\ exists G2, ok G2 s2 /\ ext (is_grey (rs_cache s)) G1 s1 G2 s2 /\
       gh_file G2 a = Some (n, again k0 (of_node g n) ++ done)%list /\
       gh_met G2 = (gh_met G ++ flat_map (onward g k (fun x => (x =? n_id n) || is_grey (rs_cache s) x) AtFile) done)%list /\
       (forall c h, c <> a -> gh_file G2 c = Some (n, h) -> gh_file G1 c = Some (n, h))).
    assert (L : P (of_node g n) s2).
    { refine (for_each_inv_in P _ _ _ _ _ _ H2).
      - split; [exact I1|]. split; [apply grows_refl|]. exists G1. split; [exact O1|]. split; [apply ext_refl|]. rewrite app_nil_r. split; [exact GA|]. split; [|auto]. cbn [flat_map]. now rewrite app_nil_r.
      - intros done t rest s3 s4 TS (I3 & GW3 & G3 & O3 & X3 & GA3 & M3 & FR3) ST.
        assert (T : In t (of_node g n)) by (rewrite TS; apply in_or_app; right; now left).
        assert (FA3 : file_at s3 a id) by exact (file_at_grows _ _ _ _ GW3 A1).
        assert (RM3 : room g (rs_cache s3) (n_id (t_obj t)) < k).
        { rewrite (room_grey g (rs_cache s1)) by apply (gr_grey _ _ GW3).
          pose proof (room_enter g (rs_cache s) (n_id n) (CFile (length (rs_files s))) t GR (of_node_in _ _ _ T)) as X.
          cbn [s1 new_file rs_cache set_rs_cache]. lia. }
        pose proof (file_step_walks v g k W open n a id s3 t I3 R T FA3 RM3) as WS. rewrite ST in WS. destruct WS as [I4 GW4].
        assert (GI : forall x, is_grey (rs_cache s) x = true -> is_grey (rs_cache s3) x = true).
        { intros x Hx. rewrite (gr_grey _ _ GW3), GR1, Hx. apply Bool.orb_true_r. }
        assert (GN : grey s3 n = true). { unfold grey. rewrite (gr_grey _ _ GW3), GR1, String.eqb_refl. reflexivity. }
        destruct (file_step_content (is_grey (rs_cache s)) open n a id s3 t s4 G3 _ I3 O3 R T FA3 RM3 GR GI GN GA3 ST)
          as (G4 & O4 & X4 & GA4 & M4 & FR4).
        split; [exact I4|]. split; [exact (grows_trans _ _ _ GW3 GW4)|]. exists G4. split; [exact O4|].
        split; [exact (ext_trans _ _ _ _ _ _ _ X3 X4)|]. split; [now rewrite app_assoc|].
        split; [|intros c h N X; exact (FR3 c h N (FR4 c h N X))]. rewrite M4, M3, flat_map_app, <- app_assoc. cbn [flat_map]. rewrite app_nil_r.
        do 2 f_equal. apply onward_ext. intros x. now rewrite (gr_grey _ _ GW3), GR1. }
    destruct L as (I2 & GW2 & G2 & O2 & X2 & GA2 & M2 & FR2).
    assert (K2 : k0 = times (gh_met G2) n).
    { rewrite M2, times_app, onward_times by (now rewrite String.eqb_refl). lia. } destruct (file_at_grows _ _ _ _ GW2 A1) as (f & F & EF).
    rewrite F, EF in H. injection H as <- <-.
    change (set_rs_cache (leave (n_id n) (rs_cache s2)) (set_rs_map (assign id a (rs_map s2)) s2)) with (end_file n id a s2).
    change (set_rs_cache (leave (n_id n) (rs_cache s2)) (set_rs_map (assign id a (rs_map s2)) s2)) with (end_file n id a s2) in GW.
    assert (C2 : cached_as s2 (n_id n) (CFile a)) by exact (cached_as_kept _ _ _ _ (ex_cache _ _ _ _ _ X2) CA).
    exists (met t0 G2). split; [|split; [|split]].
    + apply (ok_end_file G2 s2 a n id k0 t0 O2 GA2 C2 ID TO TE K2). intros c h N X. exact (FR c h N (FR2 c h N X)).
    + apply (ext_end _ G s G2 s2); try reflexivity; try apply incl_refl.
      * exact (ext_trans _ _ _ _ _ _ _ X1 X2).
      * intros x c LX. destruct (ok_file_id G2 s2 c x O2 (iv_map _ _ _ I2 x c LX)) as (m & h & _ & RN & FN).
        exact (end_file_map G2 s2 a n id k0 O2 GA2 C2 ID m x c RN FN LX).
      * apply objects_kept_leave.
      * intros x Hx. rewrite <- Hx. apply (gr_grey _ _ GW).
    + exact (end_file_held G2 s2 a n id k0 t0 GA2 ID).
    + cbn [met gh_met]. rewrite M2, app_assoc. reflexivity.
Qed.

Lemma find_package_none s id l : find_package s id l = None -> forall a, In a l -> ~ package_at s a id.
Proof.
  induction l as [|b l IHl]; simpl; intros H a; [intros []|]. intros [->|J].
  - intros (p & P & E). rewrite P, E, String.eqb_refl in H. discriminate H.
  - apply IHl; [|exact J]. destruct (nth_error (rs_pkgs s) b); [|exact H]. destruct (_ =? _); [discriminate H|exact H].
Qed.
Lemma pkg_content open n t0 s G b s' : inv g open s -> ok G s -> reached g RPackage n -> room g (rs_cache s) (n_id n) < S k -> t_obj t0 = n -> entering t0 = true ->
  pkg_body v g (go v g k) n s = Ok (b, s') -> exists G', ok G' s' /\ ext (is_grey (rs_cache s)) G s G' s' /\ held_pkg G' s' n b /\
    gh_met G' = (gh_met G ++ visit g (S k) (is_grey (rs_cache s)) AtPackage t0)%list.
Proof.
  intros I O R RM TO TE H. rewrite visit_S, TO.
  pose proof (wk_package _ _ _ (walks_all v g (S k)) open n s I R RM) as WF. cbn [go go_pkg] in WF. rewrite H in WF. cbn [outcome fst snd] in WF.
  destruct WF as (I' & GW & _). unfold pkg_body in H. destruct (is_grey (rs_cache s) (n_id n)) eqn:GR.
  - pose proof GR as GR'. apply is_grey_true in GR as (o & L). rewrite L in H. destruct (cached_pkg open s n o _ I R L) as (a & ->).
    injection H as <- <-. exists G. split; [exact O|]. split; [apply ext_refl|].
    destruct (iv_cache _ _ _ I _ _ _ L) as (m & x & RM' & E & FI & FA). destruct (ok_pkg_id G s a x O FA) as (n' & h & A & RN & FN).
    assert (n' = n). { apply (cn_package g CN n' n x RN R FN). unfold package_id in *. now rewrite <- E. } subst n'.
    rewrite app_nil_r. split; [|reflexivity].
    split; [eauto|]. right. split; [exact GR'|]. exists GREY. exact L.
  - cbv zeta in H. apply bind_ok in H as (id & ID & H). apply element_spec in ID. change (package_id n id) in ID.
    change (set_rs_cache (enter (n_id n) (CPackage (length (rs_pkgs s))) (rs_cache s))
              (set_rs_pkgs (rs_pkgs s ++ [set_p_SPDXIdentifier id zero_PackageOf])%list s)) with (new_pkg n id s) in H.
    pose proof (ok_new_pkg open G s n id I O R ID GR) as O1. pose proof (ext_new_pkg G s n id O GR) as X1.
    pose proof (inv_new_package g open s n id I R ID) as I1. change (inv g open (new_pkg n id s)) in I1.
    assert (GR1 : forall x, is_grey (rs_cache (new_pkg n id s)) x = (x =? n_id n) || is_grey (rs_cache s) x) by (intros x; apply is_grey_enter).
    set (s1 := new_pkg n id s) in *. set (G1 := ghost_pkg n s G) in *.
    set (ex := find_package s1 id (d_Packages (rs_doc s1))) in *.
    set (a := match ex with Some c => c | None => length (rs_pkgs s) end) in *.
    apply bind_ok in H as (s2 & H2 & H). rewrite triples_of_node in H2.
    assert (OLD : forall c, In c (d_Packages (rs_doc s)) -> forall x, package_at s1 c x -> package_at s c x).
    { intros c J x (q & Q & E). destruct (iv_packages _ _ _ I c J) as (y & q' & Q' & _). apply nth_error_some_lt in Q'.
      exists q. split; [|exact E]. cbn [s1 new_pkg rs_pkgs set_rs_pkgs set_rs_cache] in Q. rewrite nth_error_app1 in Q by exact Q'. exact Q. }
    assert (B1 : package_at s1 a id /\ (exists k0, gh_pkg G1 a = Some (n, again k0 (of_node g n)) /\ k0 = times (gh_met G) n) /\ cached_as s1 (n_id n) (CPackage a)).
    { unfold a. destruct ex as [c|] eqn:L.
      - destruct (find_package_some _ _ _ _ L) as [J FA]. change (In c (d_Packages (rs_doc s))) in J. split; [exact FA|].
        destruct (ok_pkg_id G s c id O (OLD c J id FA)) as (m & h & A & RN & FN).
        assert (m = n) by exact (cn_package g CN m n id RN R FN ID). subst m. split.
        + destruct (ok_closed_pkg _ _ O c n h A GR) as (k0 & -> & K0).
          exists k0. split; [|exact (proj2 (K0 J))]. destruct (ok_pkg_dom _ _ O _ _ _ A) as [LT _]. cbn. rewrite put_ne by lia. exact A.
        + apply (cached_as_kept s); [exact (ex_cache _ _ _ _ _ X1)|]. exact (ok_doc_cache _ _ O c n h J A).
      - split; [|split].
        + exists (set_p_SPDXIdentifier id zero_PackageOf). split; [|reflexivity]. cbn [s1 new_pkg rs_pkgs set_rs_cache set_rs_pkgs].
          rewrite nth_error_snoc, Nat.eqb_refl. reflexivity.
        + exists 0. split; [cbn; apply put_eq|]. destruct (times (gh_met G) n) eqn:Z; [reflexivity|]. exfalso.
          destruct (ok_met_pkg _ _ O n R ltac:(congruence)) as (c & h & JX & HX). destruct (ok_pkg_dom _ _ O _ _ _ HX) as [LT _].
          destruct (nth_error (rs_pkgs s) c) as [q|] eqn:Q; [|apply nth_error_None in Q; lia]. destruct (ok_pkg _ _ O c q Q) as (n' & h' & A' & SY).
          assert (n' = n) by congruence. subst n'. refine (find_package_none _ _ _ L c JX _). exists q.
          split; [cbn [s1 new_pkg rs_pkgs set_rs_cache set_rs_pkgs]; now apply nth_error_snoc_old|]. exact (package_id_fun n _ _ (ps_id _ _ _ _ _ _ SY) ID).
        + exists GREY. cbn [s1 new_pkg rs_cache set_rs_cache]. rewrite lookup_enter, String.eqb_refl.
          destruct (lookup (n_id n) (rs_cache s)) as [[o c]|] eqn:LC; [|reflexivity].
          destruct (cached_pkg open s n o c I R LC) as (d & ->). exfalso.
          destruct (ok_cache_pkg _ _ O n d R (ex_intro _ c LC)) as [X|X]; [|unfold grey in X; congruence].
          destruct (iv_cache _ _ _ I _ _ _ LC) as (m & x & RM' & E & FI & (q & Q & EQ)).
          assert (x = id). { apply (package_id_fun n); [|exact ID]. unfold package_id in *. now rewrite <- E. }
          refine (find_package_none _ _ _ L d X _). exists q. split; [|congruence]. cbn [s1 new_pkg rs_pkgs set_rs_cache set_rs_pkgs].
          now apply nth_error_snoc_old. }
    destruct B1 as (A1 & (k0 & GA & K0) & CA).
    assert (FR : forall c h, c <> a -> gh_pkg G1 c = Some (n, h) -> exists k, h = again k (of_node g n)).
    { intros c h _ X. cbn in X. apply put_case in X as [[-> X]|[_ X]].
      - injection X as ->. now exists 0.
      - destruct (ok_closed_pkg _ _ O c n h X GR) as (j & -> & _). now exists j. }
    set (open' := match ex with Some _ => open | None => a :: open end).
    assert (I1' : inv g open' s1) by (unfold open'; destruct ex; [exact I1|now apply inv_open]).
    assert (OP : forall s2, grows s1 s2 -> In a (d_Packages (rs_doc s2)) \/ In a open').
    { intros s0 G0. unfold open', a. destruct ex as [c|] eqn:L; [|right; now left].
      left. apply (gr_packages _ _ G0). exact (proj1 (find_package_some _ _ _ _ L)). }
    set (P := fun done s2 => inv g open' s2 /\ grows s1 s2 /\ exists G2, ok G2 s2 /\ ext (is_grey (rs_cache s)) G1 s1 G2 s2 /\
       gh_pkg G2 a = Some (n, again k0 (of_node g n) ++ done)%list /\
       gh_met G2 = (gh_met G ++ flat_map (onward g k (fun x => (x =? n_id n) || is_grey (rs_cache s) x) AtPackage) done)%list /\
       (forall c h, c <> a -> gh_pkg G2 c = Some (n, h) -> gh_pkg G1 c = Some (n, h))).
    assert (L : P (of_node g n) s2).
    { refine (for_each_inv_in P _ _ _ _ _ _ H2).
      - split; [exact I1'|]. split; [apply grows_refl|]. exists G1. split; [exact O1|]. split; [apply ext_refl|]. rewrite app_nil_r. split; [exact GA|]. split; [|auto]. cbn [flat_map]. now rewrite app_nil_r.
      - intros done t rest s3 s4 TS (I3 & GW3 & G3 & O3 & X3 & GA3 & M3 & FR3) ST.
        assert (T : In t (of_node g n)) by (rewrite TS; apply in_or_app; right; now left).
        assert (FA3 : package_at s3 a id) by exact (package_at_grows _ _ _ _ GW3 A1).
        assert (RM3 : room g (rs_cache s3) (n_id (t_obj t)) < k).
        { rewrite (room_grey g (rs_cache s1)) by apply (gr_grey _ _ GW3).
          pose proof (room_enter g (rs_cache s) (n_id n) (CPackage (length (rs_pkgs s))) t GR (of_node_in _ _ _ T)) as X.
          cbn [s1 new_pkg rs_cache set_rs_cache]. lia. }
        pose proof (package_step_walks v g k W open' n a id s3 t I3 R T FA3 (OP s3 GW3) RM3) as WS. rewrite ST in WS. destruct WS as [I4 GW4].
        assert (GI : forall x, is_grey (rs_cache s) x = true -> is_grey (rs_cache s3) x = true).
        { intros x Hx. rewrite (gr_grey _ _ GW3), GR1, Hx. apply Bool.orb_true_r. }
        assert (GN : grey s3 n = true). { unfold grey. rewrite (gr_grey _ _ GW3), GR1, String.eqb_refl. reflexivity. }
        destruct (pkg_step_content (is_grey (rs_cache s)) open' n a id s3 t s4 G3 _ I3 O3 R T FA3 RM3 GR GI GN GA3 ST)
          as (G4 & O4 & X4 & GA4 & M4 & FR4).
        split; [exact I4|]. split; [exact (grows_trans _ _ _ GW3 GW4)|]. exists G4. split; [exact O4|].
        split; [exact (ext_trans _ _ _ _ _ _ _ X3 X4)|]. split; [now rewrite app_assoc|].
        split; [|intros c h N X; exact (FR3 c h N (FR4 c h N X))]. rewrite M4, M3, flat_map_app, <- app_assoc. cbn [flat_map]. rewrite app_nil_r.
        do 2 f_equal. apply onward_ext. intros x. now rewrite (gr_grey _ _ GW3), GR1. }
    destruct L as (I2 & GW2 & G2 & O2 & X2 & GA2 & M2 & FR2).
    assert (K2 : k0 = times (gh_met G2) n).
    { rewrite M2, times_app, onward_times by (now rewrite String.eqb_refl). lia. }
    set (l := match ex with Some _ => d_Packages (rs_doc s2) | None => (d_Packages (rs_doc s2) ++ [a])%list end).
    assert (E3 : s' = end_pkg n l s2 /\ b = a).
    { unfold l. destruct ex; injection H as <- <-; (split; [|reflexivity]); [|reflexivity].
      unfold end_pkg, on_doc. f_equal. destruct s2 as [x1 x2 x3 x4 x5 d]. now destruct d. }
    destruct E3 as [-> ->]. clear H.
    assert (C2 : cached_as s2 (n_id n) (CPackage a)) by exact (cached_as_kept _ _ _ _ (ex_cache _ _ _ _ _ X2) CA).
    assert (LO : incl (d_Packages (rs_doc s2)) l) by (unfold l; destruct ex; [apply incl_refl|apply incl_appl, incl_refl]).
    assert (LA : In a l).
    { unfold l, a. destruct ex as [c|] eqn:L; [|apply in_or_app; right; now left].
      apply (gr_packages _ _ GW2). exact (proj1 (find_package_some _ _ _ _ L)). }
    assert (LN : forall c, In c l -> In c (d_Packages (rs_doc s2)) \/ c = a).
    { intros c. unfold l. destruct ex; [auto|]. intros J. apply in_app_or in J as [J|[<-|[]]]; auto. }
    assert (UN : forall m, reached g RPackage m -> n_id m = n_id n -> m = n).
    { intros m RM' E. apply (cn_package g CN m n id RM' R); [|exact ID]. unfold package_id in *. now rewrite E. }
    exists (met t0 G2). split; [|split; [|split]].
    + apply (ok_end_pkg G2 s2 a n l k0 t0 O2 GA2 C2 TO TE K2 LO LA LN UN). intros c h N X. exact (FR c h N (FR2 c h N X)).
    + apply (ext_end _ G s G2 s2); try reflexivity; try apply incl_refl.
      * exact (ext_trans _ _ _ _ _ _ _ X1 X2).
      * auto.
      * apply objects_kept_leave.
      * intros x Hx. rewrite <- Hx. apply (gr_grey _ _ GW).
      * exact LO.
    + exact (end_pkg_held G2 s2 a n l k0 t0 GA2 LA).
    + cbn [met gh_met]. rewrite M2, app_assoc. reflexivity.
Qed.
Lemma relationship_start t d : reference_term (n_id (t_subj t)) d -> relationship_says g t [] (set_r_RefA d zero_Relationship).
Proof. intros R. split; try reflexivity; try apply last_read_nil; try exact R; try constructor. Qed.
Lemma rel_content open t s G s' : inv g open s -> ok G s -> reached g RRelationship (t_obj t) -> statement g (spdx "relationship") t ->
  room g (rs_cache s) (n_id (t_obj t)) < S k ->
  rel_body g (go v g k) t s = Ok s' -> exists G', ok G' s' /\ ext (is_grey (rs_cache s)) G s G' s' /\ seen_from G' s' t /\
    gh_met G' = (gh_met G ++ visit g (S k) (is_grey (rs_cache s)) AtRelationship t)%list.
Proof.
  intros I O R ST RM H. rewrite visit_S.
  pose proof (wk_relationship _ _ _ (walks_all v g (S k)) open t s I R RM) as WF. cbn [go go_rel] in WF. rewrite H in WF. cbn [outcome] in WF.
  destruct WF as (I' & GW). unfold rel_body in H. apply bind_ok in H as (ra & RA & H). apply reference_spec in RA. cbv zeta in H.
  destruct (is_grey (rs_cache s) (n_id (t_obj t))) eqn:GR.
  - injection H as <-. exists G. split; [exact O|]. split; [apply ext_refl|]. rewrite app_nil_r. split; [|reflexivity]. split; [|eauto]. right. split; [exact GR|]. split; [|exact R].
    apply is_grey_true in GR as (o & L). pose proof (cached_rel open s _ o _ I R L) as ->. exists GREY. exact L.
  - apply bind_ok in H as ([r s2] & H2 & H). rewrite triples_of_node in H2.
    change (set_rs_cache (enter (n_id (t_obj t)) CRelationship (rs_cache s)) s) with (new_rel (t_obj t) s) in H2.
    pose proof (ok_new_rel G s (t_obj t) O) as O1. pose proof (ext_new_rel (is_grey (rs_cache s)) G s (t_obj t)) as X1.
    pose proof (inv_new_relationship g open s (t_obj t) I R) as I1. change (inv g open (new_rel (t_obj t) s)) in I1.
    assert (GR1 : forall x, is_grey (rs_cache (new_rel (t_obj t) s)) x = (x =? n_id (t_obj t)) || is_grey (rs_cache s) x) by (intros x; apply is_grey_enter).
    assert (CA : cached_as (new_rel (t_obj t) s) (n_id (t_obj t)) CRelationship).
    { exists GREY. cbn [new_rel rs_cache set_rs_cache]. rewrite lookup_enter, String.eqb_refl.
      destruct (lookup (n_id (t_obj t)) (rs_cache s)) as [[o c]|] eqn:LC; [|reflexivity]. now rewrite (cached_rel open s _ o c I R LC). }
    set (s1 := new_rel (t_obj t) s) in *.
    set (P := fun done (rs2 : Relationship * rstate) => inv g open (snd rs2) /\ grows s1 (snd rs2) /\ relationship_says g t done (fst rs2) /\
       exists G2, ok G2 (snd rs2) /\ ext (is_grey (rs_cache s)) G s1 G2 (snd rs2) /\ (forall u, In u done -> next_rel G2 (snd rs2) u) /\
       gh_met G2 = (gh_met G ++ flat_map (onward g k (fun x => (x =? n_id (t_obj t)) || is_grey (rs_cache s) x) AtRelationship) done)%list).
    assert (L : P (of_node g (t_obj t)) (r, s2)).
    { refine (for_each_inv_in P _ _ _ _ _ _ H2).
      - cbn [P fst snd]. split; [exact I1|]. split; [apply grows_refl|]. split; [now apply relationship_start|].
        exists G. split; [exact O1|]. split; [apply ext_refl|]. split; [intros u []|]. cbn [flat_map]. now rewrite app_nil_r.
      - intros done u rest [r3 s3] [r4 s4] TS (I3 & GW3 & SA3 & G3 & O3 & X3 & N3 & M3) SP. cbn [fst snd] in *.
        assert (T : In u (of_node g (t_obj t))) by (rewrite TS; apply in_or_app; right; now left).
        assert (RM3 : room g (rs_cache s3) (n_id (t_obj u)) < k).
        { rewrite (room_grey g (rs_cache s1)) by apply (gr_grey _ _ GW3).
          pose proof (room_enter g (rs_cache s) (n_id (t_obj t)) CRelationship u GR (of_node_in _ _ _ T)) as X.
          cbn [s1 new_rel rs_cache set_rs_cache]. lia. }
        pose proof (relationship_step_walks v g k W open (t_obj t) r3 s3 u I3 R T RM3) as WS. rewrite SP in WS. destruct WS as [I4 GW4].
        assert (GI : forall x, is_grey (rs_cache s) x = true -> is_grey (rs_cache s3) x = true).
        { intros x Hx. rewrite (gr_grey _ _ GW3), GR1, Hx. apply Bool.orb_true_r. }
        destruct (rel_step_content (is_grey (rs_cache s)) open (t_obj t) s3 u r3 r4 s4 G3 t done I3 O3 R T RM3 GI SA3 SP) as (G4 & O4 & X4 & SA4 & N4 & M4).
        cbn [P fst snd] in *. split; [exact I4|]. split; [exact (grows_trans _ _ _ GW3 GW4)|]. split; [exact SA4|].
        exists G4. split; [exact O4|]. split; [exact (ext_trans _ _ _ _ _ _ _ X3 X4)|].
        split; [intros w J; apply in_app_or in J as [J|[<-|[]]]; [|exact N4]; exact (next_rel_keeps _ _ _ _ w (ext_keeps _ _ _ _ _ X4) (N3 w J))|].
        rewrite M4, M3, flat_map_app, <- app_assoc. cbn [flat_map]. rewrite app_nil_r.
        do 2 f_equal. apply onward_ext. intros x. now rewrite (gr_grey _ _ GW3), GR1. }
    destruct L as (I2 & GW2 & SA2 & G2 & O2 & X2 & N2 & M2). cbn [fst snd] in *. injection H as <-.
    assert (C2 : cached_as s2 (n_id (t_obj t)) CRelationship) by exact (cached_as_kept _ _ _ _ (ex_cache _ _ _ _ _ X2) CA).
    exists (met_rel t G2). split; [|split; [|split]].
    + exact (ok_end_rel G2 s2 t r O2 C2 ST R SA2 N2).
    + apply (ext_end _ G s G2 s2); try reflexivity; try apply incl_refl.
      * exact (ext_trans _ _ _ _ _ _ _ X1 X2).
      * apply incl_appl, incl_refl.
      * auto.
      * apply objects_kept_leave.
      * intros x Hx. rewrite <- Hx. apply (gr_grey _ _ GW).
    + split; [exact (end_rel_seen G2 s2 t r)|eauto].
    + cbn [met_rel gh_met]. rewrite M2, app_assoc. reflexivity.
Qed.
End Step.

Lemma contents_all k : contents k.
Proof.
  induction k as [|k IH]; [apply contents_zero|]. split; cbn [go go_file go_pkg go_rel].
  - intros open n t0 s G b s'. now apply file_content.
  - intros open n t0 s G b s'. now apply pkg_content.
  - intros open t s G s'. now apply rel_content.
Qed.
End Content.
