(** Running the parser over lists of snippets, files and packages. *)
From Verif Require Import GoStr GoStrFacts Sorting Types TvState TvUtil TvReader TvParser TvWriter SpecTv SpecId SpecDoc
  SpecWrite TvReaderFacts TvUtilFacts TvParserFacts TvWriterFacts TvRun TvRunFile.

(** ** Snippets of a file *)
Definition entries (so : sorter) (m : list (string * Snippet)) : list (string * Snippet) :=
  flat_map (fun k => match map_get k m with Some s => [(k, s)] | None => [] end) (sort_by so (fun k => k) (map fst m)).
Lemma render_snippets_entries so v m : render_snippets so v m = flat_map (fun e => render_snippet v (snd e)) (entries so m).
Proof.
  unfold render_snippets, entries. induction (sort_by so (fun k => k) (map fst m)) as [|k l IH]; cbn [flat_map]; [reflexivity|].
  rewrite IH. destruct (map_get k m); reflexivity.
Qed.
Lemma map_get_in {A} k (x : A) m : NoDup (map fst m) -> In (k, x) m -> map_get k m = Some x.
Proof.
  induction m as [|[k' y] m IH]; cbn [map_get map fst]; intros N H; [destruct H|]. inversion N as [|? ? N1 N2]; subst.
  destruct (String.eqb_spec k k') as [->|Hn].
  - destruct H as [E|H]; [now inversion E|]. elim N1. now apply (in_map fst) in H.
  - destruct H as [E|H]; [inversion E; congruence|]. auto.
Qed.
Lemma entries_perm so m : NoDup (map fst m) -> Permutation m (entries so m).
Proof.
  intros N. unfold entries.
  set (g := fun k => match map_get k m with Some s => [(k, s)] | None => [] end).
  transitivity (flat_map g (map fst m)).
  - assert (forall l, incl l m -> flat_map g (map fst l) = l) as E.
    { induction l as [|[k x] l IH]; intros Hi; [reflexivity|]. cbn [map fst flat_map].
      unfold g at 1. rewrite (map_get_in k x m N) by (apply Hi; now left). cbn [app]. f_equal. apply IH.
      intros e He. apply Hi. now right. }
    rewrite E by apply incl_refl. reflexivity.
  - apply Permutation_flat_map. symmetry. apply sort_by_perm.
Qed.

Fixpoint number (n : nat) (l : list (string * Snippet)) : list (string * nat) :=
  match l with [] => [] | e :: r => (fst e, n) :: number (S n) r end.
Lemma number_keys n l : map fst (number n l) = map fst l.
Proof. revert n. induction l; intros n; cbn [number map fst]; [reflexivity|]. now rewrite IHl. Qed.
Lemma map_put_new {A} k (x : A) m : ~ In k (map fst m) -> map_put k x m = (m ++ [(k, x)])%list.
Proof.
  induction m as [|[k' y] m IH]; cbn [map_put map fst]; intros H; [reflexivity|].
  destruct (String.eqb_spec k k') as [->|Hn]; [elim H; now left|]. cbn [app]. f_equal. apply IH. intros X. apply H. now right.
Qed.
Lemma deref_number S l S' : mapO (fun '(k, i) => match nth_error (S ++ map snd l ++ S')%list i with Some x => Some (k, x) | None => None end)
   (number (length S) l) = Some l.
Proof.
  revert S. induction l as [|[k x] l IH]; intros S; [reflexivity|].
  assert (mapO (fun '(k, i) => match nth_error (S ++ x :: map snd l ++ S')%list i with Some x => Some (k, x) | None => None end)
   (number (Datatypes.S (length S)) l) = Some l) as E.
  { specialize (IH (S ++ [x])%list). rewrite app_length, Nat.add_comm in IH. cbn [length plus] in IH.
    rewrite <- app_assoc in IH. exact IH. }
  cbn [number mapO fst map snd app]. rewrite E. rewrite nth_error_app2, Nat.sub_diag by lia. reflexivity.
Qed.

(** the state is at the end of the file [f] or of one of its snippets *)
Definition at_file d P pk F S (f : FileArena) (s : pstate) : Prop :=
  (is PsFile d P pk (F ++ [f]) (Some (length F)) S s \/ is PsSnippet d P pk (F ++ [f]) (Some (length F)) S s).

Lemma snippet_enter v d P pk F S f s x : at_file d P pk F S f s -> f_SPDXIdentifier f <> "" -> ident_ok x ->
  ~ In x (map fst (f_Snippets f)) ->
  runs v s [("SnippetSPDXID", render_element_id x)]
    (in_snip d P pk F (set_f_Snippets (f_Snippets f ++ [(x, length S)])%list f) S (set_s_SPDXIdentifier x zero_Snippet)).
Proof.
  intros H Hf Hx Hn. apply String.eqb_neq in Hf.
  assert (forall s, is PsSnippet d P pk (F ++ [f]) (Some (length F)) S s ->
    exists s', do_snippet_id (render_element_id x) s = Ok s' /\
      in_snip d P pk F (set_f_Snippets (f_Snippets f ++ [(x, length S)])%list f) S (set_s_SPDXIdentifier x zero_Snippet) s') as K.
  { clear s H. intros s (H1 & H2 & H3 & H4 & H5 & H6 & H7).
    unfold do_snippet_id, check_file_id, cur_file, get_ptr. rewrite H6, H5, nth_app_last. cbn [bindR]. rewrite Hf. cbn [bindR].
    rewrite extract_render_elt by now apply ident_id. cbn [bindR].
    cbn [ps_file set_ps_snip set_ps_snips]. rewrite H6. unfold upd_file, upd_ptr.
    cbn [ps_file ps_files set_ps_snip set_ps_snips]. rewrite H6, H5, update_nth_last, H7, map_put_new by assumption.
    eexists. split; [reflexivity|]. repeat split; assumption. }
  destruct H as [H|H].
  - destruct (K (set_ps_st PsSnippet (set_ps_aop None s))) as (s' & E & H').
    { destruct H as (H1 & H2 & H3 & H4 & H5 & H6 & H7). repeat split; assumption. }
    apply runs_one with (s' := s'); [|assumption]. rewrite (parse_pair_file v d P pk F S f) by assumption.
    rewrite <- E. destruct v; reflexivity.
  - destruct (K s H) as (s' & E & H'). apply runs_one with (s' := s'); [|assumption].
    destruct H as (H1 & _). unfold parse_pair. rewrite H1. rewrite <- E. destruct v; reflexivity.
Qed.

Lemma render_snippet_split v q : snippet_rep v q ->
  pairs_of (render_snippet v q) = ([("SnippetSPDXID", render_element_id (s_SPDXIdentifier q))] ++ tl (pairs_of (render_snippet v q)))%list.
Proof.
  intros (R1 & _). apply ident_name in R1 as [R1 _]. apply nonempty_true in R1. unfold render_snippet. rewrite R1. reflexivity.
Qed.

Lemma run_snippets v d P pk F l : forall S f s,
  Forall (fun e => fst e = s_SPDXIdentifier (snd e) /\ snippet_rep v (snd e)) l ->
  NoDup (map fst (f_Snippets f) ++ map fst l) -> f_SPDXIdentifier f <> "" -> at_file d P pk F S f s ->
  runs v s (pairs_of (flat_map (fun e => render_snippet v (snd e)) l))
    (at_file d P pk F (S ++ map snd l) (set_f_Snippets (f_Snippets f ++ number (length S) l)%list f)).
Proof.
  induction l as [|[k x] l IH]; intros S f s Hl N Hf H; cbn [flat_map map number snd fst].
  - apply runs_nil. rewrite !app_nil_r. destruct f; exact H.
  - inversion Hl as [|? ? [E R] Hl']; subst. cbn [fst snd] in E, R. subst k. rewrite pairs_of_app, render_snippet_split by assumption.
    pose proof (NoDup_remove_2 _ _ _ N) as Ni.
    eapply runs_app.
    { eapply runs_app; [apply (snippet_enter v d P pk F S f); auto|].
      - apply R.
      - intros Hi. apply Ni. apply in_or_app. now left.
      - intros s' H'. exact (run_snippet_body v d P pk F _ S x s' R H'). }
    clear s H. intros s [H _].
    refine (runs_weaken v s _ _ _ _ (IH (S ++ [x])%list (set_f_Snippets (f_Snippets f ++ [(s_SPDXIdentifier x, length S)])%list f) s Hl' _ Hf _)).
    + intros s' H'. rewrite <- app_assoc in H'. cbn [f_Snippets set_f_Snippets] in H'.
      rewrite app_length, Nat.add_comm in H'. cbn [length plus] in H'. rewrite <- app_assoc in H'. exact H'.
    + cbn [f_Snippets set_f_Snippets]. rewrite map_app, <- app_assoc. exact N.
    + right. exact H.
Qed.

(** ** A state between two elements *)
Definition ready (pk : option nat) d P F S (s : pstate) : Prop :=
  exists st fi, is st d P pk F fi S s /\
   (fi = None \/ exists F0 f, F = (F0 ++ [f])%list /\ fi = Some (length F0) /\ f_SPDXIdentifier f <> "") /\
   (pk = None \/ exists L p, P = (L ++ [p])%list /\ pk = Some (length L) /\ p_PackageName p <> "" /\ p_SPDXIdentifier p <> "") /\
   match st with
   | PsCreationInfo => pk = None /\ fi = None /\ d_CreationInfo d <> None
   | PsPackage => pk <> None /\ fi = None
   | PsFile | PsSnippet => fi <> None
   | _ => False
   end.

Lemma ready_check_file pk d P F S s : ready pk d P F S s -> check_file_id s = Ok tt.
Proof.
  intros (st & fi & (H1 & H2 & H3 & H4 & H5 & H6 & H7) & Hf & _ & _).
  unfold check_file_id, cur_file, get_ptr. rewrite H6, H5. destruct Hf as [->|(F0 & f & -> & -> & Hf)]; [reflexivity|].
  rewrite nth_app_last. cbn [bindR]. apply String.eqb_neq in Hf. now rewrite Hf.
Qed.
Lemma ready_check_pkg pk d P F S s : ready pk d P F S s -> check_pkg_id s = Ok tt.
Proof.
  intros (st & fi & (H1 & H2 & H3 & H4 & H5 & H6 & H7) & _ & Hf & _).
  unfold check_pkg_id, cur_pkg, get_ptr. rewrite H4, H3. destruct Hf as [->|(F0 & f & -> & -> & _ & Hf)]; [reflexivity|].
  rewrite nth_app_last. cbn [bindR]. apply String.eqb_neq in Hf. now rewrite Hf.
Qed.

Lemma file_enter v pk d P F S s n : ready pk d P F S s ->
  runs v s [("FileName", n)] (in_file d P pk F S (set_f_FileName n zero_FileOf)).
Proof.
  intros R. pose proof (ready_check_file _ _ _ _ _ _ R) as C.
  destruct R as (st & fi & (H1 & H2 & H3 & H4 & H5 & H6 & H7) & Hf & Hp & Hs).
  assert (forall s0, check_file_id s0 = Ok tt -> is PsFile d P pk F fi S s0 ->
    exists s', do_file_name n s0 = Ok s' /\ in_file d P pk F S (set_f_FileName n zero_FileOf) s') as K.
  { intros s0 C0 (N1 & N2 & N3 & N4 & N5 & N6 & N7). unfold do_file_name.
    change (check_file_id (set_ps_aop None s0)) with (check_file_id s0). rewrite C0. cbn [bindR].
    eexists. split; [reflexivity|]. unfold in_file. rewrite <- N5. repeat split; assumption. }
  assert (exists s0, parse_pair v s ("FileName", n) = do_file_name n s0 /\ check_file_id s0 = Ok tt /\ is PsFile d P pk F fi S s0)
    as (s0 & E & C0 & I0).
  { unfold parse_pair. rewrite H1. destruct st; try contradiction.
    - destruct Hs as (-> & -> & Hc). exists (set_ps_pkg None (set_ps_st PsFile s)). split; [|split; [exact C|repeat split; assumption]].
      unfold parse_creation_info. rewrite H2. destruct (d_CreationInfo d); [|easy]. destruct v; reflexivity.
    - exists (set_ps_st PsFile (set_ps_extref None s)). split; [|split; [exact C|repeat split; assumption]]. destruct v; reflexivity.
    - exists (set_ps_aop None s). split; [|split; [exact C|repeat split; assumption]]. destruct v; reflexivity.
    - exists (set_ps_snip None (set_ps_st PsFile s)). split; [|split; [exact C|repeat split; assumption]]. destruct v; reflexivity. }
  destruct (K s0 C0 I0) as (s' & E' & H'). apply runs_one with (s' := s'); [now rewrite E|exact H'].
Qed.

Lemma package_enter v pk d P F S s n : ready pk d P F S s ->
  runs v s [("PackageName", n)] (in_pkg d P F None S (set_p_PackageName n new_package)).
Proof.
  intros R. pose proof (ready_check_file _ _ _ _ _ _ R) as C. pose proof (ready_check_pkg _ _ _ _ _ _ R) as Cp.
  destruct R as (st & fi & (H1 & H2 & H3 & H4 & H5 & H6 & H7) & Hf & Hp & Hs).
  (* a current package with a name, or none *)
  assert (forall s0, check_pkg_id s0 = Ok tt -> is PsPackage d P pk F None S s0 ->
    exists s', do_package_name n s0 = Ok s' /\ in_pkg d P F None S (set_p_PackageName n new_package) s') as K.
  { intros s0 C0 (N1 & N2 & N3 & N4 & N5 & N6 & N7).
    assert (exists s', upd_pkg (set_p_PackageName n) (alloc_pkg (set_ps_extref None s0)) = Ok s' /\
              in_pkg d P F None S (set_p_PackageName n new_package) s') as (s' & E' & H').
    { unfold upd_pkg, upd_ptr, alloc_pkg. cbn [ps_pkg ps_pkgs set_ps_pkg set_ps_pkgs set_ps_extref].
      rewrite N3, update_nth_last. eexists. split; [reflexivity|]. repeat split; assumption. }
    exists s'. split; [|exact H']. unfold do_package_name.
    change (check_pkg_id (set_ps_extref None s0)) with (check_pkg_id s0). rewrite C0.
    unfold cur_pkg, get_ptr. cbn [ps_pkg ps_pkgs set_ps_extref]. rewrite N4, N3. destruct Hp as [->|(L & p & -> & -> & Np & _)].
    - cbn [bindR]. exact E'.
    - rewrite nth_app_last. cbn [bindR]. apply nonempty_true in Np. rewrite Np. exact E'. }
  assert (exists s0, parse_pair v s ("PackageName", n) = do_package_name n s0 /\
     (check_pkg_id s0 = Ok tt /\ is PsPackage d P pk F None S s0 \/ is PsPackage d (P ++ [new_package]) (Some (length P)) F None S s0))
    as (s0 & E & I0).
  { unfold parse_pair. rewrite H1. destruct st; try contradiction.
    - destruct Hs as (-> & -> & Hc). exists (alloc_pkg (set_ps_st PsPackage s)). split.
      + unfold parse_creation_info. rewrite H2. destruct (d_CreationInfo d); [|easy].
        transitivity (ci_to_package n s); [destruct v; reflexivity|]. unfold ci_to_package. rewrite C. reflexivity.
      + right. unfold alloc_pkg. cbn [ps_pkgs set_ps_st]. rewrite H3. repeat split; assumption.
    - destruct Hs as [_ ->]. exists (set_ps_extref None s). split; [destruct v; reflexivity|]. left. split; [exact Cp|]. repeat split; assumption.
    - exists (set_ps_file None (set_ps_st PsPackage (set_ps_aop None s))). split.
      + transitivity (file_to_package n (set_ps_aop None s)); [destruct v; reflexivity|]. unfold file_to_package.
        change (check_file_id (set_ps_st PsPackage (set_ps_aop None s))) with (check_file_id s). rewrite C. reflexivity.
      + left. split; [exact Cp|]. repeat split; assumption.
    - exists (set_ps_snip None (set_ps_file None (set_ps_st PsPackage s))). split; [destruct v; reflexivity|].
      left. split; [exact Cp|]. repeat split; assumption. }
  assert (exists s', do_package_name n s0 = Ok s' /\ in_pkg d P F None S (set_p_PackageName n new_package) s') as (s' & E' & H').
  { destruct I0 as [[C0 I0]|(N1 & N2 & N3 & N4 & N5 & N6 & N7)]; [exact (K s0 C0 I0)|].
    unfold do_package_name, cur_pkg, get_ptr. cbn [ps_pkg ps_pkgs set_ps_extref]. rewrite N4, N3, nth_app_last. cbn [bindR].
    change (nonempty (p_PackageName new_package)) with false. cbn iota. unfold upd_pkg, upd_ptr.
    cbn [ps_pkg ps_pkgs set_ps_extref]. rewrite N4, N3, update_nth_last. eexists. split; [reflexivity|]. repeat split; assumption. }
  apply runs_one with (s' := s'); [now rewrite E|exact H'].
Qed.

(** ** Files *)
Fixpoint bfiles (so : sorter) (n : nat) (l : list File) : list FileArena :=
  match l with
  | [] => []
  | f :: r => bare_file (number n (entries so (f_Snippets f))) f :: bfiles so (n + length (entries so (f_Snippets f))) r
  end.
Definition fsnips (so : sorter) (l : list File) : list Snippet := flat_map (fun f => map snd (entries so (f_Snippets f))) l.

Lemma bfiles_app so n a b : bfiles so n (a ++ b) = (bfiles so n a ++ bfiles so (n + length (fsnips so a)) b)%list.
Proof.
  revert n. induction a as [|f a IH]; intros n; cbn [bfiles fsnips flat_map app length]; [now rewrite Nat.add_0_r|].
  rewrite IH, app_length, map_length, Nat.add_assoc. reflexivity.
Qed.
Lemma fsnips_app so a b : fsnips so (a ++ b) = (fsnips so a ++ fsnips so b)%list.
Proof. apply flat_map_app. Qed.
Lemma bfiles_length so n l : length (bfiles so n l) = length l.
Proof. revert n. induction l; intros n; cbn [bfiles length]; auto. Qed.

Lemma run_file so v pk d P F S q s P' : file_rep v q -> attach_pkg (length F) P pk = Some P' -> ready pk d P F S s ->
  runs v s (pairs_of (render_file so v q))
    (ready pk (attach pk (length F) d) P' (F ++ bfiles so (length S) [q]) (S ++ fsnips so [q])).
Proof.
  intros R HP H. rewrite (render_file_split so) by assumption.
  pose proof H as (_ & _ & _ & _ & Hpk & _).
  match goal with |- runs _ _ (?a :: ?b :: ?l) _ => change (a :: b :: l) with ([a] ++ [b] ++ l)%list end.
  eapply runs_app; [exact (file_enter v pk d P F S s _ H)|]. clear s H. intros s H.
  pose proof R as (_ & Rid & _ & _ & _ & _ & _ & _ & _ & _ & _ & _ & _ & _ & Rn & Rs & _).
  eapply runs_app; [exact (file_id v d P pk F S _ _ s P' Rid HP H)|]. clear s H. intros s H.
  eapply runs_app; [exact (run_file_body v _ P' pk F S q s R H)|]. clear s H. intros s H.
  rewrite render_snippets_entries.
  eapply runs_weaken; [|refine (run_snippets v _ P' pk F (entries so (f_Snippets q)) S (bare_file [] q) s _ _ _ (or_introl H))].
  - clear s H. intros s H. cbn [bfiles fsnips flat_map]. rewrite app_nil_r.
    assert (exists st, (st = PsFile \/ st = PsSnippet) /\ is st (attach pk (length F) d) P' pk
       (F ++ [bare_file (number (length S) (entries so (f_Snippets q))) q]) (Some (length F)) (S ++ map snd (entries so (f_Snippets q))) s)
      as (st & Hst & I) by (destruct H as [H|H]; eexists; (split; [|exact H]); auto).
    exists st, (Some (length F)). split; [exact I|]. split; [|split].
    + right. exists F. eexists. split; [reflexivity|]. split; [reflexivity|]. apply ident_name in Rid. apply Rid.
    + destruct Hpk as [->|(L & p & -> & -> & N1 & N2)]; [now left|]. right.
      cbn [attach_pkg] in HP. rewrite update_nth_last in HP. injection HP as <-.
      exists L. eexists. split; [reflexivity|]. split; [reflexivity|]. split; assumption.
    + destruct Hst as [->| ->]; discriminate.
  - eapply Permutation_Forall; [|exact Rs]. now apply entries_perm.
  - cbn [f_Snippets bare_file map app]. eapply Permutation_NoDup; [|exact Rn]. apply Permutation_map. now apply entries_perm.
  - apply ident_name in Rid. apply Rid.
Qed.

(** lists of files: outside of packages and inside of the last one *)
Lemma run_files so v l : forall d P F S s, Forall (file_rep v) l -> ready None d P F S s ->
  runs v s (pairs_of (flat_map (render_file so v) l))
    (ready None (set_d_Files (d_Files d ++ seq (length F) (length l))%list d) P (F ++ bfiles so (length S) l) (S ++ fsnips so l)).
Proof.
  induction l as [|q l IH]; intros d P F S s Hl H; cbn [flat_map].
  - apply runs_nil. cbn [bfiles fsnips flat_map length seq]. rewrite !app_nil_r. now destruct d.
  - inversion Hl as [|? ? Hq Hl']; subst. rewrite pairs_of_app.
    eapply runs_app; [exact (run_file so v None d P F S q s P Hq eq_refl H)|]. clear s H. intros s H.
    eapply runs_weaken; [|exact (IH _ _ _ _ s Hl' H)]. clear s H. intros s H.
    cbn [attach] in H. cbn [d_Files set_d_Files] in H.
    change (q :: l) with ([q] ++ l)%list. rewrite bfiles_app, fsnips_app.
    rewrite <- !app_assoc, !app_length, bfiles_length, Nat.add_1_r in H. exact H.
Qed.
Lemma run_pkg_files so v L l : forall d p F S s, Forall (file_rep v) l -> ready (Some (length L)) d (L ++ [p]) F S s ->
  runs v s (pairs_of (flat_map (render_file so v) l))
    (ready (Some (length L)) d (L ++ [set_p_Files (p_Files p ++ seq (length F) (length l))%list p])
       (F ++ bfiles so (length S) l) (S ++ fsnips so l)).
Proof.
  induction l as [|q l IH]; intros d p F S s Hl H; cbn [flat_map].
  - apply runs_nil. cbn [bfiles fsnips flat_map length seq]. rewrite !app_nil_r. now destruct p.
  - inversion Hl as [|? ? Hq Hl']; subst. rewrite pairs_of_app.
    eapply runs_app; [exact (run_file so v (Some (length L)) d (L ++ [p]) F S q s _ Hq (update_nth_last _ L p) H)|].
    clear s H. intros s H.
    eapply runs_weaken; [|exact (IH _ _ _ _ s Hl' H)]. clear s H. intros s H.
    cbn [p_Files set_p_Files] in H.
    change (q :: l) with ([q] ++ l)%list. rewrite bfiles_app, fsnips_app.
    rewrite <- !app_assoc, !app_length, bfiles_length, Nat.add_1_r in H. exact H.
Qed.

(** ** Packages *)
Definition pfiles (so : sorter) (p : Package) : list File := sort_by so f_SPDXIdentifier (p_Files p).
Fixpoint bpkgs (so : sorter) (n : nat) (l : list Package) : list PackageArena :=
  match l with
  | [] => []
  | p :: r => set_p_Files (seq n (length (pfiles so p))) (bare p) :: bpkgs so (n + length (pfiles so p)) r
  end.
Definition titled (so : sorter) (v : version) (p : Package) : list chunk :=
  Raw ("##### Package: " ++ p_PackageName p ++ LF ++ LF) :: render_package so v p.

Lemma render_package_split v p : package_rep v p ->
  pairs_of (render_package_fields v p) = ([("PackageName", p_PackageName p)] ++ tl (pairs_of (render_package_fields v p)))%list.
Proof.
  intros (_ & (N & _) & _). apply nonempty_true in N.
  assert (opt "PackageName" (p_PackageName p) = [Field "PackageName" (p_PackageName p)]) as E by (unfold opt; now rewrite N).
  unfold render_package_fields. rewrite E. reflexivity.
Qed.
Lemma run_package so v pk d P F S p s : package_rep v p -> ready pk d P F S s ->
  runs v s (pairs_of (titled so v p))
    (ready (Some (length P)) (set_d_Packages (d_Packages d ++ [length P])%list d) (P ++ bpkgs so (length F) [p])
       (F ++ bfiles so (length S) (pfiles so p)) (S ++ fsnips so (pfiles so p))).
Proof.
  intros R H. unfold titled. cbn [pairs_of]. unfold render_package. rewrite pairs_of_app, render_package_split, <- app_assoc by assumption.
  eapply runs_app; [exact (package_enter v pk d P F S s _ H)|]. clear s H. intros s H.
  eapply runs_app; [exact (run_package_fields v d P F None S p s R H)|]. clear s H. intros s H.
  eapply runs_weaken; [|refine (run_pkg_files so v P (pfiles so p) _ (bare p) F S s _ _)].
  - clear s H. intros s H. exact H.
  - apply Forall_forall. intros f Hf. apply sort_by_in in Hf. revert f Hf. apply Forall_forall. apply R.
  - exists PsPackage, None. split; [exact H|]. split; [now left|]. split; [|easy].
    right. exists P, (bare p). split; [reflexivity|]. split; [reflexivity|]. destruct R as (_ & (N & _) & Ri & _).
    apply ident_name in Ri. split; [exact N|apply Ri].
Qed.
Lemma run_packages so v l : forall pk d P F S s, Forall (package_rep v) l -> ready pk d P F S s ->
  runs v s (pairs_of (flat_map (titled so v) l))
    (fun s' => exists pk', ready pk' (set_d_Packages (d_Packages d ++ seq (length P) (length l))%list d) (P ++ bpkgs so (length F) l)
       (F ++ bfiles so (length S) (flat_map (pfiles so) l)) (S ++ fsnips so (flat_map (pfiles so) l)) s').
Proof.
  induction l as [|p l IH]; intros pk d P F S s Hl H; cbn [flat_map].
  - apply runs_nil. exists pk. cbn [bfiles bpkgs fsnips flat_map length seq]. rewrite !app_nil_r. now destruct d.
  - inversion Hl as [|? ? Hq Hl']; subst. rewrite pairs_of_app.
    eapply runs_app; [exact (run_package so v pk d P F S p s Hq H)|]. clear s H. intros s H.
    eapply runs_weaken; [|exact (IH _ _ _ _ _ s Hl' H)]. clear s H. intros s (pk' & H). exists pk'.
    cbn [d_Packages set_d_Packages] in H. rewrite <- !app_assoc in H.
    rewrite bfiles_app, fsnips_app. cbn [length seq].
    rewrite !app_length, bfiles_length, Nat.add_1_r in H. exact H.
Qed.
