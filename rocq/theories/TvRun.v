(** Running the parser over the pairs of a representable document: packages, files, snippets. *)
From Verif Require Import GoStr GoStrFacts Sorting Types TvState TvUtil TvReader TvParser TvWriter SpecTv SpecId SpecDoc
  SpecWrite TvReaderFacts TvUtilFacts TvParserFacts TvWriterFacts.

Definition runs (v : version) (s : pstate) (l : list (string * string)) (Q : pstate -> Prop) : Prop :=
  exists s', parse_pairs v s l = Ok s' /\ Q s'.
Lemma parse_pairs_app v l1 : forall s l2,
  parse_pairs v s (l1 ++ l2) = (let* s' := parse_pairs v s l1 in parse_pairs v s' l2).
Proof.
  induction l1 as [|p l1 IH]; intros s l2; [reflexivity|]. cbn [app parse_pairs].
  destruct (parse_pair v s p); cbn [bindR]; auto.
Qed.
Lemma runs_app v s l1 l2 Q R : runs v s l1 Q -> (forall s', Q s' -> runs v s' l2 R) -> runs v s (l1 ++ l2) R.
Proof.
  intros (s' & E & H) K. destruct (K s' H) as (s'' & E' & H'). exists s''. split; [|assumption].
  rewrite parse_pairs_app, E. exact E'.
Qed.
Lemma runs_nil v s (Q : pstate -> Prop) : Q s -> runs v s [] Q.
Proof. intros H. exists s. auto. Qed.
Lemma runs_one v s t x (Q : pstate -> Prop) s' : parse_pair v s (t, x) = Ok s' -> Q s' -> runs v s [(t, x)] Q.
Proof. intros E H. exists s'. split; [|assumption]. cbn [parse_pairs]. now rewrite E. Qed.
Lemma runs_weaken v s l (Q R : pstate -> Prop) : (forall s', Q s' -> R s') -> runs v s l Q -> runs v s l R.
Proof. intros H (s' & E & K). exists s'. auto. Qed.

(** The part of the state that matters. *)
Definition is (st : pst) (d : DocumentArena) (P : list PackageArena) (pk : option nat)
  (F : list FileArena) (fi : option nat) (S : list Snippet) (s : pstate) : Prop :=
  ps_st s = st /\ ps_doc s = Some d /\ ps_pkgs s = P /\ ps_pkg s = pk /\ ps_files s = F /\ ps_file s = fi /\
  ps_snips s = S.

(** ** Fields of a package *)
Section Package.
  Variable v : version.
  Variables (d : DocumentArena) (L : list PackageArena) (F : list FileArena) (fi : option nat) (S : list Snippet).
  Definition in_pkg (p : PackageArena) : pstate -> Prop := is PsPackage d (L ++ [p]) (Some (length L)) F fi S.

  Lemma upd_pkg_is f p s : in_pkg p s -> exists s', upd_pkg f s = Ok s' /\ in_pkg (f p) s' /\ ps_extref s' = ps_extref s.
  Proof.
    intros (H1 & H2 & H3 & H4 & H5 & H6 & H7). unfold upd_pkg, upd_ptr. rewrite H4, H3, update_nth_last.
    eexists. split; [reflexivity|]. split; [|reflexivity]. repeat split; assumption.
  Qed.
  Lemma in_pkg_extref x p s : in_pkg p s -> in_pkg p (set_ps_extref x s).
  Proof. intros H. exact H. Qed.

  Definition pkg_action (t : string) (f : string -> PackageArena -> PackageArena) : Prop :=
    forall x s, parse_package v t x s = upd_pkg (f x) (set_ps_extref None s).
  Lemma parse_pair_pkg p s t x : in_pkg p s -> parse_pair v s (t, x) = parse_package v t x s.
  Proof. intros (H & _). unfold parse_pair. now rewrite H. Qed.

  Lemma pkg_field t f x p s : pkg_action t f -> in_pkg p s -> runs v s [(t, x)] (in_pkg (f x p)).
  Proof.
    intros A H. destruct (upd_pkg_is (f x) p _ (in_pkg_extref None _ _ H)) as (s' & E & H' & _).
    apply runs_one with (s' := s'); [|assumption]. rewrite (parse_pair_pkg p), A by assumption. exact E.
  Qed.
  Lemma pkg_opt t get f x p s : pkg_action t f -> (forall r, f (get r) r = r) -> get p = "" -> in_pkg p s ->
    runs v s (pairs_of (opt t x)) (in_pkg (f x p)).
  Proof.
    intros A Z0 Z H. unfold opt. destruct (nonempty x) eqn:E; [now apply pkg_field|].
    apply nonempty_false in E. subst x. rewrite <- Z, Z0. now apply runs_nil.
  Qed.
  Lemma pkg_opt_text t get f x p s : pkg_action t f -> (forall r, f (get r) r = r) -> get p = "" -> in_pkg p s ->
    runs v s (pairs_of (opt_text t x)) (in_pkg (f x p)).
  Proof.
    intros A Z0 Z H. unfold opt_text. destruct (nonempty x) eqn:E; [now apply pkg_field|].
    apply nonempty_false in E. subst x. rewrite <- Z, Z0. now apply runs_nil.
  Qed.
  Lemma pkg_fold {A} (g : A -> list chunk) (h : A -> PackageArena -> PackageArena) (ok : A -> Prop) l :
    (forall a p s, ok a -> in_pkg p s -> runs v s (pairs_of (g a)) (in_pkg (h a p))) -> Forall ok l ->
    forall p s, in_pkg p s -> runs v s (pairs_of (flat_map g l)) (in_pkg (fold_left (fun p a => h a p) l p)).
  Proof.
    intros St Hl. induction Hl as [|a l Ha Hl IH]; intros p s H; cbn [flat_map fold_left]; [now apply runs_nil|].
    rewrite pairs_of_app. eapply runs_app; [exact (St a p s Ha H)|]. intros s' H'. now apply IH.
  Qed.
End Package.

Lemma flat_map_single {A} (f : A -> chunk) l : map f l = flat_map (fun a => [f a]) l.
Proof. induction l; cbn [map flat_map app]; congruence. Qed.
(** fold of an appending setter *)
Lemma fold_append {A B R} (get : R -> list B) (set : list B -> R -> R) (f : A -> B) l p :
  (forall a b r, set a (set b r) = set a r) -> (forall a r, get (set a r) = a) -> (forall r, set (get r) r = r) ->
  fold_left (fun p a => set (get p ++ [f a])%list p) l p = set (get p ++ map f l)%list p.
Proof.
  intros H1 H2 H3. revert p. induction l as [|a l IH]; intros p; cbn [fold_left map].
  - now rewrite app_nil_r, H3.
  - rewrite IH, H2, H1, <- app_assoc. reflexivity.
Qed.

(** a document's package without its files, as the parser stores it *)
Definition bare (p : Package) : PackageArena :=
  MkPackage (p_IsUnpackaged p) (p_PackageName p) (p_SPDXIdentifier p) (p_Version p)
    (p_FileName p) (p_Supplier p) (p_Originator p) (p_DownloadLocation p)
    (p_FilesAnalyzed p) (p_IsFilesAnalyzedTagPresent p) (p_VerificationCode p)
    (p_Checksums p) (p_HomePage p) (p_SourceInfo p) (p_LicenseConcluded p)
    (p_LicenseInfoFromFiles p) (p_LicenseDeclared p) (p_LicenseComments p)
    (p_CopyrightText p) (p_Summary p) (p_Description p) (p_Comment p)
    (p_ExternalReferences p) (p_AttributionTexts p) (p_PrimaryPackagePurpose p)
    (p_ReleaseDate p) (p_BuiltDate p) (p_ValidUntilDate p) [] (p_Annotations p).

Section PackageFields.
  Variable v : version.
  Variables (d : DocumentArena) (L : list PackageArena) (F : list FileArena) (fi : option nat) (S : list Snippet).
  Notation in_pkg := (in_pkg d L F fi S).

  Lemma pkg_each t get set l p s :
    pkg_action v t (fun x p => set (get p ++ [x])%list p) ->
    (forall a b r, set a (set b r) = set a r) -> (forall a (r : PackageArena), get (set a r) = a) ->
    (forall r, set (get r) r = r) ->
    in_pkg p s -> runs v s (pairs_of (each t l)) (in_pkg (set (get p ++ l)%list p)).
  Proof.
    intros A H1 H2 H3 H. unfold each. rewrite flat_map_single.
    replace (set (get p ++ l)%list p) with (set (get p ++ map (fun x => x) l)%list p) by now rewrite map_id.
    rewrite <- (fold_append get set (fun x => x)) by assumption.
    apply pkg_fold with (ok := fun _ => True); [|now apply Forall_forall|assumption].
    intros a q s0 _ Hq. exact (pkg_field v d L F fi S t _ a q s0 A Hq).
  Qed.
  Lemma pkg_each_text t get set l p s :
    pkg_action v t (fun x p => set (get p ++ [x])%list p) ->
    (forall a b r, set a (set b r) = set a r) -> (forall a (r : PackageArena), get (set a r) = a) ->
    (forall r, set (get r) r = r) ->
    in_pkg p s -> runs v s (pairs_of (each_text t l)) (in_pkg (set (get p ++ l)%list p)).
  Proof.
    intros. replace (pairs_of (each_text t l)) with (pairs_of (each t l)); [now apply pkg_each|].
    unfold each, each_text. induction l; cbn [map pairs_of]; congruence.
  Qed.
  Lemma pkg_checksums l p s : Forall (checksum_rep v) l -> in_pkg p s ->
    runs v s (pairs_of (map (fun c => Field "PackageChecksum" (ck_Algorithm c ++ ": " ++ ck_Value c)) l))
             (in_pkg (set_p_Checksums (p_Checksums p ++ l)%list p)).
  Proof.
    intros Hl H. rewrite flat_map_single.
    replace (p_Checksums p ++ l)%list with (p_Checksums p ++ map (fun x => x) l)%list by now rewrite map_id.
    rewrite <- (fold_append (R := PackageArena) p_Checksums set_p_Checksums (fun x => x));
      [|reflexivity|reflexivity|now destruct r].
    apply pkg_fold with (ok := checksum_rep v); [|assumption|assumption].
    intros c q s0 [Hc1 (Hn & _ & Ht & _)] Hq.
    destruct (upd_pkg_is d L F fi S (fun p => set_p_Checksums (p_Checksums p ++ [c])%list p) q _
                (in_pkg_extref d L F fi S None _ _ Hq)) as (s' & E & H' & _).
    apply runs_one with (s' := s'); [|assumption]. rewrite (parse_pair_pkg v d L F fi S q) by assumption.
    rewrite <- algs_algorithms in Hc1.
    transitivity (let* c0 := extract_checksum v (ck_Algorithm c ++ ": " ++ ck_Value c) in
                  upd_pkg (fun p => set_p_Checksums (p_Checksums p ++ [c0])%list p) (set_ps_extref None s0)).
    { destruct v; reflexivity. }
    rewrite extract_checksum_app by assumption. cbn [bindR]. destruct c. exact E.
  Qed.
  Lemma pkg_supplier x p s : p_Supplier p = None -> opt_ok supplier_rep x -> in_pkg p s ->
    runs v s (pairs_of (render_supplier x)) (in_pkg (set_p_Supplier x p)).
  Proof.
    intros Z Hx H.
    destruct x as [x|].
    2:{ apply runs_nil. destruct p. cbn in Z. subst. exact H. }
    cbn [opt_ok] in Hx.
    destruct (upd_pkg_is d L F fi S (set_p_Supplier (Some x)) p _ (in_pkg_extref d L F fi S None _ _ H)) as (s' & E & H' & _).
    assert (nonempty (su_Supplier x) = true) as N.
    { destruct Hx as [->|(_ & N & _)]; [reflexivity|]. now apply nonempty_true. }
    cbn [render_supplier]. rewrite N.
    destruct Hx as [->|[Hk (_ & _ & Ht & _)]].
    - apply runs_one with (s' := s'); [|assumption]. rewrite (parse_pair_pkg v d L F fi S p) by assumption.
      destruct v; exact E.
    - assert (nonempty (su_SupplierType x) = true) as N2 by (destruct Hk as [<-|[<-|[]]]; reflexivity).
      rewrite N2. apply runs_one with (s' := s'); [|assumption]. rewrite (parse_pair_pkg v d L F fi S p) by assumption.
      transitivity (do_supplier (su_SupplierType x ++ ": " ++ su_Supplier x) (set_ps_extref None s)).
      { destruct v; reflexivity. }
      unfold do_supplier. rewrite extract_actor_app; [| exact Hk |..|exact Ht].
      + destruct x as [n k]. cbn [su_SupplierType su_Supplier bindR] in *.
        destruct Hk as [<-|[<-|[]]]; exact E.
      + destruct Hk as [<-|[<-|[]]]; now apply not_occurs_contains.
      + destruct Hk as [<-|[<-|[]]]; reflexivity.
  Qed.
  Lemma pkg_originator x p s : p_Originator p = None -> opt_ok originator_rep x -> in_pkg p s ->
    runs v s (pairs_of (render_originator x)) (in_pkg (set_p_Originator x p)).
  Proof.
    intros Z Hx H.
    destruct x as [x|].
    2:{ apply runs_nil. destruct p. cbn in Z. subst. exact H. }
    cbn [opt_ok] in Hx.
    destruct (upd_pkg_is d L F fi S (set_p_Originator (Some x)) p _ (in_pkg_extref d L F fi S None _ _ H)) as (s' & E & H' & _).
    assert (nonempty (or_Originator x) = true) as N.
    { destruct Hx as [->|(_ & N & _)]; [reflexivity|]. now apply nonempty_true. }
    cbn [render_originator]. rewrite N.
    destruct Hx as [->|[Hk (_ & _ & Ht & _)]].
    - apply runs_one with (s' := s'); [|assumption]. rewrite (parse_pair_pkg v d L F fi S p) by assumption.
      destruct v; exact E.
    - assert (nonempty (or_OriginatorType x) = true) as N2 by (destruct Hk as [<-|[<-|[]]]; reflexivity).
      rewrite N2. apply runs_one with (s' := s'); [|assumption]. rewrite (parse_pair_pkg v d L F fi S p) by assumption.
      transitivity (do_originator (or_OriginatorType x ++ ": " ++ or_Originator x) (set_ps_extref None s)).
      { destruct v; reflexivity. }
      unfold do_originator. rewrite extract_actor_app; [| exact Hk |..|exact Ht].
      + destruct x as [n k]. cbn [or_OriginatorType or_Originator bindR] in *.
        destruct Hk as [<-|[<-|[]]]; exact E.
      + destruct Hk as [<-|[<-|[]]]; now apply not_occurs_contains.
      + destruct Hk as [<-|[<-|[]]]; reflexivity.
  Qed.
  Lemma pkg_analyzed (q : Package) p s : p_FilesAnalyzed p = true -> p_IsFilesAnalyzedTagPresent p = false ->
    (p_FilesAnalyzed q = false -> p_IsFilesAnalyzedTagPresent q = true) -> in_pkg p s ->
    runs v s (pairs_of (render_files_analyzed q))
      (in_pkg (set_p_FilesAnalyzed (p_FilesAnalyzed q) (set_p_IsFilesAnalyzedTagPresent (p_IsFilesAnalyzedTagPresent q) p))).
  Proof.
    intros Z1 Z2 Hq H. unfold render_files_analyzed.
    assert (forall b : bool, parse_package v "FilesAnalyzed" (if b then "true" else "false") s =
       upd_pkg (fun p => set_p_FilesAnalyzed b (set_p_IsFilesAnalyzedTagPresent true p)) (set_ps_extref None s)) as A.
    { intros b. destruct v, b; reflexivity. }
    destruct (p_FilesAnalyzed q).
    - destruct (p_IsFilesAnalyzedTagPresent q).
      + destruct (upd_pkg_is d L F fi S (fun p => set_p_FilesAnalyzed true (set_p_IsFilesAnalyzedTagPresent true p)) p _
           (in_pkg_extref d L F fi S None _ _ H)) as (s' & E & H' & _).
        apply runs_one with (s' := s'); [|assumption]. rewrite (parse_pair_pkg v d L F fi S p) by assumption.
        rewrite <- E. exact (A true).
      + apply runs_nil. destruct p. cbn in Z1, Z2. subst. exact H.
    - rewrite Hq by reflexivity.
      destruct (upd_pkg_is d L F fi S (fun p => set_p_FilesAnalyzed false (set_p_IsFilesAnalyzedTagPresent true p)) p _
           (in_pkg_extref d L F fi S None _ _ H)) as (s' & E & H' & _).
      apply runs_one with (s' := s'); [|assumption]. rewrite (parse_pair_pkg v d L F fi S p) by assumption.
      rewrite <- E. exact (A false).
  Qed.
  Lemma pkg_code (q : Package) p s : p_VerificationCode p = None ->
    (p_FilesAnalyzed q = false -> p_VerificationCode q = None) ->
    opt_ok code_rep (p_VerificationCode q) -> in_pkg p s ->
    runs v s (pairs_of (render_verification_code q)) (in_pkg (set_p_VerificationCode (p_VerificationCode q) p)).
  Proof.
    intros Z Hfa Hc H. unfold render_verification_code. destruct (p_VerificationCode q) as [c|].
    2:{ apply runs_nil. destruct p. cbn in Z. subst. exact H. }
    destruct (p_FilesAnalyzed q); [|now assert (Some c = None) by auto].
    cbn [opt_ok] in Hc. destruct Hc as ((N & _ & Ht & _) & Hx & Hf).
    apply nonempty_true in N. rewrite N. cbn [andb].
    destruct (upd_pkg_is d L F fi S (set_p_VerificationCode (Some c)) p _ (in_pkg_extref d L F fi S None _ _ H)) as (s' & E & H' & _).
    assert (forall x, extract_code_and_excludes x = c -> runs v s [("PackageVerificationCode", x)]
              (in_pkg (set_p_VerificationCode (Some c) p))) as K.
    { intros x Hxc. apply runs_one with (s' := s'); [|assumption]. rewrite (parse_pair_pkg v d L F fi S p) by assumption.
      transitivity (upd_pkg (set_p_VerificationCode (Some (extract_code_and_excludes x))) (set_ps_extref None s));
        [destruct v; reflexivity|]. now rewrite Hxc. }
    destruct c as [c ex]. cbn [vc_Value vc_ExcludedFiles] in *.
    destruct Hf as [->|(f & -> & (_ & Hft & _) & Hp)]; apply K.
    - now apply extract_code_plain.
    - unfold join. cbn [String.concat]. now apply extract_code_excl.
  Qed.

  (** external references: the comment goes to the reference just added *)
  Lemma pkg_external_ref e p s : external_ref_rep e -> in_pkg p s ->
    runs v s (pairs_of (render_external_ref e)) (in_pkg (set_p_ExternalReferences (p_ExternalReferences p ++ [e])%list p)).
  Proof.
    intros ((H1 & _) & (H2 & _) & (H3 & _) & _) H. unfold render_external_ref. cbn [pairs_of].
    set (x := er_Category e ++ " " ++ er_RefType e ++ " " ++ er_Locator e).
    assert (extract_package_external_reference x = Ok (er_Category e, er_RefType e, er_Locator e)) as Ex
      by now apply extract_external_ref_app.
    set (e0 := MkER (er_Category e) (er_RefType e) (er_Locator e) "").
    set (p1 := set_p_ExternalReferences (p_ExternalReferences p ++ [e0])%list p).
    assert (exists s1, parse_package v "ExternalRef" x s = Ok s1 /\ in_pkg p1 s1 /\
              ps_extref s1 = Some (length L, length (p_ExternalReferences p))) as (s1 & E1 & H1' & X1).
    { pose proof (in_pkg_extref d L F fi S None _ _ H) as Hn.
      destruct (upd_pkg_is d L F fi S (fun x => set_p_ExternalReferences (p_ExternalReferences x ++ [e0])%list x) p _ Hn)
        as (s1 & E & H' & _).
      exists (set_ps_extref (Some (length L, length (p_ExternalReferences p))) s1). split; [|split; [exact H'|reflexivity]].
      transitivity (do_external_ref x (set_ps_extref None s)); [destruct v; reflexivity|].
      pose proof Hn as (_ & _ & N3 & N4 & _). unfold do_external_ref. rewrite N4, N3, nth_app_last, Ex. cbn [bindR].
      fold e0. rewrite E. reflexivity. }
    apply (runs_app v s [("ExternalRef", x)] (pairs_of (opt_text "ExternalRefComment" (er_Comment e))) (eq s1)).
    { apply runs_one with (s' := s1); [|reflexivity]. now rewrite (parse_pair_pkg v d L F fi S p). }
    intros ? <-. unfold opt_text. destruct (nonempty (er_Comment e)) eqn:N.
    - cbn [pairs_of].
      assert (exists s2, parse_package v "ExternalRefComment" (er_Comment e) s1 = Ok s2 /\
                in_pkg (set_p_ExternalReferences (p_ExternalReferences p ++ [e])%list p) s2) as (s2 & E2 & H2').
      { eexists. split.
        - transitivity (do_external_ref_comment (er_Comment e) s1); [destruct v; reflexivity|].
          pose proof H1' as (_ & _ & N3 & N4 & _). unfold do_external_ref_comment.
          rewrite X1, N3, nth_app_last. unfold p1 at 1. cbn [p_ExternalReferences set_p_ExternalReferences].
          rewrite update_nth_last, update_nth_last. reflexivity.
        - destruct H1' as (N1 & N2 & N3 & N4 & N5 & N6 & N7). repeat split; auto. cbn [ps_pkgs set_ps_pkgs set_ps_extref].
          unfold p1, e0, set_er_Comment. now destruct e. }
      apply runs_one with (s' := s2); [|assumption]. now rewrite (parse_pair_pkg v d L F fi S p1).
    - apply nonempty_false in N. apply runs_nil. unfold p1, e0 in H1'. rewrite <- N in H1'. now destruct e.
  Qed.
  Lemma pkg_external_refs l p s : Forall external_ref_rep l -> in_pkg p s ->
    runs v s (pairs_of (flat_map render_external_ref l))
      (in_pkg (set_p_ExternalReferences (p_ExternalReferences p ++ l)%list p)).
  Proof.
    intros Hl H.
    replace (p_ExternalReferences p ++ l)%list with (p_ExternalReferences p ++ map (fun x => x) l)%list by now rewrite map_id.
    rewrite <- (fold_append (R := PackageArena) p_ExternalReferences set_p_ExternalReferences (fun x => x));
      [|reflexivity|reflexivity|now destruct r].
    apply pkg_fold with (ok := external_ref_rep); [|assumption|assumption].
    intros e q s0 He Hq. now apply pkg_external_ref.
  Qed.

  (** the same, starting from an empty list *)
  Lemma pkg_each0 t get set l p s :
    pkg_action v t (fun x p => set (get p ++ [x])%list p) ->
    (forall a b r, set a (set b r) = set a r) -> (forall a (r : PackageArena), get (set a r) = a) ->
    (forall r, set (get r) r = r) -> get p = [] ->
    in_pkg p s -> runs v s (pairs_of (each t l)) (in_pkg (set l p)).
  Proof. intros A H1 H2 H3 Z H. pose proof (pkg_each t get set l p s A H1 H2 H3 H) as K. now rewrite Z in K. Qed.
  Lemma pkg_each_text0 t get set l p s :
    pkg_action v t (fun x p => set (get p ++ [x])%list p) ->
    (forall a b r, set a (set b r) = set a r) -> (forall a (r : PackageArena), get (set a r) = a) ->
    (forall r, set (get r) r = r) -> get p = [] ->
    in_pkg p s -> runs v s (pairs_of (each_text t l)) (in_pkg (set l p)).
  Proof. intros A H1 H2 H3 Z H. pose proof (pkg_each_text t get set l p s A H1 H2 H3 H) as K. now rewrite Z in K. Qed.
  Lemma pkg_checksums0 l p s : Forall (checksum_rep v) l -> p_Checksums p = [] -> in_pkg p s ->
    runs v s (pairs_of (map (fun c => Field "PackageChecksum" (ck_Algorithm c ++ ": " ++ ck_Value c)) l))
             (in_pkg (set_p_Checksums l p)).
  Proof. intros Hl Z H. pose proof (pkg_checksums l p s Hl H) as K. now rewrite Z in K. Qed.
  Lemma pkg_external_refs0 l p s : Forall external_ref_rep l -> p_ExternalReferences p = [] -> in_pkg p s ->
    runs v s (pairs_of (flat_map render_external_ref l)) (in_pkg (set_p_ExternalReferences l p)).
  Proof. intros Hl Z H. pose proof (pkg_external_refs l p s Hl H) as K. now rewrite Z in K. Qed.
End PackageFields.

(** setting a field to what it is already *)
Lemma keep {R X} (get : R -> X) (set : X -> R -> R) x r : (forall r, set (get r) r = r) -> get r = x -> set x r = r.
Proof. intros H <-. apply H. Qed.

(** the fields of a package after its name *)
Section WholePackage.
  Variable v : version.
  Variables (d : DocumentArena) (L : list PackageArena) (F : list FileArena) (fi : option nat) (S : list Snippet).

  (** the identifier also enters the package into the document *)
  Lemma pkg_id x p s : ident_ok x -> in_pkg d L F fi S p s ->
    runs v s [("SPDXID", render_element_id x)]
      (in_pkg (set_d_Packages (d_Packages d ++ [length L])%list d) L F fi S (set_p_SPDXIdentifier x p)).
  Proof.
    intros Hx H. destruct (upd_pkg_is d L F fi S (set_p_SPDXIdentifier x) p _ (in_pkg_extref d L F fi S None _ _ H)) as (s' & E & H' & _).
    eapply runs_one.
    - rewrite (parse_pair_pkg v d L F fi S p) by assumption.
      transitivity (do_pkg_spdxid (render_element_id x) (set_ps_extref None s)); [destruct v; reflexivity|].
      unfold do_pkg_spdxid. rewrite extract_render_elt by now apply ident_id. cbn [bindR]. rewrite E. cbn [bindR].
      pose proof H' as (_ & N2 & _ & N4 & _). rewrite N4. unfold upd_doc. rewrite N2. reflexivity.
    - destruct H' as (N1 & N2 & N3 & N4 & N5 & N6 & N7). repeat split; auto.
  Qed.
End WholePackage.

Ltac pk_act := intros ? ?; match goal with |- context [parse_package ?v] => destruct v end; reflexivity.
Ltac pk_act' v := intros ? ?; destruct v; try congruence; reflexivity.

Lemma run_package_fields v d L F fi S (q : Package) s :
  package_rep v q -> in_pkg d L F fi S (set_p_PackageName (p_PackageName q) new_package) s ->
  runs v s (tl (pairs_of (render_package_fields v q)))
    (in_pkg (set_d_Packages (d_Packages d ++ [length L])%list d) L F fi S (bare q)).
Proof.
  intros (R0 & (N1 & _) & R2 & R3 & R4 & R5 & R6 & R7 & R8 & R9 & R10 & R11 & R12 & R13 & R14 & R15 & R16 & R17 & R18
          & R19 & R20 & R21 & R22 & R23 & R24 & R25 & R26 & _ & Rann) H.
  apply nonempty_true in N1. pose proof R2 as R2'. apply ident_name in R2' as [N2 _]. apply nonempty_true in N2.
  unfold render_package_fields. rewrite pairs_of_app. unfold opt at 1. rewrite N1. cbn [pairs_of app tl].
  rewrite N2. rewrite pairs_of_app.
  eapply runs_app; [exact (pkg_id v d L F fi S _ _ _ R2 H)|]. clear H s. intros s H.
  set (d' := set_d_Packages _ d) in *. clearbody d'.
  rewrite pairs_of_app. eapply runs_app; [refine (pkg_opt v d' L F fi S _ p_Version set_p_Version _ _ _ _ _ _ H); [pk_act|now intros []|reflexivity]|].
  clear H s. intros s H.
  rewrite pairs_of_app. eapply runs_app; [refine (pkg_opt v d' L F fi S _ p_FileName set_p_FileName _ _ _ _ _ _ H); [pk_act|now intros []|reflexivity]|].
  clear H s. intros s H.
  rewrite pairs_of_app. eapply runs_app; [refine (pkg_supplier v d' L F fi S _ _ _ _ R5 H); reflexivity|].
  clear H s. intros s H.
  rewrite pairs_of_app. eapply runs_app; [refine (pkg_originator v d' L F fi S _ _ _ _ R6 H); reflexivity|].
  clear H s. intros s H.
  rewrite pairs_of_app. eapply runs_app; [refine (pkg_opt v d' L F fi S _ p_DownloadLocation set_p_DownloadLocation _ _ _ _ _ _ H); [pk_act|now intros []|reflexivity]|].
  clear H s. intros s H.
  rewrite pairs_of_app.
  eapply runs_app with (Q := in_pkg d' L F fi S
    (set_p_ValidUntilDate (p_ValidUntilDate q) (set_p_BuiltDate (p_BuiltDate q) (set_p_ReleaseDate (p_ReleaseDate q)
      (set_p_PrimaryPackagePurpose (p_PrimaryPackagePurpose q) _))))).
  { destruct R23 as [_ R23], R24 as [_ R24], R25 as [_ R25], R26 as [_ R26]. destruct (match v with V23 => true | _ => false end) eqn:V.
    - destruct v; try discriminate. rewrite !pairs_of_app.
      eapply runs_app; [refine (pkg_opt V23 d' L F fi S _ p_PrimaryPackagePurpose set_p_PrimaryPackagePurpose _ _ _ _ _ _ H); [intros ? ?; reflexivity|now intros []|reflexivity]|].
      clear H s. intros s H.
      eapply runs_app; [refine (pkg_opt V23 d' L F fi S _ p_ReleaseDate set_p_ReleaseDate _ _ _ _ _ _ H); [intros ? ?; reflexivity|now intros []|reflexivity]|].
      clear H s. intros s H.
      eapply runs_app; [refine (pkg_opt V23 d' L F fi S _ p_BuiltDate set_p_BuiltDate _ _ _ _ _ _ H); [intros ? ?; reflexivity|now intros []|reflexivity]|].
      clear H s. intros s H.
      refine (pkg_opt V23 d' L F fi S _ p_ValidUntilDate set_p_ValidUntilDate _ _ _ _ _ _ H); [intros ? ?; reflexivity|now intros []|reflexivity].
    - rewrite R23, R24, R25, R26 by (destruct v; discriminate).
      assert (pairs_of (match v with
         | V23 => opt "PrimaryPackagePurpose" "" ++ opt "ReleaseDate" "" ++ opt "BuiltDate" "" ++ opt "ValidUntilDate" ""
         | _ => [] end) = []) as -> by (destruct v; reflexivity).
      apply runs_nil.
      rewrite (keep p_PrimaryPackagePurpose set_p_PrimaryPackagePurpose ""); [|now intros []|reflexivity].
      rewrite (keep p_ReleaseDate set_p_ReleaseDate ""); [|now intros []|reflexivity].
      rewrite (keep p_BuiltDate set_p_BuiltDate ""); [|now intros []|reflexivity].
      rewrite (keep p_ValidUntilDate set_p_ValidUntilDate ""); [exact H|now intros []|reflexivity]. }
  clear H s. intros s H.
  rewrite pairs_of_app. eapply runs_app; [refine (pkg_analyzed v d' L F fi S q _ _ _ _ _ H); [reflexivity..|intros X; now apply R8]|].
  clear H s. intros s H.
  rewrite pairs_of_app. eapply runs_app; [refine (pkg_code v d' L F fi S q _ _ _ _ R9 H); [reflexivity|intros X; now apply R8]|].
  clear H s. intros s H.
  rewrite pairs_of_app. eapply runs_app; [refine (pkg_checksums0 v d' L F fi S _ _ _ R10 _ H); reflexivity|].
  clear H s. intros s H.
  rewrite pairs_of_app. eapply runs_app; [refine (pkg_opt v d' L F fi S _ p_HomePage set_p_HomePage _ _ _ _ _ _ H); [pk_act|now intros []|reflexivity]|].
  clear H s. intros s H.
  rewrite pairs_of_app. eapply runs_app; [refine (pkg_opt_text v d' L F fi S _ p_SourceInfo set_p_SourceInfo _ _ _ _ _ _ H); [pk_act|now intros []|reflexivity]|].
  clear H s. intros s H.
  rewrite pairs_of_app. eapply runs_app; [refine (pkg_opt v d' L F fi S _ p_LicenseConcluded set_p_LicenseConcluded _ _ _ _ _ _ H); [pk_act|now intros []|reflexivity]|].
  clear H s. intros s H.
  rewrite pairs_of_app.
  assert ((if p_FilesAnalyzed q then each "PackageLicenseInfoFromFiles" (p_LicenseInfoFromFiles q) else [])
          = each "PackageLicenseInfoFromFiles" (p_LicenseInfoFromFiles q)) as ->.
  { destruct (p_FilesAnalyzed q); [reflexivity|]. destruct R8 as (_ & _ & ->); reflexivity. }
  eapply runs_app; [refine (pkg_each0 v d' L F fi S _ p_LicenseInfoFromFiles set_p_LicenseInfoFromFiles _ _ _ _ _ _ _ _ H);
    [pk_act|reflexivity|reflexivity|now intros []|reflexivity]|].
  clear H s. intros s H.
  rewrite pairs_of_app. eapply runs_app; [refine (pkg_opt v d' L F fi S _ p_LicenseDeclared set_p_LicenseDeclared _ _ _ _ _ _ H); [pk_act|now intros []|reflexivity]|].
  clear H s. intros s H.
  rewrite pairs_of_app. eapply runs_app; [refine (pkg_opt_text v d' L F fi S _ p_LicenseComments set_p_LicenseComments _ _ _ _ _ _ H); [pk_act|now intros []|reflexivity]|].
  clear H s. intros s H.
  rewrite pairs_of_app. eapply runs_app; [refine (pkg_opt_text v d' L F fi S _ p_CopyrightText set_p_CopyrightText _ _ _ _ _ _ H); [pk_act|now intros []|reflexivity]|].
  clear H s. intros s H.
  rewrite pairs_of_app. eapply runs_app; [refine (pkg_opt_text v d' L F fi S _ p_Summary set_p_Summary _ _ _ _ _ _ H); [pk_act|now intros []|reflexivity]|].
  clear H s. intros s H.
  rewrite pairs_of_app. eapply runs_app; [refine (pkg_opt_text v d' L F fi S _ p_Description set_p_Description _ _ _ _ _ _ H); [pk_act|now intros []|reflexivity]|].
  clear H s. intros s H.
  rewrite pairs_of_app. eapply runs_app; [refine (pkg_opt_text v d' L F fi S _ p_Comment set_p_Comment _ _ _ _ _ _ H); [pk_act|now intros []|reflexivity]|].
  clear H s. intros s H.
  rewrite pairs_of_app. eapply runs_app; [refine (pkg_external_refs0 v d' L F fi S _ _ _ R21 _ H); reflexivity|].
  clear H s. intros s H.
  rewrite pairs_of_app.
  eapply runs_app with (Q := in_pkg d' L F fi S (set_p_AttributionTexts (p_AttributionTexts q) _)).
  { destruct R22 as [_ R22]. destruct v.
    - rewrite R22 by reflexivity. apply runs_nil.
      rewrite (keep p_AttributionTexts set_p_AttributionTexts []); [exact H|now intros []|reflexivity].
    - refine (pkg_each_text0 V22 d' L F fi S _ p_AttributionTexts set_p_AttributionTexts _ _ _ _ _ _ _ _ H);
        [intros ? ?; reflexivity|reflexivity|reflexivity|now intros []|reflexivity].
    - refine (pkg_each_text0 V23 d' L F fi S _ p_AttributionTexts set_p_AttributionTexts _ _ _ _ _ _ _ _ H);
        [intros ? ?; reflexivity|reflexivity|reflexivity|now intros []|reflexivity]. }
  clear H s. intros s H. apply runs_nil. cbn [pairs_of].
  match type of H with in_pkg _ _ _ _ _ ?p _ => replace (bare q) with p; [exact H|] end.
  unfold bare. rewrite R0, Rann. vm_compute. reflexivity.
Qed.
