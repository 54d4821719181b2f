(** Running the parser over the pairs of a representable document: files and snippets. *)
From Verif Require Import GoStr GoStrFacts Sorting Types TvState TvUtil TvReader TvParser TvWriter SpecTv SpecId SpecDoc
  SpecWrite TvReaderFacts TvUtilFacts TvParserFacts TvWriterFacts TvRun.

(** ** Runs that update a record in place *)
Section Gen.
  Variable v : version.
  Variable R : Type.
  Variable inn : R -> pstate -> Prop.
  Definition field_step (t : string) (f : string -> R -> R) : Prop :=
    forall x r s, inn r s -> runs v s [(t, x)] (inn (f x r)).
  Lemma gen_opt t get f x r s : field_step t f -> (forall r, f (get r) r = r) -> get r = "" -> inn r s ->
    runs v s (pairs_of (opt t x)) (inn (f x r)).
  Proof.
    intros A Z0 Z H. unfold opt. destruct (nonempty x) eqn:E; [now apply A|].
    apply nonempty_false in E. subst x. rewrite <- Z, Z0. now apply runs_nil.
  Qed.
  Lemma gen_opt_text t get f x r s : field_step t f -> (forall r, f (get r) r = r) -> get r = "" -> inn r s ->
    runs v s (pairs_of (opt_text t x)) (inn (f x r)).
  Proof.
    intros A Z0 Z H. unfold opt_text. destruct (nonempty x) eqn:E; [now apply A|].
    apply nonempty_false in E. subst x. rewrite <- Z, Z0. now apply runs_nil.
  Qed.
  Lemma gen_fold {A} (g : A -> list chunk) (h : A -> R -> R) (ok : A -> Prop) l :
    (forall a p s, ok a -> inn p s -> runs v s (pairs_of (g a)) (inn (h a p))) -> Forall ok l ->
    forall p s, inn p s -> runs v s (pairs_of (flat_map g l)) (inn (fold_left (fun p a => h a p) l p)).
  Proof.
    intros St Hl. induction Hl as [|a l Ha Hl IH]; intros p s H; cbn [flat_map fold_left]; [now apply runs_nil|].
    rewrite pairs_of_app. eapply runs_app; [exact (St a p s Ha H)|]. intros s' H'. now apply IH.
  Qed.
  (** items appended to a list *)
  Lemma gen_items {A} (g : A -> list chunk) (ok : A -> Prop) (get : R -> list A) set l p s :
    (forall a p s, ok a -> inn p s -> runs v s (pairs_of (g a)) (inn (set (get p ++ [a])%list p))) -> Forall ok l ->
    (forall a b r, set a (set b r) = set a r) -> (forall a r, get (set a r) = a) -> (forall r, set (get r) r = r) ->
    get p = [] -> inn p s -> runs v s (pairs_of (flat_map g l)) (inn (set l p)).
  Proof.
    intros St Hl H1 H2 H3 Z H. pose proof (gen_fold g (fun a p => set (get p ++ [a])%list p) ok l St Hl p s H) as K.
    rewrite (fold_append get set (fun x => x)), map_id, Z in K by assumption. exact K.
  Qed.
  Lemma gen_each t get set l p s : field_step t (fun x p => set (get p ++ [x])%list p) ->
    (forall a b r, set a (set b r) = set a r) -> (forall a r, get (set a r) = a) -> (forall r, set (get r) r = r) ->
    get p = [] -> inn p s -> runs v s (pairs_of (each t l)) (inn (set l p)).
  Proof.
    intros A H1 H2 H3 Z H. unfold each. rewrite flat_map_single.
    refine (gen_items (fun x => [Field t x]) (fun _ => True) get set l p s _ _ H1 H2 H3 Z H); [|now apply Forall_forall].
    intros a q s0 _ Hq. exact (A a q s0 Hq).
  Qed.
  Lemma gen_each_text t get set l p s : field_step t (fun x p => set (get p ++ [x])%list p) ->
    (forall a b r, set a (set b r) = set a r) -> (forall a r, get (set a r) = a) -> (forall r, set (get r) r = r) ->
    get p = [] -> inn p s -> runs v s (pairs_of (each_text t l)) (inn (set l p)).
  Proof.
    intros. replace (pairs_of (each_text t l)) with (pairs_of (each t l)); [now apply gen_each with (get := get)|].
    unfold each, each_text. induction l; cbn [map pairs_of]; congruence.
  Qed.
End Gen.

(** ** Fields of a file *)
Section File.
  Variable v : version.
  Variables (d : DocumentArena) (P : list PackageArena) (pk : option nat) (F : list FileArena) (S : list Snippet).
  Definition in_file (f : FileArena) : pstate -> Prop := is PsFile d P pk (F ++ [f]) (Some (length F)) S.

  Lemma upd_file_is g f s : in_file f s -> exists s', upd_file g s = Ok s' /\ in_file (g f) s' /\ ps_aop s' = ps_aop s.
  Proof.
    intros (H1 & H2 & H3 & H4 & H5 & H6 & H7). unfold upd_file, upd_ptr. rewrite H6, H5, update_nth_last.
    eexists. split; [reflexivity|]. split; [|reflexivity]. repeat split; assumption.
  Qed.
  Lemma in_file_aop x f s : in_file f s -> in_file f (set_ps_aop x s).
  Proof. intros H. exact H. Qed.
  Lemma parse_pair_file f s t x : in_file f s -> parse_pair v s (t, x) = parse_file v t x s.
  Proof. intros (H & _). unfold parse_pair. now rewrite H. Qed.
  Lemma file_step t f : (forall x s, parse_file v t x s = upd_file (f x) (set_ps_aop None s)) -> field_step v _ in_file t f.
  Proof.
    intros A x r s H. destruct (upd_file_is (f x) r _ (in_file_aop None _ _ H)) as (s' & E & H' & _).
    apply runs_one with (s' := s'); [|assumption]. rewrite (parse_pair_file r), A by assumption. exact E.
  Qed.
  Lemma file_checksum c q s : checksum_rep v c -> in_file q s ->
    runs v s (pairs_of [Field "FileChecksum" (ck_Algorithm c ++ ": " ++ ck_Value c)])
             (in_file (set_f_Checksums (f_Checksums q ++ [c])%list q)).
  Proof.
    intros [Hc1 (Hn & _ & Ht & _)] Hq.
    destruct (upd_file_is (fun p => set_f_Checksums (f_Checksums p ++ [c])%list p) q _
                (in_file_aop None _ _ Hq)) as (s' & E & H' & _).
    apply runs_one with (s' := s'); [|assumption]. rewrite (parse_pair_file q) by assumption.
    rewrite <- algs_algorithms in Hc1.
    transitivity (let* c0 := extract_checksum v (ck_Algorithm c ++ ": " ++ ck_Value c) in
                  upd_file (fun p => set_f_Checksums (f_Checksums p ++ [c0])%list p) (set_ps_aop None s)).
    { destruct v; reflexivity. }
    rewrite extract_checksum_app by assumption. cbn [bindR]. destruct c. exact E.
  Qed.

  (** artifacts: the home page and URI go to the artifact just added *)
  Lemma upd_aop_is g l a f s : f_Artifacts f = (l ++ [a])%list -> ps_aop s = Some (length F, length l) -> in_file f s ->
    exists s', upd_aop g s = Ok s' /\ in_file (set_f_Artifacts (l ++ [g a])%list f) s' /\ ps_aop s' = ps_aop s.
  Proof.
    intros Hl Ha (H1 & H2 & H3 & H4 & H5 & H6 & H7). unfold upd_aop. rewrite Ha, H5, nth_app_last, Hl, !update_nth_last.
    eexists. split; [reflexivity|]. split; [|exact Ha]. repeat split; assumption.
  Qed.
  Definition with_aop (l : list Artifact) (f : FileArena) (a : Artifact) (s : pstate) : Prop :=
    in_file (set_f_Artifacts (l ++ [a])%list f) s /\ ps_aop s = Some (length F, length l).
  Lemma aop_step t f l q : (forall x s, parse_file v t x s = upd_aop (f x) s) -> field_step v _ (with_aop l q) t f.
  Proof.
    intros A x r s [H Ha]. destruct (upd_aop_is (f x) l r (set_f_Artifacts (l ++ [r])%list q) s eq_refl Ha H) as (s' & E & H' & Ha').
    apply runs_one with (s' := s'); [|split; [exact H'|congruence]].
    rewrite (parse_pair_file (set_f_Artifacts (l ++ [r])%list q)), A by assumption. exact E.
  Qed.
  Lemma file_artifact a q s : in_file q s ->
    runs v s (pairs_of (render_artifact a)) (in_file (set_f_Artifacts (f_Artifacts q ++ [a])%list q)).
  Proof.
    intros H. unfold render_artifact. set (a0 := MkArtifact (ar_Name a) "" "").
    change (runs v s ([("ArtifactOfProjectName", ar_Name a)] ++ pairs_of (opt "ArtifactOfProjectHomePage" (ar_HomePage a)
       ++ opt "ArtifactOfProjectURI" (ar_URI a)))%list (in_file (set_f_Artifacts (f_Artifacts q ++ [a])%list q))).
    rewrite pairs_of_app.
    eapply runs_app with (Q := with_aop (f_Artifacts q) q a0).
    { pose proof (in_file_aop None _ _ H) as Hn.
      destruct (upd_file_is (fun x => set_f_Artifacts (f_Artifacts x ++ [a0])%list x) q _ Hn) as (s1 & E & H' & _).
      apply runs_one with (s' := set_ps_aop (Some (length F, length (f_Artifacts q))) s1); [|split; [exact H'|reflexivity]].
      rewrite (parse_pair_file q) by assumption.
      transitivity (do_aop_name (ar_Name a) (set_ps_aop None s)); [destruct v; reflexivity|].
      pose proof Hn as (_ & _ & _ & _ & N5 & N6 & _). unfold do_aop_name. rewrite N6, N5, nth_app_last.
      fold a0. rewrite E. reflexivity. }
    clear s H. intros s H.
    eapply runs_app; [refine (gen_opt v _ (with_aop (f_Artifacts q) q) _ ar_HomePage set_ar_HomePage _ _ _ _ _ _ H);
      [apply aop_step; intros; destruct v; reflexivity|now intros []|reflexivity]|].
    clear s H. intros s H.
    eapply runs_weaken; [|refine (gen_opt v _ (with_aop (f_Artifacts q) q) _ ar_URI set_ar_URI _ _ _ _ _ _ H);
      [apply aop_step; intros; destruct v; reflexivity|now intros []|reflexivity]].
    intros s' [H' _]. destruct a. exact H'.
  Qed.
End File.

(** a file without its snippets, as the parser stores it *)
Definition bare_file (sn : list (string * nat)) (f : File) : FileArena :=
  MkFile (f_FileName f) (f_SPDXIdentifier f) (f_FileTypes f) (f_Checksums f)
    (f_LicenseConcluded f) (f_LicenseInfoInFiles f) (f_LicenseComments f)
    (f_CopyrightText f) (f_Artifacts f) (f_Comment f) (f_Notice f) (f_Contributors f)
    (f_AttributionTexts f) (f_Dependencies f) sn (f_Annotations f).

(** where the identifier of a file is entered *)
Definition attach (pk : option nat) (i : nat) (d : DocumentArena) : DocumentArena :=
  match pk with None => set_d_Files (d_Files d ++ [i])%list d | Some _ => d end.
Definition attach_pkg (i : nat) (P : list PackageArena) (pk : option nat) : option (list PackageArena) :=
  match pk with None => Some P | Some n => update_nth n (fun p => set_p_Files (p_Files p ++ [i])%list p) P end.

Lemma file_id v d P pk F S x f s P' : ident_ok x -> attach_pkg (length F) P pk = Some P' -> in_file d P pk F S f s ->
  runs v s [("SPDXID", render_element_id x)] (in_file (attach pk (length F) d) P' pk F S (set_f_SPDXIdentifier x f)).
Proof.
  intros Hx HP H. destruct (upd_file_is d P pk F S (set_f_SPDXIdentifier x) f _ (in_file_aop d P pk F S None _ _ H)) as (s' & E & H' & _).
  pose proof H' as (N1 & N2 & N3 & N4 & N5 & N6 & N7).
  assert (exists s'', do_file_spdxid (render_element_id x) (set_ps_aop None s) = Ok s'' /\
    in_file (attach pk (length F) d) P' pk F S (set_f_SPDXIdentifier x f) s'') as (s'' & E'' & H'').
  { unfold do_file_spdxid. rewrite extract_render_elt by now apply ident_id. cbn [bindR]. rewrite E. cbn [bindR].
    rewrite N6, N4. destruct pk as [n|].
    - unfold upd_pkg, upd_ptr. rewrite N4, N3. cbn [attach_pkg] in HP. rewrite HP.
      eexists. split; [reflexivity|]. repeat split; auto.
    - unfold upd_doc. rewrite N2. cbn [attach_pkg] in HP. injection HP as <-.
      eexists. split; [reflexivity|]. repeat split; auto. }
  eapply runs_one; [|exact H''].
  rewrite (parse_pair_file v d P pk F S f) by assumption. rewrite <- E''. destruct v; reflexivity.
Qed.

Ltac fi_act := apply file_step; intros ? ?; match goal with |- context [parse_file ?v] => destruct v end; reflexivity.

Definition file_body (v : version) (f : File) : list chunk :=
    each "FileType" (f_FileTypes f)
    ++ map (fun c => Field "FileChecksum" (ck_Algorithm c ++ ": " ++ ck_Value c)) (f_Checksums f)
    ++ opt "LicenseConcluded" (f_LicenseConcluded f)
    ++ each "LicenseInfoInFile" (f_LicenseInfoInFiles f)
    ++ opt_text "LicenseComments" (f_LicenseComments f)
    ++ opt_text "FileCopyrightText" (f_CopyrightText f)
    ++ flat_map render_artifact (f_Artifacts f)
    ++ opt_text "FileComment" (f_Comment f)
    ++ opt_text "FileNotice" (f_Notice f)
    ++ each "FileContributor" (f_Contributors f)
    ++ match v with V21 => [] | _ => each_text "FileAttributionText" (f_AttributionTexts f) end
    ++ each "FileDependency" (f_Dependencies f).

Lemma render_file_split so v f : file_rep v f ->
  pairs_of (render_file so v f) =
  (("FileName", f_FileName f) :: ("SPDXID", render_element_id (f_SPDXIdentifier f)) :: pairs_of (file_body v f)
   ++ pairs_of (render_snippets so v (f_Snippets f)))%list.
Proof.
  intros ((N1 & _) & N2 & _). apply nonempty_true in N1. apply ident_name in N2 as [N2 _]. apply nonempty_true in N2.
  unfold render_file, opt at 1. rewrite N1, N2. unfold file_body. rewrite !pairs_of_app. cbn [pairs_of app].
  rewrite <- !app_assoc. reflexivity.
Qed.

Lemma run_file_body v d P pk F S (q : File) s :
  file_rep v q ->
  in_file d P pk F S (set_f_SPDXIdentifier (f_SPDXIdentifier q) (set_f_FileName (f_FileName q) zero_FileOf)) s ->
  runs v s (pairs_of (file_body v q)) (in_file d P pk F S (bare_file [] q)).
Proof.
  intros (_ & _ & _ & R4 & _ & _ & _ & _ & R9 & _ & _ & _ & R13 & _ & _ & _ & R17) H. unfold file_body.
  rewrite pairs_of_app. eapply runs_app; [refine (gen_each v _ (in_file d P pk F S) _ f_FileTypes set_f_FileTypes _ _ _ _ _ _ _ _ H);
    [fi_act|reflexivity|reflexivity|now intros []|reflexivity]|].
  clear H s. intros s H.
  rewrite pairs_of_app. eapply runs_app.
  { rewrite flat_map_single.
    refine (gen_items v _ (in_file d P pk F S) _ (checksum_rep v) f_Checksums set_f_Checksums _ _ _ _ R4 _ _ _ _ H);
    [intros a p s0; apply file_checksum|reflexivity|reflexivity|now intros []|reflexivity]. }
  clear H s. intros s H.
  rewrite pairs_of_app. eapply runs_app; [refine (gen_opt v _ (in_file d P pk F S) _ f_LicenseConcluded set_f_LicenseConcluded _ _ _ _ _ _ H);
    [fi_act|now intros []|reflexivity]|].
  clear H s. intros s H.
  rewrite pairs_of_app. eapply runs_app; [refine (gen_each v _ (in_file d P pk F S) _ f_LicenseInfoInFiles set_f_LicenseInfoInFiles _ _ _ _ _ _ _ _ H);
    [fi_act|reflexivity|reflexivity|now intros []|reflexivity]|].
  clear H s. intros s H.
  rewrite pairs_of_app. eapply runs_app; [refine (gen_opt_text v _ (in_file d P pk F S) _ f_LicenseComments set_f_LicenseComments _ _ _ _ _ _ H);
    [fi_act|now intros []|reflexivity]|].
  clear H s. intros s H.
  rewrite pairs_of_app. eapply runs_app; [refine (gen_opt_text v _ (in_file d P pk F S) _ f_CopyrightText set_f_CopyrightText _ _ _ _ _ _ H);
    [fi_act|now intros []|reflexivity]|].
  clear H s. intros s H.
  rewrite pairs_of_app. eapply runs_app.
  { refine (gen_items v _ (in_file d P pk F S) _ artifact_rep f_Artifacts set_f_Artifacts _ _ _ _ R9 _ _ _ _ H);
    [intros a p s0 _; apply file_artifact|reflexivity|reflexivity|now intros []|reflexivity]. }
  clear H s. intros s H.
  rewrite pairs_of_app. eapply runs_app; [refine (gen_opt_text v _ (in_file d P pk F S) _ f_Comment set_f_Comment _ _ _ _ _ _ H);
    [fi_act|now intros []|reflexivity]|].
  clear H s. intros s H.
  rewrite pairs_of_app. eapply runs_app; [refine (gen_opt_text v _ (in_file d P pk F S) _ f_Notice set_f_Notice _ _ _ _ _ _ H);
    [fi_act|now intros []|reflexivity]|].
  clear H s. intros s H.
  rewrite pairs_of_app. eapply runs_app; [refine (gen_each v _ (in_file d P pk F S) _ f_Contributors set_f_Contributors _ _ _ _ _ _ _ _ H);
    [fi_act|reflexivity|reflexivity|now intros []|reflexivity]|].
  clear H s. intros s H.
  rewrite pairs_of_app. 
  eapply runs_app with (Q := in_file d P pk F S (set_f_AttributionTexts (f_AttributionTexts q) _)).
  { destruct R13 as [_ R13]. destruct v.
    - rewrite R13 by reflexivity. apply runs_nil.
      rewrite (keep f_AttributionTexts set_f_AttributionTexts []); [exact H|now intros []|reflexivity].
    - refine (gen_each_text V22 _ (in_file d P pk F S) _ f_AttributionTexts set_f_AttributionTexts _ _ _ _ _ _ _ _ H);
        [apply file_step; intros ? ?; reflexivity|reflexivity|reflexivity|now intros []|reflexivity].
    - refine (gen_each_text V23 _ (in_file d P pk F S) _ f_AttributionTexts set_f_AttributionTexts _ _ _ _ _ _ _ _ H);
        [apply file_step; intros ? ?; reflexivity|reflexivity|reflexivity|now intros []|reflexivity]. }
  clear H s. intros s H.
  eapply runs_weaken; [|refine (gen_each v _ (in_file d P pk F S) _ f_Dependencies set_f_Dependencies _ _ _ _ _ _ _ _ H);
    [fi_act|reflexivity|reflexivity|now intros []|reflexivity]].
  clear H s. intros s H.
  match type of H with in_file _ _ _ _ _ ?p _ => replace (bare_file [] q) with p; [exact H|] end.
  unfold bare_file. rewrite R17. vm_compute. reflexivity.
Qed.

(** ** Fields of a snippet *)
Section Snip.
  Variable v : version.
  Variables (d : DocumentArena) (P : list PackageArena) (pk : option nat) (F : list FileArena) (f : FileArena)
    (S : list Snippet).
  Definition in_snip (x : Snippet) (s : pstate) : Prop :=
    is PsSnippet d P pk (F ++ [f]) (Some (length F)) (S ++ [x]) s /\ ps_snip s = Some (length S).

  Lemma upd_snip_is g x s : in_snip x s -> exists s', upd_snip g s = Ok s' /\ in_snip (g x) s'.
  Proof.
    intros [(H1 & H2 & H3 & H4 & H5 & H6 & H7) H8]. unfold upd_snip, upd_ptr. rewrite H8, H7, update_nth_last.
    eexists. split; [reflexivity|]. repeat split; assumption.
  Qed.
  Lemma parse_pair_snip x s t y : in_snip x s -> parse_pair v s (t, y) = parse_snippet v t y s.
  Proof. intros [(H & _) _]. unfold parse_pair. now rewrite H. Qed.
  Lemma snip_step t g : (forall x s, parse_snippet v t x s = upd_snip (g x) s) -> field_step v _ in_snip t g.
  Proof.
    intros A x r s H. destruct (upd_snip_is (g x) r _ H) as (s' & E & H').
    apply runs_one with (s' := s'); [|assumption]. rewrite (parse_pair_snip r), A by assumption. exact E.
  Qed.
  Lemma snip_range r q s : range_rep r -> in_snip q s ->
    runs v s (pairs_of (render_range r)) (in_snip (set_s_Ranges (s_Ranges q ++ [r])%list q)).
  Proof.
    intros (a & b & [Ha Ia] & [Hb Ib] & Hr) H.
    destruct (upd_snip_is (fun x => set_s_Ranges (s_Ranges x ++ [r])%list x) q _ H) as (s' & E & H').
    assert (forall t mk, (forall x s, parse_snippet v t x s = (let* (a, b) := extract_range x in
              upd_snip (fun x => set_s_Ranges (s_Ranges x ++ [mk a b])%list x) s)) -> r = mk a b ->
              runs v s [(t, show_Z a ++ ":" ++ show_Z b)] (in_snip (set_s_Ranges (s_Ranges q ++ [r])%list q))) as K.
    { intros t mk A ->. apply runs_one with (s' := s'); [|assumption]. rewrite (parse_pair_snip q), A by assumption.
      rewrite extract_range_app by assumption. exact E. }
    apply Z.eqb_neq in Ha, Hb.
    destruct Hr as [Hr|Hr]; rewrite Hr; unfold render_range; cbn [sr_StartPointer sr_EndPointer rp_Offset rp_LineNumber];
      rewrite Ha, Hb; cbn [negb andb Z.eqb app pairs_of]; rewrite <- Hr.
    - apply K with (mk := offset_range); [intros; destruct v; reflexivity|exact Hr].
    - apply K with (mk := line_range); [intros; destruct v; reflexivity|exact Hr].
  Qed.
  Lemma snip_from x q s : ident_ok x -> in_snip q s ->
    runs v s [("SnippetFromFileSPDXID", render_element_id x)] (in_snip (set_s_FromFile x q)).
  Proof.
    intros Hx H. destruct (upd_snip_is (set_s_FromFile x) q _ H) as (s' & E & H').
    apply runs_one with (s' := s'); [|assumption]. rewrite (parse_pair_snip q) by assumption.
    transitivity (let* d := extract_doc_element_id (render_element_id x) in upd_snip (set_s_FromFile (de_ElementRefID d)) s);
      [destruct v; reflexivity|].
    apply ident_id in Hx.
    assert (extract_doc_element_id (render_element_id x) = Ok (MkDEID "" x "")) as ->; [|exact E].
    change (render_element_id x) with (render_doc_element_id (MkDEID "" x "")).
    apply extract_render. unfold plain_ref. cbn. auto.
  Qed.
End Snip.

Ltac sn_act := apply snip_step; intros ? ?; match goal with |- context [parse_snippet ?v] => destruct v end; reflexivity.

Lemma run_snippet_body v d P pk F f S (q : Snippet) s :
  snippet_rep v q -> in_snip d P pk F f S (set_s_SPDXIdentifier (s_SPDXIdentifier q) zero_Snippet) s ->
  runs v s (tl (pairs_of (render_snippet v q))) (in_snip d P pk F f S q).
Proof.
  intros (R1 & R2 & R3 & _ & _ & _ & _ & _ & _ & R10) H.
  apply ident_name in R1 as [R1 _]. apply nonempty_true in R1.
  assert (nonempty (render_element_id (s_FromFile q)) = true) as N2 by reflexivity.
  unfold render_snippet. rewrite R1, N2. rewrite pairs_of_app. cbn [pairs_of app tl].
  match goal with |- runs _ _ (?a :: ?l) _ => change (a :: l) with ([a] ++ l)%list end.
  eapply runs_app; [exact (snip_from v d P pk F f S _ _ _ R2 H)|].
  clear H s. intros s H.
  rewrite pairs_of_app. eapply runs_app.
  { refine (gen_items v _ (in_snip d P pk F f S) _ range_rep s_Ranges set_s_Ranges _ _ _ _ R3 _ _ _ _ H);
    [intros a p s0; apply snip_range|reflexivity|reflexivity|now intros []|reflexivity]. }
  clear H s. intros s H.
  rewrite pairs_of_app. eapply runs_app; [refine (gen_opt v _ (in_snip d P pk F f S) _ s_LicenseConcluded set_s_LicenseConcluded _ _ _ _ _ _ H);
    [sn_act|now intros []|reflexivity]|].
  clear H s. intros s H.
  rewrite pairs_of_app. eapply runs_app; [refine (gen_each v _ (in_snip d P pk F f S) _ s_LicenseInfoInSnippet set_s_LicenseInfoInSnippet _ _ _ _ _ _ _ _ H);
    [sn_act|reflexivity|reflexivity|now intros []|reflexivity]|].
  clear H s. intros s H.
  rewrite pairs_of_app. eapply runs_app; [refine (gen_opt_text v _ (in_snip d P pk F f S) _ s_LicenseComments set_s_LicenseComments _ _ _ _ _ _ H);
    [sn_act|now intros []|reflexivity]|].
  clear H s. intros s H.
  rewrite pairs_of_app. eapply runs_app; [refine (gen_opt_text v _ (in_snip d P pk F f S) _ s_CopyrightText set_s_CopyrightText _ _ _ _ _ _ H);
    [sn_act|now intros []|reflexivity]|].
  clear H s. intros s H.
  rewrite pairs_of_app. eapply runs_app; [refine (gen_opt_text v _ (in_snip d P pk F f S) _ s_Comment set_s_Comment _ _ _ _ _ _ H);
    [sn_act|now intros []|reflexivity]|].
  clear H s. intros s H.
  rewrite pairs_of_app. eapply runs_app; [refine (gen_opt v _ (in_snip d P pk F f S) _ s_Name set_s_Name _ _ _ _ _ _ H);
    [sn_act|now intros []|reflexivity]|].
  clear H s. intros s H.
  rewrite pairs_of_app.
  eapply runs_app with (Q := in_snip d P pk F f S (set_s_AttributionTexts (s_AttributionTexts q) _)).
  { destruct R10 as [_ R13]. destruct v.
    - rewrite R13 by reflexivity. apply runs_nil.
      rewrite (keep s_AttributionTexts set_s_AttributionTexts []); [exact H|now intros []|reflexivity].
    - refine (gen_each_text V22 _ (in_snip d P pk F f S) _ s_AttributionTexts set_s_AttributionTexts _ _ _ _ _ _ _ _ H);
        [apply snip_step; intros ? ?; reflexivity|reflexivity|reflexivity|now intros []|reflexivity].
    - refine (gen_each_text V23 _ (in_snip d P pk F f S) _ s_AttributionTexts set_s_AttributionTexts _ _ _ _ _ _ _ _ H);
        [apply snip_step; intros ? ?; reflexivity|reflexivity|reflexivity|now intros []|reflexivity]. }
  clear H s. intros s H. apply runs_nil.
  match type of H with in_snip _ _ _ _ _ _ ?p _ => replace q with p; [exact H|] end.
  destruct q. vm_compute. reflexivity.
Qed.
