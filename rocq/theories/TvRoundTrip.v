(** The round trip: what the writer prints for a representable document is read back. *)
From Verif Require Import GoStr GoStrFacts Sorting Types TvState TvUtil TvReader TvParser TvWriter SpecTv SpecId SpecDoc SpecRead
  SpecWrite TvReaderFacts TvUtilFacts TvParserFacts TvWriterFacts TvRun TvRunFile TvRunList TvRunDoc TvCanon.

(** ** The document read back *)
Definition canon_file (so : sorter) (f : File) : File := set_f_Snippets (entries so (f_Snippets f)) f.
Definition canon_package (so : sorter) (p : Package) : Package := set_p_Files (map (canon_file so) (pfiles so p)) p.
Definition canon_document (so : sorter) (d : Document) : Document :=
  set_d_ExternalDocumentReferences (sort_by so edr_DocumentRefID (d_ExternalDocumentReferences d))
    (set_d_Files (map (canon_file so) (sort_by so f_SPDXIdentifier (d_Files d)))
      (set_d_Packages (map (canon_package so) (sort_by so p_SPDXIdentifier (d_Packages d))) d)).

(** ** Following the references *)
Lemma deref_bfiles so l : forall A S0 B S1,
  mapO (fun i => match nth_error (A ++ bfiles so (length S0) l ++ B)%list i with
                 | Some f => deref_file (S0 ++ fsnips so l ++ S1)%list f | None => None end)
       (seq (length A) (length l)) = Some (map (canon_file so) l).
Proof.
  induction l as [|f l IH]; intros A S0 B S1; [reflexivity|].
  set (es := entries so (f_Snippets f)).
  set (bf := bare_file (number (length S0) es) f).
  assert (A ++ bfiles so (length S0) (f :: l) ++ B = (A ++ [bf]) ++ bfiles so (length (S0 ++ map snd es)) l ++ B)%list as EF.
  { cbn [bfiles]. fold es. fold bf. rewrite <- app_assoc, app_length, map_length. reflexivity. }
  assert (S0 ++ fsnips so (f :: l) ++ S1 = (S0 ++ map snd es) ++ fsnips so l ++ S1)%list as ES.
  { cbn [fsnips flat_map]. fold es. rewrite <- !app_assoc. reflexivity. }
  cbn [length seq mapO map].
  assert (nth_error (A ++ bfiles so (length S0) (f :: l) ++ B)%list (length A) = Some bf) as N.
  { rewrite nth_error_app2, Nat.sub_diag by lia. reflexivity. }
  rewrite N.
  assert (deref_file (S0 ++ fsnips so (f :: l) ++ S1)%list bf = Some (canon_file so f)) as D.
  { rewrite ES, <- app_assoc. unfold deref_file, bf. cbn [f_Snippets bare_file]. rewrite deref_number. reflexivity. }
  rewrite D. rewrite EF, ES.
  specialize (IH (A ++ [bf])%list (S0 ++ map snd es)%list B S1). rewrite (app_length A), Nat.add_1_r in IH. rewrite IH. reflexivity.
Qed.
Lemma deref_bpkgs so l s : forall P0 A S0 B S1 Q,
  ps_pkgs s = (P0 ++ bpkgs so (length A) l ++ Q)%list ->
  ps_files s = (A ++ bfiles so (length S0) (flat_map (pfiles so) l) ++ B)%list ->
  ps_snips s = (S0 ++ fsnips so (flat_map (pfiles so) l) ++ S1)%list ->
  mapO (deref_pkg_at s) (seq (length P0) (length l)) = Some (map (canon_package so) l).
Proof.
  induction l as [|p l IH]; intros P0 A S0 B S1 Q HP HF HS; [reflexivity|].
  cbn [length seq mapO map].
  set (bp := set_p_Files (seq (length A) (length (pfiles so p))) (bare p)).
  assert (deref_pkg_at s (length P0) = Some (canon_package so p)) as ->.
  { unfold deref_pkg_at. rewrite HP. rewrite nth_error_app2, Nat.sub_diag by lia. cbn [bpkgs app nth_error].
    unfold deref_pkg.
    assert (mapO (deref_file_at s) (seq (length A) (length (pfiles so p))) = Some (map (canon_file so) (pfiles so p))) as M.
    { unfold deref_file_at. rewrite HF, HS. cbn [flat_map]. rewrite bfiles_app, fsnips_app, <- !app_assoc. apply deref_bfiles. }
    cbn [p_Files set_p_Files]. rewrite M. reflexivity. }
  specialize (IH (P0 ++ [bp])%list (A ++ bfiles so (length S0) (pfiles so p))%list (S0 ++ fsnips so (pfiles so p))%list B S1 Q).
  rewrite (app_length P0), Nat.add_1_r in IH. rewrite IH; [reflexivity|..].
  - rewrite HP, <- app_assoc. cbn [bpkgs app]. rewrite app_length, bfiles_length. reflexivity.
  - rewrite HF. cbn [flat_map]. rewrite bfiles_app, app_length, <- !app_assoc. reflexivity.
  - rewrite HS. cbn [flat_map]. rewrite fsnips_app, <- !app_assoc. reflexivity.
Qed.

(** ** Sections *)
Lemma pairs_section {A} t (l : list A) body : (l = [] -> pairs_of body = []) -> pairs_of (section t l body) = pairs_of body.
Proof. intros H. unfold section. destruct l; [now rewrite H|reflexivity]. Qed.
Definition starts_ok (l : list (string * string)) : Prop :=
  match l with [] => True | p :: _ => ~ In (fst p) document_tags end.
Lemma starts_app a b : starts_ok a -> starts_ok b -> starts_ok (a ++ b)%list.
Proof. destruct a; cbn; auto. Qed.
Lemma starts_flat {A} (g : A -> list chunk) (ok : A -> Prop) l :
  (forall a, ok a -> starts_ok (pairs_of (g a))) -> Forall ok l -> starts_ok (pairs_of (flat_map g l)).
Proof.
  intros H Hl. induction Hl; cbn [flat_map]; [exact I|]. rewrite pairs_of_app. apply starts_app; auto.
Qed.
Lemma starts_opt t x : ~ In t document_tags -> starts_ok (pairs_of (opt t x)).
Proof. intros H. unfold opt. destruct (nonempty x); [exact H|exact I]. Qed.
Lemma starts_opt_text t x : ~ In t document_tags -> starts_ok (pairs_of (opt_text t x)).
Proof. intros H. unfold opt_text. destruct (nonempty x); [exact H|exact I]. Qed.
Lemma nonempty_flat {A} (g : A -> list chunk) (ok : A -> Prop) l :
  (forall a, ok a -> pairs_of (g a) <> []) -> Forall ok l -> l <> [] -> pairs_of (flat_map g l) <> [].
Proof.
  intros H Hl N. destruct Hl as [|a l Ha Hl]; [easy|]. cbn [flat_map]. rewrite pairs_of_app.
  intros E. apply app_eq_nil in E as [E _]. exact (H a Ha E).
Qed.

Ltac no_doc_tag := cbn; intros X; repeat (destruct X as [X|X]; [discriminate X|]); exact X.

Lemma file_first so v f : file_rep v f -> exists l, pairs_of (render_file so v f) = ("FileName", f_FileName f) :: l.
Proof. intros H. rewrite render_file_split by assumption. eauto. Qed.
Lemma package_first so v p : package_rep v p -> exists l, pairs_of (titled so v p) = ("PackageName", p_PackageName p) :: l.
Proof.
  intros H. unfold titled, render_package. cbn [pairs_of]. rewrite pairs_of_app, render_package_split by assumption. cbn [app]. eauto.
Qed.
Lemma license_first o : license_rep o -> exists l, pairs_of (render_other_license o) = ("LicenseID", ol_LicenseIdentifier o) :: l.
Proof.
  intros ((N & _) & _). apply nonempty_true in N. unfold render_other_license.
  assert (opt "LicenseID" (ol_LicenseIdentifier o) = [Field "LicenseID" (ol_LicenseIdentifier o)]) as -> by (unfold opt; now rewrite N).
  cbn [pairs_of app]. eauto.
Qed.
Lemma ref_not_bare v x : ref_rep x \/ special_rep v x -> (render_doc_element_id x =? "SPDXRef-") = false.
Proof.
  intros Hx. apply String.eqb_neq. intros E. destruct Hx as [Hx|Hx].
  - apply plain_rep, extract_render in Hx. rewrite E in Hx. discriminate Hx.
  - destruct Hx as (_ & _ & _ & [Hx|[Hx|[]]]); unfold render_doc_element_id in E; rewrite <- Hx in E; discriminate E.
Qed.
Lemma relationship_first v r : relationship_rep v r -> exists x l, pairs_of (render_relationship r) = ("Relationship", x) :: l.
Proof.
  intros (R1 & R2 & [(N & _) _] & _). apply nonempty_true in N. unfold render_relationship.
  rewrite (ref_not_bare v _ (or_introl R1)), (ref_not_bare v _ R2), N. cbn [negb andb app pairs_of]. eauto.
Qed.
Lemma annotation_first a : annotation_rep a -> exists x l, pairs_of (render_annotation a ++ [Raw LF]) = ("Annotator", x) :: l.
Proof. intros (R1 & _). unfold render_annotation. rewrite (actor3_nonempty _ _ R1). cbn [app pairs_of]. eauto. Qed.
Lemma review_first r : review_rep r -> exists x l, pairs_of (render_review r) = ("Reviewer", x) :: l.
Proof. intros (R1 & _). unfold render_review. rewrite (actor3_nonempty _ _ R1). cbn [app pairs_of]. eauto. Qed.
Lemma starts_ci ci : starts_ok (pairs_of (render_creation_info ci)).
Proof.
  unfold render_creation_info. rewrite !pairs_of_app.
  apply starts_app; [apply starts_opt; no_doc_tag|].
  apply starts_app; [destruct (ci_Creators ci); [exact I|no_doc_tag]|].
  apply starts_app; [apply starts_opt; no_doc_tag|].
  apply starts_app; [apply starts_opt_text; no_doc_tag|]. exact I.
Qed.
Lemma nonempty_ci ci : ci <> zero_CreationInfo -> pairs_of (render_creation_info ci) <> [].
Proof.
  intros N E. apply N. unfold render_creation_info in E. rewrite !pairs_of_app in E.
  apply app_eq_nil in E as [E1 E]. apply app_eq_nil in E as [E2 E]. apply app_eq_nil in E as [E3 E].
  apply app_eq_nil in E as [E4 _]. destruct ci as [a b c e]. cbn [ci_LicenseListVersion ci_Creators ci_Created ci_CreatorComment] in *.
  unfold opt, opt_text in *.
  destruct (nonempty a) eqn:Ea; [discriminate|]. destruct b; [|discriminate].
  destruct (nonempty c) eqn:Ec; [discriminate|]. destruct (nonempty e) eqn:Ee; [discriminate|].
  apply nonempty_false in Ea, Ec, Ee. now subst.
Qed.

Definition section_pairs so v (d : Document) : list (string * string) :=
  (pairs_of (flat_map (render_file so v) (sort_by so f_SPDXIdentifier (d_Files d)))
   ++ pairs_of (flat_map (titled so v) (sort_by so p_SPDXIdentifier (d_Packages d)))
   ++ pairs_of (flat_map render_other_license (d_OtherLicenses d))
   ++ pairs_of (flat_map render_relationship (d_Relationships d))
   ++ pairs_of (flat_map (fun a => (render_annotation a ++ [Raw LF])%list) (d_Annotations d))
   ++ pairs_of (flat_map render_review (d_Reviews d)))%list.
Lemma sort_nil {A} so (key : A -> string) : sort_by so key [] = [].
Proof. apply Permutation_nil. symmetry. apply sort_by_perm. Qed.
Lemma render_sections_pairs so v d : pairs_of (render_sections so v d) = section_pairs so v d.
Proof.
  unfold render_sections, section_pairs. rewrite !pairs_of_app.
  rewrite (pairs_section _ (d_Files d)) by (intros ->; now rewrite sort_nil).
  rewrite !pairs_section by now intros ->.
  rewrite pairs_of_app. cbn [pairs_of]. rewrite app_nil_r. reflexivity.
Qed.
Lemma sort_not_nil {A} so (key : A -> string) l : l <> [] -> sort_by so key l <> [].
Proof. intros N E. apply N. apply Permutation_nil. rewrite <- E. apply sort_by_perm. Qed.

Ltac split_rep H := destruct H as (R1 & R2 & R3 & R4 & R5 & R6 & R7 & (ci & Rci & Rc & Rz) & R9 & R10 & R11 & R12 & R13 & R14 & R15).

Lemma starts_sections so v d : representable v d -> starts_ok (section_pairs so v d).
Proof.
  intros H. split_rep H. unfold section_pairs. repeat apply starts_app.
  - apply starts_flat with (ok := file_rep v); [|now apply sorted_Forall]. intros a Ha. destruct (file_first so v a Ha) as (l & ->). no_doc_tag.
  - apply starts_flat with (ok := package_rep v); [|now apply sorted_Forall]. intros a Ha. destruct (package_first so v a Ha) as (l & ->). no_doc_tag.
  - apply starts_flat with (ok := license_rep); [|assumption]. intros a Ha. destruct (license_first a Ha) as (l & ->). no_doc_tag.
  - apply starts_flat with (ok := relationship_rep v); [|assumption]. intros a Ha. destruct (relationship_first v a Ha) as (x & l & ->). no_doc_tag.
  - apply starts_flat with (ok := annotation_rep); [|assumption]. intros a Ha. destruct (annotation_first a Ha) as (x & l & ->). no_doc_tag.
  - apply starts_flat with (ok := review_rep); [|assumption]. intros a Ha. destruct (review_first a Ha) as (x & l & ->). no_doc_tag.
Qed.
Lemma nonempty_sections so v d : representable v d -> has_elements d -> section_pairs so v d <> [].
Proof.
  intros H E. split_rep H. unfold section_pairs. intros X.
  apply app_eq_nil in X as [X1 X]. apply app_eq_nil in X as [X2 X]. apply app_eq_nil in X as [X3 X].
  apply app_eq_nil in X as [X4 X]. apply app_eq_nil in X as [X5 X6].
  destruct E as [E|[E|[E|[E|[E|E]]]]].
  - revert X1. apply nonempty_flat with (ok := file_rep v); [|now apply sorted_Forall|now apply sort_not_nil].
    intros a Ha. destruct (file_first so v a Ha) as (l & ->). discriminate.
  - revert X2. apply nonempty_flat with (ok := package_rep v); [|now apply sorted_Forall|now apply sort_not_nil].
    intros a Ha. destruct (package_first so v a Ha) as (l & ->). discriminate.
  - revert X3. apply nonempty_flat with (ok := license_rep); [|assumption..]. intros a Ha. destruct (license_first a Ha) as (l & ->). discriminate.
  - revert X4. apply nonempty_flat with (ok := relationship_rep v); [|assumption..].
    intros a Ha. destruct (relationship_first v a Ha) as (x & l & ->). discriminate.
  - revert X5. apply nonempty_flat with (ok := annotation_rep); [|assumption..].
    intros a Ha. destruct (annotation_first a Ha) as (x & l & ->). discriminate.
  - revert X6. apply nonempty_flat with (ok := review_rep); [|assumption..].
    intros a Ha. destruct (review_first a Ha) as (x & l & ->). discriminate.
Qed.

(** ** The whole run *)
Definition document_pairs so v d ci : list (string * string) :=
  (pairs_of (render_header so d) ++ pairs_of (render_creation_info ci) ++ section_pairs so v d)%list.
Definition done so (d : Document) (s : pstate) : Prop :=
  check_file_id s = Ok tt /\ check_pkg_id s = Ok tt /\
  exists dd, ps_doc s = Some dd /\ deref_doc s dd = Some (canon_document so d).

Lemma run_document so v d ci : representable v d -> d_CreationInfo d = Some ci ->
  runs v zero_pstate (document_pairs so v d ci) (done so d).
Proof.
  intros H Eci. unfold document_pairs. eapply runs_app; [now apply run_header|]. intros s Hs.
  assert (starts_ok (pairs_of (render_creation_info ci) ++ section_pairs so v d)) as St.
  { apply starts_app; [apply starts_ci|now apply starts_sections]. }
  assert (pairs_of (render_creation_info ci) ++ section_pairs so v d <> [])%list as Ne.
  { intros X. apply app_eq_nil in X as [X1 X2]. pose proof H as (_ & _ & _ & _ & _ & _ & _ & (ci' & E' & _ & Z) & _).
    rewrite Eci in E'. inversion E'; subst ci'. destruct Z as [Z|Z].
    - now apply nonempty_ci in Z.
    - now apply (nonempty_sections so v d H) in Z. }
  assert (forall s, in_ci (head_doc so d) zero_CreationInfo s ->
    runs v s (pairs_of (render_creation_info ci) ++ section_pairs so v d) (done so d)) as K.
  2:{ destruct (pairs_of (render_creation_info ci) ++ section_pairs so v d)%list as [|p l] eqn:El; [easy|].
      apply (leave_start v (head_doc so d)); [exact Hs|reflexivity|exact St|]. apply K.
      destruct Hs as (H1 & H2 & H3 & H4 & H5 & H6 & H7). repeat split; assumption. }
  clear s Hs St Ne. intros s Hs.
  destruct H as (R1 & R2 & R3 & R4 & R5 & R6 & R7 & (ci0 & Rci & Rc & Rz) & R9 & R10 & R11 & R12 & R13 & R14 & R15).
  rewrite Eci in Rci. injection Rci as <-.
  eapply runs_app; [exact (run_creation_info v (head_doc so d) ci s Rc Hs)|]. clear s Hs. intros s Hs.
  set (d1 := set_d_CreationInfo (Some ci) (head_doc so d)) in *.
  assert (ready None d1 [] [] [] s) as Hr.
  { exists PsCreationInfo, None. split; [exact Hs|]. split; [now left|]. split; [now left|]. repeat split. discriminate. }
  clear Hs. unfold section_pairs.
  eapply runs_app; [refine (run_files so v _ d1 [] [] [] s _ Hr); now apply sorted_Forall|]. clear s Hr. intros s Hr.
  eapply runs_app; [refine (run_packages so v _ _ _ _ _ _ s _ Hr); now apply sorted_Forall|]. clear s Hr. intros s (pk & Hr).
  cbn [app length] in Hr.
  set (fs := sort_by so f_SPDXIdentifier (d_Files d)) in *. set (ps := sort_by so p_SPDXIdentifier (d_Packages d)) in *.
  match type of Hr with ready _ ?dd ?PP ?FF ?SS _ => set (d2 := dd) in *; set (P := PP) in *; set (F := FF) in *; set (S := SS) in * end.
  pose proof (ready_check_file _ _ _ _ _ _ Hr) as Cf. pose proof (ready_check_pkg _ _ _ _ _ _ Hr) as Cp.
  destruct Hr as (st & fi & Hi & _ & _ & Hst).
  assert (check_file_id s = Ok tt -> forall ok d s', some_state P pk F fi S ok d s' -> check_file_id s' = Ok tt) as Tf.
  { intros C ok e s' (st' & _ & (N1 & N2 & N3 & N4 & N5 & N6 & N7) & _). destruct Hi as (H1 & H2 & H3 & H4 & H5 & H6 & H7).
    unfold check_file_id, cur_file in *. rewrite N6, N5. rewrite H6, H5 in C. exact C. }
  assert (check_pkg_id s = Ok tt -> forall ok d s', some_state P pk F fi S ok d s' -> check_pkg_id s' = Ok tt) as Tp.
  { intros C ok e s' (st' & _ & (N1 & N2 & N3 & N4 & N5 & N6 & N7) & _). destruct Hi as (H1 & H2 & H3 & H4 & H5 & H6 & H7).
    unfold check_pkg_id, cur_pkg in *. rewrite N4, N3. rewrite H4, H3 in C. exact C. }
  specialize (Tf Cf). specialize (Tp Cp). clear Cf Cp.
  assert (some_state P pk F fi S not_start_review d2 s) as Hg.
  { exists st. split; [now destruct st|]. split; [exact Hi|discriminate]. }
  clear Hi Hst. clear st.
  eapply runs_app; [exact (run_licenses v P pk F fi S _ d2 s R11 eq_refl Hg)|]. clear s Hg. intros s Hg.
  apply (some_state_weaken P pk F fi S _ not_start) in Hg; [|now intros []].
  eapply runs_app; [refine (run_relationships v P pk F fi S _ _ s R12 _ Hg); reflexivity|]. clear s Hg. intros s Hg.
  eapply runs_app; [refine (run_annotations v P pk F fi S _ _ s R13 _ Hg); reflexivity|]. clear s Hg. intros s Hg.
  eapply runs_weaken; [|refine (run_reviews v P pk F fi S _ _ s R14 _ Hg); reflexivity]. clear s Hg. intros s Hg.
  split; [exact (Tf _ _ _ Hg)|]. split; [exact (Tp _ _ _ Hg)|].
  destruct Hg as (st & _ & (H1 & H2 & H3 & H4 & H5 & H6 & H7) & _). eexists. split; [exact H2|].
  assert (mapO (deref_file_at s) (seq 0 (length fs)) = Some (map (canon_file so) fs)) as DF.
  { unfold deref_file_at. rewrite H5, H7. exact (deref_bfiles so fs [] [] _ _). }
  assert (mapO (deref_pkg_at s) (seq 0 (length ps)) = Some (map (canon_package so) ps)) as DP.
  { apply (deref_bpkgs so ps s [] (bfiles so 0 fs) (fsnips so fs) [] [] []).
    - rewrite app_nil_r. exact H3.
    - rewrite app_nil_r. exact H5.
    - rewrite app_nil_r. exact H7. }
  unfold deref_doc.
  change (d_Packages _) with (seq 0 (length ps)). rewrite DP.
  change (d_Files _) with (seq 0 (length fs)). rewrite DF.
  f_equal. unfold canon_document. fold fs ps. destruct d. cbn in Eci, R15. subst. reflexivity.
Qed.

(** ** The document read back is the caller's *)
Lemma canon_file_same so v f : file_rep v f -> file_same f (canon_file so f).
Proof.
  intros H. assert (NoDup (map fst (f_Snippets f))) as N by apply H.
  exists (entries so (f_Snippets f)). split; [now apply entries_perm|reflexivity].
Qed.
Lemma canon_files_same so v l : Forall (file_rep v) l -> Forall2 file_same l (map (canon_file so) l).
Proof. intros H. induction H; cbn [map]; constructor; eauto using canon_file_same. Qed.
Lemma canon_maps so v d : representable v d -> document_maps (sorted_document so d) (canon_document so d).
Proof.
  intros H. split_rep H.
  exists (map (canon_file so) (sort_by so f_SPDXIdentifier (d_Files d))),
    (map (canon_package so) (sort_by so p_SPDXIdentifier (d_Packages d))).
  split; [apply (canon_files_same so v); now apply sorted_Forall|]. split; [|now destruct d].
  change (d_Packages (sorted_document so d)) with (map (sort_package so) (sort_by so p_SPDXIdentifier (d_Packages d))).
  apply (sorted_Forall so p_SPDXIdentifier) in R9. induction R9 as [|p l Hp Hl IH]; cbn [map]; constructor; [|assumption].
  exists (map (canon_file so) (pfiles so p)). split; [|now destruct p].
  apply (canon_files_same so v). apply sorted_Forall. apply Hp.
Qed.
Lemma maps_same d d' e : document_reordered d d' -> document_maps d' e -> document_same d e.
Proof.
  intros (refs & files & k & pkgs & P1 & P2 & P3 & F & ->) (fs & ps & F1 & F2 & ->).
  exists refs, fs, ps. split; [assumption|]. split; [now exists files|]. split; [|now destruct d].
  exists k. split; [assumption|]. cbn [d_Packages set_d_ExternalDocumentReferences set_d_Files set_d_Packages] in F2.
  clear -F F2. revert ps F2. induction F as [|p q a b Hpq Hab IH]; intros ps F2; inversion F2 as [|? r ? c Hqr Hbc]; subst; constructor.
  - destruct Hpq as (f1 & P & ->). destruct Hqr as (f2 & Q & ->). exists f2. split; [|reflexivity]. now exists f1.
  - now apply IH.
Qed.

Lemma first_version_pairs so v d ci : representable v d -> first_version (document_pairs so v d ci) = version_string v.
Proof.
  intros (R1 & _). unfold document_pairs, render_header. rewrite R1. unfold first_version. now destruct v.
Qed.
Lemma document_pairs_nonempty so v d ci : representable v d -> document_pairs so v d ci <> [].
Proof. intros (R1 & _). unfold document_pairs, render_header. rewrite R1. now destruct v. Qed.

Lemma round_trip so v d : representable v d ->
  exists t d' e, render_document so v d = Ok (t, d') /\ document_reordered d d' /\ document_maps d' e /\ document_same d e /\
    (Forall short (stream_lines t) -> read_into t = Ok (v, Some e)).
Proof.
  intros H. assert (exists ci, d_CreationInfo d = Some ci) as (ci & Eci).
  { split_rep H. eauto. }
  set (l := (render_header so d ++ render_creation_info ci ++ render_sections so v d)%list).
  assert (render_document so v d = Ok (bytes l, sorted_document so d)) as W.
  { unfold render_document, render_document_chunks. now rewrite Eci. }
  exists (bytes l), (sorted_document so d), (canon_document so d).
  pose proof (write_reorders _ _ _ _ _ W) as Hr. pose proof (canon_maps so v d H) as Hm.
  split; [exact W|]. split; [exact Hr|]. split; [exact Hm|]. split; [exact (maps_same _ _ _ Hr Hm)|].
  intros F. unfold read_into. rewrite (read_bytes l) by (auto; now apply ok_document). cbn [bindR].
  assert (pairs_of l = document_pairs so v d ci) as ->.
  { unfold l, document_pairs. now rewrite !pairs_of_app, render_sections_pairs. }
  destruct (document_pairs so v d ci) as [|p q] eqn:E; [now elim (document_pairs_nonempty so v d ci)|]. rewrite <- E. clear E p q.
  rewrite first_version_pairs by assumption.
  assert (parse_tag_values v (document_pairs so v d ci) = Ok (Some (canon_document so d))) as P.
  { destruct (run_document so v d ci H Eci) as (s & E & C1 & C2 & dd & D1 & D2). unfold parse_tag_values.
    rewrite E. cbn [bindR]. rewrite C1. cbn [bindR]. rewrite C2. cbn [bindR]. rewrite D1, D2. reflexivity. }
  destruct v; cbn [version_string String.eqb Ascii.eqb Bool.eqb]; rewrite P; reflexivity.
Qed.
Lemma write_read_write so so' v d t d' w e : representable v d -> distinct_ids d ->
  render_document so v d = Ok (t, d') -> Forall short (stream_lines t) -> read_into t = Ok (w, Some e) ->
  w = v /\ exists e', render_document so' w e = Ok (t, e').
Proof.
  intros H N W F R. destruct (round_trip so v d H) as (t0 & d0 & e0 & W0 & _ & _ & S0 & R0).
  rewrite W in W0. injection W0 as <- <-. rewrite (R0 F) in R. injection R as <- <-.
  split; [reflexivity|]. exact (write_canonical so so' v d e0 t d' N S0 W).
Qed.
