(** What is written as tag-value text is the tag-value part of the document. *)
From Verif Require Import GoStr GoStrFacts Types TvUtil TvParser TvReader TvWriter Sorting SpecTv SpecId SpecDoc SpecWrite SpecFormats TvCanon TvRoundTrip.

Lemma flat_map_alike {A B} (f : A -> list B) g l : (forall x, f (g x) = f x) -> flat_map f (map g l) = flat_map f l.
Proof. intros H. induction l as [|a l IH]; [reflexivity|]. cbn [map flat_map]. now rewrite H, IH. Qed.
Lemma flat_map_twice {A B} (f : A -> list B) g l : (forall x, flat_map f (g x) = f x) -> flat_map f (flat_map g l) = flat_map f l.
Proof. intros H. induction l as [|a l IH]; [reflexivity|]. cbn [flat_map]. now rewrite flat_map_app, H, IH. Qed.
Lemma range_alike r : flat_map render_range (tag_range r) = render_range r.
Proof.
  unfold tag_range, render_range. destruct r as [[a b c] [a' b' c']]. cbn [sr_StartPointer sr_EndPointer rp_Offset rp_LineNumber].
  destruct (negb (a =? 0)%Z && negb (a' =? 0)%Z) eqn:E1, (negb (b =? 0)%Z && negb (b' =? 0)%Z) eqn:E2; cbn [app flat_map sr_StartPointer sr_EndPointer rp_Offset rp_LineNumber];
    rewrite ?E1, ?E2; reflexivity.
Qed.
Lemma render_snippet_alike v s : render_snippet v (tag_snippet v s) = render_snippet v s.
Proof.
  unfold render_snippet. change (s_Ranges (tag_snippet v s)) with (flat_map tag_range (s_Ranges s)).
  rewrite (flat_map_twice _ _ _ range_alike). destruct v; reflexivity.
Qed.
Lemma map_get_map {A} (g : A -> A) k m : map_get k (map (fun e => (fst e, g (snd e))) m) = option_map g (map_get k m).
Proof. induction m as [|[j x] m IH]; [reflexivity|]. cbn [map map_get fst snd]. destruct (String.eqb k j); [reflexivity|exact IH]. Qed.
Ltac keep f p v :=
  let E := fresh in assert (E : f File ExternalRef (tag_package v p) = f File ExternalRef p) by (unfold tag_package; destruct (p_FilesAnalyzed p); reflexivity); rewrite E; clear E.
Section Part.
  Variables (so : sorter) (v : version).
  Lemma snippets_alike m : render_snippets so v (map (fun e => (fst e, tag_snippet v (snd e))) m) = render_snippets so v m.
  Proof.
    unfold render_snippets. rewrite map_map. cbn [fst]. apply flat_map_ext. intros k. rewrite map_get_map.
    destruct (map_get k m); [exact (render_snippet_alike v s)|reflexivity].
  Qed.
  Lemma render_file_alike f : render_file so v (tag_file v f) = render_file so v f.
  Proof.
    unfold render_file. change (f_Snippets (tag_file v f)) with (map (fun e => (fst e, tag_snippet v (snd e))) (f_Snippets f)).
    rewrite snippets_alike. destruct v; reflexivity.
  Qed.
  Lemma supplier_alike s : render_supplier (tag_supplier s) = render_supplier s.
  Proof. now destruct s as [[[|] ?]|]. Qed.
  Lemma originator_alike s : render_originator (tag_originator s) = render_originator s.
  Proof. now destruct s as [[[|] ?]|]. Qed.
  Lemma analyzed_kept p : p_FilesAnalyzed (tag_package v p) = p_FilesAnalyzed p.
  Proof. unfold tag_package. destruct (p_FilesAnalyzed p) eqn:E; exact E. Qed.
  Lemma present_kept p : p_FilesAnalyzed p = true -> p_IsFilesAnalyzedTagPresent (tag_package v p) = p_IsFilesAnalyzedTagPresent p.
  Proof. intros E. unfold tag_package. rewrite E. reflexivity. Qed.
  Lemma analyzed_alike p : render_files_analyzed (tag_package v p) = render_files_analyzed p.
  Proof. unfold render_files_analyzed. rewrite analyzed_kept. destruct (p_FilesAnalyzed p) eqn:E; [now rewrite present_kept|reflexivity]. Qed.
  Lemma code_kept p : p_VerificationCode (tag_package v p) = if p_FilesAnalyzed p then tag_code (p_VerificationCode p) else None.
  Proof. unfold tag_package. now destruct (p_FilesAnalyzed p). Qed.
  Lemma verification_alike p : render_verification_code (tag_package v p) = render_verification_code p.
  Proof.
    unfold render_verification_code. rewrite code_kept, analyzed_kept. destruct (p_VerificationCode p) as [[x l]|], (p_FilesAnalyzed p); try reflexivity.
    - destruct x as [|a x]; [reflexivity|]. destruct l; reflexivity.
    - cbn [vc_Value]. now rewrite andb_false_r.
  Qed.
  Lemma from_files_alike p : (if p_FilesAnalyzed (tag_package v p) then each "PackageLicenseInfoFromFiles" (p_LicenseInfoFromFiles (tag_package v p)) else []) =
    (if p_FilesAnalyzed p then each "PackageLicenseInfoFromFiles" (p_LicenseInfoFromFiles p) else []).
  Proof. rewrite analyzed_kept. destruct (p_FilesAnalyzed p) eqn:E; [|reflexivity]. f_equal. unfold tag_package. now rewrite E. Qed.
  Lemma attribution_kept p : from_22 v (p_AttributionTexts (tag_package v p)) = from_22 v (p_AttributionTexts p).
  Proof. unfold tag_package. destruct (p_FilesAnalyzed p), v; reflexivity. Qed.
  Lemma only_23_kept p : from_23 v (p_PrimaryPackagePurpose (tag_package v p)) = from_23 v (p_PrimaryPackagePurpose p) /\
    from_23 v (p_ReleaseDate (tag_package v p)) = from_23 v (p_ReleaseDate p) /\
    from_23 v (p_BuiltDate (tag_package v p)) = from_23 v (p_BuiltDate p) /\
    from_23 v (p_ValidUntilDate (tag_package v p)) = from_23 v (p_ValidUntilDate p).
  Proof. unfold tag_package. destruct (p_FilesAnalyzed p), v; repeat apply conj; reflexivity. Qed.
  Lemma fields_alike p : render_package_fields v (tag_package v p) = render_package_fields v p.
  Proof.
    assert (S : p_Supplier (tag_package v p) = tag_supplier (p_Supplier p)) by (unfold tag_package; destruct (p_FilesAnalyzed p); reflexivity).
    assert (O : p_Originator (tag_package v p) = tag_originator (p_Originator p)) by (unfold tag_package; destruct (p_FilesAnalyzed p); reflexivity).
    pose proof (attribution_kept p) as A. pose proof (only_23_kept p) as P.
    unfold render_package_fields. rewrite analyzed_alike, verification_alike, from_files_alike, S, O, supplier_alike, originator_alike. clear S O.
    keep @p_PackageName p v. keep @p_SPDXIdentifier p v. keep @p_Version p v. keep @p_FileName p v. keep @p_DownloadLocation p v. keep @p_Checksums p v.
    keep @p_HomePage p v. keep @p_SourceInfo p v. keep @p_LicenseConcluded p v. keep @p_LicenseDeclared p v. keep @p_LicenseComments p v.
    keep @p_CopyrightText p v. keep @p_Summary p v. keep @p_Description p v. keep @p_Comment p v. keep @p_ExternalReferences p v.
    destruct P as (P1 & P2 & P3 & P4). destruct v; cbn [from_22 from_23] in *; rewrite ?A, ?P1, ?P2, ?P3, ?P4; reflexivity.
  Qed.
End Part.

(** ** The whole document *)
Lemma isort_id {A} (key : A -> string) l : ordered key l -> isort key l = l.
Proof.
  induction l as [|x l IH]; intros O; [reflexivity|]. inversion O as [|? ? O' F]; subst. cbn [isort fold_right]. fold (isort key l). rewrite (IH O').
  destruct l as [|y l]; [reflexivity|]. cbn [insert]. inversion F; subst. now rewrite H1.
Qed.
Lemma ordered_map {A B} (key : A -> string) (key' : B -> string) (g : A -> B) l : (forall x, key' (g x) = key x) -> ordered key l -> ordered key' (map g l).
Proof.
  intros H O. induction O as [|x l O IH F]; [constructor|]. cbn [map]. constructor; [exact IH|]. apply Forall_map. eapply Forall_impl; [|exact F].
  cbn. intros y. now rewrite !H.
Qed.
Lemma file_id_kept v f : f_SPDXIdentifier (tag_file v f) = f_SPDXIdentifier f.
Proof. reflexivity. Qed.
Lemma package_id_kept v p : p_SPDXIdentifier (tag_package v p) = p_SPDXIdentifier p.
Proof. unfold tag_package. now destruct (p_FilesAnalyzed p). Qed.
Lemma package_name_kept v p : p_PackageName (tag_package v p) = p_PackageName p.
Proof. unfold tag_package. now destruct (p_FilesAnalyzed p). Qed.
Lemma package_files_kept v p : p_Files (tag_package v p) = map (tag_file v) (p_Files p).
Proof. unfold tag_package. now destruct (p_FilesAnalyzed p). Qed.
Lemma files_put v l p : set_p_Files (map (tag_file v) l) (tag_package v p) = tag_package v (set_p_Files l p).
Proof.
  unfold tag_package. change (p_FilesAnalyzed (set_p_Files l p)) with (p_FilesAnalyzed p). destruct (p_FilesAnalyzed p); destruct p;
    generalize (@from_22 string v), (from_23 v), tag_supplier, tag_originator, tag_code, (map (tag_file v)); intros; vm_compute; reflexivity.
Qed.
Lemma sort_package_fields so v p : render_package_fields v (sort_package so p) = render_package_fields v p.
Proof. reflexivity. Qed.

Section Whole.
  Variables (so : sorter) (v : version).
  Notation ins := insertion_sorter.
  Lemma render_file_ins f : NoDup (map fst (f_Snippets f)) -> render_file ins v f = render_file so v f.
  Proof. intros N. apply render_file_same; [exact N|]. exists (f_Snippets f). split; [reflexivity|now destruct f]. Qed.
  Lemma files_ins l : Forall (fun f => NoDup (map fst (f_Snippets f))) l ->
    flat_map (render_file ins v) (isort f_SPDXIdentifier (map (tag_file v) (sort_by so f_SPDXIdentifier l))) =
    flat_map (render_file so v) (sort_by so f_SPDXIdentifier l).
  Proof.
    intros N. rewrite isort_id by (apply (ordered_map f_SPDXIdentifier); [apply file_id_kept|apply sort_by_ordered]).
    assert (N' : Forall (fun f => NoDup (map fst (f_Snippets f))) (sort_by so f_SPDXIdentifier l)).
    { eapply Permutation_Forall; [symmetry; apply sort_by_perm|exact N]. }
    revert N'. generalize (sort_by so f_SPDXIdentifier l) as k. induction k as [|f k IH]; intros F; [reflexivity|]. inversion F; subst.
    cbn [map flat_map]. rewrite render_file_alike, render_file_ins by assumption. f_equal. now apply IH.
  Qed.
  Definition arranged (d : Document) : Document := tag_part v (sorted_document so d).
  Definition keyed (d : Document) : Prop := Forall (fun f => NoDup (map fst (f_Snippets f))) (d_Files d) /\
    Forall (fun p => Forall (fun f => NoDup (map fst (f_Snippets f))) (p_Files p)) (d_Packages d).
  Lemma package_ins p : Forall (fun f => NoDup (map fst (f_Snippets f))) (p_Files p) ->
    render_package ins v (tag_package v (sort_package so p)) = render_package so v p.
  Proof.
    intros N. unfold render_package. rewrite fields_alike, sort_package_fields, package_files_kept. f_equal. exact (files_ins (p_Files p) N).
  Qed.
  Lemma section_alike {A B} title (l : list A) (m : list B) b b' : (l = [] <-> m = []) -> b = b' -> section title l b = section title m b'.
  Proof. intros E ->. destruct l, m; try reflexivity; [discriminate (proj1 E eq_refl)|discriminate (proj2 E eq_refl)]. Qed.
  Lemma sorted_nil {A} (key : A -> string) l : sort_by so key l = [] <-> l = [].
  Proof.
    split; intros H.
    - apply Permutation_nil. rewrite <- H. apply sort_by_perm.
    - subst. apply Permutation_nil. symmetry. apply sort_by_perm.
  Qed.
  Lemma sections_ins d : keyed d -> render_sections ins v (arranged d) = render_sections so v d.
  Proof.
    intros [K1 K2]. unfold render_sections.
    change (d_OtherLicenses (arranged d)) with (d_OtherLicenses d). change (d_Relationships (arranged d)) with (d_Relationships d).
    change (d_Annotations (arranged d)) with (d_Annotations d). change (d_Reviews (arranged d)) with (d_Reviews d).
    change (d_Files (arranged d)) with (map (tag_file v) (sort_by so f_SPDXIdentifier (d_Files d))).
    change (d_Packages (arranged d)) with (map (tag_package v) (map (sort_package so) (sort_by so p_SPDXIdentifier (d_Packages d)))).
    f_equal; [|f_equal].
    - apply section_alike; [|exact (files_ins (d_Files d) K1)]. rewrite <- (sorted_nil f_SPDXIdentifier (d_Files d)).
      destruct (sort_by so f_SPDXIdentifier (d_Files d)); split; intros; try reflexivity; discriminate.
    - change (sort_by ins p_SPDXIdentifier) with (isort (@p_SPDXIdentifier File ExternalRef)).
      rewrite map_map, isort_id by (apply (ordered_map p_SPDXIdentifier); [intros x; now rewrite package_id_kept|apply sort_by_ordered]).
      assert (K : Forall (fun p => Forall (fun f => NoDup (map fst (f_Snippets f))) (p_Files p)) (sort_by so p_SPDXIdentifier (d_Packages d))).
      { eapply Permutation_Forall; [symmetry; apply sort_by_perm|exact K2]. }
      revert K. generalize (sort_by so p_SPDXIdentifier (d_Packages d)) as k. induction k as [|p k IH]; intros F; [reflexivity|]. inversion F; subst.
      cbn [map flat_map]. rewrite package_ins, package_name_kept, IH by assumption. reflexivity.
  Qed.
  Lemma header_ins d : render_header ins (arranged d) = render_header so d.
  Proof.
    unfold render_header. change (d_ExternalDocumentReferences (arranged d)) with (sort_by so edr_DocumentRefID (d_ExternalDocumentReferences d)).
    change (sort_by ins edr_DocumentRefID) with (isort edr_DocumentRefID). rewrite isort_id by apply sort_by_ordered. reflexivity.
  Qed.
  Lemma chunks_ins d : keyed d -> render_document_chunks ins v (arranged d) = render_document_chunks so v d.
  Proof.
    intros K. unfold render_document_chunks. change (d_CreationInfo (arranged d)) with (d_CreationInfo d).
    destruct (d_CreationInfo d); [|reflexivity]. now rewrite header_ins, sections_ins.
  Qed.
  Lemma arranged_sorted d : sorted_document ins (arranged d) = arranged d.
  Proof.
    unfold sorted_document at 1. change (d_ExternalDocumentReferences (arranged d)) with (sort_by so edr_DocumentRefID (d_ExternalDocumentReferences d)).
    change (d_Files (arranged d)) with (map (tag_file v) (sort_by so f_SPDXIdentifier (d_Files d))).
    change (d_Packages (arranged d)) with (map (tag_package v) (map (sort_package so) (sort_by so p_SPDXIdentifier (d_Packages d)))).
    change (@sort_by ins) with @isort. rewrite (isort_id edr_DocumentRefID) by apply sort_by_ordered.
    rewrite (isort_id f_SPDXIdentifier) by (apply (ordered_map f_SPDXIdentifier); [apply file_id_kept|apply sort_by_ordered]).
    rewrite map_map, isort_id by (apply (ordered_map p_SPDXIdentifier); [intros x; now rewrite package_id_kept|apply sort_by_ordered]).
    rewrite map_map. rewrite (map_ext _ (fun p => tag_package v (sort_package so p))).
    - rewrite <- (map_map (sort_package so) (tag_package v)). reflexivity.
    - intros p. unfold sort_package at 1. rewrite package_files_kept. change (p_Files (sort_package so p)) with (sort_by so f_SPDXIdentifier (p_Files p)).
      change (@sort_by ins) with @isort. rewrite isort_id by (apply (ordered_map f_SPDXIdentifier); [apply file_id_kept|apply sort_by_ordered]).
      now rewrite files_put.
  Qed.
  Lemma arranged_reordered d : document_reordered (tag_part v d) (arranged d).
  Proof.
    exists (sort_by so edr_DocumentRefID (d_ExternalDocumentReferences d)), (map (tag_file v) (sort_by so f_SPDXIdentifier (d_Files d))),
      (map (tag_package v) (sort_by so p_SPDXIdentifier (d_Packages d))),
      (map (tag_package v) (map (sort_package so) (sort_by so p_SPDXIdentifier (d_Packages d)))).
    split; [symmetry; apply sort_by_perm|]. split; [apply Permutation_map; symmetry; apply sort_by_perm|].
    split; [apply Permutation_map; symmetry; apply sort_by_perm|]. split; [|reflexivity].
    generalize (sort_by so p_SPDXIdentifier (d_Packages d)) as k. induction k as [|p k IH]; [constructor|]. constructor; [|exact IH].
    exists (map (tag_file v) (sort_by so f_SPDXIdentifier (p_Files p))). split.
    - rewrite package_files_kept. apply Permutation_map. symmetry. apply sort_by_perm.
    - now rewrite files_put.
  Qed.
  Lemma part_keyed d : representable v (tag_part v d) -> keyed d.
  Proof.
    intros (_ & _ & _ & _ & _ & _ & _ & _ & RP & RF & _).
    assert (K : forall l, Forall (file_rep v) (map (tag_file v) l) -> Forall (fun f => NoDup (map fst (f_Snippets f))) l).
    { intros l H. rewrite Forall_map in H. eapply Forall_impl; [|exact H]. intros f (_ & _ & _ & _ & _ & _ & _ & _ & _ & _ & _ & _ & _ & _ & N & _).
      revert N. change (f_Snippets (tag_file v f)) with (map (fun e => (fst e, tag_snippet v (snd e))) (f_Snippets f)). now rewrite map_map. }
    split; [exact (K _ RF)|]. change (d_Packages (tag_part v d)) with (map (tag_package v) (d_Packages d)) in RP. rewrite Forall_map in RP.
    eapply Forall_impl; [|exact RP]. intros p H. apply K. rewrite <- package_files_kept.
    destruct H as (_ & _ & _ & _ & _ & _ & _ & _ & _ & _ & _ & _ & _ & _ & _ & _ & _ & _ & _ & _ & _ & _ & _ & _ & _ & _ & _ & H & _). exact H.
  Qed.
  Lemma package_rep_reordered p q : package_reordered p q -> package_rep v p -> package_rep v q.
  Proof.
    intros (fs & P & ->) H. unfold package_rep in *.
    change (p_IsUnpackaged (set_p_Files fs p)) with (p_IsUnpackaged p). repeat match goal with H : _ /\ _ |- _ => destruct H end.
    repeat (apply conj; [assumption|]). apply conj; [|assumption]. eapply Permutation_Forall; eassumption.
  Qed.
  Lemma rep_reordered d e : document_reordered d e -> representable v d -> representable v e.
  Proof.
    intros (refs & fs & k & ps & P1 & P2 & P3 & F & ->) (R1 & R2 & R3 & R4 & R5 & R6 & R7 & (ci & E & R8 & R8') & R9 & R10 & R11 & R12 & R13 & R14 & R15).
    repeat (apply conj; [assumption|]). apply conj; [exact (Permutation_Forall P1 R6)|]. apply conj; [assumption|]. apply conj.
    - exists ci. split; [exact E|]. split; [exact R8|]. destruct R8' as [N|[N|[N|N]]]; [now left|right; left|right; right; left|right; right; right; exact N].
      + intros H. apply N. cbn in H. subst. now apply Permutation_nil, Permutation_sym.
      + intros H. apply N. cbn in H. subst. inversion F; subst. now apply Permutation_nil, Permutation_sym.
    - apply conj; [|apply conj; [exact (Permutation_Forall P2 R10)|repeat (apply conj; [assumption|]); assumption]].
      cbn. pose proof (Permutation_Forall P3 R9) as R. clear -F R. induction F; constructor; inversion R; subst; eauto using package_rep_reordered.
  Qed.
  Lemma round_trip_part d : representable v (tag_part v d) ->
    exists t d' e, render_document so v d = Ok (t, d') /\ document_reordered d d' /\ document_same (tag_part v d) e /\
      (Forall short (stream_lines t) -> read_into t = Ok (v, Some e)).
  Proof.
    intros R. pose proof (part_keyed d R) as K. pose proof (arranged_reordered d) as A.
    destruct (round_trip ins v (arranged d) (rep_reordered _ _ A R)) as (t & d1 & e & W & _ & M & _ & Rd).
    unfold render_document in W. rewrite chunks_ins in W by exact K. destruct (render_document_chunks so v d) as [l|?|] eqn:E; cbn [bindR] in W; try discriminate W.
    rewrite arranged_sorted in W. injection W as <- <-.
    assert (W' : render_document so v d = Ok (bytes l, sorted_document so d)) by (unfold render_document; now rewrite E).
    exists (bytes l), (sorted_document so d), e. split; [exact W'|]. split; [exact (write_reorders _ _ _ _ _ W')|]. split; [exact (maps_same _ _ _ A M)|exact Rd].
  Qed.
End Whole.
