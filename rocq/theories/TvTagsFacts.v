(** Tags of accepted inputs. *)
From Verif Require Import GoStr GoStrFacts Types TvState TvUtil TvReader TvParser SpecTv SpecTags
  TvReaderFacts TvParserFacts DenoteGlobal.

Lemma switch_tag t (cases : list (string * action)) e x s s' :
  switch t cases (fun _ _ => Err e) x s = Ok s' -> mem t (map fst cases) = true.
Proof.
  intros H. apply switch_in in H as [(a & I & _)|[_ H]]; [|discriminate].
  unfold mem. apply existsb_exists. exists t. rewrite String.eqb_refl. split; [|reflexivity].
  change t with (fst (t, a)). now apply in_map.
Qed.
Lemma tags_sub v t : forall l, mem t l = true -> forallb (fun k => mem k (vocabulary v)) l = true ->
  In t (vocabulary v).
Proof.
  intros l M F. unfold mem in M. apply existsb_exists in M as (k & I & E). apply String.eqb_eq in E. subst k.
  rewrite forallb_forall in F. specialize (F t I). unfold mem in F. apply existsb_exists in F as (k & J & E).
  apply String.eqb_eq in E. now subst.
Qed.
Ltac tag_sub v := eapply tags_sub; [eassumption|destruct v; reflexivity].
Lemma creation_info_tag v s t x s' : parse_creation_info v t x s = Ok s' -> In t (vocabulary v).
Proof.
  unfold parse_creation_info. destruct (ps_doc s); [|discriminate]. cbv zeta. intros H. apply switch_tag in H.
  tag_sub v.
Qed.
Lemma parse_pair_tag v s t x s' : parse_pair v s (t, x) = Ok s' -> In t (vocabulary v).
Proof.
  unfold parse_pair. destruct (ps_st s); intros H.
  - unfold parse_start in H. cbv zeta in H. apply switch_in in H as [(a & I & _)|[_ H]].
    + assert (M : mem t (map fst start_cases) = true).
      { unfold mem. apply existsb_exists. exists t. rewrite String.eqb_refl. split; [|reflexivity].
        change t with (fst (t, a)). now apply in_map. }
      tag_sub v.
    + now apply creation_info_tag in H.
  - now apply creation_info_tag in H.
  - unfold parse_package in H. cbv zeta in H. apply switch_tag in H. tag_sub v.
  - unfold parse_file in H. cbv zeta in H. apply switch_tag in H. tag_sub v.
  - apply switch_tag in H. tag_sub v.
  - apply switch_tag in H. tag_sub v.
  - apply switch_tag in H. tag_sub v.
Qed.
Lemma parse_pairs_tags v l : forall s s', parse_pairs v s l = Ok s' -> Forall (fun p => In (fst p) (vocabulary v)) l.
Proof.
  induction l as [|[t x] l IH]; intros s s' H; simpl in H; [constructor|].
  apply bindR_ok in H as (s1 & H1 & H). constructor; [|eauto]. simpl. eapply parse_pair_tag; exact H1.
Qed.
Lemma parse_tags v l d : parse_tag_values v l = Ok d -> Forall (fun p => In (fst p) (vocabulary v)) l.
Proof. unfold parse_tag_values. intros H. apply bindR_ok in H as (s & H & _). eapply parse_pairs_tags; eauto. Qed.
Lemma parse_unknown v a t x b : ~ In t (vocabulary v) -> exists e, parse_tag_values v (a ++ (t, x) :: b) = Err e.
Proof.
  intros N. assert (NE : (a ++ (t, x) :: b)%list <> []) by (destruct a; discriminate).
  destruct (parse_total v _ NE) as [(d & H)|H]; [|exact H].
  apply parse_tags in H. apply Forall_app in H as [_ H]. inversion H; subst. contradiction.
Qed.
Lemma read_tags content v d : read_into content = Ok (v, d) ->
  exists l, read_tag_values content = Ok l /\ Forall (fun p => In (fst p) (vocabulary v)) l.
Proof.
  intros H. apply dispatch_inv in H as (a & b & R & _ & P). apply parse_tags in P. eauto.
Qed.

(** ** Every tag of the vocabulary is usable *)
Definition every_tag (v : version) : list (string * string) :=
  [("SPDXVersion", version_string v); ("DataLicense", "CC0-1.0"); ("SPDXID", "SPDXRef-DOCUMENT"); ("DocumentName", "n");
   ("DocumentNamespace", "ns"); ("ExternalDocumentRef", "DocumentRef-a u SHA1:b"); ("DocumentComment", "c");
   ("LicenseListVersion", "3"); ("Creator", "Tool: t"); ("Created", "d"); ("CreatorComment", "c");
   ("PackageName", "p"); ("SPDXID", "SPDXRef-p"); ("PackageVersion", "1"); ("PackageFileName", "f");
   ("PackageSupplier", "NOASSERTION"); ("PackageOriginator", "Person: x"); ("PackageDownloadLocation", "l");
   ("FilesAnalyzed", "true"); ("PackageVerificationCode", "00"); ("PackageChecksum", "SHA1: 00");
   ("PackageHomePage", "h"); ("PackageSourceInfo", "s"); ("PackageLicenseConcluded", "l");
   ("PackageLicenseInfoFromFiles", "l"); ("PackageLicenseDeclared", "l"); ("PackageLicenseComments", "c");
   ("PackageCopyrightText", "c"); ("PackageSummary", "s"); ("PackageDescription", "d"); ("PackageComment", "c");
   ("ExternalRef", "SECURITY cpe x"); ("ExternalRefComment", "c")] ++
  match v with V21 => [] | _ => [("PackageAttributionText", "a")] end ++
  match v with V23 => [("PrimaryPackagePurpose", "FILE"); ("ReleaseDate", "r"); ("BuiltDate", "b"); ("ValidUntilDate", "u")]
  | _ => [] end ++
  [("FileName", "f"); ("SPDXID", "SPDXRef-f"); ("FileType", "TEXT"); ("FileChecksum", "MD5: 00"); ("LicenseConcluded", "l");
   ("LicenseInfoInFile", "l"); ("LicenseComments", "c"); ("FileCopyrightText", "c"); ("ArtifactOfProjectName", "a");
   ("ArtifactOfProjectHomePage", "h"); ("ArtifactOfProjectURI", "u"); ("FileComment", "c"); ("FileNotice", "n");
   ("FileContributor", "c"); ("FileDependency", "d")] ++
  match v with V21 => [] | _ => [("FileAttributionText", "a")] end ++
  [("SnippetSPDXID", "SPDXRef-s"); ("SnippetFromFileSPDXID", "SPDXRef-f"); ("SnippetByteRange", "1:2");
   ("SnippetLineRange", "3:4"); ("SnippetLicenseConcluded", "l"); ("LicenseInfoInSnippet", "l");
   ("SnippetLicenseComments", "c"); ("SnippetCopyrightText", "c"); ("SnippetComment", "c"); ("SnippetName", "n")] ++
  match v with V21 => [] | _ => [("SnippetAttributionText", "a")] end ++
  [("LicenseID", "LicenseRef-1"); ("ExtractedText", "t"); ("LicenseName", "n"); ("LicenseCrossReference", "r");
   ("LicenseComment", "c"); ("Relationship", "SPDXRef-p CONTAINS SPDXRef-f"); ("RelationshipComment", "c");
   ("Annotator", "Tool: t"); ("AnnotationDate", "d"); ("AnnotationType", "REVIEW"); ("SPDXREF", "SPDXRef-p");
   ("AnnotationComment", "c"); ("Reviewer", "Person: r"); ("ReviewDate", "d"); ("ReviewComment", "c")].
Lemma every_tag_ok v : exists d, parse_tag_values v (every_tag v) = Ok (Some d).
Proof. destruct v; eexists; vm_compute; reflexivity. Qed.
Lemma every_tag_complete v : forallb (fun t => mem t (map fst (every_tag v))) (vocabulary v) = true.
Proof. destruct v; reflexivity. Qed.
Lemma vocabulary_used v t : In t (vocabulary v) ->
  exists l d, parse_tag_values v l = Ok (Some d) /\ In t (map fst l).
Proof.
  intros I. destruct (every_tag_ok v) as [d D]. exists (every_tag v), d. split; [exact D|].
  pose proof (every_tag_complete v) as C. rewrite forallb_forall in C. specialize (C t I).
  unfold mem in C. apply existsb_exists in C as (k & J & E). apply String.eqb_eq in E. now subst.
Qed.
