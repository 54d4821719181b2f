(** The writer's output does not depend on orders; what it does to the document. *)
From Verif Require Import GoStr GoStrFacts Sorting Types TvUtil TvReader TvParser TvWriter SpecTv SpecId SpecDoc
  SpecWrite TvReaderFacts TvUtilFacts TvParserFacts TvWriterFacts TvRun TvRunFile TvRunList.

(** ** Reordering *)
Lemma Forall2_self {A} (R : A -> A -> Prop) l : (forall x, R x x) -> Forall2 R l l.
Proof. intros H. induction l; auto. Qed.
Lemma Forall2_weaken {A B} (R S : A -> B -> Prop) l m : (forall x y, R x y -> S x y) -> Forall2 R l m -> Forall2 S l m.
Proof. intros H F. induction F; auto. Qed.
Lemma Forall2_map_r {A B} (R : A -> B -> Prop) (f : A -> B) l : (forall x, R x (f x)) -> Forall2 R l (map f l).
Proof. intros H. induction l; cbn [map]; auto. Qed.

Lemma write_reorders so v d t d' : render_document so v d = Ok (t, d') -> document_reordered d d'.
Proof.
  unfold render_document. destruct (render_document_chunks so v d); cbn [bindR]; intros H; inversion H; subst.
  exists (sort_by so edr_DocumentRefID (d_ExternalDocumentReferences d)), (sort_by so f_SPDXIdentifier (d_Files d)),
    (sort_by so p_SPDXIdentifier (d_Packages d)), (map (sort_package so) (sort_by so p_SPDXIdentifier (d_Packages d))).
  split; [symmetry; apply sort_by_perm|]. split; [symmetry; apply sort_by_perm|].
  split; [symmetry; apply sort_by_perm|]. split; [|reflexivity].
  apply Forall2_map_r. intros p. exists (sort_by so f_SPDXIdentifier (p_Files p)).
  split; [symmetry; apply sort_by_perm|reflexivity].
Qed.
Lemma write_fails so v d : (exists e, render_document so v d = Err e) <-> d_CreationInfo d = None.
Proof.
  unfold render_document, render_document_chunks. destruct (d_CreationInfo d); cbn [bindR].
  - split; [intros (e & H); discriminate|discriminate].
  - split; eauto.
Qed.
Lemma write_total so v d : d_CreationInfo d <> None -> exists t d', render_document so v d = Ok (t, d').
Proof.
  unfold render_document, render_document_chunks. destruct (d_CreationInfo d); cbn [bindR]; [eauto|congruence].
Qed.

(** ** Sorting and relations that keep the key *)
Lemma sort_related {A} (R : A -> A -> Prop) (key : A -> string) s1 s2 l k m :
  (forall x y, R x y -> key x = key y) -> NoDup (map key l) -> Permutation l k -> Forall2 R k m ->
  Forall2 R (sort_by s1 key l) (sort_by s2 key m).
Proof.
  intros K N P F.
  assert (Permutation k (sort_by s1 key l)) as P1 by (rewrite sort_by_perm; now symmetry).
  destruct (Permutation_Forall2 P1 F) as (m' & P2 & F').
  assert (map key (sort_by s1 key l) = map key m') as E.
  { clear -F' K. induction F' as [|x y a b Hxy Hab IH]; cbn [map]; [reflexivity|]. now rewrite (K _ _ Hxy), IH. }
  assert (sort_by s2 key m = m') as ->; [|assumption].
  symmetry. apply (ordered_perm_unique key).
  - rewrite <- E. eapply Permutation_NoDup; [|exact N]. apply Permutation_map. symmetry. apply sort_by_perm.
  - rewrite <- P2. symmetry. apply sort_by_perm.
  - pose proof (sort_by_ordered s1 A key l) as O. clear -F' O K. unfold ordered in *.
    induction F' as [|x y a b Hxy Hab IH]; [constructor|]. inversion O as [|? ? O1 O2]; subst.
    constructor; [now apply IH|]. clear -O2 Hab Hxy K.
    induction Hab as [|x' y' a b Hxy' Hab IH]; [constructor|]. inversion O2; subst.
    constructor; [now rewrite <- (K _ _ Hxy), <- (K _ _ Hxy')|auto].
  - apply sort_by_ordered.
Qed.

Lemma file_same_id f g : file_same f g -> f_SPDXIdentifier f = f_SPDXIdentifier g.
Proof. intros (sn & _ & ->). reflexivity. Qed.
Lemma package_same_id p q : package_same p q -> p_SPDXIdentifier p = p_SPDXIdentifier q.
Proof. intros (fs & _ & ->). reflexivity. Qed.

Lemma map_get_perm {A} (m n : list (string * A)) k : NoDup (map fst m) -> Permutation m n -> map_get k m = map_get k n.
Proof.
  intros N P. assert (NoDup (map fst n)) as N' by (eapply Permutation_NoDup; [apply Permutation_map, P|exact N]).
  destruct (map_get k m) as [x|] eqn:E.
  - apply map_get_some in E. symmetry. apply map_get_in; [assumption|]. now apply (Permutation_in _ P).
  - destruct (map_get k n) as [y|] eqn:E'; [|reflexivity]. apply map_get_some in E'.
    apply (Permutation_in _ (Permutation_sym P)) in E'. rewrite (map_get_in k y m N E') in E. discriminate.
Qed.
Lemma entries_same s1 s2 m n : NoDup (map fst m) -> Permutation m n -> entries s1 m = entries s2 n.
Proof.
  intros N P. unfold entries.
  rewrite (sort_by_unique s1 s2 (fun k => k) (map fst m) (map fst n)); [|now rewrite map_id|now apply Permutation_map].
  induction (sort_by s2 (fun k => k) (map fst n)) as [|k l IH]; cbn [flat_map]; [reflexivity|].
  now rewrite IH, (map_get_perm m n k).
Qed.
Lemma render_file_same s1 s2 v f g : file_distinct f -> file_same f g -> render_file s1 v f = render_file s2 v g.
Proof.
  intros N (sn & P & ->). unfold render_file. rewrite !render_snippets_entries.
  change (f_Snippets (set_f_Snippets sn f)) with sn. rewrite (entries_same s1 s2 (f_Snippets f) sn N P). reflexivity.
Qed.
Lemma flat_map_related {A} (R : A -> A -> Prop) (ok : A -> Prop) (f g : A -> list chunk) l m :
  (forall x y, ok x -> R x y -> f x = g y) -> Forall ok l -> Forall2 R l m -> flat_map f l = flat_map g m.
Proof.
  intros H O F. induction F as [|x y a b Hxy Hab IH]; cbn [flat_map]; [reflexivity|]. inversion O; subst.
  rewrite (H x y), IH; auto.
Qed.
Lemma render_files_same s1 s2 v l m : files_distinct l -> files_same l m ->
  flat_map (render_file s1 v) (sort_by s1 f_SPDXIdentifier l) = flat_map (render_file s2 v) (sort_by s2 f_SPDXIdentifier m).
Proof.
  intros (N & D) (k & P & F). apply flat_map_related with (R := file_same) (ok := file_distinct).
  - intros x y. apply render_file_same.
  - now apply sorted_Forall.
  - eapply sort_related; eauto. apply file_same_id.
Qed.
Lemma render_package_same s1 s2 v p q : files_distinct (p_Files p) -> package_same p q -> titled s1 v p = titled s2 v q.
Proof.
  intros D (fs & F & ->). unfold titled, render_package.
  change (p_Files (set_p_Files fs p)) with fs. rewrite (render_files_same s1 s2 v _ _ D F). reflexivity.
Qed.
Lemma files_same_nil l m : files_same l m -> (l = [] <-> m = []).
Proof.
  intros (k & P & F). split; intros ->.
  - apply Permutation_nil in P. subst. now inversion F.
  - inversion F; subst. apply Permutation_nil. now symmetry.
Qed.
Lemma section_same {A} t (l m : list A) a b : (l = [] <-> m = []) -> a = b -> section t l a = section t m b.
Proof. intros H ->. unfold section. destruct l, m; auto; [now destruct H as [H _]; specialize (H eq_refl)|now destruct H as [_ H]; specialize (H eq_refl)]. Qed.

Lemma write_canonical s1 s2 v d e t d' : distinct_ids d -> document_same d e ->
  render_document s1 v d = Ok (t, d') -> exists e', render_document s2 v e = Ok (t, e').
Proof.
  intros (N1 & N2 & N3 & N4) (refs & files & pkgs & P1 & F & (k & P3 & F3) & ->).
  unfold render_document, render_document_chunks.
  change (d_CreationInfo (set_d_ExternalDocumentReferences _ _)) with (d_CreationInfo d).
  destruct (d_CreationInfo d) as [ci|]; cbn [bindR]; [|discriminate]. intros H. injection H as <- <-. eexists.
  do 2 f_equal. f_equal. f_equal; [|f_equal].
  - unfold render_header. cbn [d_SPDXVersion d_DataLicense d_SPDXIdentifier d_DocumentName d_DocumentNamespace
      d_ExternalDocumentReferences d_DocumentComment set_d_ExternalDocumentReferences set_d_Files set_d_Packages].
    rewrite (sort_by_unique s1 s2 edr_DocumentRefID _ refs N1 P1). reflexivity.
  - unfold render_sections. cbn [d_Files d_Packages d_OtherLicenses d_Relationships d_Annotations d_Reviews
      set_d_ExternalDocumentReferences set_d_Files set_d_Packages].
    f_equal; [|f_equal].
    + apply section_same; [symmetry; now apply files_same_nil|]. symmetry. now apply render_files_same.
    + symmetry. fold (titled s1 v). fold (titled s2 v).
      apply flat_map_related with (R := package_same) (ok := fun p => files_distinct (p_Files p)).
      * intros x y. apply render_package_same.
      * now apply sorted_Forall.
      * eapply sort_related; eauto. apply package_same_id.
Qed.

(** ** Writing twice *)
Lemma files_same_refl l : files_same l l.
Proof.
  exists l. split; [reflexivity|]. apply Forall2_self. intros f. exists (f_Snippets f).
  split; [reflexivity|]. now destruct f.
Qed.
Lemma file_same_refl f : file_same f f.
Proof. exists (f_Snippets f). split; [reflexivity|]. now destruct f. Qed.
Lemma reordered_same d e : document_reordered d e -> document_same d e.
Proof.
  intros (refs & files & k & pkgs & P1 & P2 & P3 & F & ->). exists refs, files, pkgs.
  split; [assumption|]. split; [|split; [|reflexivity]].
  - exists files. split; [assumption|]. apply Forall2_self, file_same_refl.
  - exists k. split; [assumption|]. eapply Forall2_weaken; [|exact F]. intros p q (fs & P & ->).
    exists fs. split; [|reflexivity]. exists fs. split; [assumption|]. apply Forall2_self, file_same_refl.
Qed.
Lemma sort_twice {A} s1 s2 (key : A -> string) l : NoDup (map key l) -> sort_by s2 key (sort_by s1 key l) = sort_by s1 key l.
Proof.
  intros N. apply sort_by_id; [|apply sort_by_ordered]. eapply Permutation_NoDup; [|exact N]. apply Permutation_map.
  symmetry. apply sort_by_perm.
Qed.
Lemma write_twice s1 s2 v d t d' : distinct_ids d -> render_document s1 v d = Ok (t, d') ->
  render_document s2 v d' = Ok (t, d').
Proof.
  intros N H. pose proof (write_reorders _ _ _ _ _ H) as R. apply reordered_same in R.
  destruct (write_canonical s1 s2 v d d' t d' N R H) as (e' & E). rewrite E.
  do 2 f_equal. unfold render_document in *.
  destruct (render_document_chunks s1 v d); cbn [bindR] in H; inversion H; subst.
  destruct (render_document_chunks s2 v _); cbn [bindR] in E; inversion E; subst.
  destruct N as (N1 & (N2 & _) & N3 & N4). unfold sorted_document at 1.
  cbn [d_Files d_Packages d_ExternalDocumentReferences sorted_document
      set_d_ExternalDocumentReferences set_d_Files set_d_Packages].
  rewrite !sort_twice by assumption.
  assert (sort_by s2 p_SPDXIdentifier (map (sort_package s1) (sort_by s1 p_SPDXIdentifier (d_Packages d)))
    = map (sort_package s1) (sort_by s1 p_SPDXIdentifier (d_Packages d))) as E1.
  { apply sort_by_id.
    - rewrite map_map. eapply Permutation_NoDup; [|exact N3].
      transitivity (map p_SPDXIdentifier (sort_by s1 p_SPDXIdentifier (d_Packages d))); [|reflexivity].
      apply Permutation_map. symmetry. apply sort_by_perm.
    - pose proof (sort_by_ordered s1 _ p_SPDXIdentifier (d_Packages d)) as O. unfold ordered in *.
      induction O as [|x l O1 IH O2]; cbn [map]; constructor; [assumption|]. clear -O2. induction O2; cbn [map]; constructor; auto. }
  rewrite E1. rewrite map_map.
  assert (map (fun x => sort_package s2 (sort_package s1 x)) (sort_by s1 p_SPDXIdentifier (d_Packages d))
    = map (sort_package s1) (sort_by s1 p_SPDXIdentifier (d_Packages d))) as ->; [|now destruct d].
  apply (sorted_Forall s1 p_SPDXIdentifier) in N4. clear E1.
  induction N4 as [|p l (Hp & _) Hl IH]; cbn [map]; [reflexivity|]. f_equal; [|assumption].
  unfold sort_package. cbn [p_Files set_p_Files]. rewrite sort_twice by assumption. reflexivity.
Qed.
