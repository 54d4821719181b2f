(** Acceptance of one pair: preliminaries. *)
From Verif Require Import GoStr GoStrFacts Types TvState TvUtil TvReader TvParser SpecTv SpecId SpecDoc SpecRead
  TvReaderFacts TvUtilFacts TvParserFacts DenoteBase DenoteGlobal DenoteElems DenoteSteps DenoteCases DenoteSections
  DenoteFile DenoteRead.
From Verif Require SpecTags SpecAccept.
Import SpecAccept.

(** ** Results that are not an error *)
Definition noerr {A} (r : res A) : Prop := forall e, r <> Err e.
Lemma noerr_ok {A} (a : A) : noerr (Ok a).
Proof. intros e. discriminate. Qed.
Lemma noerr_panic {A} : noerr (@Panic A).
Proof. intros e. discriminate. Qed.
Lemma noerr_bind {A B} (r : res A) (k : A -> res B) : noerr r -> (forall a, r = Ok a -> noerr (k a)) -> noerr (bindR r k).
Proof. intros N K. destruct r as [a|e|]; cbn [bindR]; [now apply K|now destruct (N e)|apply noerr_panic]. Qed.
Lemma noerr_of_ok {A} (r : res A) a : r = Ok a -> noerr r.
Proof. intros ->. apply noerr_ok. Qed.
Lemma noerr_upd_doc f s : noerr (upd_doc f s).
Proof. unfold upd_doc. destruct (ps_doc s); [apply noerr_ok|apply noerr_panic]. Qed.
Lemma noerr_upd_ptr {A} p (l : list A) f k : noerr (upd_ptr p l f k).
Proof. unfold upd_ptr. destruct p; [|apply noerr_panic]. destruct (update_nth _ _ _); [apply noerr_ok|apply noerr_panic]. Qed.
Lemma noerr_upd_pkg f s : noerr (upd_pkg f s).
Proof. apply noerr_upd_ptr. Qed.
Lemma noerr_upd_file f s : noerr (upd_file f s).
Proof. apply noerr_upd_ptr. Qed.
Lemma noerr_upd_snip f s : noerr (upd_snip f s).
Proof. apply noerr_upd_ptr. Qed.
Lemma noerr_upd_in_doc {A} p (get : _ -> list A) put f s : noerr (upd_in_doc p get put f s).
Proof.
  unfold upd_in_doc. destruct p; [|apply noerr_panic]. destruct (ps_doc s); [|apply noerr_panic].
  destruct (update_nth _ _ _); [apply noerr_ok|apply noerr_panic].
Qed.
Lemma noerr_upd_lic f s : noerr (upd_lic f s).
Proof. apply noerr_upd_in_doc. Qed.
Lemma noerr_upd_rln f s : noerr (upd_rln f s).
Proof. apply noerr_upd_in_doc. Qed.
Lemma noerr_upd_ann f s : noerr (upd_ann f s).
Proof. apply noerr_upd_in_doc. Qed.
Lemma noerr_upd_rev f s : noerr (upd_rev f s).
Proof. apply noerr_upd_in_doc. Qed.
Lemma noerr_upd_ci f s : noerr (upd_ci f s).
Proof. unfold upd_ci. destruct (ps_doc s) as [d|]; [|apply noerr_panic]. destruct (d_CreationInfo d); [apply noerr_ok|apply noerr_panic]. Qed.
Lemma ok_of_noerr {A} (r : res A) : noerr r -> r <> Panic -> exists a, r = Ok a.
Proof. intros N P. destruct r as [a|e|]; [eauto|now destruct (N e)|contradiction]. Qed.

(** ** Updates keep the section *)
Lemma upd_doc_st f s s' : upd_doc f s = Ok s' -> ps_st s' = ps_st s.
Proof. unfold upd_doc. destruct (ps_doc s); [|discriminate]. intros H. now inversion H. Qed.
Lemma upd_pkg_st f s s' : upd_pkg f s = Ok s' -> ps_st s' = ps_st s.
Proof. unfold upd_pkg, upd_ptr. destruct (ps_pkg s); [|discriminate]. destruct (update_nth _ _ _); [|discriminate]. intros H. now inversion H. Qed.
Lemma upd_file_st f s s' : upd_file f s = Ok s' -> ps_st s' = ps_st s.
Proof. unfold upd_file, upd_ptr. destruct (ps_file s); [|discriminate]. destruct (update_nth _ _ _); [|discriminate]. intros H. now inversion H. Qed.
Lemma upd_snip_st f s s' : upd_snip f s = Ok s' -> ps_st s' = ps_st s.
Proof. unfold upd_snip, upd_ptr. destruct (ps_snip s); [|discriminate]. destruct (update_nth _ _ _); [|discriminate]. intros H. now inversion H. Qed.
Lemma upd_in_doc_st {A} p (get : _ -> list A) put f s s' : upd_in_doc p get put f s = Ok s' -> ps_st s' = ps_st s.
Proof.
  unfold upd_in_doc. destruct p; [|discriminate]. destruct (ps_doc s); [|discriminate].
  destruct (update_nth _ _ _); [|discriminate]. intros H. now inversion H.
Qed.
Lemma upd_ci_st f s s' : upd_ci f s = Ok s' -> ps_st s' = ps_st s.
Proof. unfold upd_ci. destruct (ps_doc s) as [d|]; [|discriminate]. destruct (d_CreationInfo d); [|discriminate]. intros H. now inversion H. Qed.

(** ** Sections *)
Definition sec_of (p : pst) : section :=
  match p with
  | PsStart => Header | PsCreationInfo => Creation | PsPackage => PackageSec | PsFile => FileSec
  | PsSnippet => SnippetSec | PsOtherLicense => LicenseSec | PsReview => ReviewSec
  end.
Definition next (v : version) (sec : section) (t : string) : option section :=
  option_map snd (find (fun m => mem t (fst m)) (moves v sec)).
Definition sec_eqb (a b : section) : bool :=
  match a, b with
  | Header, Header | Creation, Creation | PackageSec, PackageSec | FileSec, FileSec
  | SnippetSec, SnippetSec | LicenseSec, LicenseSec | ReviewSec, ReviewSec => true
  | _, _ => false
  end.
Lemma sec_eqb_eq a b : sec_eqb a b = true -> a = b.
Proof. now destruct a, b. Qed.
Lemma mem_In t l : mem t l = true <-> In t l.
Proof.
  unfold mem. rewrite existsb_exists. split.
  - intros (k & I & E). apply String.eqb_eq in E. now subst.
  - intros I. exists t. now rewrite String.eqb_refl.
Qed.
Lemma leads_next v sec t sec' : leads v sec t sec' <-> next v sec t = Some sec'.
Proof.
  split.
  - intros (ts & I & J).
    assert (C : forallb (fun m => forallb (fun t => match next v sec t with Some s => sec_eqb s (snd m) | None => false end) (fst m)) (moves v sec) = true)
      by (destruct v, sec; vm_compute; reflexivity).
    rewrite forallb_forall in C. specialize (C _ I). rewrite forallb_forall in C. specialize (C _ J). cbn [snd] in C.
    destruct (next v sec t) as [s|]; [|discriminate]. apply sec_eqb_eq in C. now subst.
  - unfold next. destruct (find _ _) as [[ts s]|] eqn:F; [|discriminate]. intros E. inversion E; subst.
    apply find_some in F as [I M]. exists ts. split; [exact I|]. now apply mem_In.
Qed.
Lemma next_header v t : mem t SpecTags.header_tags = false -> next v Header t = next v Creation t.
Proof.
  intros M. unfold next, moves. cbn [find fst]. rewrite M.
  assert (E : mem t ("ExternalDocumentRef" :: match v with V21 => [] | _ => ["DocumentComment"] end) = false).
  { destruct (mem t ("ExternalDocumentRef" :: _)) eqn:X; [|reflexivity]. apply mem_In in X.
    assert (Y : In t SpecTags.header_tags) by (destruct v; cbn in X |- *; tauto). apply mem_In in Y. congruence. }
  now rewrite E.
Qed.

(** ** Conditions on one pair *)
Definition cond (v : version) (h : pairs) (t x : string) : Prop := readable v t x /\ in_context h t.
Definition idok (h : pairs) (t : string) : Prop :=
  (mem t openers = true -> Forall has_fid (files h)) /\ (t = "PackageName" -> Forall has_pid (parts_of "PackageName" h)).
Definition special : list string :=
  ["SPDXID"; "SnippetSPDXID"; "SPDXREF"; "SnippetFromFileSPDXID"; "Creator"; "Annotator"; "Reviewer";
   "PackageSupplier"; "PackageOriginator"; "PackageChecksum"; "FileChecksum"; "SnippetByteRange"; "SnippetLineRange";
   "Relationship"; "ExternalDocumentRef"; "ExternalRef"; "RelationshipComment"; "AnnotationDate"; "AnnotationType";
   "AnnotationComment"; "ExternalRefComment"; "ArtifactOfProjectHomePage"; "ArtifactOfProjectURI"].
Lemma not_special t l : mem t special = false -> incl l special -> ~ In t l.
Proof. intros M I J. apply I in J. apply mem_In in J. congruence. Qed.
Lemma cond_plain v h t x : mem t special = false -> cond v h t x.
Proof.
  intros M. pose proof (fun l H => not_special t l M H) as N.
  split; [unfold readable|unfold in_context]; repeat split; intros I; exfalso; revert I; apply N;
    intros k K; cbn in K |- *; tauto.
Qed.
Ltac pick := match goal with
  | H : In ?a ?l -> _ |- _ => let Y := fresh in assert (Y : In a l) by (cbn; tauto); specialize (H Y); clear Y end.
Ltac drop := match goal with |- In ?a ?l -> _ => let Y := fresh in intros Y; try (exfalso; cbn in Y; intuition discriminate) end.
Ltac cond_tac := unfold cond, readable, in_context; split;
  [intros ((R1 & R2 & R3 & R4 & R5 & R6 & R7 & R8 & R9) & (C1 & C2 & C3 & C4)); repeat split
  |intros H; repeat split; drop]; auto 8 using in_eq, in_cons.

Lemma cond_element_id v h t x : In t ["SPDXID"; "SnippetSPDXID"] ->
  cond v h t x <-> exists id, extract_element_id x = Ok id.
Proof.
  intros I. assert (E : (exists id, extract_element_id x = Ok id) <-> exists id, x = "SPDXRef-" ++ id /\ id_ok id).
  { split; intros (i & H); exists i; now apply extract_element_id_iff. }
  rewrite E. destruct I as [<-|[<-|[]]]; cond_tac; now pick.
Qed.
Lemma cond_spdxref v h x :
  cond v h "SPDXREF" x <-> (exists d, extract_doc_element_id x = Ok d) /\ In "Annotator" (map fst h).
Proof.
  assert (E : (exists d, extract_doc_element_id x = Ok d) <-> exists d, plain_ref d /\ ref_text d x).
  { split; intros (i & H); exists i; now apply extract_doc_element_id_iff. }
  rewrite E. cond_tac; try now pick. all: destruct H; assumption.
Qed.
Lemma cond_from_file v h x : cond v h "SnippetFromFileSPDXID" x <-> exists d, extract_doc_element_id x = Ok d.
Proof.
  assert (E : (exists d, extract_doc_element_id x = Ok d) <-> exists d, plain_ref d /\ ref_text d x).
  { split; intros (i & H); exists i; now apply extract_doc_element_id_iff. }
  rewrite E. cond_tac; now pick.
Qed.
Lemma cond_actor v h t x : In t ["Creator"; "Annotator"; "Reviewer"] ->
  cond v h t x <-> exists kn, extract_actor ["Person"; "Organization"; "Tool"] x = Ok kn.
Proof.
  intros I. assert (E : (exists kn, extract_actor ["Person"; "Organization"; "Tool"] x = Ok kn) <-> exists k n, actor_text actor3 x k n).
  { split; [intros ([k n] & H); exists k, n|intros (k & n & H); exists (k, n)]; now apply (actor_text_iff actor3). }
  rewrite E. destruct I as [<-|[<-|[<-|[]]]]; cond_tac; now pick.
Qed.
Lemma cond_supplier v h t x : In t ["PackageSupplier"; "PackageOriginator"] ->
  cond v h t x <-> (x = "NOASSERTION" \/ exists kn, extract_actor ["Person"; "Organization"] x = Ok kn).
Proof.
  intros I. assert (E : (exists kn, extract_actor ["Person"; "Organization"] x = Ok kn) <-> exists k n, actor_text actor2 x k n).
  { split; [intros ([k n] & H); exists k, n|intros (k & n & H); exists (k, n)]; now apply (actor_text_iff actor2). }
  rewrite E. destruct I as [<-|[<-|[]]]; cond_tac; now pick.
Qed.
Lemma cond_checksum v h t x : In t ["PackageChecksum"; "FileChecksum"] ->
  cond v h t x <-> exists c, extract_checksum v x = Ok c.
Proof.
  intros I. assert (E : (exists c, extract_checksum v x = Ok c) <-> exists c, checksum_text v x c).
  { split; intros (i & H); exists i; now apply checksum_text_iff. }
  rewrite E. destruct I as [<-|[<-|[]]]; cond_tac; now pick.
Qed.
Lemma cond_range v h t x : In t ["SnippetByteRange"; "SnippetLineRange"] ->
  cond v h t x <-> exists ab, extract_range x = Ok ab.
Proof.
  intros I. assert (E : (exists ab, extract_range x = Ok ab) <-> exists a b, range_text x a b).
  { split; [intros ([a b] & H); exists a, b|intros (a & b & H); exists (a, b)]; now apply range_text_iff. }
  rewrite E. destruct I as [<-|[<-|[]]]; cond_tac; now pick.
Qed.
Lemma cond_relationship v h x : cond v h "Relationship" x <-> exists r, extract_relationship v x = Ok r.
Proof.
  assert (E : (exists r, extract_relationship v x = Ok r) <-> exists r, relationship_text v x r).
  { split.
    - intros ([[a r] b] & H). exists (MkRln a b r ""). now apply relationship_text_iff.
    - intros ([a b r c] & H). exists (a, r, b). now apply (relationship_text_iff v x a r b c). }
  rewrite E. cond_tac; now pick.
Qed.
Lemma cond_edr v h x : cond v h "ExternalDocumentRef" x <-> exists e, extract_external_document_reference x = Ok e.
Proof.
  assert (E : (exists e, extract_external_document_reference x = Ok e) <-> exists e, edr_text x e).
  { split; intros (i & H); exists i; now apply edr_text_iff. }
  rewrite E. cond_tac; now pick.
Qed.
Lemma cond_external_ref v h x : cond v h "ExternalRef" x <-> exists e, extract_package_external_reference x = Ok e.
Proof.
  assert (E : (exists e, extract_package_external_reference x = Ok e) <-> exists c k l, words x = [c; k; l]).
  { split; [intros ([[c k] l] & H); exists c, k, l|intros (c & k & l & H); exists (c, k, l)]; now apply external_ref_text_iff. }
  rewrite E. cond_tac; now pick.
Qed.
Lemma cond_rel_comment v h x : cond v h "RelationshipComment" x <-> In "Relationship" (map fst h).
Proof. cond_tac; now pick. Qed.
Lemma cond_ann v h t x : In t ["AnnotationDate"; "AnnotationType"; "AnnotationComment"] ->
  cond v h t x <-> In "Annotator" (map fst h).
Proof. intros I. destruct I as [<-|[<-|[<-|[]]]]; cond_tac; now pick. Qed.
Lemma cond_ext_comment v h x : cond v h "ExternalRefComment" x <-> exists h' y, h = (h' ++ [("ExternalRef", y)])%list.
Proof. cond_tac; now pick. Qed.
Lemma cond_artifact v h t x : In t artifact_fields ->
  cond v h t x <-> exists h1 y h2, h = (h1 ++ ("ArtifactOfProjectName", y) :: h2)%list /\
                     Forall (fun p => In (fst p) artifact_fields) h2.
Proof. intros I. destruct I as [<-|[<-|[]]]; cond_tac; now pick. Qed.
