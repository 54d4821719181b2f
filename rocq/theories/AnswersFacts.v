(** * What the helpers see of a document, and that saving and loading keeps it. *)
From Verif Require Import GoStr GoStrFacts Sorting Types TvUtil TvState TvParser Utils SpdxLib LicenseTools SpecUtils SpecTools UtilsFacts ToolsFacts
  SpecWrite SpecFormats SpecUpgrade SpecAnswers PropsTools PropsUtils.
Local Open Scope string_scope.
Local Open Scope list_scope.

(** ** The part of a file the helpers look at *)
Definition face (f : File) : File :=
  set_f_FileName (f_FileName f) (set_f_SPDXIdentifier (f_SPDXIdentifier f) (set_f_Checksums (f_Checksums f) (set_f_LicenseConcluded (f_LicenseConcluded f) zero_FileOf))).
Definition faces (p : Package) : Package := set_p_Files (map face (p_Files p)) p.
Definition package_alike (p q : Package) : Prop :=
  p_SPDXIdentifier q = p_SPDXIdentifier p /\ p_FilesAnalyzed q = p_FilesAnalyzed p /\ Permutation (map face (p_Files p)) (map face (p_Files q)).
Definition alike (d e : Document) : Prop :=
  d_Relationships e = d_Relationships d /\ Permutation (map f_SPDXIdentifier (d_Files d)) (map f_SPDXIdentifier (d_Files e)) /\
  exists pkgs, Permutation (d_Packages d) pkgs /\ Forall2 package_alike pkgs (d_Packages e).

Lemma Forall2_map_r {A B} (R : A -> B -> Prop) (g : A -> B) l : (forall x, R x (g x)) -> Forall2 R l (map g l).
Proof. intros H. induction l; constructor; auto. Qed.
Lemma Forall2_trans {A} (R : A -> A -> Prop) : (forall x y z, R x y -> R y z -> R x z) ->
  forall l m n, Forall2 R l m -> Forall2 R m n -> Forall2 R l n.
Proof. intros T l m n H. revert n. induction H; intros n K; inversion K; subst; constructor; eauto. Qed.
Lemma package_alike_trans p q r : package_alike p q -> package_alike q r -> package_alike p r.
Proof. intros (A & B & C) (A' & B' & C'). repeat split; [congruence|congruence|now rewrite C]. Qed.
Lemma Forall2_flip' {A B} (R : A -> B -> Prop) l m : Forall2 R l m -> Forall2 (fun b a => R a b) m l.
Proof. induction 1; constructor; auto. Qed.
Lemma alike_trans d e x : alike d e -> alike e x -> alike d x.
Proof.
  intros (A & B & k & P & F) (A' & B' & k' & P' & F'). split; [congruence|]. split; [now rewrite B|].
  destruct (Permutation_Forall2 P' (Forall2_flip' _ _ _ F)) as (n & Pn & Fn). exists n. split; [now rewrite P|].
  apply (Forall2_trans _ package_alike_trans) with (m := k'); [exact (Forall2_flip' _ _ _ Fn)|exact F'].
Qed.

(** ** The helpers see no more *)
Lemma fold_faces {S} (step : S -> File -> S) : (forall s f, step s (face f) = step s f) ->
  forall l s, fold_left step (map face l) s = fold_left step l s.
Proof. intros H l. induction l as [|f l IH]; intros s; [reflexivity|]. cbn [map fold_left]. now rewrite H, IH. Qed.
Lemma report_faces cs p : generate cs (faces p) = generate cs p.
Proof.
  unfold generate, count_licenses. replace (p_FilesAnalyzed (faces p)) with (p_FilesAnalyzed p) by (now destruct p).
  replace (p_Files (faces p)) with (map face (p_Files p)) by (now destruct p). rewrite fold_faces by reflexivity. reflexivity.
Qed.
Lemma pairs_faces p q : make_pairs (faces p) (faces q) = make_pairs p q.
Proof.
  unfold make_pairs. replace (p_Files (faces p)) with (map face (p_Files p)) by (now destruct p).
  replace (p_Files (faces q)) with (map face (p_Files q)) by (now destruct q). rewrite !fold_faces by reflexivity. reflexivity.
Qed.
Lemma code_faces srt sha1 l exclude : get_verification_code srt sha1 (map Some (map face l)) exclude = get_verification_code srt sha1 (map Some l) exclude.
Proof.
  unfold get_verification_code. f_equal. induction l as [|f l IH]; [reflexivity|]. cbn [map collect_shas]. now rewrite IH.
Qed.

Lemma same_report_alike p q : package_alike p q -> same_report p q.
Proof.
  intros (_ & A & P) cs cs'. rewrite <- (report_faces cs p), <- (report_faces cs' q).
  destruct (generate cs (faces p)) as [rows| |] eqn:E, (generate cs' (faces q)) as [rows'| |] eqn:E'.
  1: { eapply C23_order; [|exact E|exact E']. destruct p, q; exact P. }
  all: rewrite report_faces in E, E'; unfold generate in E, E'; rewrite A in E'; destruct (p_FilesAnalyzed p); cbn [negb] in E, E';
    destruct (count_licenses p) as [[? ?] ?], (count_licenses q) as [[? ?] ?]; try discriminate; congruence.
Qed.
Lemma same_code_alike p q : package_alike p q -> same_code p q.
Proof.
  intros (_ & _ & P) srt srt' sha1 exclude. rewrite <- code_faces, <- (code_faces srt' sha1 (p_Files q)).
  destruct (C17_order srt srt' sha1 (map Some (map face (p_Files p))) (map Some (map face (p_Files q))) exclude) as [E|E];
    [now apply Permutation_map|exact E|]. apply in_map_iff in E as (? & ? & _). discriminate.
Qed.

(** the license of a file name in a package without two files of one name *)
Lemma license_for_in p name lic : NoDup (map f_FileName (p_Files p)) ->
  (license_for p name lic <-> (exists f, In f (p_Files p) /\ f_FileName f = name /\ f_LicenseConcluded f = lic) \/ (~ has_file p name /\ lic = "")).
Proof.
  intros N. unfold license_for. split; (intros [H|H]; [left|right; exact H]).
  - destruct H as (a & f & b & E & A & B & _). exists f. split; [|now split]. change (In f (@p_Files File ExternalRef p)). rewrite E. apply in_or_app. right. now left.
  - destruct H as (f & I & A & B). apply in_split in I as (a & b & E). exists a, f, b. repeat split; auto.
    rewrite E, map_app in N. cbn [map] in N. apply NoDup_remove_2 in N. intros g G C. apply N. apply in_or_app. right.
    rewrite A, <- C. now apply in_map.
Qed.
Lemma has_file_alike p q name : Permutation (p_Files p) (p_Files q) -> (has_file p name <-> has_file q name).
Proof. intros P. unfold has_file. split; intros (f & I & E); exists f; (split; [|exact E]); [now rewrite <- P|now rewrite P]. Qed.
Lemma license_for_alike p q name lic : Permutation (p_Files p) (p_Files q) -> NoDup (map f_FileName (p_Files p)) ->
  (license_for p name lic <-> license_for q name lic).
Proof.
  intros P N. assert (N' : NoDup (map f_FileName (p_Files q))) by (now rewrite <- P).
  rewrite !license_for_in by assumption. rewrite (has_file_alike p q name P).
  split; (intros [(f & I & E)|H]; [left; exists f; split; [|exact E]|right; exact H]); [now rewrite <- P|now rewrite P].
Qed.
Lemma map_get_same {A} (a b : option A) : (forall x, a = Some x <-> b = Some x) -> a = b.
Proof. intros H. destruct a as [x|]; [symmetry; now apply H|]. destruct b as [y|]; [now apply H|reflexivity]. Qed.
Lemma same_comparison_alike p q : package_alike p q -> NoDup (map f_FileName (p_Files p)) -> same_comparison p q.
Proof.
  intros (_ & _ & P) N other name.
  rewrite <- (pairs_faces p other), <- (pairs_faces q other), <- (pairs_faces other p), <- (pairs_faces other q).
  assert (P' : Permutation (p_Files (faces p)) (p_Files (faces q))) by (destruct p, q; exact P).
  assert (N' : NoDup (map f_FileName (p_Files (faces p)))).
  { replace (p_Files (faces p)) with (map face (p_Files p)) by (now destruct p). rewrite map_map. exact N. }
  split; apply map_get_same; intros [a b].
  - rewrite (proj2 (C22_pairs (faces p) (faces other)) name a b), (proj2 (C22_pairs (faces q) (faces other)) name a b).
    now rewrite (has_file_alike _ _ name P'), (license_for_alike _ _ name a P' N').
  - rewrite (proj2 (C22_pairs (faces other) (faces p)) name a b), (proj2 (C22_pairs (faces other) (faces q)) name a b).
    now rewrite (has_file_alike _ _ name P'), (license_for_alike _ _ name b P' N').
Qed.

Lemma ids_alike k m : Forall2 package_alike k m -> map p_SPDXIdentifier m = map p_SPDXIdentifier k.
Proof. induction 1 as [|p q k m (A & _) _ IH]; [reflexivity|]. cbn [map]. now rewrite A, IH. Qed.
Lemma existsb_in x l m : (forall y : string, In y l <-> In y m) -> existsb (String.eqb x) l = existsb (String.eqb x) m.
Proof.
  intros H. apply eq_true_iff_eq. rewrite !existsb_exists. split; intros (y & I & E); exists y; (split; [now apply H|exact E]).
Qed.
Lemma check_same l m rs : (forall y : string, In y l <-> In y m) -> check_relationships l rs = check_relationships m rs.
Proof. intros H. induction rs as [|r rs IH]; [reflexivity|]. cbn [check_relationships]. now rewrite IH, !(existsb_in _ l m H). Qed.
Lemma alike_answers d e : alike d e -> same_answers d e.
Proof.
  intros (R & F & k & P & A). pose proof (ids_alike _ _ A) as I.
  assert (Q : Permutation (map p_SPDXIdentifier (d_Packages d)) (map p_SPDXIdentifier (d_Packages e))) by (rewrite I; now apply Permutation_map).
  split; [|split].
  - unfold validate_document. rewrite R. apply check_same. intros y. unfold valid_element_ids. rewrite !in_app_iff. now rewrite Q, F.
  - intros srt srt'. rewrite (C21_deterministic srt srt'). unfold get_described_package_ids. rewrite R.
    pose proof (Permutation_length Q) as L. rewrite !map_length in L.
    destruct (d_Packages d) as [|p [|p' ps]], (d_Packages e) as [|q [|q' qs]]; try discriminate L; try reflexivity.
    cbn [map] in Q. apply Permutation_length_1 in Q. now rewrite Q.
  - exists k. split; [exact P|]. clear - A. induction A as [|p q k m H _ IH]; constructor; [|exact IH].
    split; [apply H|]. split; [now apply same_report_alike|]. split; [now apply same_code_alike|]. now apply same_comparison_alike.
Qed.

(** ** What saving, loading and converting keep *)
Lemma faces_same k m : Forall2 file_same k m -> map face m = map face k.
Proof. induction 1 as [|f g k m (sn & _ & ->) _ IH]; [reflexivity|]. cbn [map]. now rewrite IH. Qed.
Lemma files_alike l m : files_same l m -> Permutation (map face l) (map face m).
Proof. intros (k & P & F). rewrite (faces_same _ _ F). now apply Permutation_map. Qed.
Lemma map_face_id l : map f_SPDXIdentifier (map face l) = map f_SPDXIdentifier l.
Proof. rewrite map_map. reflexivity. Qed.
Lemma same_alike d e : document_same d e -> alike d e.
Proof.
  intros (refs & files & pkgs & _ & F & (k & P & G) & ->). split; [now destruct d|]. split.
  - replace (d_Files (set_d_ExternalDocumentReferences refs (set_d_Files files (set_d_Packages pkgs d)))) with files by (now destruct d).
    rewrite <- map_face_id, <- (map_face_id files). apply Permutation_map. now apply files_alike.
  - exists k. split; [exact P|].
    replace (d_Packages (set_d_ExternalDocumentReferences refs (set_d_Files files (set_d_Packages pkgs d)))) with pkgs by (now destruct d).
    clear - G. induction G as [|p q k m (fs & F & ->) _ IH]; constructor; [|exact IH]. split; [now destruct p|]. split; [now destruct p|].
    replace (p_Files (set_p_Files fs p)) with fs by (now destruct p). now apply files_alike.
Qed.
Lemma reordered_alike d e : document_reordered d e -> alike d e.
Proof.
  intros (refs & files & k & pkgs & _ & F & P & G & ->). split; [now destruct d|]. split; [exact (Permutation_map _ F)|]. exists k. split; [exact P|].
  change (Forall2 package_alike k pkgs). clear - G. induction G as [|p q k m (fs & F & ->) _ IH]; constructor; [|exact IH].
  split; [now destruct p|]. split; [now destruct p|]. exact (Permutation_map face F).
Qed.
Lemma map_faces (g : File -> File) l : (forall f, face (g f) = face f) -> map face (map g l) = map face l.
Proof. intros H. rewrite map_map. apply map_ext. exact H. Qed.
Lemma mapped_alike (pf : Package -> Package) (ff : File -> File) d e :
  d_Relationships e = d_Relationships d -> d_Files e = map ff (d_Files d) -> d_Packages e = map pf (d_Packages d) ->
  (forall f, face (ff f) = face f) -> (forall p, package_alike p (pf p)) -> alike d e.
Proof.
  intros R F P HF HP. split; [exact R|]. split.
  - rewrite F, <- map_face_id, <- (map_face_id (map ff _)), map_faces by exact HF. reflexivity.
  - exists (d_Packages d). split; [reflexivity|]. rewrite P. now apply Forall2_map_r.
Qed.
Lemma face_tag v f : face (tag_file v f) = face f. Proof. now destruct f. Qed.
Lemma face_json v f : face (json_file v f) = face f. Proof. now destruct f, v. Qed.
Lemma face_known v f : face (known_file v f) = face f. Proof. now destruct f, v. Qed.
Lemma tag_alike v d : alike d (tag_part v d).
Proof.
  apply mapped_alike with (pf := tag_package v) (ff := tag_file v); [now destruct d|now destruct d|now destruct d|apply face_tag|].
  intros p. unfold tag_package. destruct (p_FilesAnalyzed p) eqn:E; cbv zeta; (split; [reflexivity|split; [reflexivity|]]);
    change (Permutation (map face (p_Files p)) (map face (map (tag_file v) (p_Files p)))); now rewrite map_faces by apply face_tag.
Qed.
Lemma json_alike v d : alike d (json_doc v d).
Proof.
  apply mapped_alike with (pf := json_package (json_file v) v) (ff := json_file v); [now destruct d|now destruct d|now destruct d|apply face_json|].
  intros p. destruct p, v; (split; [reflexivity|split; [reflexivity|]]); cbn; now rewrite map_faces by apply face_json.
Qed.
Lemma known_alike v d : alike d (known_document v d).
Proof.
  apply mapped_alike with (pf := known_package v) (ff := known_file v); [now destruct d|now destruct d|now destruct d|apply face_known|].
  intros p. destruct p, v; (split; [reflexivity|split; [reflexivity|]]); cbn; now rewrite map_faces by apply face_known.
Qed.
Lemma alike_refl d : alike d d.
Proof.
  apply mapped_alike with (pf := fun p => p) (ff := fun f => f); rewrite ?map_id; try reflexivity. intros p. repeat split; reflexivity.
Qed.
Lemma version_alike v w d : alike d (in_version v w d).
Proof.
  assert (H : alike d (set_d_SPDXVersion (version_string w) (known_document v d))) by (pose proof (known_alike v d) as H; now destruct d).
  destruct v, w; try exact H; apply alike_refl.
Qed.
