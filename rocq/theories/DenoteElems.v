(** The element part of the declarative reading - packages, files and snippets -
    is an invariant of the parser, as long as no package name is empty. *)
From Verif Require Import GoStr GoStrFacts Types TvState TvUtil TvReader TvParser SpecTv SpecId SpecDoc SpecRead
  TvReaderFacts TvUtilFacts TvParserFacts DenoteBase DenoteGlobal.

Notation seg := (string * pairs)%type.

(** ** The files of each package, those of no package first; their snippets *)
Definition groups (h : pairs) : list (list seg) :=
  parts_of "FileName" (head_of "PackageName" h)
  :: map (fun g => parts_of "FileName" (snd g)) (parts_of "PackageName" h).
Definition files (h : pairs) : list seg := concat (groups h).
Definition sgroups (h : pairs) : list (list seg) := map (fun g => parts_of "SnippetSPDXID" (snd g)) (files h).
Definition cur_files (h : pairs) : list seg := last (groups h) [].
Definition cur_snips (h : pairs) : list seg := last (sgroups h) [].

Lemma groups_snoc h k x : groups (h ++ [(k, x)]) =
  if k =? "PackageName" then (groups h ++ [[]])%list
  else if k =? "FileName" then update_last (fun g => g ++ [(x, [])])%list (groups h)
  else update_last (update_last (add (k, x))) (groups h).
Proof.
  unfold groups. rewrite head_snoc, parts_snoc. destruct (k =? "PackageName").
  - now rewrite map_app.
  - destruct (list_last_case (parts_of "PackageName" h)) as [->|(P & [n b] & ->)].
    + cbn [map update_last]. rewrite parts_snoc. destruct (k =? "FileName"); reflexivity.
    + rewrite update_last_app, !map_app. cbn [map snd add].
      rewrite !app_comm_cons, !update_last_app.
      rewrite parts_snoc. destruct P, (k =? "FileName"); reflexivity.
Qed.
Lemma groups_split h : exists G, groups h = (G ++ [cur_files h])%list.
Proof.
  unfold cur_files. destruct (list_last_case (groups h)) as [E|(G & g & E)]; [discriminate|].
  exists G. rewrite E, last_snoc. reflexivity.
Qed.
Lemma concat_snoc {A} (G : list (list A)) g : concat (G ++ [g]) = (concat G ++ g)%list.
Proof. rewrite List.concat_app. simpl. now rewrite app_nil_r. Qed.

Lemma cur_files_snoc h k x : cur_files (h ++ [(k, x)]) =
  if k =? "PackageName" then []
  else if k =? "FileName" then (cur_files h ++ [(x, [])])%list
  else update_last (add (k, x)) (cur_files h).
Proof.
  unfold cur_files at 1. rewrite groups_snoc. destruct (groups_split h) as [G E]. rewrite E.
  destruct (k =? "PackageName"); [now rewrite last_snoc|].
  destruct (k =? "FileName"); now rewrite update_last_app, last_snoc.
Qed.
Lemma files_snoc h k x : files (h ++ [(k, x)]) =
  if k =? "PackageName" then files h
  else if k =? "FileName" then (files h ++ [(x, [])])%list
  else match cur_files h with [] => files h | _ => update_last (add (k, x)) (files h) end.
Proof.
  unfold files. rewrite groups_snoc. destruct (groups_split h) as [G E]. rewrite E.
  destruct (k =? "PackageName"); [now rewrite concat_snoc, app_nil_r|].
  destruct (k =? "FileName"); rewrite update_last_app, !concat_snoc; [now rewrite app_assoc|].
  destruct (list_last_case (cur_files h)) as [->|(g & a & ->)]; [reflexivity|].
  rewrite update_last_app, !app_assoc, update_last_app.
  destruct (g ++ [a])%list eqn:Y; [now apply app_eq_nil in Y as [? ?]|]. reflexivity.
Qed.
Lemma sgroups_snoc h k x : sgroups (h ++ [(k, x)]) =
  if k =? "PackageName" then sgroups h
  else if k =? "FileName" then (sgroups h ++ [[]])%list
  else match cur_files h with
       | [] => sgroups h
       | _ => update_last (fun g => if k =? "SnippetSPDXID" then g ++ [(x, [])] else update_last (add (k, x)) g)%list (sgroups h)
       end.
Proof.
  unfold sgroups. rewrite files_snoc. destruct (k =? "PackageName"); [reflexivity|].
  destruct (k =? "FileName"); [now rewrite map_app|].
  destruct (cur_files h); [reflexivity|]. apply map_update_last. intros [n b]. cbn [snd add]. apply parts_snoc.
Qed.
Lemma files_cur h : cur_files h <> [] -> exists F g, files h = (F ++ [g])%list.
Proof.
  intros N. unfold files. destruct (groups_split h) as [G E]. rewrite E, concat_snoc.
  destruct (list_last_case (cur_files h)) as [E0|(g & a & ->)]; [contradiction|].
  rewrite app_assoc. eauto.
Qed.
Lemma sgroups_split h : cur_files h <> [] -> exists S, sgroups h = (S ++ [cur_snips h])%list.
Proof.
  intros N. destruct (files_cur h N) as (F & g & E). unfold cur_snips, sgroups. rewrite E, map_app. cbn [map].
  rewrite last_snoc. eauto.
Qed.
Lemma cur_snips_snoc h k x : cur_files h <> [] -> (k =? "PackageName") = false -> (k =? "FileName") = false ->
  cur_snips (h ++ [(k, x)]) =
  if k =? "SnippetSPDXID" then (cur_snips h ++ [(x, [])])%list else update_last (add (k, x)) (cur_snips h).
Proof.
  intros N P F. unfold cur_snips at 1. rewrite sgroups_snoc, P, F.
  destruct (cur_files h) eqn:E; [contradiction|]. destruct (sgroups_split h) as [S X]; [congruence|].
  now rewrite X, update_last_app, last_snoc.
Qed.

(** ** Index lists *)
(** element number [o+i] is listed [c] times *)
Fixpoint listed (c : seg -> nat) (o : nat) (g : list seg) : list nat :=
  match g with [] => [] | a :: r => (repeat o (c a) ++ listed c (S o) r)%list end.
Lemma listed_app c g1 g2 : forall o, listed c o (g1 ++ g2) = (listed c o g1 ++ listed c (o + length g1) g2)%list.
Proof.
  induction g1 as [|a g1 IH]; intros o; simpl; [now rewrite Nat.add_0_r|].
  rewrite IH, app_assoc. now rewrite Nat.add_succ_r.
Qed.
Lemma listed_add c p g : forall o, (forall a, c (add p a) = c a) -> listed c o (update_last (add p) g) = listed c o g.
Proof.
  intros o H. destruct (list_last_case g) as [->|(g' & a & ->)]; [reflexivity|].
  rewrite update_last_app, !listed_app. cbn [listed]. now rewrite H.
Qed.
Fixpoint idx_groups (c : seg -> nat) (o : nat) (G : list (list seg)) : list (list nat) :=
  match G with [] => [] | g :: r => listed c o g :: idx_groups c (o + length g) r end.
Lemma idx_groups_app c G1 G2 : forall o,
  idx_groups c o (G1 ++ G2) = (idx_groups c o G1 ++ idx_groups c (o + length (concat G1)) G2)%list.
Proof.
  induction G1 as [|g G1 IH]; intros o; simpl; [now rewrite Nat.add_0_r|].
  rewrite IH, app_length. now rewrite Nat.add_assoc.
Qed.

Definition file_ids (g : seg) : nat := length (values "SPDXID" (snd g)).
Definition package_ids (g : seg) : nat := length (values "SPDXID" (head_of "FileName" (snd g))).

(** ** The snippet map of a file *)
Definition snippet_id (x : string) : string :=
  match strip_prefix "SPDXRef-" x with Some r => r | None => "" end.
Fixpoint enter (o : nat) (g : list seg) (m : list (string * nat)) : list (string * nat) :=
  match g with [] => m | a :: r => enter (S o) r (map_put (snippet_id (fst a)) o m) end.
Lemma enter_app g1 g2 : forall o m, enter o (g1 ++ g2) m = enter (o + length g1) g2 (enter o g1 m).
Proof.
  induction g1 as [|a g1 IH]; intros o m; simpl; [now rewrite Nat.add_0_r|].
  rewrite IH. now rewrite Nat.add_succ_r.
Qed.
Lemma enter_add p g : forall o m, enter o (update_last (add p) g) m = enter o g m.
Proof.
  intros o m. destruct (list_last_case g) as [->|(g' & a & ->)]; [reflexivity|].
  rewrite update_last_app, !enter_app. reflexivity.
Qed.
Fixpoint smaps (o : nat) (G : list (list seg)) : list (list (string * nat)) :=
  match G with [] => [] | g :: r => enter o g [] :: smaps (o + length g) r end.
Lemma smaps_app G1 G2 : forall o,
  smaps o (G1 ++ G2) = (smaps o G1 ++ smaps (o + length (concat G1)) G2)%list.
Proof.
  induction G1 as [|g G1 IH]; intros o; simpl; [now rewrite Nat.add_0_r|].
  rewrite IH, app_length. now rewrite Nat.add_assoc.
Qed.

(** ** Position relative to the previous tags *)
Definition prev_tag (h : pairs) : string := last (map fst h) "".
Lemma prev_tag_snoc h k x : prev_tag (h ++ [(k, x)]) = k.
Proof. unfold prev_tag. rewrite map_app. apply last_snoc. Qed.
(** an ArtifactOfProjectName with nothing but its sub-fields after it *)
Definition artifact_open (h : pairs) : bool :=
  fold_left (fun b p => String.eqb (fst p) "ArtifactOfProjectName"
                        || b && (String.eqb (fst p) "ArtifactOfProjectHomePage" || String.eqb (fst p) "ArtifactOfProjectURI"))
            h false.
Lemma artifact_open_snoc h k x : artifact_open (h ++ [(k, x)]) =
  (k =? "ArtifactOfProjectName") || artifact_open h && ((k =? "ArtifactOfProjectHomePage") || (k =? "ArtifactOfProjectURI")).
Proof. unfold artifact_open. now rewrite fold_left_app. Qed.

(** ** The invariant *)
Record edoc (h : pairs) (pkgs : list PackageArena) (d : DocumentArena) : Prop := {
  ed_id : id_text_of (values "SPDXID" (head_of "FileName" (head_of "PackageName" h))) (d_SPDXIdentifier d);
  ed_pkgs : d_Packages d = listed package_ids 0 (parts_of "PackageName" h);
  ed_files : d_Files d :: map p_Files pkgs = idx_groups file_ids 0 (groups h)
}.
Definition ext_inv (h : pairs) (s : pstate) : Prop :=
  match ps_extref s with
  | None => prev_tag h <> "ExternalRef"
  | Some (pi, ei) => prev_tag h = "ExternalRef" /\ ps_st s = PsPackage /\
      exists P p, ps_pkgs s = (P ++ [p])%list /\ pi = length P /\ ptr (length (p_ExternalReferences p)) = Some ei
  end.
Definition aop_inv (h : pairs) (s : pstate) : Prop :=
  match ps_aop s with
  | None => artifact_open h = false
  | Some (fi, ai) => artifact_open h = true /\ ps_st s = PsFile /\
      exists F f, ps_files s = (F ++ [f])%list /\ fi = length F /\ ptr (length (f_Artifacts f)) = Some ai
  end.
Definition st_inv (h : pairs) (s : pstate) : Prop :=
  match ps_st s with
  | PsStart | PsCreationInfo => groups h = [[]]
  | PsPackage => parts_of "PackageName" h <> [] /\ cur_files h = []
  | PsFile => cur_files h <> [] /\ cur_snips h = []
  | PsSnippet => cur_files h <> [] /\ cur_snips h <> [] /\ ps_snip s = ptr (length (ps_snips s))
  | _ => True
  end.
Record einv (v : version) (h : pairs) (s : pstate) : Prop := {
  e_doc : doc_with s (edoc h (ps_pkgs s));
  e_pkgs : Forall2 (package_fields v) (parts_of "PackageName" h) (ps_pkgs s);
  e_files : Forall2 (file_fields v) (files h) (ps_files s);
  e_snips : Forall2 (snippet_den v) (concat (sgroups h)) (ps_snips s);
  e_maps : map f_Snippets (ps_files s) = smaps 0 (sgroups h);
  e_pkg : ps_pkg s = ptr (length (ps_pkgs s));
  e_file : ps_file s = match cur_files h with [] => None | _ => ptr (length (ps_files s)) end;
  e_ext : ext_inv h s;
  e_aop : aop_inv h s;
  e_st : st_inv h s
}.

(** ** Tags an element does not mention *)
Definition ptags : list string :=
  ["PackageVersion"; "PackageFileName"; "PackageSupplier"; "PackageOriginator";
   "PackageDownloadLocation"; "FilesAnalyzed"; "PackageVerificationCode"; "PackageChecksum"; "PackageHomePage";
   "PackageSourceInfo"; "PackageLicenseConcluded"; "PackageLicenseInfoFromFiles"; "PackageLicenseDeclared";
   "PackageLicenseComments"; "PackageCopyrightText"; "PackageSummary"; "PackageDescription"; "PackageComment";
   "ExternalRef"; "ExternalRefComment"; "PackageAttributionText";
   "PrimaryPackagePurpose"; "ReleaseDate"; "BuiltDate"; "ValidUntilDate"].
Definition ftags : list string :=
  ["FileType"; "FileChecksum"; "LicenseConcluded"; "LicenseInfoInFile"; "LicenseComments";
   "FileCopyrightText"; "ArtifactOfProjectName"; "ArtifactOfProjectHomePage"; "ArtifactOfProjectURI";
   "FileComment"; "FileNotice"; "FileContributor"; "FileDependency"; "FileAttributionText"].
Definition stags : list string :=
  ["SnippetFromFileSPDXID"; "SnippetByteRange"; "SnippetLineRange"; "SnippetLicenseConcluded";
   "LicenseInfoInSnippet"; "SnippetLicenseComments"; "SnippetCopyrightText"; "SnippetComment"; "SnippetName";
   "SnippetAttributionText"].
Definition openers : list string := ["PackageName"; "FileName"; "SnippetSPDXID"].

Ltac others l := rewrite ?(last_value_other l), ?(values_other l), ?(parts_other l) by (assumption || reflexivity).
Lemma external_ref_stable t x g e : t <> "ExternalRefComment" -> external_ref_den g e -> external_ref_den (add (t, x) g) e.
Proof. intros N [H1 H2]. split; [exact H1|]. cbn [snd add]. rewrite last_value_snoc. neq t "ExternalRefComment". exact H2. Qed.
Lemma package_stable v t x (g : seg) (p : PackageArena) : mem t ptags = false ->
  (t <> "SPDXID" \/ parts_of "FileName" (snd g) <> []) ->
  package_fields v g p -> package_fields v (add (t, x) g) p.
Proof.
  intros M I []. constructor; cbn [fst snd add]; unfold v23_value in *; others ptags; try assumption.
  - destruct I as [N|N]; [now rewrite values_head_snoc|]. rewrite head_snoc. destruct (t =? "FileName"); [assumption|].
    destruct (parts_of "FileName" (snd g)); [contradiction|assumption].
  - apply Forall2_stable; [|assumption]. intros a b. apply external_ref_stable. now apply (mem_neq t ptags).
Qed.
Lemma artifact_stable t x g a : t <> "ArtifactOfProjectHomePage" -> t <> "ArtifactOfProjectURI" ->
  artifact_den g a -> artifact_den (add (t, x) g) a.
Proof.
  intros N1 N2 (H1 & H2 & H3). unfold artifact_den. cbn [snd fst add]. rewrite !last_value_snoc.
  neq t "ArtifactOfProjectHomePage". neq t "ArtifactOfProjectURI". auto.
Qed.
Lemma file_stable v t x (g : seg) (f : FileArena) : mem t ftags = false -> t <> "SPDXID" ->
  file_fields v g f -> file_fields v (add (t, x) g) f.
Proof.
  intros M N []. constructor; cbn [fst snd add]; others ftags; try assumption.
  - rewrite values_snoc. neq t "SPDXID". assumption.
  - apply Forall2_stable; [|assumption]. intros a b. apply artifact_stable; now apply (mem_neq t ftags).
Qed.
Lemma snippet_stable v t x (g : seg) s : mem t stags = false -> snippet_den v g s -> snippet_den v (add (t, x) g) s.
Proof.
  intros M []. constructor; cbn [fst snd add]; others stags; try assumption.
  rewrite range_pairs_snoc, !(neq_of stags) by (assumption || reflexivity). assumption.
Qed.
