(** * Property C57: the programs that compare and count licenses, from their arguments on *)
From Verif Require Import GoStr GoStrFacts Sorting Types TvUtil TvReader TvParser TvState SpdxLib LicenseTools Convert ConvertGo Json JsonSpdx JsonText Formats Stream Transfer TabWriter Report Programs
  SpecConvert SpecUpgrade SpecUtils SpecTools SpecTransfer SpecStream SpecPrograms ProgramFiles ProgramsFacts ConvertGoFacts JsonTextRead TransferFacts LoadersFacts StreamFacts PropsTransfer PropsPrograms PropsTools.
Local Open Scope string_scope.

(** ** What was loaded *)
Lemma present_some {A} (l : list A) : present (map Some l) = l.
Proof. induction l as [|x l IH]; [reflexivity|]. unfold present in *. cbn [map flat_map List.app]. now rewrite IH. Qed.
Lemma seen_jfile f : seen_file (jfile f) = f.
Proof. destruct f. unfold seen_file, jfile. cbn - [present]. now rewrite present_some. Qed.
Lemma seen_jfiles l : map seen_file (present (map (fun f => Some (jfile f)) l)) = l.
Proof. rewrite <- (map_map jfile Some), present_some, map_map. rewrite (map_ext _ (fun x => x) seen_jfile). apply map_id. Qed.
Lemma seen_jpkg p : seen_package (jpkg p) = p.
Proof. destruct p. unfold seen_package, jpkg. cbn - [present map]. rewrite present_some. f_equal. apply seen_jfiles. Qed.
Lemma seen_jdoc d : seen_document (jdoc d) = d.
Proof.
  destruct d. unfold seen_document, jdoc. cbn - [present map]. rewrite !present_some. f_equal.
  - rewrite <- (map_map jpkg Some), present_some, map_map. rewrite (map_ext _ (fun x => x) seen_jpkg). apply map_id.
  - apply seen_jfiles.
Qed.
Lemma no_nil_some {A B} (f : A -> B) l : existsb is_nil (map (fun x => Some (f x)) l) = false.
Proof. induction l; [reflexivity|exact IHl]. Qed.
Lemma has_nil_jdoc d : has_nil (jdoc d) = false.
Proof.
  unfold has_nil. cbn [jdoc d_Packages d_Relationships]. apply orb_false_iff. split; [|apply (no_nil_some (fun x => x))].
  induction (d_Packages d) as [|p l IH]; [reflexivity|]. cbn [map existsb]. rewrite IH, orb_false_r. apply no_nil_some.
Qed.
Lemma existsb_nil {A} (l : list (option A)) : existsb is_nil l = true -> In None l.
Proof. intros H. apply existsb_exists in H as ([x|] & I & E); [discriminate E|exact I]. Qed.
Lemma load_seen_calm dz s : (exists d, load_seen dz s = Ok d) \/ (exists m, load_seen dz s = Err m /\ tagvalue_read_from dz V23 s = Err m).
Proof.
  unfold load_seen. destruct (tag_loads dz s) as [(g & d & L & O)|(m & L)]; rewrite L; cbn [bindR]; [|right; eauto]. rewrite O.
  destruct (tag_whole dz s g d L O) as (WP & WF & WR). left. destruct (has_nil d) eqn:N; [exfalso|eauto]. unfold has_nil in N. apply orb_true_iff in N as [N|N].
  - apply existsb_exists in N as ([p|] & I & E); [|now apply WP]. apply existsb_nil in E. now apply (WF p I).
  - apply existsb_nil in N. now apply WR.
Qed.
Lemma load_seen_text dz h path text v d : holds_lines h path text -> read_into text = Ok (v, Some d) -> comes_along v d ->
  exists s, opens h path = Some s /\ load_seen dz s = Ok (in_version v V23 d).
Proof.
  intros T R C. destruct (load_tag dz _ _ _ _ _ T R C) as (s & O & L). exists s. split; [exact O|]. unfold load_seen. rewrite L. cbn [bindR].
  now rewrite of_go_plain, has_nil_jdoc, seen_jdoc.
Qed.
Lemma described_calm srt d : get_described_package_ids srt d <> Panic.
Proof.
  unfold get_described_package_ids. destruct (d_Packages d) as [|p [|q l]]; try discriminate.
  destruct (d_Relationships d); try discriminate. destruct (filter_relationships _ _); discriminate.
Qed.

(** ** examples/5-report *)
(** The text of a document that describes something is loaded and reported on. *)
Theorem C57_report_file : forall srt cs dz h n path text v d, holds_lines h path text -> read_into text = Ok (v, Some d) -> comes_along v d ->
  let e := in_version v V23 d in
  (forall ids, topics e ids -> exists t, report_program srt cs e = Ok t /\
     report_file srt cs dz h [n; path] = MkTool ("Successfully loaded " ++ path ++ LF ++ LF ++ t) Finished) /\
  ((forall ids, ~ topics e ids) -> report_file srt cs dz h [n; path] = MkTool ("Successfully loaded " ++ path ++ LF ++ LF) (Undescribed path)).
Proof.
  intros srt cs dz h n path text v d T R C. cbv zeta. destruct (load_seen_text dz _ _ _ _ _ T R C) as (s & O & L). set (e := in_version v V23 d) in *. clearbody e.
  unfold report_file. rewrite O, L. split.
  - intros ids X. destruct (proj2 (proj1 (C57_report_runs srt cs e)) (ex_intro _ ids X)) as (t & Q). exists t. split; [exact Q|]. unfold report_program in Q.
    apply (topics_iff srt) in X. rewrite X in *. cbn [bindR] in Q. rewrite Q. now rewrite !app_assoc_s.
  - intros X. destruct (get_described_package_ids srt e) as [ids|m|] eqn:E; [exfalso; apply topics_iff in E; now apply (X ids)|reflexivity|now apply described_calm in E].
Qed.
Print Assumptions C57_report_file.
(** It never breaks off, and a message is the last that is printed. *)
Theorem C57_report_file_ends : forall srt cs dz h args,
  (List.length args <> 2 /\ report_file srt cs dz h args = MkTool "" Usage) \/
  exists n path, args = [n; path] /\
    ((opens h path = None /\ report_file srt cs dz h args = MkTool "" (Unopened path)) \/
     (exists s m, opens h path = Some s /\ tagvalue_read_from dz V23 s = Err m /\ report_file srt cs dz h args = MkTool "" (Unloaded path)) \/
     report_file srt cs dz h args = MkTool ("Successfully loaded " ++ path ++ LF ++ LF) (Undescribed path) \/
     exists t, report_file srt cs dz h args = MkTool ("Successfully loaded " ++ path ++ LF ++ LF ++ t) Finished).
Proof.
  intros srt cs dz h args. destruct args as [|n [|path [|x l]]]; try (left; split; [cbn; lia|reflexivity]). right. exists n, path. split; [reflexivity|].
  unfold report_file. destruct (opens h path) as [s|]; [right|now left]. destruct (load_seen_calm dz s) as [(d & L)|(m & L & E)]; rewrite L; [right|left; now exists s, m].
  destruct (get_described_package_ids srt d) as [ids|m|] eqn:G; [right|now left|now apply described_calm in G].
  pose proof G as X. apply topics_iff in X. destruct (proj2 (proj1 (C57_report_runs srt cs d)) (ex_intro _ ids X)) as (t & Q). unfold report_program in Q. rewrite G in Q. cbn [bindR] in Q.
  rewrite Q. exists t. now rewrite !app_assoc_s.
Qed.
Print Assumptions C57_report_file_ends.

(** ** examples/6-licensediff *)
(** Two texts that describe something are loaded and compared. *)
Theorem C57_diff_files : forall srt iter dz h n p1 p2 text1 text2 v1 v2 d1 d2 ids1 ids2,
  holds_lines h p1 text1 -> read_into text1 = Ok (v1, Some d1) -> comes_along v1 d1 -> topics (in_version v1 V23 d1) ids1 ->
  holds_lines h p2 text2 -> read_into text2 = Ok (v2, Some d2) -> comes_along v2 d2 -> topics (in_version v2 V23 d2) ids2 ->
  exists t, license_diff srt iter (in_version v1 V23 d1) (in_version v2 V23 d2) = Ok t /\
    diff_files srt iter dz h [n; p1; p2] =
      MkTool ("Successfully loaded first SPDX file " ++ p1 ++ LF ++ "Successfully loaded second SPDX file " ++ p2 ++ LF ++ LF ++ t) Finished.
Proof.
  intros srt iter dz h n p1 p2 t1 t2 v1 v2 d1 d2 ids1 ids2 T1 R1 C1 X1 T2 R2 C2 X2.
  destruct (load_seen_text dz _ _ _ _ _ T1 R1 C1) as (s1 & O1 & L1), (load_seen_text dz _ _ _ _ _ T2 R2 C2) as (s2 & O2 & L2).
  apply (topics_iff srt) in X1, X2. unfold license_diff, diff_files, load_described. rewrite O1, L1, X1, O2, L2, X2. cbn [bindR]. eexists. split; [reflexivity|].
  now rewrite !app_assoc_s.
Qed.
Print Assumptions C57_diff_files.
(** What can go wrong with a file. *)
Definition fails (srt : sorter) (dz : bool) (h : host) (path : string) (e : ending) : Prop :=
  (opens h path = None /\ e = Unopened path) \/
  (exists s m, opens h path = Some s /\ tagvalue_read_from dz V23 s = Err m /\ e = Unloaded path) \/
  (exists s g, opens h path = Some s /\ tagvalue_read_from dz V23 s = Ok g /\ e = Undescribed path).
Lemma load_described_ends srt dz h path : (exists s d ids, load_described srt dz h path = inl (d, ids) /\ topics d ids /\ opens h path = Some s /\ load_seen dz s = Ok d) \/
  exists e, load_described srt dz h path = inr e /\ fails srt dz h path e.
Proof.
  unfold load_described, fails. destruct (opens h path) as [s|]; [|right; eexists; split; [reflexivity|now left]]. destruct (load_seen_calm dz s) as [(d & L)|(m & L & E)]; rewrite L; [|right; eexists; split; [reflexivity|]; right; left; now exists s, m].
  destruct (get_described_package_ids srt d) as [ids|m|] eqn:G; [left; exists s, d, ids; split; [reflexivity|split; [now apply topics_iff in G|auto]]| |now apply described_calm in G].
  right. eexists. split; [reflexivity|]. right. right. unfold load_seen in L. destruct (tagvalue_read_from dz V23 s) as [g| |] eqn:TT; [now exists s, g|discriminate L..].
Qed.
(** It never breaks off: it is told that there is something wrong with the first file
    and the second is not looked at, or with the second after the first was loaded, or
    both are compared. *)
Theorem C57_diff_files_ends : forall srt iter dz h args,
  (List.length args <> 3 /\ diff_files srt iter dz h args = MkTool "" Usage) \/
  exists n p1 p2, args = [n; p1; p2] /\
    ((exists e, fails srt dz h p1 e /\ diff_files srt iter dz h args = MkTool "" e) \/
     (exists e, fails srt dz h p2 e /\ diff_files srt iter dz h args = MkTool ("Successfully loaded first SPDX file " ++ p1 ++ LF) e) \/
     (exists s1 s2 d1 d2 t, opens h p1 = Some s1 /\ load_seen dz s1 = Ok d1 /\ opens h p2 = Some s2 /\ load_seen dz s2 = Ok d2 /\
        license_diff srt iter d1 d2 = Ok t /\ diff_files srt iter dz h args =
        MkTool ("Successfully loaded first SPDX file " ++ p1 ++ LF ++ "Successfully loaded second SPDX file " ++ p2 ++ LF ++ LF ++ t) Finished)).
Proof.
  intros srt iter dz h args. destruct args as [|n [|p1 [|p2 [|x l]]]]; try (left; split; [cbn; lia|reflexivity]). right. exists n, p1, p2. split; [reflexivity|].
  unfold diff_files. destruct (load_described_ends srt dz h p1) as [(s1 & d1 & ids1 & E1 & X1 & O1 & L1)|(e & E1 & F)]; rewrite E1; [|left; eauto]. right.
  destruct (load_described_ends srt dz h p2) as [(s2 & d2 & ids2 & E2 & X2 & O2 & L2)|(e & E2 & F)]; rewrite E2; [right|left; eauto].
  apply (topics_iff srt) in X1, X2. exists s1, s2, d1, d2. eexists. do 4 (split; [assumption|]). unfold license_diff. rewrite X1, X2. cbn [bindR]. split; [reflexivity|]. now rewrite !app_assoc_s.
Qed.
Print Assumptions C57_diff_files_ends.

(** ** Witnesses *)
(** Two documents about one package, which has one more file in the second. *)
Definition C57_lines (more : list string) : string := String.concat LF (["SPDXVersion: SPDX-2.2"; "DataLicense: CC0-1.0"; "SPDXID: SPDXRef-DOCUMENT"; "DocumentName: d"; "DocumentNamespace: https://x"; "Creator: Tool: t"; "Created: now";
   "PackageName: one"; "SPDXID: SPDXRef-p1"; "PackageDownloadLocation: NONE"; "FilesAnalyzed: true"] ++ more ++ [""])%list.
Definition C57_text1 : string := C57_lines ["FileName: a.c"; "SPDXID: SPDXRef-f1"; "LicenseConcluded: MIT"; "FileName: b.c"; "SPDXID: SPDXRef-f2"; "LicenseConcluded: X"].
Definition C57_text2 : string := C57_lines ["FileName: a.c"; "SPDXID: SPDXRef-f1"; "LicenseConcluded: MIT"; "FileName: b.c"; "SPDXID: SPDXRef-f2"; "LicenseConcluded: Y"; "FileName: c.c"; "SPDXID: SPDXRef-f3"; "LicenseConcluded: MIT"].
Definition C57_host : host := MkHost (fun path =>
  if String.eqb path "1" then Some (Give (take 100 C57_text1) (Stop (drop 100 C57_text1) Eof))
  else if String.eqb path "2" then Some (Stop C57_text2 Eof) else None) (fun _ => false) (fun _ => Accept).
Definition C57_document (text : string) : Document := match read_into text with Ok (_, Some d) => d | _ => zero_DocumentOf end.
Example C57_files_witness :
  holds_lines C57_host "1" C57_text1 /\ read_into C57_text1 = Ok (V22, Some (C57_document C57_text1)) /\ comes_along V22 (C57_document C57_text1) /\
  topics (in_version V22 V23 (C57_document C57_text1)) ["p1"] /\
  holds_lines C57_host "2" C57_text2 /\ read_into C57_text2 = Ok (V22, Some (C57_document C57_text2)) /\ comes_along V22 (C57_document C57_text2) /\
  topics (in_version V22 V23 (C57_document C57_text2)) ["p1"] /\
  diff_files insertion_sorter (fun l => l) true C57_host ["prog"; "1"; "2"] = MkTool (String.concat LF
    ["Successfully loaded first SPDX file 1"; "Successfully loaded second SPDX file 2"; ""; "================================"; "Package p1 (one)";
     "  Files in first only: 0"; "  Files in second only: 1"; "  Files in both with different licenses: 1"; "  Files in both with same licenses: 1"; ""]) Finished /\
  diff_files insertion_sorter (fun l => l) true C57_host ["prog"; "1"; "3"] = MkTool ("Successfully loaded first SPDX file 1" ++ LF) (Unopened "3") /\
  report_file insertion_sorter insertion_count_sorter true C57_host ["prog"; "2"] = MkTool (String.concat LF
    ["Successfully loaded 2"; ""; "============================"; "Package p1 (one)"; "  3  License found"; "  0  License not found"; "  3  TOTAL"; "";
     "  2  MIT"; "  1  Y"; "  3  TOTAL FOUND"; ""]) Finished.
Proof.
  split. { eexists. split; [reflexivity|]. split; [reflexivity|]. split; [apply take_drop|]. split; [vm_compute; auto|now apply short_text]. }
  split; [vm_compute; reflexivity|]. split; [right; apply ConvertRecord.solidb_solid; vm_compute; reflexivity|]. split; [apply (topics_iff insertion_sorter); vm_compute; reflexivity|].
  split. { eexists. split; [reflexivity|]. split; [reflexivity|]. split; [reflexivity|]. split; [vm_compute; auto|now apply short_text]. }
  split; [vm_compute; reflexivity|]. split; [right; apply ConvertRecord.solidb_solid; vm_compute; reflexivity|]. split; [apply (topics_iff insertion_sorter); vm_compute; reflexivity|].
  split; [vm_compute; reflexivity|]. split; [vm_compute; reflexivity|]. vm_compute. reflexivity.
Qed.
