(** * Property C60: the example programs that load a document and print a portion of it *)
From Verif Require Import RdfConst Rdf SpecRdf SpecRdfLoad PropsRdf PropsRdfLoad.
From Verif Require Import GoStr GoStrFacts Sorting Types TvUtil TvReader TvParser TvState SpdxLib Convert ConvertGo Json JsonSpdx JsonText Formats TvWriter Stream Yaml Rdf RdfReader RdfRead Transfer
  SpecConvert SpecUpgrade SpecTv SpecTools SpecFormats SpecStream SpecYaml SpecTransfer Loaders SpecLoaders ConvertGoFacts JsonTextRead StreamFacts YamlFacts TransferFacts RdfReadFacts LoadersFacts
  PropsFormats PropsStream PropsYaml PropsTransfer PropsRdfRead.
Local Open Scope string_scope.

(** ** examples/1-load *)
(** The text of a document is loaded and printed as the specification says: every
    package in the order of the document, every file of it in the order of the
    document up to the fiftieth. *)
Theorem C60_load : forall info srt dz h n path text v d, holds_lines h path text -> read_into text = Ok (v, Some d) -> comes_along v d ->
  let e := in_version v V23 d in
  (describes_something e -> exists parts, Forall2 (shown_as e) (d_Packages e) parts /\
     load_program info srt dz h [n; path] = Shown (heading path (info (d_CreationInfo e)) ++ String.concat "" parts)) /\
  (~ describes_something e -> load_program info srt dz h [n; path] = NoneDescribed (heading path (info (d_CreationInfo e)))).
Proof.
  intros info srt dz h n path text v d T R C. cbv zeta. destruct (load_tag dz _ _ _ _ _ T R C) as (s & O & L). set (e := in_version v V23 d) in *. clearbody e.
  unfold load_program. rewrite O, L, of_go_plain, ids_of. destruct (described_when srt e) as [W1 W2]. cbn [jdoc d_CreationInfo d_Packages]. split; intros X.
  - destruct (W1 X) as (ids & E). rewrite E. destruct (described_by srt e ids E) as [N D]. destruct (packages_shown e ids (d_Packages e) D) as (parts & S & F).
    exists parts. split; [exact F|]. rewrite S. destruct ids as [|i ids]; [congruence|]. unfold and_then. cbn [broke printed]. reflexivity.
  - destruct (W2 X) as (m & ->). reflexivity.
Qed.
Print Assumptions C60_load.
(** Whatever it is given, it ends in one of these ways and never breaks off: the
    document that was read has no nil package, package file or relationship. *)
Theorem C60_load_ends : forall info srt dz h n path,
  load_program info srt dz h [n; path] = NotOpened path /\ opens h path = None \/
  (exists s m, opens h path = Some s /\ tagvalue_read_from dz V23 s = Err m /\ load_program info srt dz h [n; path] = NotLoaded path) \/
  (exists s g d rest, opens h path = Some s /\ tagvalue_read_from dz V23 s = Ok g /\ of_document g = Some d /\
     (load_program info srt dz h [n; path] = NoneDescribed (heading path (info (d_CreationInfo d))) \/
      load_program info srt dz h [n; path] = Shown (heading path (info (d_CreationInfo d)) ++ rest))).
Proof.
  intros info srt dz h n path. unfold load_program. destruct (opens h path) as [s|]; [right|now left].
  destruct (tag_loads dz s) as [(g & d & L & O)|(m & L)]; rewrite L; [right|left; exists s, m; auto]. rewrite O.
  destruct (tag_whole dz s g d L O) as (WP & WF & WR).
  assert (F : forall fs i, broke (show_files i fs) = true -> In None fs).
  { induction fs as [|[f|] fs IH]; intros i B; [discriminate B| |now left]. cbn [show_files] in B. destruct (50 <? i + 1)%N; [discriminate B|].
    unfold and_then in B. cbn [broke] in B. right. exact (IH _ B). }
  assert (P : forall ids ps, broke (show_packages ids ps) = true -> In None ps \/ exists p, In (Some p) ps /\ In None (p_Files p)).
  { intros ids. induction ps as [|[p|] ps IH]; intros B; [discriminate B| |left; now left]. cbn [show_packages] in B. unfold and_then in B.
    destruct (broke (show_package ids (Some p))) eqn:E.
    - clear B. right. exists p. split; [now left|]. unfold show_package in E. destruct (negb (existsb _ _)); [discriminate E|]. destruct (negb _); [discriminate E|].
      destruct (p_Files p) as [|f fs] eqn:G; [discriminate E|]. unfold and_then in E. cbn [broke] in E. exact (F _ _ E).
    - cbn [broke] in B. destruct (IH B) as [N|(q & I & X)]; [left; now right|right; exists q; split; [now right|exact X]]. }
  assert (A : forall {X} (l : list (option X)), all_there l = None -> In None l).
  { intros X l. induction l as [|[x|] l IH]; cbn [all_there]; [discriminate| |intros _; now left]. destruct (all_there l); [discriminate|]. intros _. right. now apply IH. }
  assert (Z : described_ids srt d <> Panic).
  { unfold described_ids. destruct (d_Packages d) as [|[p|] [|q l]] eqn:K; try discriminate.
    - destruct (d_Relationships d) as [|r rs] eqn:RR; [discriminate|]. destruct (all_there (r :: rs)) eqn:AA; [destruct (filter_relationships _ _); discriminate|]. intros _.
      apply WR. exact (A _ _ AA).
    - intros _. apply WP. now left.
    - intros _. apply WP. now left. }
  exists s, g, d. destruct (described_ids srt d) as [[|i ids]|m|] eqn:E.
  - exists "". split; [reflexivity|]. split; [exact L|]. split; [exact O|]. right. now rewrite app_nil_r_s.
  - exists (printed (show_packages (i :: ids) (d_Packages d))). split; [reflexivity|]. split; [exact L|]. split; [exact O|]. right. unfold and_then. cbn [broke printed].
    destruct (broke (show_packages (i :: ids) (d_Packages d))) eqn:B; [|reflexivity]. exfalso. destruct (P _ _ B) as [N|(p & I & N)]; [now apply WP|now apply (WF p I)].
  - exists "". split; [reflexivity|]. split; [exact L|]. split; [exact O|]. now left.
  - exfalso. now apply Z.
Qed.
Print Assumptions C60_load_ends.

(** ** examples/10-jsonloader, 13-yamlloader and 7-rdfloader *)
(** Every document that can be read is printed with the attributes it has; the
    version that is printed is 2.3 if it was an older one. *)
Theorem C60_json : forall room dz h n path text v d, (forall n, (512 <= room n)%N) -> holds_text h path text -> json_read_into text = Ok (v, d) ->
  json_loader room dz h [n; path] = Shown ("Successfully loaded " ++ path ++ LF ++
    attribute_lines (d_DocumentName d) (d_DataLicense d) (d_DocumentNamespace d) (match v with V23 => d_SPDXVersion d | _ => "SPDX-2.3" end)).
Proof.
  intros room dz h n path text v d RM (s & O & E & <-) R. unfold json_loader, show_loaded. rewrite O, (C45_json room dz V23 s RM E).
  destruct (attributes_converted dz v d (json_typed _ _ _ R)) as (g & C & S). unfold json_read. rewrite R. cbn [bindR]. rewrite C, S. now rewrite !app_assoc_s.
Qed.
Print Assumptions C60_json.
Theorem C60_yaml : forall to_json room dz h n path text v d, (forall n, (512 <= room n)%N) -> holds_text h path text -> yaml_read_into to_json text = Ok (v, d) ->
  yaml_loader to_json room dz h [n; path] = Shown ("Successfully loaded " ++ path ++ LF ++
    attribute_lines (d_DocumentName d) (d_DataLicense d) (d_DocumentNamespace d) (match v with V23 => d_SPDXVersion d | _ => "SPDX-2.3" end)).
Proof.
  intros c room dz h n path text v d RM (s & O & E & <-) R. unfold yaml_loader, show_loaded. rewrite O, (C49_pieces c room dz V23 s RM E).
  destruct (attributes_converted dz v d (yaml_typed _ _ _ _ R)) as (g & C & S). unfold yaml_read. rewrite R. cbn [bindR]. rewrite C, S. now rewrite !app_assoc_s.
Qed.
Print Assumptions C60_yaml.
Theorem C60_rdf : forall parse iter dz h n path more s g v d, opens h path = Some s -> parse s = Ok g -> rdf_read g iter = Ok (v, d) ->
  rdf_loader parse iter dz h (n :: path :: more) =
    Shown (attribute_lines (d_DocumentName d) (d_DataLicense d) (d_DocumentNamespace d) (match v with V23 => d_SPDXVersion d | _ => "SPDX-2.3" end)).
Proof.
  intros parse iter dz h n path more s g v d O P R. unfold rdf_loader, show_loaded. rewrite O, P. cbn [bindR]. unfold rdf_read_to. rewrite R. cbn [bindR].
  pose proof (typed_document v d (rdf_keys _ _ _ _ R)) as T. rewrite <- go_jdocument_plain in T. destruct (attributes_converted dz v (jdoc d) T) as (r & C & S).
  rewrite go_jdocument_plain in C. rewrite C, S. reflexivity.
Qed.
Print Assumptions C60_rdf.
(** It says what it could not do unless what is in the file makes the RDF loader panic. *)
Theorem C60_rdf_ends : forall parse iter dz h n path more,
  (forall s, opens h path = Some s -> parse s <> Panic /\ forall g, parse s = Ok g -> ~ role_conflict g /\ ~ untyped_root g) ->
  rdf_loader parse iter dz h (n :: path :: more) = NotOpened path /\ opens h path = None \/
  rdf_loader parse iter dz h (n :: path :: more) = NotLoaded path \/
  exists a b c e, rdf_loader parse iter dz h (n :: path :: more) = Shown (attribute_lines a b c e).
Proof.
  intros parse iter dz h n path more H. unfold rdf_loader, show_loaded. destruct (opens h path) as [s|]; [right|now left].
  destruct (H s eq_refl) as [N G]. destruct (parse s) as [g|m|]; cbn [bindR]; [|now left|congruence]. destruct (G g eq_refl) as [C U].
  destruct (C35_read_total dz V23 g iter C U) as [(r & -> & _)|(e & ->)]; [right|now left]. eexists _, _, _, _. reflexivity.
Qed.
Print Assumptions C60_rdf_ends.
Theorem C60_rdf_breaks_off_refuted : ~ forall parse iter dz h n path s g, opens h path = Some s -> parse s = Ok g ->
  rdf_loader parse iter dz h [n; path] <> BrokenOff "".
Proof.
  intros H.
  apply (H (fun _ => Ok (d_graph [st (ref "DOCUMENT") (spdx "describesPackage") (ref "P"); st (ref "P") (spdx "hasFile") (ref "P")]))
    (fun m => m) true (MkHost (fun _ => Some (Stop "" Eof)) (fun _ => true) (fun _ => Accept)) "prog" "in" _ _ eq_refl eq_refl).
  vm_compute. reflexivity.
Qed.
Print Assumptions C60_rdf_breaks_off_refuted.
(** The programs say what they could not do, and those for JSON and YAML never break off. *)
Theorem C60_ends : forall to_json room dz h n path, (forall n, (512 <= room n)%N) -> (forall target y, to_json target y <> Panic) ->
  forall r, r = json_loader room dz h [n; path] \/ r = yaml_loader to_json room dz h [n; path] ->
  r = NotOpened path /\ opens h path = None \/ r = NotLoaded path \/ exists a b c e, r = Shown ("Successfully loaded " ++ path ++ LF ++ attribute_lines a b c e).
Proof.
  intros c room dz h n path RM N r [-> | ->]; unfold json_loader, yaml_loader, show_loaded; (destruct (opens h path) as [s|]; [right|now left]).
  - destruct (json_loads_from room dz s) as [(g & d & -> & _)|(m & ->)]; [intros k; specialize (RM k); lia|right|now left]. eexists _, _, _, _. unfold show_attributes. now rewrite !app_assoc_s.
  - destruct (yaml_loads_from c room dz s N) as [(g & d & -> & _)|(m & ->)]; [intros k; specialize (RM k); lia|right|now left]. eexists _, _, _, _. unfold show_attributes. now rewrite !app_assoc_s.
Qed.
Print Assumptions C60_ends.
(** A file that breaks off is not loaded. *)
Theorem C60_broken_input : forall info srt to_json room dz h n path s, (forall n, (512 <= room n)%N) -> opens h path = Some s -> ends s = Broken ->
  load_program info srt dz h [n; path] = NotLoaded path /\ json_loader room dz h [n; path] = NotLoaded path /\ yaml_loader to_json room dz h [n; path] = NotLoaded path.
Proof.
  intros info srt c room dz h n path s RM O B. unfold load_program, json_loader, yaml_loader, show_loaded. rewrite O.
  destruct (C45_tag_broken dz V23 s B) as (m & ->), (C45_json_broken room dz V23 s RM B) as (m' & ->), (C49_broken c room dz V23 s RM B) as (m'' & ->). auto.
Qed.
Print Assumptions C60_broken_input.
Theorem C60_usage : forall info srt to_json room parse iter dz h args,
  (length args <> 2 -> load_program info srt dz h args = UsageShown /\ json_loader room dz h args = UsageShown /\ yaml_loader to_json room dz h args = UsageShown) /\
  (length args < 2 -> rdf_loader parse iter dz h args = UsageShown).
Proof.
  intros. split; intros L; destruct args as [|a [|b [|c l]]]; cbn in L; try lia; repeat split; reflexivity.
Qed.
Print Assumptions C60_usage.

(** ** Witnesses *)
(** A 2.2 document with three packages, two of which it describes. *)
Definition C60_text (relationships : list string) : string := String.concat LF (["SPDXVersion: SPDX-2.2"; "DataLicense: CC0-1.0"; "SPDXID: SPDXRef-DOCUMENT"; "DocumentName: d"; "DocumentNamespace: https://x"; "Creator: Tool: t"; "Created: now";
   "PackageName: one"; "SPDXID: SPDXRef-p1"; "PackageDownloadLocation: NONE"; "FilesAnalyzed: true"; "FileName: a.c"; "SPDXID: SPDXRef-f1"; "LicenseConcluded: MIT"; "LicenseInfoInFile: MIT"; "LicenseInfoInFile: GPL-2.0";
   "PackageName: two"; "SPDXID: SPDXRef-p2"; "FilesAnalyzed: false";
   "PackageName: three"; "SPDXID: SPDXRef-p3"] ++ relationships ++ [""])%list.
Definition C60_input : string := C60_text ["Relationship: SPDXRef-DOCUMENT DESCRIBES SPDXRef-p1"; "Relationship: SPDXRef-p2 DESCRIBED_BY SPDXRef-DOCUMENT"].
Definition C60_host : host := C58_host C60_input (fun _ => Accept).
Definition C60_document : Document := match read_into C60_input with Ok (_, Some d) => d | _ => C42_document end.
Definition C60_printed : string := heading "in" "info" ++ String.concat LF
  ["============================"; "Package p1 (one)"; "File info (up to first 50):"; "- File 1: a.c"; "    License from file: [MIT GPL-2.0]"; "    License concluded: MIT";
   "Package p2 (two) had FilesAnalyzed: false"; ""].
Example C60_load_witness : holds_lines C60_host "in" C60_input /\ read_into C60_input = Ok (V22, Some C60_document) /\ comes_along V22 C60_document /\
  length (d_Packages C60_document) = 3 /\ describes_something (in_version V22 V23 C60_document) /\
  load_program (fun _ => "info") insertion_sorter true C60_host ["prog"; "in"] = Shown C60_printed.
Proof.
  split; [apply C58_holds; vm_compute; auto|]. split; [vm_compute; reflexivity|]. split; [right; apply ConvertRecord.solidb_solid; vm_compute; reflexivity|].
  split; [vm_compute; reflexivity|]. split; [|vm_compute; reflexivity]. right. split; [vm_compute; auto|]. exists "p1".
  eexists. split; [vm_compute; left; reflexivity|]. left. repeat split; reflexivity.
Qed.
(** Without the relationships nothing is described. *)
Example C60_none_witness : let text := C60_text [] in let d := match read_into text with Ok (_, Some d) => d | _ => C42_document end in
  holds_lines (C58_host text (fun _ => Accept)) "in" text /\ read_into text = Ok (V22, Some d) /\ comes_along V22 d /\ length (d_Packages d) = 3 /\ d_Relationships d = [] /\
  ~ describes_something (in_version V22 V23 d).
Proof.
  cbv zeta. split; [apply C58_holds; vm_compute; auto|]. split; [vm_compute; reflexivity|]. split; [right; apply ConvertRecord.solidb_solid; vm_compute; reflexivity|].
  split; [vm_compute; reflexivity|]. split; [vm_compute; reflexivity|]. intros [L|(_ & id & r & I & _)]; [vm_compute in L; discriminate L|vm_compute in I; exact I].
Qed.
(** The version that is printed need not be the one in the file. *)
Definition C60_json_text : string := "{""spdxVersion"":""SPDX-2.2"",""dataLicense"":""CC0-1.0"",""SPDXID"":""SPDXRef-DOCUMENT"",""name"":""d"",""documentNamespace"":""https://x""}".
Definition C60_json_document : JDocument := match json_read_into C60_json_text with Ok (_, d) => d | _ => jdoc C42_document end.
Example C60_json_witness : let h := C58_host C60_json_text (fun _ => Accept) in
  holds_text h "in" C60_json_text /\ json_read_into C60_json_text = Ok (V22, C60_json_document) /\ yaml_read_into (fun _ => Ok) C60_json_text = Ok (V22, C60_json_document) /\
  json_loader (fun _ => 512%N) true h ["prog"; "in"] = Shown ("Successfully loaded in" ++ LF ++ attribute_lines "d" "CC0-1.0" "https://x" "SPDX-2.3") /\
  yaml_loader (fun _ => Ok) (fun _ => 512%N) true h ["prog"; "in"] = Shown ("Successfully loaded in" ++ LF ++ attribute_lines "d" "CC0-1.0" "https://x" "SPDX-2.3").
Proof. cbv zeta. split; [eexists; split; [reflexivity|]; split; [reflexivity|apply take_drop]|]. repeat split; vm_compute; reflexivity. Qed.
Theorem C60_version_refuted : ~ forall room dz h n path text v d, (forall n, (512 <= room n)%N) -> holds_text h path text -> json_read_into text = Ok (v, d) ->
  json_loader room dz h [n; path] = Shown ("Successfully loaded " ++ path ++ LF ++ attribute_lines (d_DocumentName d) (d_DataLicense d) (d_DocumentNamespace d) (d_SPDXVersion d)).
Proof.
  intros H. destruct C60_json_witness as (T & R & _ & W & _). specialize (H (fun _ => 512%N) true _ "prog" "in" _ _ _ (fun _ => N.le_refl _) T R). cbv zeta in W. rewrite W in H.
  vm_compute in H. discriminate H.
Qed.
Print Assumptions C60_version_refuted.
Example C60_rdf_witness : exists d, rdf_read rich_22 (fun m => m) = Ok (V22, d) /\
  rdf_loader (fun _ => Ok rich_22) (fun m => m) true C60_host ["prog"; "in"; "more"] =
    Shown (attribute_lines (d_DocumentName d) (d_DataLicense d) (d_DocumentNamespace d) "SPDX-2.3").
Proof. destruct C35_read_witness as (_ & _ & _ & d & R & _). exists d. split; [exact R|]. exact (C60_rdf (fun _ => Ok rich_22) (fun m => m) true C60_host "prog" "in" _ _ _ _ _ eq_refl eq_refl R). Qed.
Example C60_broken_witness : let h := MkHost (fun _ => Some (Stop C60_input Broken)) (fun _ => true) (fun _ => Accept) in
  ends (Stop C60_input Broken) = Broken /\ load_program (fun _ => "info") insertion_sorter true h ["prog"; "in"] = NotLoaded "in".
Proof. split; [reflexivity|vm_compute; reflexivity]. Qed.
