(** * Property C58: the example programs that load a document from one file and save it to another *)
From Verif Require Import GoStr Sorting Types TvUtil TvReader TvParser Convert ConvertGo Json JsonSpdx JsonText SpecTv SpecId SpecDoc SpecWrite SpecJson SpecJsonText
  SpecFormats Formats GoStrFacts TvWriter Stream Yaml SpecStream SpecUpgrade SpecConvert SpecYaml Transfer SpecTransfer
  TvUtilFacts JsonCodec JsonPart TagPart FormatsFacts StreamFacts YamlFacts ConvertRecord JsonTextRead JsonTextParse ReloadFacts TransferFacts
  PropsTvWrite PropsJson PropsJsonText PropsFormats PropsStream PropsYaml.
Local Open Scope string_scope.

(** ** How a run ends *)
(** With two paths a run ends in one of six ways.  In particular nothing is
    created before a document was loaded; nothing is created but the output; and
    whatever is wrong is said, unless the program breaks off. *)
Theorem C58_ends : forall p h n i o, program p -> ending i o (p h [n; i; o]).
Proof.
  intros p h n i o P.
  assert (T : forall so k d, (exists t, save_tag so k d = (Ok tt, Some t)) \/ (exists m t, save_tag so k d = (Err m, Some t)) \/ save_tag so k d = (Panic, None)).
  { intros so k d. destruct (tag_saves so k d) as (r & t & -> & [(-> & -> & _)|[(m & -> & -> & _)|(e & u & -> & -> & _)]]); eauto. }
  assert (R : forall room : N -> N, (forall n, (512 <= room n)%N) -> forall n, (0 < room n)%N) by (intros room H m; specialize (H m); lia).
  destruct P as [so dz|so room dz RM|dz|c so room dz RM C|y dz Y]; apply transfer_ends; try exact (T so); intros; auto using tag_loads, json_loads_from, yaml_loads_from.
  - destruct (json_saves k d) as (t & [(E & _)|(m & E)]); eauto.
  - destruct (yaml_saves y k d Y) as (t & [(E & _)|(m & E)]); eauto.
Qed.
Print Assumptions C58_ends.
(** With any other number of arguments it only says how it is used. *)
Theorem C58_usage : forall p h args, program p -> length args <> 3 -> p h args = MkRun [Usage] None false.
Proof.
  intros p h args P L. destruct P; unfold load_save, json_to_tag, tag_to_json, yaml_to_tag, tag_to_yaml, transfer;
    (destruct args as [|a [|b [|c [|e l]]]]; [reflexivity..|exfalso; now apply L|reflexivity]).
Qed.
Print Assumptions C58_usage.
(** Which of them: the input is opened, then loaded, then the output is created. *)
Theorem C58_loaded : forall load save h n i o, let r := transfer load save h [n; i; o] in
  (opens h i = None -> r = MkRun [CannotOpen i] None false) /\
  (forall s m, opens h i = Some s -> load s = Err m -> r = MkRun [CannotParse i] None false) /\
  (forall s g, opens h i = Some s -> load s = Ok g -> creates h o = false -> r = MkRun [Loaded i; CannotCreate o] None false).
Proof.
  intros load save h n i o. cbv zeta. unfold transfer. split; [intros ->; reflexivity|]. split; [intros s m -> ->; reflexivity|]. intros s g -> -> ->. reflexivity.
Qed.
Print Assumptions C58_loaded.
(** An input that breaks off is not taken for a document. *)
Theorem C58_broken_input : forall p h n i o s, program p -> opens h i = Some s -> ends s = Broken -> p h [n; i; o] = MkRun [CannotParse i] None false.
Proof.
  intros p h n i o s P O B.
  destruct P as [so dz|so room dz RM|dz|c so room dz RM C|y dz Y];
    [destruct (C45_tag_broken dz V23 s B) as (m & E)|destruct (C45_json_broken room dz V23 s RM B) as (m & E)|destruct (C45_tag_broken dz V23 s B) as (m & E)
    |destruct (C49_broken c room dz V23 s RM B) as (m & E)|destruct (C45_tag_broken dz V23 s B) as (m & E)];
    unfold load_save, json_to_tag, tag_to_json, yaml_to_tag, tag_to_yaml, transfer; now rewrite O, E.
Qed.
Print Assumptions C58_broken_input.

(** ** What is saved *)
Lemma load_tag dz h i text v d : holds_lines h i text -> read_into text = Ok (v, Some d) -> comes_along v d ->
  exists s, opens h i = Some s /\ tagvalue_read_from dz V23 s = Ok (go_document V23 (in_version v V23 d)).
Proof.
  intros (s & O & E & <- & L & F) R C. exists s. split; [exact O|]. rewrite (tag_stream dz V23 s L E F). destruct C as [-> |C].
  - unfold tagvalue_read. rewrite R. reflexivity.
  - now apply public_read.
Qed.
Lemma load_json room dz h i text v d : (forall n, (512 <= room n)%N) -> holds_text h i text -> json_read_into text = Ok (v, jdoc d) -> comes_along v d ->
  exists s, opens h i = Some s /\ json_read_from room dz V23 s = Ok (go_document V23 (in_version v V23 d)).
Proof.
  intros RM (s & O & E & <-) R C. exists s. split; [exact O|]. rewrite (C45_json room dz V23 s RM E). destruct C as [-> |C].
  - rewrite (json_read_same dz _ _ _ R), go_jdocument_plain. reflexivity.
  - now apply json_read_23.
Qed.
Lemma save_tag_all so k d : (forall call, k call = Accept) -> representable V23 (tag_part V23 d) ->
  exists t e, save_tag so k (jdoc d) = (Ok tt, Some t) /\ document_same (tag_part V23 d) e /\ (Forall short (stream_lines t) -> read_into t = Ok (V23, Some e)) /\
    (distinct_ids d -> forall so', exists e', render_document so' V23 e = Ok (t, e')).
Proof.
  intros A R. destruct (reload_part so V23 d R) as (t & d' & e & W & S & B & I). exists t, e. split; [|auto].
  unfold save_tag. assert (N : d_CreationInfo d <> None). { intros N. unfold render_document, render_document_chunks in W. rewrite N in W. discriminate W. }
  rewrite plain_jdoc. cbn [jdoc d_CreationInfo]. destruct (d_CreationInfo d); [|congruence]. now rewrite (C46_tag _ _ _ _ _ _ A W).
Qed.

(** Tag-value to tag-value: a document of any version becomes one of version 2.3,
    and the part of it that tag-value text carries can be loaded from the output. *)
Theorem C58_load_save : forall so dz h n i o text v d, holds_lines h i text -> accepts h o ->
  read_into text = Ok (v, Some d) -> comes_along v d -> representable V23 (tag_part V23 (in_version v V23 d)) ->
  exists t e, load_save so dz h [n; i; o] = leaves i o t /\ document_same (tag_part V23 (in_version v V23 d)) e /\
    (Forall short (stream_lines t) -> read_into t = Ok (V23, Some e)).
Proof.
  intros so dz h n i o text v d T [A A'] R C P. destruct (load_tag dz _ _ _ _ _ T R C) as (s & O & L). destruct (save_tag_all so (takes h) _ A' P) as (t & e & W & S & B & _).
  exists t, e. split; [|auto]. exact (transfer_leaves _ _ _ _ _ _ _ _ _ _ O L (of_go_plain _) A W).
Qed.
Print Assumptions C58_load_save.
(** Running the program on its own output gives the same bytes. *)
Theorem C58_again : forall so so' dz dz' h h' n n' i i' o o' text v d t, holds_lines h i text -> accepts h o ->
  read_into text = Ok (v, Some d) -> comes_along v d -> representable V23 (tag_part V23 (in_version v V23 d)) -> distinct_ids (in_version v V23 d) ->
  load_save so dz h [n; i; o] = leaves i o t -> Forall short (stream_lines t) -> holds_lines h' i' t -> accepts h' o' ->
  load_save so' dz' h' [n'; i'; o'] = leaves i' o' t.
Proof.
  intros so so' dz dz' h h' n n' i i' o o' text v d t T [A A'] R C P D E B T' [K K'].
  destruct (load_tag dz _ _ _ _ _ T R C) as (s & O & L). destruct (save_tag_all so (takes h) _ A' P) as (u & e & W & S & Rd & I).
  pose proof (transfer_leaves _ _ _ n _ _ _ _ _ _ O L (of_go_plain _) A W) as Q. unfold load_save in E. rewrite Q in E. injection E as ->.
  specialize (Rd B). destruct (I D so') as (e' & W'). destruct (load_tag dz' _ _ _ _ _ T' Rd (or_introl eq_refl)) as (s' & O' & L').
  refine (transfer_leaves _ _ _ _ _ _ _ _ _ _ O' L' (of_go_plain _) K _). cbn [in_version].
  unfold save_tag. assert (N : d_CreationInfo e <> None). { intros N. unfold render_document, render_document_chunks in W'. rewrite N in W'. discriminate W'. }
  rewrite plain_jdoc. cbn [jdoc d_CreationInfo]. destruct (d_CreationInfo e); [|congruence]. now rewrite (C46_tag _ _ _ _ _ _ K' W').
Qed.
Print Assumptions C58_again.
(** JSON to tag-value *)
Theorem C58_json_to_tag : forall so room dz h n i o text v d, (forall n, (512 <= room n)%N) -> holds_text h i text -> accepts h o ->
  json_read_into text = Ok (v, jdoc d) -> comes_along v d -> representable V23 (tag_part V23 (in_version v V23 d)) ->
  exists t e, json_to_tag so room dz h [n; i; o] = leaves i o t /\ document_same (tag_part V23 (in_version v V23 d)) e /\
    (Forall short (stream_lines t) -> read_into t = Ok (V23, Some e)).
Proof.
  intros so room dz h n i o text v d RM T [A A'] R C P. destruct (load_json room dz _ _ _ _ _ RM T R C) as (s & O & L). destruct (save_tag_all so (takes h) _ A' P) as (t & e & W & S & B & _).
  exists t, e. split; [|auto]. exact (transfer_leaves _ _ _ _ _ _ _ _ _ _ O L (of_go_plain _) A W).
Qed.
Print Assumptions C58_json_to_tag.
(** Tag-value to JSON *)
Theorem C58_tag_to_json : forall dz h n i o text v d, holds_lines h i text -> accepts h o ->
  read_into text = Ok (v, Some d) -> comes_along v d -> document_json V23 true (json_part V23 (jdoc (in_version v V23 d))) ->
  exists t, tag_to_json dz h [n; i; o] = leaves i o t /\ json_read_into t = Ok (V23, json_part V23 (jdoc (in_version v V23 d))).
Proof.
  intros dz h n i o text v d T [A A'] R C P. destruct (load_tag dz _ _ _ _ _ T R C) as (s & O & L).
  destruct (json_part_read V23 true "" _ (Forall_nil _) P) as (t & W & B). exists t. split; [|exact B].
  refine (transfer_leaves _ _ _ _ _ _ _ _ _ _ O L (of_go_plain _) A _). unfold save_json, json_write_to. now rewrite W, A'.
Qed.
Print Assumptions C58_tag_to_json.
(** YAML to tag-value, where the conversion of the library does not depend on what
    the YAML is read into: as if the JSON it is converted to had been read. *)
Theorem C58_yaml_to_tag : forall to_json so room dz h n i o text t, (forall n, (512 <= room n)%N) -> holds_text h i text -> untyped to_json text t ->
  yaml_to_tag to_json so room dz h [n; i; o] = json_to_tag so room dz (MkHost (fun _ => Some (Stop t Eof)) (creates h) (takes h)) [n; i; o].
Proof.
  intros c so room dz h n i o text t RM (s & O & E & <-) U. unfold yaml_to_tag, json_to_tag, transfer. cbn [opens creates takes]. rewrite O.
  rewrite (C49_pieces c room dz V23 s RM E), (C45_json room dz V23 (Stop t Eof) RM eq_refl). cbn [content].
  now rewrite (proj2 (C49_like_json c _ _ U) dz V23).
Qed.
Print Assumptions C58_yaml_to_tag.
(** Tag-value to YAML, where the library carries the document over *)
Theorem C58_tag_to_yaml : forall to_json to_yaml dz h n i o text v d j, holds_lines h i text -> accepts h o ->
  read_into text = Ok (v, Some d) -> comes_along v d -> document_json V23 true (json_part V23 (jdoc (in_version v V23 d))) ->
  marshal_document V23 true (json_part V23 (jdoc (in_version v V23 d))) = Ok j -> carried to_json to_yaml None j -> carried to_json to_yaml (Some V23) j ->
  exists t, tag_to_yaml to_yaml dz h [n; i; o] = leaves i o t /\ yaml_read_into to_json t = Ok (V23, json_part V23 (jdoc (in_version v V23 d))).
Proof.
  intros c y dz h n i o text v d j T [A A'] R C P M K K'. destruct (load_tag dz _ _ _ _ _ T R C) as (s & O & L).
  destruct (C49_round_trip c y V23 _ j P M K K') as (t & W & B). exists t. split; [|exact B].
  refine (transfer_leaves _ _ _ _ _ _ _ _ _ _ O L (of_go_plain _) A _). rewrite yaml_write_part in W. unfold save_yaml, yaml_write_to. now rewrite W, A'.
Qed.
Print Assumptions C58_tag_to_yaml.

(** ** What "saved" means *)
(** For JSON and YAML it means that all of the text has arrived, whatever the file
    does to what is written to it; and if not all has arrived that is said. *)
Theorem C58_saved_json : forall dz h n i o t, tag_to_json dz h [n; i; o] = leaves i o t ->
  exists s g d, opens h i = Some s /\ tagvalue_read_from dz V23 s = Ok g /\ of_document g = Some d /\ json_write V23 true "" d = Ok t.
Proof.
  intros dz h n i o t. unfold tag_to_json, transfer. destruct (opens h i) as [s|]; [|discriminate]. destruct (tagvalue_read_from dz V23 s) as [g| |] eqn:L; [|discriminate..].
  destruct (creates h o); [|discriminate]. destruct (of_document g) as [d|] eqn:D; [|discriminate].
  destruct (json_saves (takes h) d) as (u & [(-> & W)|(m & ->)]); [|discriminate]. intros H. injection H as ->. exists s, g, d. auto.
Qed.
Print Assumptions C58_saved_json.
Theorem C58_saved_yaml : forall to_yaml dz h n i o t, (forall t, to_yaml t <> Panic) -> tag_to_yaml to_yaml dz h [n; i; o] = leaves i o t ->
  exists s g d, opens h i = Some s /\ tagvalue_read_from dz V23 s = Ok g /\ of_document g = Some d /\ yaml_write to_yaml V23 d = Ok t.
Proof.
  intros y dz h n i o t Y. unfold tag_to_yaml, transfer. destruct (opens h i) as [s|]; [|discriminate]. destruct (tagvalue_read_from dz V23 s) as [g| |] eqn:L; [|discriminate..].
  destruct (creates h o); [|discriminate]. destruct (of_document g) as [d|] eqn:D; [|discriminate].
  destruct (yaml_saves y (takes h) d Y) as (u & [(-> & W)|(m & ->)]); [|discriminate]. intros H. injection H as ->. exists s, g, d. auto.
Qed.
Print Assumptions C58_saved_yaml.
(** What the programs load is a record of the model, which the writers take. *)
Theorem C58_record : forall d, of_document (go_jdocument V23 d) = Some d.
Proof. exact of_go_document. Qed.
Print Assumptions C58_record.

(** ** Breaking off *)
(** The programs that save JSON or YAML never break off. *)
Theorem C58_calm : forall dz to_yaml h args, (forall t, to_yaml t <> Panic) ->
  panicked (tag_to_json dz h args) = false /\ panicked (tag_to_yaml to_yaml dz h args) = false.
Proof.
  intros dz y h args Y. unfold tag_to_json, tag_to_yaml, transfer. destruct args as [|a [|i [|o [|e l]]]]; auto. destruct (opens h i) as [s|]; auto.
  destruct (tag_loads dz s) as [(g & d & -> & O)|(m & ->)]; auto. destruct (creates h o); auto. rewrite O.
  destruct (json_saves (takes h) d) as (t & [(-> & _)|(m & ->)]), (yaml_saves y (takes h) d Y) as (u & [(-> & _)|(m' & ->)]); auto.
Qed.
Print Assumptions C58_calm.
(** Those that save tag-value text do so exactly if what was loaded has creation
    information and a nil pointer in one of its lists, once the output is empty. *)
Theorem C58_breaks_off : forall so room dz to_json h n i o, (forall n, (512 <= room n)%N) -> (forall target y, to_json target y <> Panic) ->
  forall load, load = tagvalue_read_from dz V23 \/ load = json_read_from room dz V23 \/ load = yaml_read_from to_json room dz V23 ->
  (panicked (transfer load (save_tag so) h [n; i; o]) = true <->
   exists s g d, opens h i = Some s /\ load s = Ok g /\ creates h o = true /\ of_document g = Some d /\ d_CreationInfo d <> None /\ document_nil d).
Proof.
  intros so room dz c h n i o RM C load L.
  assert (R : forall n, (0 < room n)%N) by (intros m; specialize (RM m); lia).
  assert (K : forall s, loads (load s)). { intros s. destruct L as [-> |[-> | ->]]; auto using tag_loads, json_loads_from, yaml_loads_from. }
  clear L. unfold transfer. split.
  - destruct (opens h i) as [s|] eqn:O; [|discriminate]. destruct (K s) as [(g & d & E & F)|(m & E)]; rewrite E; [|discriminate]. destruct (creates h o) eqn:N; [|discriminate].
    rewrite F. destruct (tag_saves so (takes h) d) as (r & t & -> & [(-> & -> & A & B)|[(m & -> & _)|(e & u & -> & _)]]); try discriminate. intros _. exists s, g, d. auto 8.
  - intros (s & g & d & -> & -> & -> & -> & A & B).
    destruct (tag_saves so (takes h) d) as (r & t & -> & [(-> & _)|[(m & _ & _ & N)|(e & u & _ & _ & -> & _)]]); [reflexivity|congruence|].
    exfalso. revert B. apply no_nil_jdoc. eauto.
Qed.
Print Assumptions C58_breaks_off.

(** ** Witnesses *)
(** a document of version 2.2, in two pieces *)
Definition C58_input : string := match render_document insertion_sorter V22 (set_d_SPDXVersion "SPDX-2.2" C42_document) with Ok (t, _) => t | _ => "" end.
Definition C58_host (text : string) (k : sink) : host :=
  MkHost (fun path => if String.eqb path "in" then Some (Give (take 100 text) (Stop (drop 100 text) Eof)) else None) (fun path => String.eqb path "out") k.
Definition C58_loaded_document : Document := match read_into C58_input with Ok (_, Some d) => d | _ => C42_document end.
Definition C58_output : string :=
  match made (load_save insertion_sorter true (C58_host C58_input (fun _ => Accept)) ["prog"; "in"; "out"]) with Some (_, Some t) => t | _ => "" end.
Definition short_textb (text : string) : bool := N.ltb (slen text) 65536.
Lemma short_text text : short_textb text = true -> no_full_last_line text.
Proof.
  unfold short_textb. rewrite N.ltb_lt. intros L before line H _. unfold slen in L.
  assert (String.length line <= String.length text). { destruct H as [-> | ->]; [lia|]. rewrite !app_length_s. lia. } lia.
Qed.
Lemma C58_holds text k : lively (Give (take 100 text) (Stop (drop 100 text) Eof)) -> short_textb text = true -> holds_lines (C58_host text k) "in" text.
Proof.
  intros L S. eexists. split; [reflexivity|]. split; [reflexivity|]. split; [apply take_drop|]. split; [exact L|now apply short_text].
Qed.
Example C58_witness : let d := in_version V22 V23 C58_loaded_document in
  holds_lines (C58_host C58_input (fun _ => Accept)) "in" C58_input /\ accepts (C58_host C58_input (fun _ => Accept)) "out" /\
  read_into C58_input = Ok (V22, Some C58_loaded_document) /\ comes_along V22 C58_loaded_document /\
  representable V23 (tag_part V23 d) /\ distinct_ids d /\ document_json V23 true (json_part V23 (jdoc d)) /\
  d_SPDXVersion d = "SPDX-2.3" /\ length (d_Packages d) = 2 /\
  exists t, load_save insertion_sorter true (C58_host C58_input (fun _ => Accept)) ["prog"; "in"; "out"] = leaves "in" "out" t /\ t <> C58_input /\
    Forall short (stream_lines t).
Proof.
  cbv zeta. split; [apply C58_holds; vm_compute; auto|]. split; [split; [reflexivity|intros; reflexivity]|]. split; [vm_compute; reflexivity|].
  split; [right; apply solidb_solid; vm_compute; reflexivity|].
  split.
  { match goal with |- representable _ ?x => let y := eval vm_compute in x in replace x with y by (vm_compute; reflexivity) end. decide_rep. }
  split. { vm_compute. repeat (split || constructor); cbn; intros K; repeat destruct K as [K|K]; try discriminate K; contradiction. }
  split.
  { match goal with |- document_json _ _ ?x => let y := eval vm_compute in x in replace x with y by (vm_compute; reflexivity) end. decide_json. }
  split; [vm_compute; reflexivity|]. split; [vm_compute; reflexivity|].
  exists C58_output. split; [vm_compute; reflexivity|]. split; [vm_compute; discriminate|].
  apply Forall_forall. intros l I. assert (F : forallb (fun l => N.ltb (N.of_nat (String.length l)) 65536) (stream_lines C58_output) = true) by (vm_compute; reflexivity).
  rewrite forallb_forall in F. apply N.ltb_lt. exact (F _ I).
Qed.
(** the same document as JSON and as YAML; JSON is YAML *)
Definition C58_json : string :=
  match made (tag_to_json true (C58_host C58_input (fun _ => Accept)) ["prog"; "in"; "out"]) with Some (_, Some t) => t | _ => "" end.
Definition C58_from_json : Document :=
  match json_read_into C58_json with Ok (_, d) => match plain_document d with Some e => e | None => C42_document end | _ => C42_document end.
Example C58_json_witness : holds_text (C58_host C58_json (fun _ => Accept)) "in" C58_json /\ json_read_into C58_json = Ok (V23, jdoc C58_from_json) /\
  comes_along V23 C58_from_json /\ representable V23 (tag_part V23 (in_version V23 V23 C58_from_json)) /\ length (d_Packages C58_from_json) = 2 /\
  untyped (fun _ => Ok) C58_json C58_json.
Proof.
  split; [eexists; split; [reflexivity|]; split; [reflexivity|apply take_drop]|]. split; [vm_compute; reflexivity|]. split; [now left|]. split.
  { match goal with |- representable _ ?x => let y := eval vm_compute in x in replace x with y by (vm_compute; reflexivity) end. decide_rep. }
  split; [vm_compute; reflexivity|]. intros target. reflexivity.
Qed.
Lemma shuffled_self j : shuffled j j.
Proof.
  induction j as [| | | |l IH|l IH] using JsonCodec.json_ind'; try (constructor; fail).
  - constructor. induction IH; constructor; auto.
  - apply (shuffled_obj l l); [|reflexivity]. induction IH; constructor; auto.
Qed.
Example C58_yaml_witness : exists j, marshal_document V23 true (json_part V23 (jdoc (in_version V22 V23 C58_loaded_document))) = Ok j /\
  forall target, carried (fun _ => Ok) Ok target j.
Proof.
  eexists. split; [vm_compute; reflexivity|]. intros target. eexists. eexists. eexists. split; [reflexivity|]. split; [reflexivity|]. split; [|apply shuffled_self].
  apply parse_text_iff. vm_compute. reflexivity.
Qed.
(** inputs that break off, a disk that is full, and the same run with JSON *)
Example C58_broken_witness : let h := MkHost (fun _ => Some (Give (take 50 C58_input) (Stop (drop 50 C58_input) Broken))) (fun _ => true) (fun _ => Accept) in
  opens h "in" <> None /\ load_save insertion_sorter true h ["prog"; "in"; "out"] = MkRun [CannotParse "in"] None false.
Proof. cbv zeta. split; [discriminate|vm_compute; reflexivity]. Qed.
Example C58_full_witness : tag_to_json true (C58_host C58_input full) ["prog"; "in"; "out"] = MkRun [Loaded "in"; CannotSave "out"] (Some ("out", Some "")) false /\
  exists t, tag_to_json true (C58_host C58_input (fun _ => Accept)) ["prog"; "in"; "out"] = leaves "in" "out" t.
Proof. split; [vm_compute; reflexivity|]. eexists. vm_compute. reflexivity. Qed.

(** ** What does not hold *)
(** "Saved" means that the document is in the file: refuted for tag-value text by
    a full disk. *)
Theorem C58_saved_tag_refuted :
  load_save insertion_sorter true (C58_host C58_input full) ["prog"; "in"; "out"] = leaves "in" "out" "" /\ (exists m, read_into "" = Err m) /\
  exists d, read_into C58_input = Ok (V22, Some d).
Proof. split; [vm_compute; reflexivity|]. split; eexists; vm_compute; reflexivity. Qed.
Print Assumptions C58_saved_tag_refuted.
(** A run that fails leaves the input as it is: refuted by a document without
    creation information that is to be saved in its own place.  The file has been
    emptied when Write finds that it cannot be saved. *)
Definition C58_uncreated : string := "SPDXVersion: SPDX-2.3" ++ LF ++ "DataLicense: CC0-1.0" ++ LF ++ "DocumentName: d" ++ LF.
Theorem C58_in_place_refuted : let h := MkHost (fun path => if String.eqb path "doc" then Some (Stop C58_uncreated Eof) else None) (String.eqb "doc") (fun _ => Accept) in
  (exists d, read_into C58_uncreated = Ok (V23, Some d)) /\
  forall so, load_save so true h ["prog"; "doc"; "doc"] = MkRun [Loaded "doc"; CannotSave "doc"] (Some ("doc", Some "")) false.
Proof. cbv zeta. split; [eexists; vm_compute; reflexivity|]. intros so. vm_compute. reflexivity. Qed.
Print Assumptions C58_in_place_refuted.
(** A document that can be loaded is saved, or it is said that it is not: refuted
    by a list of packages with a null in it ... *)
Definition C58_null : string := "{""spdxVersion"":""SPDX-2.3"",""creationInfo"":{""created"":""now"",""creators"":[""Tool: t""]},""packages"":[null]}".
Theorem C58_null_refuted : forall so, json_to_tag so (fun _ => 512%N) true (C58_host C58_null (fun _ => Accept)) ["prog"; "in"; "out"] =
  MkRun [Loaded "in"] (Some ("out", None)) true.
Proof. intros so. vm_compute. reflexivity. Qed.
Print Assumptions C58_null_refuted.
(** ... and by tag-value text of version 2.2 with a license whose fields are all
    empty: it becomes a nil pointer on the way to version 2.3. *)
Definition C58_empty_license : string := "SPDXVersion: SPDX-2.2" ++ LF ++ "DataLicense: CC0-1.0" ++ LF ++ "Creator: Tool: t" ++ LF ++ "Created: now" ++ LF ++ "LicenseID: " ++ LF.
Theorem C58_empty_license_refuted : (exists d, read_into C58_empty_license = Ok (V22, Some d) /\ d_OtherLicenses d = [zero_OtherLicense]) /\
  forall so, load_save so true (C58_host C58_empty_license (fun _ => Accept)) ["prog"; "in"; "out"] = MkRun [Loaded "in"] (Some ("out", None)) true.
Proof. split; [eexists; split; vm_compute; reflexivity|]. intros so. vm_compute. reflexivity. Qed.
Print Assumptions C58_empty_license_refuted.
