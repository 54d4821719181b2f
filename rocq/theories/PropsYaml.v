(** * Property C49: YAML, for any conversion between YAML and JSON. *)
From Verif Require Import GoStr GoStrFacts Types TvUtil TvParser Convert ConvertGo Json JsonSpdx JsonText Stream Yaml
  SpecTv SpecId SpecDoc SpecJson SpecJsonRead SpecJsonText SpecYaml SpecStream JsonTextParse JsonTextCodec JsonTextLaws RestateFacts YamlFacts PropsJson PropsJsonText.
Local Open Scope string_scope.

(** The document read is the one that the JSON of the YAML text describes; its
    version is looked up in the JSON for an arbitrary type, the rest in the JSON for
    the Document of that version. *)
Theorem C49_read : forall to_json y j t v d j' t', to_json None y = Ok t -> to_json (Some v) y = Ok t' ->
  json_text j t -> json_text j' t' -> clear j -> clear j' -> j' <> JNull ->
  (nesting j <= 10000)%N -> (nesting j' <= 10000)%N -> all_fit j ->
  (yaml_read_into to_json y = Ok (v, d) <-> version_is j v /\ document_is v j' d).
Proof. exact yaml_exact. Qed.
Print Assumptions C49_read.
(** If the conversion does not depend on the type, reading YAML is reading the JSON. *)
Theorem C49_like_json : forall to_json y t, untyped to_json y t ->
  yaml_read_into to_json y = json_read_into t /\ forall dz to, yaml_read to_json dz to y = json_read dz to t.
Proof.
  intros c y t U. pose proof (yaml_like_json c y t U) as E. split; [exact E|]. intros dz to. unfold yaml_read, json_read. now rewrite E.
Qed.
Print Assumptions C49_like_json.
(** Reading does not panic unless the conversion does. *)
Theorem C49_no_panic : forall to_json y, (forall target s, to_json target s <> Panic) -> yaml_read_into to_json y <> Panic.
Proof. exact yaml_read_no_panic. Qed.
Print Assumptions C49_no_panic.

(** A saved document is loaded unchanged if its JSON value survives the
    conversions up to the order of members ... *)
Theorem C49_round_trip : forall to_json to_yaml v d j, document_json v true d -> marshal_document v true d = Ok j ->
  carried to_json to_yaml None j -> carried to_json to_yaml (Some v) j ->
  exists y, yaml_write to_yaml v d = Ok y /\ yaml_read_into to_json y = Ok (v, d).
Proof.
  intros c e v d j D M N S. destruct (yaml_round_trip c e v d D) as (j' & M' & H). rewrite M in M'. injection M' as <-. auto.
Qed.
Print Assumptions C49_round_trip.
(** ... and as the same document as from JSON, in whatever version it is wanted. *)
Theorem C49_json : forall to_json to_yaml v d j ind dz to, blank ind -> document_json v true d -> marshal_document v true d = Ok j ->
  carried to_json to_yaml None j -> carried to_json to_yaml (Some v) j ->
  exists y s, yaml_write to_yaml v d = Ok y /\ json_write v true ind d = Ok s /\ yaml_read to_json dz to y = json_read dz to s.
Proof.
  intros c e v d j ind dz to B D M N S. destruct (C49_round_trip c e v d j D M N S) as (y & W & R).
  destruct (C41_round_trip v true ind d B D) as (s & W' & R'). exists y, s. split; [exact W|]. split; [exact W'|].
  unfold yaml_read, json_read. now rewrite R, R'.
Qed.
Print Assumptions C49_json.
(** What cannot be saved as JSON cannot be saved as YAML. *)
Theorem C49_writable : forall to_yaml v d y, yaml_write to_yaml v d = Ok y -> exists j, marshal_document v true d = Ok j /\ to_yaml (text j) = Ok y.
Proof. intros e v d y. unfold yaml_write. destruct (marshal_document v true d) as [j| |]; [|discriminate..]. eauto. Qed.
Print Assumptions C49_writable.

(** Readers that deliver piece by piece, readers that fail, writers that refuse. *)
Theorem C49_pieces : forall to_json room dz to s, (forall n, (512 <= room n)%N) -> ends s = Eof ->
  yaml_read_from to_json room dz to s = yaml_read to_json dz to (content s).
Proof. intros c room dz to s R E. rewrite yaml_stream, E; [reflexivity|]. intros n. specialize (R n). lia. Qed.
Print Assumptions C49_pieces.
Theorem C49_broken : forall to_json room dz to s, (forall n, (512 <= room n)%N) -> ends s = Broken ->
  exists m, yaml_read_from to_json room dz to s = Err m.
Proof. intros c room dz to s R E. rewrite yaml_stream, E; [eauto|]. intros n. specialize (R n). lia. Qed.
Print Assumptions C49_broken.
Theorem C49_written : forall to_yaml k v d t, yaml_write_to to_yaml k v d = (Ok tt, t) -> yaml_write to_yaml v d = Ok t.
Proof.
  intros e k v d t. unfold yaml_write_to. destruct (yaml_write e v d); [|discriminate|discriminate].
  destruct (k 0); [|discriminate]. intros H. now injection H as ->.
Qed.
Print Assumptions C49_written.
Theorem C49_refused : forall to_yaml k v d y n, yaml_write to_yaml v d = Ok y -> k 0 = Refuse n ->
  exists m, yaml_write_to to_yaml k v d = (Err m, take n y).
Proof. intros e k v d y n W R. unfold yaml_write_to. rewrite W, R. eauto. Qed.
Print Assumptions C49_refused.

(** Witness: JSON is YAML, so that leaving the text alone is a conversion; and one
    that puts the members of the outermost object in reverse order, as only a
    conversion that sorts would. *)
Definition backwards (t : string) : res string :=
  match parse_text t with
  | Some (JObj ms) => Ok (text (JObj (rev ms)))
  | Some j => Ok (text j)
  | None => Err "invalid"
  end.
Example C49_witness : exists j, document_json V23 true (wj_document V23) /\ marshal_document V23 true (wj_document V23) = Ok j /\
  carried (fun _ => backwards) Ok None j /\ carried (fun _ => backwards) Ok (Some V23) j /\
  (exists t, untyped (fun _ => backwards) (text j) t /\ t <> text j).
Proof.
  destruct (C31_round_trip V23 true (wj_document V23) (C31_witness V23 true)) as (j & M & _).
  assert (exists ms ms', j = JObj ms /\ parse_text (text j) = Some j /\ ms' = rev ms /\ parse_text (text (JObj ms')) = Some (JObj ms') /\ text (JObj ms') <> text j) as (ms & ms' & Ej & P & E' & P' & D).
  { vm_compute in M. injection M as <-. do 2 eexists. split; [reflexivity|]. split; [vm_compute; reflexivity|]. split; [reflexivity|]. split; [vm_compute; reflexivity|]. vm_compute. discriminate. }
  assert (backwards (text j) = Ok (text (JObj ms'))) as B by (unfold backwards; rewrite P, Ej, E'; reflexivity).
  assert (shuffled j (JObj ms')) as S.
  { rewrite Ej, E'. apply (shuffled_obj ms ms); [|apply Permutation.Permutation_rev].
    assert (forall k, shuffled k k) as Refl.
    { clear. induction k as [| | | |l IH|l IH] using JsonCodec.json_ind'; try (constructor; fail).
      - constructor. induction IH; constructor; auto.
      - apply (shuffled_obj l l); [|reflexivity]. induction IH; constructor; auto. }
    clear -Refl. induction ms; constructor; auto. }
  exists j. split; [apply C31_witness|]. split; [exact M|].
  assert (forall target, carried (fun _ => backwards) Ok target j) as K.
  { intros target. exists (text j), (text (JObj ms')), (JObj ms'). split; [reflexivity|]. split; [exact B|]. split; [|exact S]. now apply parse_text_iff. }
  split; [apply K|]. split; [apply K|]. exists (text (JObj ms')). split; [intros target; exact B|exact D].
Qed.
(** Witness for C49_read: in "name: 1.0" the value is a number, unless a string is wanted. *)
Definition C49_yaml : string := "spdxVersion: SPDX-2.3" ++ LF ++ "name: 1.0" ++ LF.
Definition C49_typed (target : option version) (y : string) : res string :=
  if String.eqb y C49_yaml then
    Ok (match target with
        | None => q "{'name':1,'spdxVersion':'SPDX-2.3'}"
        | Some _ => q "{'name':'1.0','spdxVersion':'SPDX-2.3'}"
        end)
  else Err "other text".
Example C49_read_witness : exists j t j' t', C49_typed None C49_yaml = Ok t /\ C49_typed (Some V23) C49_yaml = Ok t' /\
  json_text j t /\ json_text j' t' /\ clear j /\ clear j' /\ j' <> JNull /\ (nesting j <= 10000)%N /\ (nesting j' <= 10000)%N /\ all_fit j /\
  exists d, yaml_read_into C49_typed C49_yaml = Ok (V23, d) /\ d_DocumentName d = "1.0".
Proof.
  exists (JObj [("name", JNum "1"); ("spdxVersion", JStr "SPDX-2.3")]). eexists.
  exists (JObj [("name", JStr "1.0"); ("spdxVersion", JStr "SPDX-2.3")]). eexists. split; [reflexivity|]. split; [reflexivity|].
  split; [apply parse_text_iff; vm_compute; reflexivity|]. split; [apply parse_text_iff; vm_compute; reflexivity|].
  split; [vm_compute; repeat (split; [|exact I] || split || constructor || (intros K; repeat destruct K as [K|K]; try discriminate K; try contradiction))|].
  split; [vm_compute; repeat (split; [|exact I] || split || constructor || (intros K; repeat destruct K as [K|K]; try discriminate K; try contradiction))|].
  split; [discriminate|]. split; [vm_compute; discriminate|]. split; [vm_compute; discriminate|]. split.
  - apply all_fit_iff; [|vm_compute; reflexivity].
    eapply json_text_lit. apply parse_text_iff. instantiate (1 := q "{'name':1,'spdxVersion':'SPDX-2.3'}"). vm_compute. reflexivity.
  - destruct (yaml_read_into C49_typed C49_yaml) as [[v d]|e|] eqn:R; [|vm_compute in R; discriminate R..].
    exists d. vm_compute in R. injection R as <- <-. split; reflexivity.
Qed.
