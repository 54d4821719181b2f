(** * Lemmas about Yaml *)
From Verif Require Import GoStr GoStrFacts Types TvUtil TvParser Convert ConvertGo Json JsonSpdx JsonText Stream Yaml
  SpecTv SpecId SpecDoc SpecJson SpecJsonRead SpecJsonText SpecYaml SpecStream
  JsonReadFacts JsonReadStruct JsonReadDoc JsonTextFacts JsonTextParse JsonTextCodec JsonTextLaws JsonTextRead RestateFacts StreamFacts.
Local Open Scope string_scope.

Lemma read_value_split j v d : read_value j = Ok (v, d) <-> yaml_version j = Ok v /\ unmarshal_document v j = Ok d.
Proof.
  destruct j as [| | | | |ms]; try (split; [discriminate|intros [E _]; discriminate]).
  cbn [read_value yaml_version]. destruct (last_member "spdxVersion" ms) as [x|]; [|split; [discriminate|intros [E _]; discriminate]].
  destruct x as [| | |r| |]; try (split; [discriminate|intros [E _]; discriminate]). cbv zeta.
  assert (forall w, bindR (unmarshal_document w (JObj ms)) (fun d => Ok (w, d)) = Ok (v, d) <-> Ok w = Ok v /\ unmarshal_document v (JObj ms) = Ok d) as H.
  { intros w. rewrite bindR_ok_iff. split.
    - intros (x & A & B). injection B as -> ->. auto.
    - intros [A B]. injection A as ->. eauto. }
  destruct (String.eqb (requote r) (version_string V21)); [apply H|].
  destruct (String.eqb (requote r) (version_string V22)); [apply H|].
  destruct (String.eqb (requote r) (version_string V23)); [apply H|]. split; [discriminate|intros [E _]; discriminate].
Qed.
Lemma read_value_as j : read_value j = let* v := yaml_version j in let* d := unmarshal_document v j in Ok (v, d).
Proof.
  destruct j as [| | | | |ms]; try reflexivity. cbn [read_value yaml_version].
  destruct (last_member "spdxVersion" ms) as [x|]; [|reflexivity]. destruct x as [| | |r| |]; try reflexivity. cbv zeta.
  destruct (String.eqb (requote r) (version_string V21)); [reflexivity|].
  destruct (String.eqb (requote r) (version_string V22)); [reflexivity|].
  destruct (String.eqb (requote r) (version_string V23)); reflexivity.
Qed.
Lemma yaml_like_json to_json y t : untyped to_json y t -> yaml_read_into to_json y = json_read_into t.
Proof.
  intros U. unfold yaml_read_into, json_read_into. rewrite (U None). cbn [bindR].
  destruct (parse_text t) as [j|] eqn:P; [|reflexivity]. destruct (floats_ok j); [|reflexivity].
  rewrite read_value_as. destruct (yaml_version j) as [v|e|]; [|reflexivity..]. cbn [bindR]. rewrite (U (Some v)). cbn [bindR]. now rewrite P.
Qed.
Lemma yaml_version_exact j v : clear j -> (yaml_version j = Ok v <-> version_is j v).
Proof.
  intros C. unfold version_is. split.
  - intros H. destruct j as [| | | | |ms]; try discriminate. cbn [yaml_version] in H.
    destruct (last_member "spdxVersion" ms) as [x|] eqn:L; [|discriminate].
    apply last_member_iff in L as (m & Im & Um & Em); [|discriminate|apply clear_obj in C; tauto].
    destruct x as [| | |r| |]; try discriminate. cbv zeta in H.
    exists ms, m, r. repeat split; auto.
    assert (forall w, requote r = version_string w -> unescape r = Some (version_string w)) as G
      by (intros w; apply requote_some; destruct w; discriminate).
    destruct (String.eqb_spec (requote r) (version_string V21)) as [E|_]; [injection H as <-; exact (G V21 E)|].
    destruct (String.eqb_spec (requote r) (version_string V22)) as [E|_]; [injection H as <-; exact (G V22 E)|].
    destruct (String.eqb_spec (requote r) (version_string V23)) as [E|_]; [injection H as <-; exact (G V23 E)|discriminate].
  - intros (ms & m & r & -> & Im & Um & Em & Ur). cbn [yaml_version].
    assert (last_member "spdxVersion" ms = Some (JStr r)) as ->.
    { apply last_member_iff; [discriminate|apply clear_obj in C; tauto|eauto]. }
    cbv zeta. unfold requote. rewrite Ur. destruct v; reflexivity.
Qed.
Lemma yaml_exact to_json y j t v d j' t' : to_json None y = Ok t -> to_json (Some v) y = Ok t' ->
  json_text j t -> json_text j' t' -> clear j -> clear j' -> j' <> JNull ->
  (nesting j <= max_depth)%N -> (nesting j' <= max_depth)%N -> all_fit j ->
  (yaml_read_into to_json y = Ok (v, d) <-> version_is j v /\ document_is v j' d).
Proof.
  intros A B T T' C C' N L L' F. unfold yaml_read_into. rewrite A. cbn [bindR].
  rewrite (proj2 (parse_text_iff t j) (conj T L)). rewrite (proj2 (all_fit_iff j (json_text_lit j t T)) F).
  rewrite <- (yaml_version_exact j v C), <- (exactly_document v j' d C' N).
  destruct (yaml_version j) as [w|e|]; cbn [bindR]; [|split; [discriminate|intros [E _]; discriminate]..]. split.
  - intros H. apply bindR_ok_iff in H as (u & E & H). destruct (parse_text u) as [k|] eqn:P; [|discriminate].
    apply bindR_ok_iff in H as (x & X & H). injection H as -> ->. split; [reflexivity|]. rewrite B in E. injection E as <-.
    rewrite (proj2 (parse_text_iff t' j') (conj T' L')) in P. now injection P as <-.
  - intros [E D]. injection E as ->. rewrite B. cbn [bindR]. rewrite (proj2 (parse_text_iff t' j') (conj T' L')), D. reflexivity.
Qed.
Lemma yaml_round_trip to_json to_yaml v d : document_json v true d ->
  exists j, marshal_document v true d = Ok j /\
    (carried to_json to_yaml None j -> carried to_json to_yaml (Some v) j ->
     exists y, yaml_write to_yaml v d = Ok y /\ yaml_read_into to_json y = Ok (v, d)).
Proof.
  intros D. destruct (rewritten_bytes v true d D) as (j & M & R). exists j. split; [exact M|].
  intros (y & t & j1 & Y & A & T & S) (y' & t' & j2 & Y' & A' & T' & S'). rewrite Y in Y'. injection Y' as <-.
  exists y. unfold yaml_write. rewrite M. split; [exact Y|].
  pose proof (R j1 t S T) as R1. pose proof (R j2 t' S' T') as R2.
  unfold json_read_into in R1, R2. destruct (parse_text t) as [k1|] eqn:P1; [|discriminate]. destruct (parse_text t') as [k2|] eqn:P2; [|discriminate].
  destruct (floats_ok k1) eqn:F1; [|discriminate]. destruct (floats_ok k2) eqn:F2; [|discriminate].
  apply read_value_split in R1 as [V1 _], R2 as [_ D2].
  unfold yaml_read_into. rewrite A. cbn [bindR]. rewrite P1, F1, V1. cbn [bindR]. rewrite A'. cbn [bindR]. rewrite P2, D2. reflexivity.
Qed.
Lemma yaml_read_no_panic to_json y : (forall target s, to_json target s <> Panic) -> yaml_read_into to_json y <> Panic.
Proof.
  intros H. unfold yaml_read_into. apply bindR_calm; [apply H|]. intros t. destruct (parse_text t) as [j|]; [|discriminate].
  destruct (floats_ok j); [|discriminate]. apply bindR_calm.
  - destruct j as [| | | | |ms]; try discriminate. cbn [yaml_version].
    destruct (last_member _ ms) as [[| | | | |]|]; try discriminate. cbv zeta.
    repeat (destruct (String.eqb _ _); [discriminate|]). discriminate.
  - intros v. apply bindR_calm; [apply H|]. intros t'. destruct (parse_text t') as [j'|]; [|discriminate].
    apply bindR_calm; [apply calm_document|discriminate].
Qed.
Lemma yaml_stream to_json room dz to s : (forall n, (0 < room n)%N) ->
  yaml_read_from to_json room dz to s = match ends s with Eof => yaml_read to_json dz to (content s) | Broken => Err "read error" end.
Proof. intros Hr. unfold yaml_read_from. rewrite read_from_spec by (auto; lia). now destruct (ends s). Qed.
