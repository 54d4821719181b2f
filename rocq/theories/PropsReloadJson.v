(** * Property C50: loading JSON, saving it and loading it again. *)
From Verif Require Import GoStr GoStrFacts Types TvUtil TvUtilFacts TvParser SpecTv SpecId SpecDoc Json JsonSpdx JsonText SpecJson SpecJsonRead SpecJsonText SpecReloadJson
  JsonFacts JsonCodec JsonRound JsonTextParse JsonTextCodec ReloadJsonFacts PropsJson PropsJsonText.
Local Open Scope string_scope.

(** Whatever has been loaded from JSON can be saved, in any layout, if its
    identifiers, references and agents are ordinary.  What is loaded from that is
    the same document, but for the mark on its packages, and it is saved as the
    same bytes from then on. *)
Theorem C50_reload : forall h ind s j v d, json_text j s -> clear j -> blank ind -> json_read_into s = Ok (v, d) -> settled h d ->
  exists s', json_write v h ind d = Ok s' /\ json_read_into s' = Ok (v, marked v d) /\ json_write v h ind (marked v d) = Ok s'.
Proof.
  intros h ind s j v d T C B R S. destruct (json_reload h ind s j v d T C B R S) as (s' & W & W' & X). exists s'. auto.
Qed.
Print Assumptions C50_reload.
(** A document in which every package says whether its files were analyzed is the same. *)
Theorem C50_reload_same : forall h ind s j v d, json_text j s -> clear j -> blank ind -> json_read_into s = Ok (v, d) -> settled h d ->
  Forall (fun o => forall p, o = Some p -> v <> V21 -> p_IsFilesAnalyzedTagPresent p = true) (d_Packages d) ->
  exists s', json_write v h ind d = Ok s' /\ json_read_into s' = Ok (v, d).
Proof.
  intros h ind s j v d T C B R S F. destruct (C50_reload h ind s j v d T C B R S) as (s' & W & X & _). exists s'. split; [exact W|].
  enough (marked v d = d) as E by (rewrite X, E; reflexivity). clear -F. destruct d. unfold marked. cbn in *. f_equal. induction F as [|[p|] l A F IH]; cbn [map option_map]; [reflexivity| |]; rewrite IH; [|reflexivity].
  do 2 f_equal. destruct v; [destruct p; reflexivity|..]; specialize (A p eq_refl ltac:(discriminate)); destruct p; cbn in *; now subst.
Qed.
Print Assumptions C50_reload_same.

Definition C50_text : string :=
  q "{'spdxVersion':'SPDX-2.2','SPDXID':'SPDXRef-DOCUMENT','x':1e3,'documentDescribes':['SPDXRef-p'],'name':'a" ++ String bslash (q "u0062','creationInfo':{'creators':['Tool: t']},'packages':[null,{'SPDXID':'SPDXRef-p','name':'p','supplier':'NOASSERTION','hasFiles':['SPDXRef-f'],'externalRefs':[{'referenceCategory':'PACKAGE_MANAGER'}]}],'files':[{'SPDXID':'SPDXRef-f','fileTypes':['OTHER']}]}").
Example C50_witness : exists j v d, json_text j C50_text /\ clear j /\ json_read_into C50_text = Ok (v, d) /\ settled true d /\
  length (d_Relationships d) = 2%nat /\ marked v d <> d.
Proof.
  destruct (parse_text C50_text) as [j|] eqn:P; [|vm_compute in P; discriminate P].
  destruct (json_read_into C50_text) as [[v d]|e|] eqn:R; [|vm_compute in R; discriminate R..].
  exists j, v, d. split; [exact (proj1 (proj1 (parse_text_iff _ _) P))|].
  split. { vm_compute in P. injection P as <-. vm_compute.
    repeat (split; [|exact I] || split || constructor || (intros K; repeat destruct K as [K|K]; try discriminate K; try contradiction)). }
  vm_compute in R. injection R as <- <-. split; [reflexivity|].
  assert (forall p s, s <> "" ->
    (let fix ok s := match s with "" => true | String a r =>
    ((code a <? 128) && negb (code a <? 32) && negb (code a =? 34) && negb (code a =? 92)
     && negb (code a =? 60) && negb (code a =? 62) && negb (code a =? 38))%N && ok r end in ok s) = true ->
    has_prefix p s = false -> json_id true p s) as J.
  { intros p s N Q F. split; [exact N|]. split; [now apply plain_lit|]. intros (r & ->). rewrite has_prefix_app in F. discriminate F. }
  split.
  - unfold settled, package_settled, file_settled, annotation_settled, json_ref. cbn.
    repeat match goal with
    | |- _ /\ _ => split
    | |- Forall _ _ => constructor
    | |- json_id _ _ _ => apply J; [discriminate|reflexivity|reflexivity]
    | |- True => exact I
    | |- opt_ok _ _ => cbn
    | |- json_actor _ _ _ => cbn; split; [discriminate|]; split; [now apply plain_lit|]; split; [reflexivity|]; split; [now apply plain_lit|]; split; [reflexivity|apply (not_occurs_byte ":"); reflexivity]
    end.
    all: try (left; repeat split; [discriminate|now apply plain_lit|intros (r & E); discriminate E|now left]).
    left. split; reflexivity.
  - split; [reflexivity|discriminate].
Qed.

(** What is not ordinary.  The smallest document that can be loaded is saved
    without an error, as a text that cannot be loaded. *)
Theorem C50_missing_refuted : exists s d s' e, json_read_into s = Ok (V23, d) /\ json_write V23 true "" d = Ok s' /\ json_read_into s' = Err e.
Proof.
  exists (q "{'spdxVersion':'SPDX-2.3'}").
  destruct (json_read_into (q "{'spdxVersion':'SPDX-2.3'}")) as [[v d]|e|] eqn:R; [|vm_compute in R; discriminate R..].
  exists d. vm_compute in R. injection R as <- <-.
  match goal with |- context [json_write V23 true "" ?d] => destruct (json_write V23 true "" d) as [s'|e|] eqn:W; [|vm_compute in W; discriminate W..] end.
  exists s'. destruct (json_read_into s') as [x|e|] eqn:R.
  - exfalso. vm_compute in W. injection W as <-. vm_compute in R. discriminate R.
  - exists e. auto.
  - exfalso. vm_compute in W. injection W as <-. vm_compute in R. discriminate R.
Qed.
Print Assumptions C50_missing_refuted.
(** An identifier with "<" is another one after loading and saving once, and yet
    another one after doing it again. *)
Theorem C50_growing_refuted : exists d d1 d2 s1 s2,
  json_read_into (q "{'spdxVersion':'SPDX-2.3','SPDXID':'SPDXRef-a<b'}") = Ok (V23, d) /\
  json_write V23 true "" d = Ok s1 /\ json_read_into s1 = Ok (V23, d1) /\
  json_write V23 true "" d1 = Ok s2 /\ json_read_into s2 = Ok (V23, d2) /\
  String.length (d_SPDXIdentifier d) < String.length (d_SPDXIdentifier d1) < String.length (d_SPDXIdentifier d2).
Proof.
  match goal with |- context [json_read_into ?s] => destruct (json_read_into s) as [[v d]|e|] eqn:R; [|vm_compute in R; discriminate R..] end.
  exists d. vm_compute in R. injection R as <- <-.
  match goal with |- context [json_write V23 true "" (MkDoc ?a ?b ?c ?x ?y ?z ?t ?u ?w ?k ?l ?m ?n ?o ?p)] =>
    destruct (json_write V23 true "" (MkDoc a b c x y z t u w k l m n o p)) as [s1|e|] eqn:W1; [|vm_compute in W1; discriminate W1..] end.
  destruct (json_read_into s1) as [[v d1]|e|] eqn:R1; [|vm_compute in W1; injection W1 as <-; vm_compute in R1; discriminate R1..].
  destruct (json_write V23 true "" d1) as [s2|e|] eqn:W2; [|vm_compute in W1; injection W1 as <-; vm_compute in R1; injection R1 as <- <-; vm_compute in W2; discriminate W2..].
  destruct (json_read_into s2) as [[v' d2]|e|] eqn:R2; [|vm_compute in W1; injection W1 as <-; vm_compute in R1; injection R1 as <- <-; vm_compute in W2; injection W2 as <-; vm_compute in R2; discriminate R2..].
  exists d1, d2, s1, s2. vm_compute in W1. injection W1 as <-. vm_compute in R1. injection R1 as <- <-. vm_compute in W2. injection W2 as <-. vm_compute in R2. injection R2 as <- <-.
  repeat (split; [reflexivity|]). split; cbn; lia.
Qed.
Print Assumptions C50_growing_refuted.
