(** * Properties of the options of the JSON writer (C41) *)
From Verif Require Import GoStr GoStrFacts Types TvUtil TvParser SpecTv SpecId SpecDoc Json JsonSpdx SpecJson SpecJsonRead SpecJsonWrite
  Convert ConvertGo JsonText SpecJsonText JsonTextFacts JsonTextParse JsonTextLaws PropsJson PropsJsonText WriteOptions.
Local Open Scope string_scope.

(** the indentation asked for: that of the last Indent, none without one *)
Definition indent_is (opts : list write_option) (i : string) : Prop :=
  (exists a b, opts = (a ++ Indent i :: b)%list /\ forall x, ~ In (Indent x) b) \/ (i = "" /\ forall x, ~ In (Indent x) opts).
(** whether <, > and & are escaped: what the last EscapeHTML says, yes without one *)
Definition escape_is (opts : list write_option) (h : bool) : Prop :=
  (exists a b, opts = (a ++ EscapeHTML h :: b)%list /\ forall x, ~ In (EscapeHTML x) b) \/ (h = true /\ forall x, ~ In (EscapeHTML x) opts).

Lemma keeps_indent opts : (forall x, ~ In (Indent x) opts) -> forall e, e_indent (fold_left apply_option opts e) = e_indent e.
Proof.
  induction opts as [|o opts IH]; intros H e; [reflexivity|]. cbn [fold_left]. rewrite IH by (intros x K; apply (H x); now right).
  destruct o as [i|b]; [destruct (H i); now left|reflexivity].
Qed.
Lemma keeps_escape opts : (forall x, ~ In (EscapeHTML x) opts) -> forall e, e_escape (fold_left apply_option opts e) = e_escape e.
Proof.
  induction opts as [|o opts IH]; intros H e; [reflexivity|]. cbn [fold_left]. rewrite IH by (intros x K; apply (H x); now right).
  destruct o as [i|b]; [reflexivity|destruct (H b); now left].
Qed.

(** Every list of options means an indentation and an escaping, and what is written is what
    these make it: later options replace earlier ones of their kind, and options of the two
    kinds do not affect each other. *)
Theorem C41_options : forall opts, (exists i, indent_is opts i) /\ (exists h, escape_is opts h) /\
  forall v d i h, indent_is opts i -> escape_is opts h -> json_write_with v opts d = json_write v h i d.
Proof.
  intros opts. split; [|split].
  - induction opts as [|o opts [i IH]] using rev_ind; [exists ""; right; split; [reflexivity|now intros x []]|].
    destruct o as [j|b].
    + exists j. left. exists opts, []. split; [reflexivity|now intros x []].
    + exists i. destruct IH as [(a & c & -> & N)|(-> & N)].
      * left. exists a, (c ++ [EscapeHTML b])%list. split; [now rewrite <- app_assoc|].
        intros x K. apply in_app_or in K as [K|[K|[]]]; [exact (N x K)|discriminate K].
      * right. split; [reflexivity|]. intros x K. apply in_app_or in K as [K|[K|[]]]; [exact (N x K)|discriminate K].
  - induction opts as [|o opts [i IH]] using rev_ind; [exists true; right; split; [reflexivity|now intros x []]|].
    destruct o as [j|b].
    + exists i. destruct IH as [(a & c & -> & N)|(-> & N)].
      * left. exists a, (c ++ [Indent j])%list. split; [now rewrite <- app_assoc|].
        intros x K. apply in_app_or in K as [K|[K|[]]]; [exact (N x K)|discriminate K].
      * right. split; [reflexivity|]. intros x K. apply in_app_or in K as [K|[K|[]]]; [exact (N x K)|discriminate K].
    + exists b. left. exists opts, []. split; [reflexivity|now intros x []].
  - intros v d i h I E. unfold json_write_with. cbv zeta.
    assert (EI : e_indent (fold_left apply_option opts new_encoder) = i).
    { destruct I as [(a & b & -> & N)|(-> & N)]; [|now rewrite keeps_indent].
      rewrite fold_left_app. cbn [fold_left]. now rewrite keeps_indent. }
    assert (EE : e_escape (fold_left apply_option opts new_encoder) = h).
    { destruct E as [(a & b & -> & N)|(-> & N)]; [|now rewrite keeps_escape].
      rewrite fold_left_app. cbn [fold_left]. now rewrite keeps_escape. }
    now rewrite EI, EE.
Qed.
Print Assumptions C41_options.

(** The layout does not matter to the reader: the texts written with the same escaping and
    any two indentations of white space are read alike, document or error. *)
Theorem C41_layout_inert : forall v d opts opts' i i' h s s', indent_is opts i -> indent_is opts' i' -> blank i -> blank i' ->
  escape_is opts h -> escape_is opts' h ->
  json_write_with v opts d = Ok s -> json_write_with v opts' d = Ok s' -> json_read_into s = json_read_into s'.
Proof.
  intros v d opts opts' i i' h s s' I I' B B' E E' W W'.
  rewrite (proj2 (proj2 (C41_options opts)) v d i h I E) in W. rewrite (proj2 (proj2 (C41_options opts')) v d i' h I' E') in W'.
  destruct (JsonTextLaws.write_text v h i d s B W) as (j & M & T & N). destruct (JsonTextLaws.write_text v h i' d s' B' W') as (j' & M' & T' & N').
  assert (j' = j) by congruence. subst j'. unfold json_read_into.
  rewrite (proj2 (parse_text_iff s j) (conj T N)), (proj2 (parse_text_iff s' j) (conj T' N')). reflexivity.
Qed.
Print Assumptions C41_layout_inert.

(** Nor does the success of writing depend on the options. *)
Theorem C41_options_writable : forall v opts d, (exists s, json_write_with v opts d = Ok s) <-> document_writable d.
Proof.
  intros v opts d. destruct (C41_options opts) as ((i & I) & (h & E) & H). rewrite (H v d i h I E). apply C41_writable.
Qed.
Print Assumptions C41_options_writable.

(** What is written with any options is read back. *)
Theorem C41_options_round_trip : forall v opts i h d, indent_is opts i -> blank i -> escape_is opts h -> document_json v h d ->
  exists s, json_write_with v opts d = Ok s /\ json_read_into s = Ok (v, d).
Proof.
  intros v opts i h d I B E D. rewrite (proj2 (proj2 (C41_options opts)) v d i h I E). now apply C41_round_trip.
Qed.
Print Assumptions C41_options_round_trip.

Example C41_options_witness :
  let opts := [Indent "--"; EscapeHTML false; Indent "  "] in
  indent_is opts "  " /\ escape_is opts false /\ blank "  " /\ document_json V23 false (wj_document V23).
Proof.
  cbv zeta. split; [left; exists [Indent "--"; EscapeHTML false], []; split; [reflexivity|now intros x []]|].
  split; [left; exists [Indent "--"], [Indent "  "]; split; [reflexivity|intros x [K|[]]; discriminate K]|].
  split; [repeat (apply Forall_cons; [cbn; tauto|]); apply Forall_nil|apply C31_witness].
Qed.

(** The escaping does matter: with the default the name of a creator that contains < comes
    back changed, without it it comes back. *)
Definition jane : JDocument := MkDoc "SPDX-2.3" "CC0-1.0" "DOCUMENT" "n" "http://n" [] ""
  (Some (MkCI "" [MkCreator "Jane <jane@x.org>" "Person"] "2020-01-01T00:00:00Z" "")) [] [] [] [] [] [] [].
Theorem C41_escape_refuted : exists s s' d', json_write_with V23 [] jane = Ok s /\ json_read_into s = Ok (V23, d') /\ d' <> jane /\
  json_write_with V23 [EscapeHTML false] jane = Ok s' /\ json_read_into s' = Ok (V23, jane).
Proof.
  destruct (json_write_with V23 [] jane) as [s|e|] eqn:W; [|vm_compute in W; discriminate W..].
  destruct (json_write_with V23 [EscapeHTML false] jane) as [s'|e|] eqn:W'; [|vm_compute in W'; discriminate W'..].
  destruct (json_read_into s) as [[v d']|e|] eqn:R; vm_compute in W; injection W as <-; [|vm_compute in R; discriminate R..].
  vm_compute in W'. injection W' as <-. vm_compute in R. injection R as <- <-.
  do 3 eexists. split; [reflexivity|]. split; [vm_compute; reflexivity|]. split; [discriminate|]. split; [reflexivity|]. vm_compute. reflexivity.
Qed.
Print Assumptions C41_escape_refuted.
