(** * Property C06: unknown tags are never silently dropped. *)
From Verif Require Import GoStr Types TvReader TvUtil TvParser SpecTags TvTagsFacts.

(** Reading succeeds only if every tag of the input is a tag of that version. *)
Theorem C06_accepted_tags : forall content v d, read_into content = Ok (v, d) ->
  exists l, read_tag_values content = Ok l /\ Forall (fun p => In (fst p) (vocabulary v)) l.
Proof. exact read_tags. Qed.
Print Assumptions C06_accepted_tags.

(** Any other tag, wherever it stands, makes the parse fail. *)
Theorem C06_unknown_rejected : forall v a t x b, ~ In t (vocabulary v) ->
  exists e, parse_tag_values v (a ++ (t, x) :: b) = Err e.
Proof. exact parse_unknown. Qed.
Print Assumptions C06_unknown_rejected.
Example C06_witness : ~ In "PrimaryPackagePurpose" (vocabulary V22) /\ ~ In "PackageNam" (vocabulary V23).
Proof. split; simpl; intuition discriminate. Qed.

(** The vocabulary is exact: each of its tags occurs in an accepted input. *)
Theorem C06_vocabulary_usable : forall v t, In t (vocabulary v) ->
  exists l d, parse_tag_values v l = Ok (Some d) /\ In t (map fst l).
Proof. exact vocabulary_used. Qed.
Print Assumptions C06_vocabulary_usable.
