(** Lemmas about the beginning of a text: JSON. *)
From Verif Require Import GoStr Types TvUtil Json JsonSpdx Convert ConvertGo JsonText GoStrFacts JsonTextFacts SpecJsonText JsonTextParse JsonTextLaws JsonTextWrite JsonTextCodec Stream.
Local Open Scope string_scope.

(** An object is recognised whatever follows it. *)
Lemma parse_object limit ms t fuel d rest : value (JObj ms) t -> 2 * String.length t <= fuel -> (nesting (JObj ms) + d <= limit)%N ->
  parse_value limit fuel d (t ++ rest) = Some (JObj ms, rest).
Proof.
  intros V L D. inversion V as [| | | | | | |w B E|l s M E]; subst.
  - destruct fuel as [|fuel]; [cbn in L; lia|]. cbn [nesting map fold_right] in D. cbn [append parse_value].
    change (is 123 "{") with true. cbv iota. destruct (N.leb_spec limit d); [lia|].
    rewrite app_assoc_s, skip_app_solid by (exact B || reflexivity). reflexivity.
  - change (nesting (JObj ms)) with (1 + nest_members ms)%N in D.
    cbn [append String.length] in L. rewrite app_length_s in L. cbn [String.length] in L. destruct fuel as [|fuel]; [lia|].
    cbn [append parse_value]. change (is 123 "{") with true. cbv iota. destruct (N.leb_spec limit d); [lia|].
    rewrite app_assoc_s. pose proof (proj1 (proj2 (proj2 (parse_complete limit))) ms s M fuel (d + 1)%N rest ltac:(lia) ltac:(lia)) as K.
    destruct (members_start ms s M ("}" ++ rest)) as (q & S). rewrite S in K |- *. change (is 125 dquote) with false. cbv iota. now rewrite K.
Qed.

Lemma object_prefix ms p q j : json_text (JObj ms) p -> json_text j (p ++ q) -> j = JObj ms /\ blank q.
Proof.
  intros (w & t & w' & -> & B & V & B') T.
  set (limit := N.max (nesting (JObj ms)) (nesting j)).
  assert (parse_text_to limit ((w ++ t ++ w') ++ q) = Some j) as P by (apply parse_text_to_iff; split; [exact T|unfold limit; lia]).
  unfold parse_text_to in P. rewrite !app_assoc_s, (skip_value w (JObj ms) t) in P by assumption.
  rewrite (parse_object limit ms t) in P; [|exact V|rewrite !app_length_s; lia|unfold limit; lia].
  destruct (skip (w' ++ q)) eqn:S; [|discriminate]. injection P as <-. split; [reflexivity|].
  apply skip_nil, blank_app in S. tauto.
Qed.

Lemma read_object s x : json_read_into s = Ok x -> exists ms, json_text (JObj ms) s.
Proof.
  destruct x as [v d]. intros H. apply read_into_iff in H as (j & T & _ & _ & R).
  destruct j; try discriminate R. eauto.
Qed.

Lemma json_prefix p q x y : json_read_into p = Ok x -> json_read_into (p ++ q) = Ok y -> blank q /\ x = y.
Proof.
  intros X Y. destruct (read_object _ _ X) as (ms & T). destruct (read_object _ _ Y) as (ms' & T').
  destruct (object_prefix _ _ _ _ T T') as [E B]. injection E as ->. split; [exact B|].
  pose proof (same_value_same_result _ _ _ T T'). congruence.
Qed.

(** An object ends with its closing brace. *)
Lemma object_end ms t : value (JObj ms) t -> exists u, t = u ++ "}".
Proof. intros V. inversion V; subst; [exists ("{" ++ w)|exists ("{" ++ s)]; now rewrite app_assoc_s. Qed.

Lemma blank_suffix_of u p q : u ++ "}" ++ LF = p ++ q -> blank q -> q = "" \/ q = LF.
Proof.
  intros E B. apply (f_equal srev) in E. rewrite !srev_app_distr in E. cbn in E.
  rewrite <- (srev_involutive q). destruct (srev q) as [|a r] eqn:R; [left; reflexivity|].
  cbn in E. injection E as <- E. destruct r as [|b r]; [right; reflexivity|].
  cbn in E. injection E as <- E. exfalso.
  assert (q = srev r ++ "}" ++ LF) as Q by (rewrite <- (srev_involutive q), R, !srev_cons, app_assoc_s; reflexivity).
  rewrite Q in B. apply blank_app in B as [_ B]. apply blank_cons in B as [B _]. discriminate B.
Qed.

(** What json.Write wrote, cut off: readable only if nothing but the final
    newline is missing. *)
Lemma saved_prefix v h ind d p q x : blank ind -> json_write v h ind d = Ok (p ++ q) -> json_read_into p = Ok x -> q = "" \/ q = LF.
Proof.
  intros B W X. destruct (read_object _ _ X) as (ms & T).
  unfold json_write in W. destruct (marshal_document v h d) as [j|e|] eqn:M; cbn [bindR] in W; try discriminate. injection W as W.
  destruct (marshal_neat v h d j M) as [L N].
  set (body := match ind with "" => text j | _ => pretty ind 0 j end) in *.
  assert (value j body) as V by (unfold body; destruct ind as [|a r]; [now apply text_value|now apply pretty_value]).
  assert (json_text j (p ++ q)) as T'.
  { exists "", body, LF. split; [now symmetry|]. split; [apply blank_nil|]. split; [exact V|].
    apply blank_cons; split; [reflexivity|apply blank_nil]. }
  destruct (object_prefix _ _ _ _ T T') as [-> Q]. destruct (object_end _ _ V) as (u & U).
  rewrite U, app_assoc_s in W. exact (blank_suffix_of u p q W Q).
Qed.

Lemma json_read_prefix dz to s x : json_read dz to s = Ok x -> exists y, json_read_into s = Ok y.
Proof. unfold json_read. destruct (json_read_into s); cbn [bindR]; [eauto|discriminate|discriminate]. Qed.
