(** * Facts about JSON quoting. *)
From Verif Require Import GoStr GoStrFacts Json SpecJson.
Local Open Scope string_scope.

Ltac bools := repeat match goal with
  | H : (_ && _)%bool = true |- _ => apply andb_prop in H; destruct H
  | H : (_ || _)%bool = true |- _ => apply orb_prop in H; destruct H
  | H : (_ <=? _)%N = true |- _ => apply N.leb_le in H
  | H : (_ <? _)%N = true |- _ => apply N.ltb_lt in H
  | H : (_ =? _)%N = true |- _ => apply N.eqb_eq in H
  end.
Lemma between_true lo hi a : between lo hi a = true <-> (lo <= code a <= hi)%N.
Proof. unfold between. rewrite andb_true_iff, !N.leb_le. tauto. Qed.
Lemma between_false lo hi a : (code a < lo \/ hi < code a)%N -> between lo hi a = false.
Proof.
  intros H. destruct (between lo hi a) eqn:E; auto. apply between_true in E. lia.
Qed.

(** First bytes of multi-byte sequences. *)
Lemma utf8_2_first a b : utf8_2 a b = true -> (194 <= code a <= 223)%N.
Proof. unfold utf8_2. intros H. bools. now apply between_true in H. Qed.
Lemma utf8_3_first a b c : utf8_3 a b c = true -> (224 <= code a <= 239)%N.
Proof. unfold utf8_3. intros H. bools; repeat match goal with K : between _ _ _ = true |- _ => apply between_true in K end; lia. Qed.
Lemma utf8_4_first a b c d : utf8_4 a b c d = true -> (240 <= code a <= 244)%N.
Proof. unfold utf8_4. intros H. bools; repeat match goal with K : between _ _ _ = true |- _ => apply between_true in K end; lia. Qed.
Lemma utf8_2_no a b : (code a < 194 \/ 223 < code a)%N -> utf8_2 a b = false.
Proof. intros H. destruct (utf8_2 a b) eqn:E; auto. apply utf8_2_first in E. lia. Qed.
Lemma utf8_3_no a b c : (code a < 224 \/ 239 < code a)%N -> utf8_3 a b c = false.
Proof. intros H. destruct (utf8_3 a b c) eqn:E; auto. apply utf8_3_first in E. lia. Qed.

Lemma ltb_false a : (128 <= code a)%N -> (code a <? 128)%N = false.
Proof. intros. apply N.ltb_ge. lia. Qed.
Lemma ltb_true a : (code a < 128)%N -> (code a <? 128)%N = true.
Proof. intros. apply N.ltb_lt. lia. Qed.

(** One step of [escape]. *)
Lemma escape_one h a s : (code a < 128)%N -> escape h (String a s) = escape_byte h a ++ escape h s.
Proof. intros H. cbn [escape]. now rewrite ltb_true. Qed.
Lemma escape_two h a b s : utf8_2 a b = true ->
  escape h (String a (String b s)) = String a (String b (escape h s)).
Proof.
  intros H. cbn [escape]. pose proof (utf8_2_first _ _ H). rewrite ltb_false by lia. now rewrite H.
Qed.
Lemma escape_three h a b c s : utf8_3 a b c = true ->
  escape h (String a (String b (String c s))) =
  if line_sep a b c then "\u202" ++ String (hex_digit (code c mod 16)) (escape h s)
  else String a (String b (String c (escape h s))).
Proof.
  intros H. cbn [escape]. pose proof (utf8_3_first _ _ _ H). rewrite ltb_false by lia.
  now rewrite utf8_2_no, H by lia.
Qed.
Lemma escape_four h a b c d s : utf8_4 a b c d = true ->
  escape h (String a (String b (String c (String d s)))) =
  String a (String b (String c (String d (escape h s)))).
Proof.
  intros H. cbn [escape]. pose proof (utf8_4_first _ _ _ _ H). rewrite ltb_false by lia.
  now rewrite utf8_2_no, utf8_3_no, H by lia.
Qed.

(** One step of [unescape]. *)
Lemma is_code n a : is n a = true <-> code a = n.
Proof. unfold is. apply N.eqb_eq. Qed.
Lemma is_false n a : code a <> n -> is n a = false.
Proof. intros H. destruct (is n a) eqn:E; auto. apply is_code in E. tauto. Qed.

Definition put (x : string) (r : option string) : option string :=
  match r with Some t => Some (x ++ t) | None => None end.
Lemma unescape_one a s : (32 <= code a < 128)%N -> code a <> 34%N -> code a <> 92%N ->
  unescape (String a s) = put (String a "") (unescape s).
Proof.
  intros H Q B. cbn [unescape]. rewrite (is_false 92), (is_false 34) by assumption.
  cbn [orb]. replace (code a <? 32)%N with false by (symmetry; apply N.ltb_ge; lia).
  now rewrite ltb_true by lia.
Qed.
Lemma unescape_high a : (128 <= code a)%N ->
  is 92 a = false /\ (is 34 a || (code a <? 32)%N)%bool = false /\ (code a <? 128)%N = false.
Proof.
  intros H. rewrite (is_false 92), (is_false 34), ltb_false by lia.
  replace (code a <? 32)%N with false by (symmetry; apply N.ltb_ge; lia). auto.
Qed.
Lemma unescape_two a b s : utf8_2 a b = true ->
  unescape (String a (String b s)) = put (String a (String b "")) (unescape s).
Proof.
  intros H. pose proof (utf8_2_first _ _ H).
  destruct (unescape_high a) as (E1 & E2 & E3); [lia|].
  cbn [unescape]. now rewrite E1, E2, E3, H.
Qed.
Lemma unescape_three a b c s : utf8_3 a b c = true ->
  unescape (String a (String b (String c s))) = put (String a (String b (String c ""))) (unescape s).
Proof.
  intros H. pose proof (utf8_3_first _ _ _ H).
  destruct (unescape_high a) as (E1 & E2 & E3); [lia|].
  cbn [unescape]. now rewrite E1, E2, E3, utf8_2_no, H by lia.
Qed.
Lemma unescape_four a b c d s : utf8_4 a b c d = true ->
  unescape (String a (String b (String c (String d s)))) =
  put (String a (String b (String c (String d "")))) (unescape s).
Proof.
  intros H. pose proof (utf8_4_first _ _ _ _ H).
  destruct (unescape_high a) as (E1 & E2 & E3); [lia|].
  cbn [unescape]. now rewrite E1, E2, E3, utf8_2_no, utf8_3_no, H by lia.
Qed.

(** An escaped ASCII byte: checked for all 128 of them. *)
Definition ascii_back (h : bool) (n : nat) : bool :=
  let a := ascii_of_nat n in
  match unescape (escape_byte h a) with
  | Some t => String.eqb t (String a "")
  | None => false
  end.
Lemma small_byte a : (code a < 128)%N -> exists n, a = ascii_of_nat n /\ n < 128.
Proof.
  intros H. exists (nat_of_ascii a). rewrite ascii_nat_embedding. split; auto.
  unfold code in H. unfold nat_of_ascii. lia.
Qed.
Lemma code_inj a b : code a = code b -> a = b.
Proof. unfold code. intros H. rewrite <- (ascii_N_embedding a), <- (ascii_N_embedding b). now rewrite H. Qed.

Lemma hex_digit_val n : (n < 16)%N -> hex_val (hex_digit n) = Some n.
Proof.
  intros H.
  assert (In n (map N.of_nat (seq 0 16))) as I.
  { apply in_map_iff. exists (N.to_nat n). split; [lia|]. apply in_seq. lia. }
  assert (forallb (fun n => match hex_val (hex_digit n) with Some m => N.eqb m n | None => false end)
    (map N.of_nat (seq 0 16)) = true) as A by (vm_compute; reflexivity).
  rewrite forallb_forall in A. specialize (A n I).
  destruct (hex_val (hex_digit n)); [|discriminate]. apply N.eqb_eq in A. now subst.
Qed.
Lemma unescape_u00 x y s : (x < 8)%N -> (y < 16)%N ->
  unescape ("\u00" ++ String (hex_digit x) (String (hex_digit y) s)) =
  put (String (ch (x * 16 + y)) "") (unescape s).
Proof.
  intros Hx Hy. cbn [append unescape].
  change (is 92 "\"%char) with true. cbv iota.
  change (is 34 "u"%char || is 92 "u"%char || is 47 "u"%char)%bool with false.
  change (is 98 "u"%char) with false. change (is 102 "u"%char) with false.
  change (is 110 "u"%char) with false. change (is 114 "u"%char) with false.
  change (is 116 "u"%char) with false. change (is 117 "u"%char) with true. cbv iota.
  unfold hex4. change (hex_val "0"%char) with (Some 0%N). rewrite !hex_digit_val by lia.
  replace (0 * 4096 + 0 * 256 + x * 16 + y)%N with (x * 16 + y)%N by lia.
  unfold surrogate. replace (55296 <=? x * 16 + y)%N with false by (symmetry; apply N.leb_gt; lia).
  cbn [andb]. unfold utf8. replace (x * 16 + y <? 128)%N with true by (symmetry; apply N.ltb_lt; lia).
  reflexivity.
Qed.
Lemma code_split a : (ch (code a / 16 * 16 + code a mod 16)) = a.
Proof.
  unfold ch, code. rewrite N.mul_comm, <- N.div_mod by lia. apply ascii_N_embedding.
Qed.

Lemma unescape_byte h a s : (code a < 128)%N ->
  unescape (escape_byte h a ++ s) = put (String a "") (unescape s).
Proof.
  intros H.
  assert (forall n, code a = n -> a = ch n) as C by (intros n <-; unfold ch, code; now rewrite ascii_N_embedding).
  unfold escape_byte. cbv zeta.
  destruct (code a =? 34)%N eqn:E1; [apply N.eqb_eq, C in E1; subst a; reflexivity|].
  destruct (code a =? 92)%N eqn:E2; [apply N.eqb_eq, C in E2; subst a; reflexivity|].
  destruct (code a =? 8)%N eqn:E3; [apply N.eqb_eq, C in E3; subst a; reflexivity|].
  destruct (code a =? 12)%N eqn:E4; [apply N.eqb_eq, C in E4; subst a; reflexivity|].
  destruct (code a =? 10)%N eqn:E5; [apply N.eqb_eq, C in E5; subst a; reflexivity|].
  destruct (code a =? 13)%N eqn:E6; [apply N.eqb_eq, C in E6; subst a; reflexivity|].
  destruct (code a =? 9)%N eqn:E7; [apply N.eqb_eq, C in E7; subst a; reflexivity|].
  apply N.eqb_neq in E1, E2.
  destruct ((code a <? 32)%N || _)%bool eqn:E8.
  - rewrite <- (code_split a) at 3.
    rewrite <- unescape_u00.
    + reflexivity.
    + apply N.div_lt_upper_bound; lia.
    + apply N.mod_lt. lia.
  - apply orb_false_elim in E8. destruct E8 as (E8 & _). apply N.ltb_ge in E8.
    cbn [append]. apply unescape_one; try assumption. lia.
Qed.

Lemma line_sep_code a b c : line_sep a b c = true ->
  a = ch 226 /\ b = ch 128 /\ (c = ch 168 \/ c = ch 169).
Proof.
  unfold line_sep. intros H. bools. apply between_true in H, H0, H1.
  repeat split; [| |assert (code c = 168 \/ code c = 169)%N as [E|E] by lia; [left|right]];
    apply code_inj; cbn; lia.
Qed.

Theorem unescape_escape h s : utf8_ok s -> unescape (escape h s) = Some s.
Proof.
  induction 1 as [|a s H _ IH|a b s H _ IH|a b c s H _ IH|a b c d s H _ IH].
  - reflexivity.
  - rewrite escape_one, unescape_byte, IH by assumption. reflexivity.
  - rewrite escape_two, unescape_two, IH by assumption. reflexivity.
  - rewrite escape_three by assumption. destruct (line_sep a b c) eqn:L.
    + destruct (line_sep_code _ _ _ L) as (-> & -> & [-> | ->]).
      * transitivity (put (utf8 8232) (unescape (escape h s))); [reflexivity|]. now rewrite IH.
      * transitivity (put (utf8 8233) (unescape (escape h s))); [reflexivity|]. now rewrite IH.
    + rewrite unescape_three, IH by assumption. reflexivity.
  - rewrite escape_four, unescape_four, IH by assumption. reflexivity.
Qed.

(** ** HTML escaping of finished text is HTML escaping while quoting. *)
Lemma html_raw_app s t : html_raw (s ++ t) = html_raw s ++ html_raw t.
Proof.
  induction s as [|a s IH]; [reflexivity|]. cbn [append html_raw]. rewrite IH.
  now rewrite app_assoc_s.
Qed.
Lemma html_raw_high a s : (128 <= code a)%N -> html_raw (String a s) = String a (html_raw s).
Proof.
  intros H. cbn [html_raw]. rewrite !is_false by lia. reflexivity.
Qed.
Definition html_back (n : nat) : bool :=
  String.eqb (html_raw (escape_byte false (ascii_of_nat n))) (escape_byte true (ascii_of_nat n)).
Lemma html_raw_byte a : (code a < 128)%N -> html_raw (escape_byte false a) = escape_byte true a.
Proof.
  intros H. destruct (small_byte a H) as (n & -> & Hn).
  apply String.eqb_eq. change (html_back n = true).
  assert (forallb html_back (seq 0 128) = true) as A by (vm_compute; reflexivity).
  rewrite forallb_forall in A. apply A. apply in_seq. lia.
Qed.
Lemma cont_code a : cont a = true -> (128 <= code a)%N.
Proof. intros H. apply between_true in H. lia. Qed.
Lemma utf8_2_bytes a b : utf8_2 a b = true -> (128 <= code a /\ 128 <= code b)%N.
Proof.
  unfold utf8_2. intros H. bools. apply between_true in H. apply cont_code in H0. lia.
Qed.
Lemma utf8_3_bytes a b c : utf8_3 a b c = true -> (128 <= code a /\ 128 <= code b /\ 128 <= code c)%N.
Proof.
  unfold utf8_3. intros H. bools;
  repeat match goal with
  | K : between _ _ _ = true |- _ => apply between_true in K
  | K : cont _ = true |- _ => apply cont_code in K end; lia.
Qed.
Lemma utf8_4_bytes a b c d : utf8_4 a b c d = true ->
  (128 <= code a /\ 128 <= code b /\ 128 <= code c /\ 128 <= code d)%N.
Proof.
  unfold utf8_4. intros H. bools;
  repeat match goal with
  | K : between _ _ _ = true |- _ => apply between_true in K
  | K : cont _ = true |- _ => apply cont_code in K end; lia.
Qed.
Fixpoint slen (s : string) : nat := match s with "" => 0 | String _ r => S (slen r) end.
Theorem escape_html s : html_raw (escape false s) = escape true s.
Proof.
  remember (slen s) as n eqn:L. assert (slen s <= n) as Hn by lia. clear L.
  revert s Hn. induction n as [|n IH]; intros s Hn.
  - destruct s; [reflexivity|cbn in Hn; lia].
  - destruct s as [|a s1]; [reflexivity|]. cbn [slen] in Hn. cbn [escape].
    destruct (code a <? 128)%N eqn:E.
    { apply N.ltb_lt in E. rewrite html_raw_app, html_raw_byte, IH by (assumption || lia). reflexivity. }
    assert (html_raw ((String bslash "ufffd") ++ escape false s1) = (String bslash "ufffd") ++ escape true s1) as Bad.
    { rewrite html_raw_app, IH by lia. reflexivity. }
    cbv zeta. destruct s1 as [|b s2]; [exact Bad|]. cbn [slen] in Hn.
    destruct (utf8_2 a b) eqn:U2.
    { apply utf8_2_bytes in U2. rewrite !html_raw_high, IH by lia. reflexivity. }
    destruct s2 as [|c s3]; [exact Bad|]. cbn [slen] in Hn.
    destruct (utf8_3 a b c) eqn:U3.
    { destruct (line_sep a b c) eqn:LS.
      - destruct (line_sep_code _ _ _ LS) as (-> & -> & [-> | ->]).
        + transitivity ((String bslash "u2028") ++ html_raw (escape false s3)); [reflexivity|]. rewrite IH by lia. reflexivity.
        + transitivity ((String bslash "u2029") ++ html_raw (escape false s3)); [reflexivity|]. rewrite IH by lia. reflexivity.
      - apply utf8_3_bytes in U3. rewrite !html_raw_high, IH by lia. reflexivity. }
    destruct s3 as [|d s4]; [exact Bad|]. cbn [slen] in Hn.
    destruct (utf8_4 a b c d) eqn:U4; [|exact Bad].
    apply utf8_4_bytes in U4. rewrite !html_raw_high, IH by lia. reflexivity.
Qed.

(** ** Text without characters to escape *)
Lemma escape_byte_plain h a : (code a < 128)%N -> ~ special h a -> escape_byte h a = String a "".
Proof.
  intros H S. unfold special in S. unfold escape_byte. cbv zeta.
  destruct (code a =? 34)%N eqn:E1; [apply N.eqb_eq in E1; tauto|].
  destruct (code a =? 92)%N eqn:E2; [apply N.eqb_eq in E2; tauto|].
  assert (32 <= code a)%N as G by lia.
  replace (code a =? 8)%N with false by (symmetry; apply N.eqb_neq; lia).
  replace (code a =? 12)%N with false by (symmetry; apply N.eqb_neq; lia).
  replace (code a =? 10)%N with false by (symmetry; apply N.eqb_neq; lia).
  replace (code a =? 13)%N with false by (symmetry; apply N.eqb_neq; lia).
  replace (code a =? 9)%N with false by (symmetry; apply N.eqb_neq; lia).
  replace (code a <? 32)%N with false by (symmetry; apply N.ltb_ge; lia).
  destruct h; cbn [orb andb]; [|reflexivity].
  replace (code a =? 60)%N with false by (symmetry; apply N.eqb_neq; tauto).
  replace (code a =? 62)%N with false by (symmetry; apply N.eqb_neq; tauto).
  replace (code a =? 38)%N with false by (symmetry; apply N.eqb_neq; tauto).
  reflexivity.
Qed.
Theorem escape_plain h s : plain h s -> escape h s = s.
Proof.
  induction 1 as [|a s H S _ IH|a b s H _ IH|a b c s H L _ IH|a b c d s H _ IH].
  - reflexivity.
  - rewrite escape_one, escape_byte_plain, IH by assumption. reflexivity.
  - now rewrite escape_two, IH.
  - now rewrite escape_three, L, IH.
  - now rewrite escape_four, IH.
Qed.
Lemma plain_false h s : plain h s -> plain false s.
Proof.
  induction 1; [apply plain_nil|apply plain_one|apply plain_two|apply plain_three|apply plain_four]; auto.
  unfold special in *. intros K. apply H0.
  destruct K as [K|[K|[K|(K & _)]]]; auto. discriminate.
Qed.
Lemma plain_utf8 h s : plain h s -> utf8_ok s.
Proof.
  induction 1; [apply utf8_nil|apply utf8_one|apply utf8_two|apply utf8_three|apply utf8_four]; auto.
Qed.
Lemma plain_app h s t : plain h s -> plain h t -> plain h (s ++ t).
Proof. intros H K. induction H; cbn [append];
  [assumption|apply plain_one|apply plain_two|apply plain_three|apply plain_four]; auto. Qed.

(** What an encoder with or without HTML escaping makes of a literal. *)
Definition hl (h : bool) (raw : string) : string := if h then html_raw raw else raw.
Lemma hl_escape h s : hl h (escape false s) = escape h s.
Proof. destruct h; [apply escape_html|reflexivity]. Qed.
Lemma hl_plain h s : plain h s -> hl h (escape false s) = s.
Proof. intros H. rewrite hl_escape. now apply escape_plain. Qed.
Lemma unescape_hl h s : utf8_ok s -> unescape (hl h (escape false s)) = Some s.
Proof. intros H. rewrite hl_escape. now apply unescape_escape. Qed.

(** ** Quotes *)
Lemma plain_no_quote h s : plain h s -> ~ In dquote (list_ascii_of_string s).
Proof.
  assert (code dquote = 34%N) as D by reflexivity.
  assert (forall a, (128 <= code a)%N -> a <> dquote) as N by (intros a H ->; lia).
  induction 1 as [|a s H S _ IH|a b s H _ IH|a b c s H L _ IH|a b c d s H _ IH];
    cbn [list_ascii_of_string]; intros K; repeat (destruct K as [K|K]; [|]); auto.
  - apply S. right. left. now rewrite K.
  - apply utf8_2_bytes in H. eapply N; [|exact K]. lia.
  - apply utf8_2_bytes in H. eapply N; [|exact K]. lia.
  - apply utf8_3_bytes in H. eapply N; [|exact K]. lia.
  - apply utf8_3_bytes in H. eapply N; [|exact K]. lia.
  - apply utf8_3_bytes in H. eapply N; [|exact K]. lia.
  - apply utf8_4_bytes in H. eapply N; [|exact K]. lia.
  - apply utf8_4_bytes in H. eapply N; [|exact K]. lia.
  - apply utf8_4_bytes in H. eapply N; [|exact K]. lia.
  - apply utf8_4_bytes in H. eapply N; [|exact K]. lia.
Qed.

Lemma trim_left_byte_none c s : ~ In c (list_ascii_of_string s) -> trim_left_byte c s = s.
Proof.
  destruct s as [|a s]; [reflexivity|]. cbn. intros H.
  destruct (Ascii.eqb_spec a c); [tauto|reflexivity].
Qed.
Lemma list_srev s : list_ascii_of_string (srev s) = rev (list_ascii_of_string s).
Proof.
  unfold srev. cut (forall acc, list_ascii_of_string (srev_app s acc) =
    (rev (list_ascii_of_string s) ++ list_ascii_of_string acc)%list).
  { intros K. rewrite K. cbn. apply app_nil_r. }
  induction s as [|a s IH]; intros acc; [reflexivity|]. cbn. rewrite IH. cbn. now rewrite <- app_assoc.
Qed.
(** strings.Trim of a quoted literal without quotes inside. *)
Lemma trim_quoted c s : ~ In c (list_ascii_of_string s) ->
  trim_byte c (String c (s ++ String c "")) = s.
Proof.
  intros H. unfold trim_byte. cbn [trim_left_byte]. rewrite Ascii.eqb_refl.
  assert (trim_left_byte c (s ++ String c "") = s ++ String c "" \/ s = "") as [E| ->].
  { destruct s as [|a s]; [now right|left]. cbn in H |- *.
    destruct (Ascii.eqb_spec a c); [tauto|reflexivity]. }
  - rewrite E, srev_app_distr. change (srev (String c "")) with (String c ""). cbn [append trim_left_byte].
    rewrite Ascii.eqb_refl, trim_left_byte_none, srev_involutive; [reflexivity|].
    rewrite list_srev. intros K. apply H. now apply in_rev.
  - cbn. now rewrite Ascii.eqb_refl.
Qed.
Lemma unquote_plain h s : plain h s -> trim_byte dquote (quoted s) = s.
Proof. intros H. apply trim_quoted. eapply plain_no_quote; eauto. Qed.
