(** Lemmas about JSON text: what is written is a JSON text of the value. *)
From Verif Require Import GoStr GoStrFacts Types TvUtil Json JsonSpdx JsonCodec JsonText SpecJson SpecJsonText JsonTextFacts JsonTextParse.
Local Open Scope string_scope.

(** ** Well-formed literals *)
Fixpoint lit (j : json) : Prop :=
  match j with
  | JNum t => is_number t
  | JStr r => chars r
  | JArr l => fold_right and True (map lit l)
  | JObj ms => fold_right and True (map (fun m => chars (fst m) /\ lit (snd m)) ms)
  | _ => True
  end.
Lemma fold_all {A} (P : A -> Prop) l : fold_right and True (map P l) <-> Forall P l.
Proof.
  induction l as [|a l IH]; cbn; [split; [constructor|auto]|]. rewrite IH.
  split; [intros []; now constructor|intros H; inversion H; auto].
Qed.
Lemma lit_arr l : lit (JArr l) <-> Forall lit l. Proof. apply fold_all. Qed.
Lemma lit_obj ms : lit (JObj ms) <-> Forall (fun m => chars (fst m) /\ lit (snd m)) ms. Proof. apply fold_all. Qed.

(** ** Printing *)
Lemma commas_seps l : commas l = seps ("," ++ "") l.
Proof. induction l as [|x [|y r] IH]; [reflexivity..|].
  change (commas (x :: y :: r)) with (x ++ "," ++ commas (y :: r)). now rewrite IH.
Qed.
Lemma seps_elements (f : json -> string) nl l : blank nl -> l <> [] -> Forall (fun j => value j (f j)) l ->
  forall w w', blank w -> blank w' -> elements l (w ++ seps ("," ++ nl) (map f l) ++ w').
Proof.
  intros N NE F. induction F as [|j l V F IH]; [now destruct NE|]. intros w w' B B'. destruct l as [|k l].
  - cbn [map seps]. now constructor.
  - pose proof (IH ltac:(discriminate) nl w' N B') as K.
    change (seps ("," ++ nl) (map f (j :: k :: l))) with (f j ++ ("," ++ nl) ++ seps ("," ++ nl) (map f (k :: l))).
    replace (w ++ (f j ++ ("," ++ nl) ++ seps ("," ++ nl) (map f (k :: l))) ++ w')
      with (w ++ f j ++ "" ++ "," ++ (nl ++ seps ("," ++ nl) (map f (k :: l)) ++ w')) by (flat; reflexivity).
    apply elements_more; auto. apply blank_nil.
Qed.
Lemma seps_members (f : string * json -> string) (sp : string) nl ms : blank nl -> ms <> [] ->
  Forall (fun m => forall w w', blank w -> blank w' -> member (fst m) (snd m) (w ++ f m ++ w')) ms ->
  forall w w', blank w -> blank w' -> members ms (w ++ seps ("," ++ nl) (map f ms) ++ w').
Proof.
  intros N NE F. induction F as [|[k j] l V F IH]; [now destruct NE|]. intros w w' B B'. destruct l as [|m l].
  - cbn [map seps]. constructor. now apply V.
  - pose proof (IH ltac:(discriminate) nl w' N B') as K.
    change (seps ("," ++ nl) (map f ((k, j) :: m :: l))) with (f (k, j) ++ ("," ++ nl) ++ seps ("," ++ nl) (map f (m :: l))).
    replace (w ++ (f (k, j) ++ ("," ++ nl) ++ seps ("," ++ nl) (map f (m :: l))) ++ w')
      with ((w ++ f (k, j) ++ "") ++ "," ++ (nl ++ seps ("," ++ nl) (map f (m :: l)) ++ w')) by (flat; reflexivity).
    apply members_more; [|exact K]. apply V; [exact B|apply blank_nil].
Qed.
Lemma text_value j : lit j -> value j (text j).
Proof.
  induction j as [|b|t|r|l IH|ms IH] using json_ind'; intros L.
  - constructor.
  - destruct b; constructor.
  - now constructor.
  - now constructor.
  - apply lit_arr in L. cbn [text]. rewrite commas_seps. destruct l as [|x l]; [apply (value_no_elements ""), blank_nil|].
    apply value_array. rewrite <- (app_nil_r_s (seps _ _)). change (seps ?a ?b ++ "") with ("" ++ seps a b ++ "").
    apply seps_elements; [apply blank_nil|discriminate| |apply blank_nil|apply blank_nil].
    rewrite Forall_forall in *. auto.
  - apply lit_obj in L. cbn [text]. rewrite commas_seps. destruct ms as [|x ms]; [apply (value_no_members ""), blank_nil|].
    apply value_object. rewrite <- (app_nil_r_s (seps _ _)). change (seps ?a ?b ++ "") with ("" ++ seps a b ++ "").
    apply seps_members; [exact ""|apply blank_nil|discriminate| |apply blank_nil|apply blank_nil].
    rewrite Forall_forall in *. intros m I w w' B B'. destruct (L m I) as [C V]. specialize (IH m I V).
    unfold quoted. replace (w ++ (String dquote (fst m ++ String dquote "") ++ ":" ++ text (snd m)) ++ w')
      with (w ++ String dquote (fst m ++ String dquote "") ++ "" ++ ":" ++ "" ++ text (snd m) ++ w') by (flat; reflexivity).
    constructor; auto using blank_nil.
Qed.
Lemma times_blank n s : blank s -> blank (times n s).
Proof. intros B. induction n as [|n IH]; cbn; [apply blank_nil|]. now apply blank_app. Qed.
Lemma newline_blank ind d : blank ind -> blank (newline ind d).
Proof. intros B. unfold newline. apply blank_app. split; [apply blank_cons; split; [reflexivity|apply blank_nil]|now apply times_blank]. Qed.
Lemma pretty_value ind j : blank ind -> lit j -> forall d, value j (pretty ind d j).
Proof.
  intros BI. induction j as [|b|t|r|l IH|ms IH] using json_ind'; intros L d; try (apply text_value; exact L).
  - destruct l as [|x l]; [now apply text_value|]. apply lit_arr in L. cbn [pretty].
    match goal with |- value _ ("[" ++ ?a ++ ?b ++ ?c ++ "]") =>
      replace ("[" ++ a ++ b ++ c ++ "]") with ("[" ++ (a ++ b ++ c) ++ "]") by (flat; reflexivity) end.
    apply value_array.
    apply seps_elements; [now apply newline_blank|discriminate| |now apply newline_blank|now apply newline_blank].
    rewrite Forall_forall in *. auto.
  - destruct ms as [|x ms]; [now apply text_value|]. apply lit_obj in L. cbn [pretty].
    match goal with |- value _ ("{" ++ ?a ++ ?b ++ ?c ++ "}") =>
      replace ("{" ++ a ++ b ++ c ++ "}") with ("{" ++ (a ++ b ++ c) ++ "}") by (flat; reflexivity) end.
    apply value_object.
    apply seps_members; [exact ""|now apply newline_blank|discriminate| |now apply newline_blank|now apply newline_blank].
    rewrite Forall_forall in *. intros m I w w' B B'. destruct (L m I) as [C V]. specialize (IH m I V (S d)).
    unfold quoted. replace (w ++ (String dquote (fst m ++ String dquote "") ++ ": " ++ pretty ind (S d) (snd m)) ++ w')
      with (w ++ String dquote (fst m ++ String dquote "") ++ "" ++ ":" ++ " " ++ pretty ind (S d) (snd m) ++ w') by (flat; reflexivity).
    constructor; auto using blank_nil. apply blank_cons. split; [reflexivity|apply blank_nil].
Qed.

(** ** The literals the encoder makes *)
Lemma hex_digit_hex n : (n < 16)%N -> hexadecimal (hex_digit n) n.
Proof.
  intros L. assert (In n [0;1;2;3;4;5;6;7;8;9;10;11;12;13;14;15]%N) as I by (cbn; lia).
  cbn in I. repeat destruct I as [<-|I]; try (left; reflexivity). destruct I.
Qed.
Lemma chars_u00 n t : (n < 256)%N -> chars t -> chars (String bslash ("u00" ++ String (hex_digit (n / 16)) (String (hex_digit (n mod 16)) t))).
Proof.
  intros L T. apply (chars_hex (String "0" (String "0" (String (hex_digit (n / 16)) (String (hex_digit (n mod 16)) "")))) (0 * 4096 + 0 * 256 + n / 16 * 16 + n mod 16)%N); [|exact T].
  exists "0"%char, "0"%char, (hex_digit (n / 16)), (hex_digit (n mod 16)), 0%N, 0%N, (n / 16)%N, (n mod 16)%N.
  split; [reflexivity|]. split; [now left|]. split; [now left|].
  split; [apply hex_digit_hex; apply N.div_lt_upper_bound; lia|]. split; [apply hex_digit_hex; now apply N.mod_lt|reflexivity].
Qed.
Lemma code_256 a : (code a < 256)%N. Proof. apply N_ascii_bounded. Qed.
Lemma chars_high a s : (128 <= code a)%N -> chars s -> chars (String a s).
Proof. intros L C. apply chars_plain; [lia|cbn; lia|exact C]. Qed.
Lemma escape_byte_chars h a t : chars t -> chars (escape_byte h a ++ t).
Proof.
  intros T. unfold escape_byte. cbv zeta.
  destruct (N.eqb_spec (code a) 34); [apply (chars_escape """" 34%N); cbn; auto 20|].
  destruct (N.eqb_spec (code a) 92); [apply (chars_escape "\" 92%N); cbn; auto 20|].
  destruct (N.eqb_spec (code a) 8); [apply (chars_escape "b" 8%N); cbn; auto 20|].
  destruct (N.eqb_spec (code a) 12); [apply (chars_escape "f" 12%N); cbn; auto 20|].
  destruct (N.eqb_spec (code a) 10); [apply (chars_escape "n" 10%N); cbn; auto 20|].
  destruct (N.eqb_spec (code a) 13); [apply (chars_escape "r" 13%N); cbn; auto 20|].
  destruct (N.eqb_spec (code a) 9); [apply (chars_escape "t" 9%N); cbn; auto 20|].
  destruct ((code a <? 32)%N || _)%bool eqn:E.
  - exact (chars_u00 (code a) t (code_256 a) T).
  - cbn [append]. apply Bool.orb_false_iff in E as [E _]. apply N.ltb_ge in E. apply chars_plain; [exact E|cbn; intuition|exact T].
Qed.
Lemma utf8_2_high a b : utf8_2 a b = true -> (128 <= code a /\ 128 <= code b)%N.
Proof. unfold utf8_2, cont. rewrite Bool.andb_true_iff, !between_iff. lia. Qed.
Lemma utf8_3_high a b c : utf8_3 a b c = true -> (128 <= code a /\ 128 <= code b /\ 128 <= code c)%N.
Proof. unfold utf8_3, cont. repeat rewrite ?Bool.andb_true_iff, ?Bool.orb_true_iff, ?between_iff. lia. Qed.
Lemma utf8_4_high a b c d : utf8_4 a b c d = true -> (128 <= code a /\ 128 <= code b /\ 128 <= code c /\ 128 <= code d)%N.
Proof. unfold utf8_4, cont. repeat rewrite ?Bool.andb_true_iff, ?Bool.orb_true_iff, ?between_iff. lia. Qed.
Lemma chars_fffd t : chars t -> chars (String bslash ("ufffd" ++ t)).
Proof.
  intros T. apply (chars_hex "fffd" 65533%N); [|exact T]. exists "f"%char, "f"%char, "f"%char, "d"%char, 15%N, 15%N, 15%N, 13%N.
  repeat (split; [first [reflexivity|now left]|]). reflexivity.
Qed.
Lemma escape_chars h s : chars (escape h s).
Proof.
  remember (String.length s) as n eqn:E. revert s E. induction n as [n IH] using (well_founded_induction Wf_nat.lt_wf).
  intros s ->. assert (forall t, (String.length t < String.length s)%nat -> chars (escape h t)) as K by (intros t L; exact (IH _ L t eq_refl)). clear IH.
  destruct s as [|a s1]; [constructor|]. cbn [escape]. destruct (N.ltb_spec (code a) 128) as [L|L].
  { apply escape_byte_chars, K. cbn; lia. }
  assert (chars (String bslash ("ufffd" ++ escape h s1))) as BAD by (apply chars_fffd, K; cbn; lia). cbv zeta.
  destruct s1 as [|b s2]; [exact BAD|]. destruct (utf8_2 a b) eqn:U2.
  { apply utf8_2_high in U2 as [A B]. do 2 (apply chars_high; [assumption|]). apply K. cbn; lia. }
  destruct s2 as [|c s3]; [exact BAD|]. destruct (utf8_3 a b c) eqn:U3.
  { apply utf8_3_high in U3 as (A & B & C). destruct (line_sep a b c).
    - assert (chars (escape h s3)) as T by (apply K; cbn; lia).
      apply (chars_hex (String "2" (String "0" (String "2" (String (hex_digit (code c mod 16)) "")))) (2 * 4096 + 0 * 256 + 2 * 16 + code c mod 16)%N); [|exact T].
      exists "2"%char, "0"%char, "2"%char, (hex_digit (code c mod 16)), 2%N, 0%N, 2%N, (code c mod 16)%N.
      split; [reflexivity|]. do 3 (split; [now left|]). split; [apply hex_digit_hex; now apply N.mod_lt|reflexivity].
    - do 3 (apply chars_high; [assumption|]). apply K. cbn; lia. }
  destruct s3 as [|d s4]; [exact BAD|]. destruct (utf8_4 a b c d) eqn:U4; [|exact BAD].
  apply utf8_4_high in U4 as (A & B & C & D). do 4 (apply chars_high; [assumption|]). apply K. cbn; lia.
Qed.
(** Bytes that HTML escaping leaves alone. *)
Lemma html_plain a r : ~ In (code a) [60; 62; 38]%N -> html_raw (String a r) = String a (html_raw r).
Proof.
  intros N. cbn [html_raw]. cbn in N. rewrite !(proj2 (is_no _ _)) by intuition. reflexivity.
Qed.
Lemma hex_plain a n : hexadecimal a n -> ~ In (code a) [60; 62; 38]%N.
Proof.
  intros H. apply hexadecimal_iff in H. unfold hex_val in H. cbn.
  destruct (between 48 57 a) eqn:A; [apply between_iff in A; lia|].
  destruct (between 97 102 a) eqn:B; [apply between_iff in B; lia|].
  destruct (between 65 70 a) eqn:C; [apply between_iff in C; lia|discriminate].
Qed.
Lemma html_chars r : chars r -> chars (html_raw r).
Proof.
  induction 1 as [|a s L N C IH|e n s E C IH|h n s H C IH].
  - constructor.
  - cbn [html_raw]. destruct (is 60 a || is 62 a || is 38 a).
    + exact (chars_u00 (code a) _ (code_256 a) IH).
    + cbn [append]. now constructor.
  - assert (html_raw ("\" ++ e ++ s) = "\" ++ e ++ html_raw s) as ->.
    { cbn in E. repeat destruct E as [E|E]; try (injection E as <- <-; reflexivity). destruct E. }
    exact (chars_escape e n _ E IH).
  - assert (html_raw (String bslash ("u" ++ h ++ s)) = String bslash ("u" ++ h ++ html_raw s)) as ->.
    { destruct H as (a & b & c & d & x & y & z & w & -> & A & B & C' & D & _). cbn [append].
      rewrite (html_plain bslash) by (vm_compute; intuition discriminate). rewrite (html_plain "u") by (vm_compute; intuition discriminate).
      rewrite (html_plain a) by (eapply hex_plain; eauto). rewrite (html_plain b) by (eapply hex_plain; eauto).
      rewrite (html_plain c) by (eapply hex_plain; eauto). now rewrite (html_plain d) by (eapply hex_plain; eauto). }
    exact (chars_hex h n _ H IH).
Qed.
Lemma size_tenth n : (10 <= n)%N -> (N.size (n / 10) < N.size n)%N.
Proof.
  intros G. assert (n / 10 <= n / 2)%N as H1 by (apply N.div_le_compat_l; lia).
  assert (n / 10 <> 0)%N as H2 by (intros H0; apply N.div_small_iff in H0; lia).
  rewrite !N.size_log2 by lia. assert (N.log2 (n / 10) <= N.log2 (n / 2))%N by now apply N.log2_le_mono.
  assert (N.log2 (n / 2) < N.log2 n)%N; [|lia]. rewrite <- N.div2_div, N.div2_spec, N.log2_shiftr.
  assert (1 <= N.log2 n)%N; [|lia]. change 1%N with (N.log2 2). apply N.log2_le_mono. lia.
Qed.
Lemma digits_lead fuel : forall n acc, n <> 0%N -> (N.size n < N.of_nat fuel)%N -> ~ exists r, digits_aux fuel n acc = "0" ++ r.
Proof.
  induction fuel as [|fuel IH]; intros n acc NZ F; [lia|]. cbn [digits_aux]. destruct (N.ltb_spec n 10) as [L|G].
  - rewrite N.mod_small by exact L. intros (r & E). change ("0" ++ r) with (String "0" r) in E.
    apply (f_equal (fun s => match s with String a _ => code a | "" => 0%N end)) in E. cbv beta iota in E. rewrite code_digit in E by exact L. change (code "0") with 48%N in E. lia.
  - apply IH; [intros H0; apply N.div_small_iff in H0; lia|]. pose proof (size_tenth n G). lia.
Qed.
Lemma show_no_zero n : n <> 0%N -> ~ exists r, show_N n = "0" ++ r.
Proof. intros NZ. apply digits_lead; [exact NZ|]. lia. Qed.
Lemma show_number z : is_number (show_Z z).
Proof.
  assert (exists n, decimal (show_N (Z.abs_N z)) n) as (n & D) by (eexists; apply decimal_iff, read_show_N).
  assert (int_part (show_N (Z.abs_N z))) as I.
  { destruct (N.eqb_spec (Z.abs_N z) 0) as [->|NZ]; [now left|]. right. split; [eauto|]. apply show_no_zero. exact NZ. }
  exists n, 0%Z. unfold show_Z. destruct (z <? 0)%Z; [exists "-"|exists ""]; exists (show_N (Z.abs_N z)), "", "", "", 0%Z;
    (split; [now rewrite app_nil_r_s|]; split; [unfold sign_part; auto|]; split; [exact I|]; split; [left; auto|]; split; [left; auto|]; split; [now rewrite app_nil_r_s|reflexivity]).
Qed.

(** ** Lines *)
Lemma copies_times n s : copies n s = times n s. Proof. induction n as [|n IH]; [reflexivity|]. cbn. now rewrite IH. Qed.
Lemma page_app ind a b : page ind (a ++ b) = page ind a ++ page ind b.
Proof. induction a as [|[d s] a IH]; [reflexivity|]. cbn [app page]. now rewrite IH, !app_assoc_s. Qed.
Lemma page_items X ind d (f : X -> string) (g : X -> string -> list (nat * string)) items l :
  (forall x tail, In x l -> page ind (g x tail) = times (S d) ind ++ f x ++ tail ++ LF) -> l <> [] ->
  (forall x, items [x] = g x "") -> (forall x y r, items (x :: y :: r) = (g x "," ++ items (y :: r))%list) ->
  LF ++ page ind (items l) = newline ind (S d) ++ seps ("," ++ newline ind (S d)) (map f l) ++ LF.
Proof.
  intros H N I1 I2. unfold newline. rewrite !app_assoc_s. f_equal.
  induction l as [|x [|y r] IH]; [now destruct N|..].
  - rewrite I1, H by now left. cbn [map seps]. cbn [append]. reflexivity.
  - rewrite I2, page_app, H by now left. cbn [map]. change (seps ?a (f x :: f y :: ?r)) with (f x ++ a ++ seps a (f y :: r)).
    cbn [map] in IH. rewrite IH; [|intros z t Z; apply H; now right|discriminate]. now rewrite !app_assoc_s.
Qed.
Lemma pretty_page ind j : forall d lead tail, page ind (rows d lead j tail) = times d ind ++ lead ++ pretty ind d j ++ tail ++ LF.
Proof.
  induction j as [|b|t|r|l IH|ms IH] using json_ind'; intros d lead tail;
    try (cbn [rows page pretty]; rewrite copies_times, !app_assoc_s; reflexivity).
  - destruct l as [|a l]; [cbn [rows page pretty]; rewrite copies_times, !app_assoc_s; reflexivity|].
    cbn [rows page]. rewrite page_app. cbn [page]. rewrite copies_times.
    pose proof (page_items json ind d (pretty ind (S d)) (fun x tail => rows (S d) "" x tail)
      (fix items (l : list json) := match l with [] => [] | [x] => rows (S d) "" x "" | x :: r => (rows (S d) "" x "," ++ items r)%list end) (a :: l)) as P.
    rewrite Forall_forall in IH. rewrite !app_assoc_s. do 2 f_equal. cbn [pretty]. cbn [append]. f_equal.
    rewrite app_nil_r_s in *. change (LF ++ ?x) with (LF ++ x). rewrite <- (app_assoc_s LF), P; [|intros x tl I; rewrite (IH x I); reflexivity|discriminate|reflexivity|reflexivity].
    unfold newline. now rewrite !app_assoc_s.
  - destruct ms as [|a l]; [cbn [rows page pretty]; rewrite copies_times, !app_assoc_s; reflexivity|].
    cbn [rows page]. rewrite page_app. cbn [page]. rewrite copies_times.
    pose proof (page_items (string * json) ind d (fun m => quoted (fst m) ++ ": " ++ pretty ind (S d) (snd m)) (fun x tail => rows (S d) (String dquote (fst x ++ String dquote ": ")) (snd x) tail)
      (fix items (l : list (string * json)) := match l with [] => [] | [(k, x)] => rows (S d) (String dquote (k ++ String dquote ": ")) x ""
         | (k, x) :: r => (rows (S d) (String dquote (k ++ String dquote ": ")) x "," ++ items r)%list end) (a :: l)) as P.
    rewrite Forall_forall in IH. rewrite !app_assoc_s. do 2 f_equal. cbn [pretty]. cbn [append]. f_equal.
    rewrite app_nil_r_s in *. rewrite <- (app_assoc_s LF), P; [|intros x tl I; rewrite (IH x I); unfold quoted; cbn [append]; rewrite !app_assoc_s; reflexivity|discriminate|intros [k x]; reflexivity|intros [k x] y r; reflexivity].
    unfold newline. now rewrite !app_assoc_s.
Qed.
