(** * What the encoder writes: literals and objects. *)
From Coq Require Import Permutation Sorted.
From Verif Require Import GoStr GoStrFacts Types Json JsonSpdx SpecJson JsonFacts JsonCodec JsonHooks SpecJsonWrite JsonReadFacts DenoteGlobal.
Local Open Scope string_scope.

(** ** Spelling *)
Lemma code_is a n : code a = n -> a = ch n.
Proof. intros <-. unfold ch, code. now rewrite ascii_N_embedding. Qed.
Lemma hex_digit_get n : (n < 16)%N -> get (N.to_nat n) hex_digits = Some (hex_digit n).
Proof.
  intros H. assert (exists k, k < 16 /\ n = N.of_nat k) as (k & L & ->) by (exists (N.to_nat n); lia).
  rewrite Nat2N.id. do 16 (destruct k as [|k]; [reflexivity|]). lia.
Qed.
Lemma hex2_exact n s : (n < 256)%N ->
  (hex2 n s <-> s = String (hex_digit (n / 16)) (String (hex_digit (n mod 16)) "")).
Proof.
  intros L. split.
  - intros (x & y & a & b & -> & Lx & Ly & Ga & Gb & ->). rewrite hex_digit_get in Ga, Gb by assumption.
    injection Ga as <-. injection Gb as <-.
    rewrite N.div_add_l, N.div_small, N.add_0_r by lia.
    rewrite N.add_comm, N.mod_add, N.mod_small by lia. reflexivity.
  - intros ->. exists (n / 16)%N, (n mod 16)%N, (hex_digit (n / 16)), (hex_digit (n mod 16)).
    pose proof (N.mod_lt n 16). assert (n / 16 < 16)%N by (apply N.div_lt_upper_bound; lia).
    split; [rewrite N.mul_comm; apply N.div_mod; lia|]. split; [assumption|]. split; [lia|].
    split; [now apply hex_digit_get|]. split; [apply hex_digit_get; lia|reflexivity].
Qed.
Definition angleb (a : ascii) : bool := ((code a =? 60) || (code a =? 62) || (code a =? 38))%N.
Lemma angle_iff a : angle a <-> angleb a = true.
Proof.
  unfold angle, angleb. rewrite !orb_true_iff, !N.eqb_eq. cbn [In]. intuition congruence.
Qed.
Lemma escape_byte_short h a e : In (code a, e) short_escapes -> escape_byte h a = e.
Proof.
  intros I. cbn [short_escapes In] in I. decompose [or] I; try contradiction;
    match goal with H : _ = _ |- _ => injection H as H <-; symmetry in H; apply code_is in H; subst a end; reflexivity.
Qed.
Lemma escape_byte_hex h a x : ((code a < 32)%N /\ ~ In (code a) (map fst short_escapes)) \/ (h = true /\ angle a) ->
  hex2 (code a) x -> escape_byte h a = "\u00" ++ x.
Proof.
  intros C H. apply hex2_exact in H; [subst x|apply N_ascii_bounded].
  assert (~ In (code a) (map fst short_escapes)) as N.
  { destruct C as [(_ & N)|(_ & A)]; [exact N|]. unfold angle in A. intros K. cbn in A, K. intuition congruence. }
  assert ((code a <? 32)%N || h && angleb a = true)%bool as T.
  { destruct C as [(L & _)|(-> & A)]; [apply N.ltb_lt in L; now rewrite L|]. apply angle_iff in A. rewrite A. apply orb_true_r. }
  unfold escape_byte. cbv zeta. fold (angleb a).
  repeat match goal with |- context [(code a =? ?k)%N] =>
    replace (code a =? k)%N with false by (symmetry; apply N.eqb_neq; intros K; apply N; rewrite K; cbn; tauto) end.
  change (((code a =? 60) || (code a =? 62) || (code a =? 38))%N) with (angleb a).
  now rewrite T.
Qed.
Lemma escape_byte_as_is h a : (32 <= code a < 128)%N -> ~ In (code a) [34; 92]%N -> ~ (h = true /\ angle a) ->
  escape_byte h a = String a "".
Proof.
  intros L N A. apply escape_byte_plain; [lia|]. intros [K|[K|[K|(E & K)]]].
  - lia.
  - apply N. cbn. auto.
  - apply N. cbn. auto.
  - apply A. split; [exact E|]. unfold angle. cbn. intuition.
Qed.
Lemma separators a b c : line_sep a b c = true <->
  In (String a (String b (String c ""))) [separator_2028; separator_2029].
Proof.
  split.
  - intros H. apply line_sep_code in H as (-> & -> & [-> | ->]); cbn; auto.
  - cbn [In]. unfold separator_2028, separator_2029.
    intros [H|[H|[]]]; injection H as <- <- <-; reflexivity.
Qed.
Lemma escape_bad h a s : (128 <= code a)%N -> ~ (exists w, wide w (String a s)) ->
  escape h (String a s) = String bslash "ufffd" ++ escape h s.
Proof.
  intros L W. cbn [escape]. rewrite ltb_false by assumption.
  destruct s as [|b s2]; [reflexivity|].
  destruct (utf8_2 a b) eqn:E2; [exfalso; apply W; eexists; now apply wide_two|].
  destruct s2 as [|c s3]; [reflexivity|].
  destruct (utf8_3 a b c) eqn:E3; [exfalso; apply W; eexists; now apply wide_three|].
  destruct s3 as [|d s4]; [reflexivity|].
  destruct (utf8_4 a b c d) eqn:E4; [exfalso; apply W; eexists; now apply wide_four|reflexivity].
Qed.
Lemma short_code a e : In (code a, e) short_escapes -> (code a < 128)%N.
Proof. intros I. cbn [short_escapes In] in I. decompose [or] I; try contradiction; match goal with H : _ = _ |- _ => injection H as H <-; rewrite <- H end; reflexivity. Qed.
Lemma spelled_escape h s r : spelled h s r -> r = escape h s.
Proof.
  induction 1 as [|a e s r I _ IH|a x s r C X _ IH|a s r L N A _ IH|w s r W N _ IH|s r _ IH|s r _ IH|a s r L W _ IH].
  - reflexivity.
  - rewrite escape_one by (eapply short_code; eassumption). rewrite (escape_byte_short h a e I). now subst.
  - assert (code a < 128)%N as L.
    { destruct C as [(L & _)|(_ & A)]; [lia|]. unfold angle in A. cbn in A. intuition lia. }
    rewrite escape_one by assumption. rewrite (escape_byte_hex h a x C X). subst. now rewrite app_assoc_s.
  - rewrite escape_one by lia. rewrite escape_byte_as_is by assumption. now subst.
  - inversion W as [a b t E E1 E2|a b c t E E1 E2|a b c d t E E1 E2]; subst w; cbn [append] in E2 |- *.
    + rewrite escape_two by assumption. now subst.
    + rewrite escape_three by assumption. destruct (line_sep a b c) eqn:K; [|now subst].
      apply separators in K. contradiction.
    + rewrite escape_four by assumption. now subst.
  - subst. reflexivity.
  - subst. reflexivity.
  - rewrite escape_bad by assumption. now subst.
Qed.
Lemma wide_dec s : {w & {t | wide w s /\ s = w ++ t /\ w <> ""}} + {forall w, ~ wide w s}.
Proof.
  destruct s as [|a [|b s2]]; [right; intros w W; inversion W..|].
  destruct (utf8_2 a b) eqn:E2; [left; exists (String a (String b "")), s2; repeat split; [now constructor|discriminate]|].
  destruct s2 as [|c s3]; [right; intros w W; inversion W; congruence|].
  destruct (utf8_3 a b c) eqn:E3; [left; exists (String a (String b (String c ""))), s3; repeat split; [now constructor|discriminate]|].
  destruct s3 as [|d s4]; [right; intros w W; inversion W; congruence|].
  destruct (utf8_4 a b c d) eqn:E4; [left; exists (String a (String b (String c (String d "")))), s4; repeat split; [now constructor|discriminate]|].
  right; intros w W; inversion W; congruence.
Qed.
Lemma spelled_total h s : exists r, spelled h s r.
Proof.
  assert (forall n s, String.length s <= n -> exists r, spelled h s r) as G; [|eauto].
  clear s. induction n as [|n IH]; intros s L.
  - destruct s; [exists ""; constructor|cbn in L; lia].
  - destruct s as [|a s]; [exists ""; constructor|]. cbn [String.length] in L.
    destruct (IH s) as (r & R); [lia|].
    destruct (N.ltb_spec (code a) 128) as [Lt|Ge].
    + destruct (in_dec N.eq_dec (code a) (map fst short_escapes)) as [I|I].
      { apply in_map_iff in I as ((k, e) & E & I). cbn in E. subst k. exists (e ++ r). now constructor. }
      destruct (N.ltb_spec (code a) 32) as [L32|G32].
      { eexists. eapply spelled_hex; [now left|now apply hex2_exact; [apply N_ascii_bounded|]|exact R]. }
      destruct (h && angleb a)%bool eqn:K.
      { apply andb_prop in K as (-> & K). apply angle_iff in K.
        eexists. eapply spelled_hex; [now right|now apply hex2_exact; [apply N_ascii_bounded|]|exact R]. }
      exists (String a r). apply spelled_plain; [lia| |intros (-> & A); apply angle_iff in A; rewrite A in K; discriminate|assumption].
      intros J. apply I. cbn in J |- *. tauto.
    + destruct (wide_dec (String a s)) as [(w & t & W & E & Nw)|N].
      * destruct (IH t) as (r' & R').
        { destruct w as [|x w]; [congruence|]. cbn [append] in E. injection E as _ ->.
          rewrite app_length_s in L. lia. }
        rewrite E in W |- *.
        destruct (in_dec string_dec w [separator_2028; separator_2029]) as [[<-|[<-|[]]]|J];
          eexists; [eapply spelled_2028; eassumption|eapply spelled_2029; eassumption|eapply spelled_wide; eassumption].
      * eexists. apply spelled_bad; [assumption|intros (w & W); exact (N w W)|eassumption].
Qed.
Theorem spelled_iff h s r : spelled h s r <-> r = escape h s.
Proof.
  split; [apply spelled_escape|]. intros ->. destruct (spelled_total h s) as (r & R).
  now rewrite <- (spelled_escape h s r R).
Qed.

(** ** HTML-safe spelling *)
Lemma safe_iff s : forall r, safe s r <-> r = html_raw s.
Proof.
  assert (forall a, (is 60 a || is 62 a || is 38 a)%bool = angleb a) as E by reflexivity.
  induction s as [|a s IH]; intros r; cbn [html_raw].
  - split; [now inversion 1|intros ->; constructor].
  - rewrite E. split.
    + inversion 1 as [|? ? ? N R|? x ? ? A X R]; subst.
      * destruct (angleb a) eqn:K; [apply angle_iff in K; contradiction|]. apply IH in R. now subst.
      * apply angle_iff in A. rewrite A. apply IH in R. apply hex2_exact in X; [|apply N_ascii_bounded]. now subst.
    + intros ->. destruct (angleb a) eqn:K.
      * rewrite app_assoc_s. apply safe_angle; [now apply angle_iff|now apply hex2_exact; [apply N_ascii_bounded|]|now apply IH].
      * apply safe_plain; [|now apply IH]. intros A. apply angle_iff in A. congruence.
Qed.
Lemma safe_form_iff j : forall j', safe_form j j' <-> j' = html j.
Proof.
  induction j as [| | | |l IH|ms IH] using json_ind'; intros j'; cbn [html].
  - split; [now inversion 1|intros ->; constructor].
  - split; [now inversion 1|intros ->; constructor].
  - split; [now inversion 1|intros ->; constructor].
  - split; [inversion 1 as [| | |? ? R| |]; subst; apply safe_iff in R; now subst|intros ->; constructor; now apply safe_iff].
  - split.
    + inversion 1 as [| | | |? l' F|]; subst. f_equal. clear H. revert l' F. induction IH as [|x l Hx _ IHl]; intros l' F; inversion F; subst; [reflexivity|].
      cbn. f_equal; [now apply Hx|auto].
    + intros ->. constructor. induction IH as [|x l Hx _ IHl]; cbn; constructor; [now apply Hx|assumption].
  - split.
    + inversion 1 as [| | | | |? l' F]; subst. f_equal. clear H. revert l' F.
      induction IH as [|x l Hx _ IHl]; intros l' F; inversion F as [|? (k, y) ? ? (K & R) F']; subst; [reflexivity|].
      cbn. cbn in K, R. f_equal; [|auto]. apply safe_iff in K. apply Hx in R. now subst.
    + intros ->. constructor. induction IH as [|x l Hx _ IHl]; cbn; constructor; [|assumption].
      cbn. split; [now apply safe_iff|now apply Hx].
Qed.

(** ** Codecs *)
Definition writes {X} (c : codec X) (F : X -> json -> Prop) : Prop := forall x j, enc c x = Ok j <-> F x j.
Lemma writes_string : writes c_string text_form.
Proof.
  intros s j. cbn [enc c_string]. unfold text_form. split.
  - intros E. injection E as <-. eexists. split; [reflexivity|]. now apply spelled_iff.
  - intros (r & -> & R). apply spelled_iff in R. now subst.
Qed.
Lemma writes_bool : writes c_bool flag_form.
Proof. intros b j. cbn. unfold flag_form. split; [intros E; injection E as <-; reflexivity|intros ->; reflexivity]. Qed.
Lemma writes_int : writes c_int number_form.
Proof. intros b j. cbn. unfold number_form. split; [intros E; injection E as <-; reflexivity|intros ->; reflexivity]. Qed.
Lemma mapR_forall2 A B (f : A -> res B) l : forall l', mapR f l = Ok l' <-> Forall2 (fun a b => f a = Ok b) l l'.
Proof.
  induction l as [|a l IH]; intros l'; cbn [mapR].
  - split; [intros E; injection E as <-; constructor|now inversion 1].
  - rewrite bindR_ok_iff. split.
    + intros (b & E & K). apply bindR_ok_iff in K as (bs & E' & K). injection K as <-. constructor; [assumption|]. now apply (proj1 (IH bs)).
    + inversion 1; subst. eexists. split; [eassumption|]. apply bindR_ok_iff. eexists. split; [apply (proj2 (IH _)); eassumption|reflexivity].
Qed.
Lemma Forall2_iff A B (P Q : A -> B -> Prop) l l' : (forall a b, P a b <-> Q a b) -> Forall2 P l l' <-> Forall2 Q l l'.
Proof. intros H. split; induction 1; constructor; firstorder. Qed.
Lemma writes_slice X (c : codec X) z F : writes c F -> writes (c_slice c z) (list_form F).
Proof.
  intros W l j. unfold list_form. cbn [enc c_slice]. destruct l as [|x l].
  - split; [intros E; injection E as <-; now left|]. intros [(_ & ->)|(N & _)]; [reflexivity|congruence].
  - rewrite bindR_ok_iff. split.
    + intros (js & E & K). injection K as <-. right. split; [discriminate|]. exists js. split; [reflexivity|].
      apply mapR_forall2 in E. eapply Forall2_iff; [|exact E]. intros. symmetry. apply W.
    + intros [(K & _)|(_ & js & -> & E)]; [discriminate|]. exists js. split; [|reflexivity]. apply mapR_forall2.
      eapply Forall2_iff; [|exact E]. intros. apply W.
Qed.
Lemma writes_ptr X (c : codec X) z F : writes c F -> writes (c_ptr c z) (null_form F).
Proof. intros W [x|] j; cbn; [apply W|]. split; [intros E; injection E as <-; reflexivity|intros ->; reflexivity]. Qed.
Lemma writes_ptrs X (c : codec X) z F : writes c F -> writes (c_ptrs c z) (list_form (null_form F)).
Proof. intros W. apply writes_slice, writes_ptr, W. Qed.
Lemma writes_text X (m : X -> res string) u F : (forall x s, m x = Ok s <-> F x s) ->
  writes (c_text m u) (fun x j => exists s, F x s /\ text_form s j).
Proof.
  intros H x j. cbn [enc c_text]. rewrite bindR_ok_iff. split; intros (s & E & K); exists s; (split; [now apply H|]).
  - now apply (writes_string s j).
  - now apply (writes_string s j) in K.
Qed.

(** ** Structs *)
Definition fits {A} (a : A) (f : field A) (e : entry) : Prop :=
  e_name e = escape false (f_name f) /\
  (e_left_out e <-> (f_omit f && is_empty (f_codec f) (f_get f a))%bool = true) /\
  (forall j, e_form e j <-> enc (f_codec f) (f_get f a) = Ok j).
Lemma enc_object A (a : A) fs es : Forall2 (fits a) fs es ->
  forall ms, enc_fields fs a = Ok ms <-> object es ms.
Proof.
  induction 1 as [|f e fs es (N & O & W) _ IH]; intros ms; cbn [enc_fields].
  - split; [intros E; injection E as <-; constructor|now inversion 1].
  - rewrite bindR_ok_iff. unfold f_enc. destruct (f_omit f && _)%bool eqn:E.
    + assert (e_left_out e) as L by (now apply O). split.
      * intros (o & K & K'). injection K as <-. apply bindR_ok_iff in K' as (r & Er & K'). injection K' as <-.
        apply object_left_out; [assumption|now apply IH].
      * intros H. inversion H as [|? ? ? _ R|? ? ? ? NL]; subst; [|contradiction]. exists None. split; [reflexivity|].
        apply bindR_ok_iff. exists ms. split; [now apply IH|reflexivity].
    + assert (~ e_left_out e) as L by (intros K; apply O in K; congruence). split.
      * intros (o & K & K'). apply bindR_ok_iff in K as (j & Ej & K). injection K as <-.
        apply bindR_ok_iff in K' as (r & Er & K'). injection K' as <-. rewrite <- N.
        apply object_member; [assumption|now apply W|now apply IH].
      * intros H. inversion H as [|? ? ? NL|? ? ms' j _ Fj R]; subst; [contradiction|]. exists (Some j).
        split; [apply bindR_ok_iff; exists j; split; [now apply W|reflexivity]|].
        apply bindR_ok_iff. exists ms'. split; [now apply IH|now rewrite N].
Qed.
Lemma writes_struct A (fs : list (field A)) (es : A -> list entry) :
  (forall a, Forall2 (fits a) fs (es a)) -> writes (c_struct fs) (fun a => object_form (es a)).
Proof.
  intros H a j. cbn [enc c_struct]. rewrite bindR_ok_iff. unfold object_form. split.
  - intros (ms & E & K). injection K as <-. exists ms. split; [reflexivity|]. now apply (enc_object A a fs).
  - intros (ms & -> & O). exists ms. split; [|reflexivity]. now apply (enc_object A a fs _ (H a)).
Qed.
