(** Lemmas about JSON text: scanning and printing. *)
From Verif Require Import GoStr GoStrFacts Types TvUtil Json JsonSpdx JsonText SpecJsonText.
Local Open Scope string_scope.

(** ** Bytes *)
Lemma is_iff n a : is n a = true <-> code a = n.
Proof. unfold is. now rewrite N.eqb_eq. Qed.
Lemma is_char n a : is n a = true -> a = ascii_of_N n.
Proof. intros H. apply is_iff in H as <-. symmetry. apply ascii_N_embedding. Qed.
Lemma is_no n a : is n a = false <-> code a <> n.
Proof. unfold is. now rewrite N.eqb_neq. Qed.
Ltac chr H := apply is_char in H; vm_compute in H; match type of H with ?x = _ => subst x end.
Lemma between_iff lo hi a : between lo hi a = true <-> (lo <= code a <= hi)%N.
Proof. unfold between. rewrite Bool.andb_true_iff, !N.leb_le. tauto. Qed.
Lemma bytes_app s t : bytes (s ++ t) = (bytes s ++ bytes t)%list.
Proof. induction s as [|a s IH]; cbn; [reflexivity|]. now rewrite IH. Qed.
Lemma app_length_s s t : String.length (s ++ t) = (String.length s + String.length t)%nat.
Proof. induction s as [|a s IH]; cbn; [reflexivity|]. now rewrite IH. Qed.

(** ** Blanks *)
Lemma is_blank_iff a : is_blank a = true <-> In (code a) [32; 9; 10; 13]%N.
Proof. unfold is_blank. rewrite !Bool.orb_true_iff, !is_iff. cbn. intuition. Qed.
Lemma blank_nil : blank "". Proof. constructor. Qed.
Lemma blank_app s t : blank (s ++ t) <-> blank s /\ blank t.
Proof. unfold blank. rewrite bytes_app. apply Forall_app. Qed.
Lemma blank_cons a s : blank (String a s) <-> is_blank a = true /\ blank s.
Proof. unfold blank. cbn [bytes]. rewrite is_blank_iff. split; [intros H; inversion H; auto|intros []; now constructor]. Qed.
Lemma skip_blank w r : blank w -> skip (w ++ r) = skip r.
Proof.
  induction w as [|a w IH]; intros B; cbn [append skip]; [reflexivity|]. apply blank_cons in B as [A B].
  rewrite A. auto.
Qed.
Lemma skip_split s : exists w, s = w ++ skip s /\ blank w.
Proof.
  induction s as [|a s (w & E & B)]; cbn [skip]; [exists ""; split; [reflexivity|apply blank_nil]|].
  destruct (is_blank a) eqn:A; [|exists ""; split; [reflexivity|apply blank_nil]].
  exists (String a w). split; [cbn; now f_equal|]. now apply blank_cons.
Qed.
(** The first byte is not a blank. *)
Definition solid_start (s : string) : Prop := match s with String a _ => is_blank a = false | "" => True end.
Lemma skip_id s : solid_start s -> skip s = s.
Proof. destruct s as [|a s]; cbn; [reflexivity|]. now intros ->. Qed.
Lemma skip_solid s : solid_start (skip s).
Proof. induction s as [|a s IH]; cbn [skip]; [exact I|]. destruct (is_blank a) eqn:A; [exact IH|exact A]. Qed.
Lemma skip_app_solid w s : blank w -> solid_start s -> skip (w ++ s) = s.
Proof. intros B S. rewrite skip_blank by exact B. now apply skip_id. Qed.
Lemma skip_nil s : skip s = "" -> blank s.
Proof. intros E. destruct (skip_split s) as (w & F & B). rewrite E, app_nil_r_s in F. now subst. Qed.

(** ** Hexadecimal digits *)
Lemma hexadecimal_iff a n : hex_val a = Some n <-> hexadecimal a n.
Proof.
  split.
  - intros H. destruct a as [[] [] [] [] [] [] [] []]; vm_compute in H;
      first [discriminate|injection H as <-; vm_compute; auto].
  - unfold hexadecimal. destruct (N.to_nat n) as [|[|[|[|[|[|[|[|[|[|[|[|[|[|[|[|k]]]]]]]]]]]]]]]] eqn:E; intros [H|H]; cbn in H; try discriminate;
      injection H as <-; apply (f_equal N.of_nat) in E; rewrite N2Nat.id in E; rewrite E; reflexivity.
Qed.
Lemma is_hex_iff a : is_hex a = true <-> exists n, hexadecimal a n.
Proof.
  unfold is_hex. destruct (hex_val a) as [n|] eqn:E.
  - split; [|reflexivity]. intros _. exists n. now apply hexadecimal_iff.
  - split; [discriminate|]. intros (n & H). apply hexadecimal_iff in H. congruence.
Qed.
Lemma hexadecimal_lt a n : hexadecimal a n -> (n < 16)%N.
Proof.
  intros H. apply hexadecimal_iff in H. unfold hex_val in H.
  destruct (between 48 57 a) eqn:A; [|destruct (between 97 102 a) eqn:B; [|destruct (between 65 70 a) eqn:C; [|discriminate]]];
    injection H as <-; rewrite ?between_iff in *; lia.
Qed.

(** ** Strings *)
Lemma is_escape_iff e : is_escape e = true <-> exists n, In (String e "", n) letter_escapes.
Proof.
  unfold is_escape. rewrite !Bool.orb_true_iff. split.
  - intros H. repeat destruct H as [H|H]; chr H; eexists; cbn; eauto 20.
  - intros (n & H). cbn in H. repeat destruct H as [H|H]; try (injection H as <- _; vm_compute; tauto). destruct H.
Qed.
Lemma scan_string_sound s : forall t rest, scan_string s = Some (t, rest) -> s = t ++ String dquote rest /\ chars t.
Proof.
  remember (String.length s) as n eqn:E. revert s E. induction n as [n IH] using (well_founded_induction Wf_nat.lt_wf).
  intros s -> t rest H. destruct s as [|a s1]; [discriminate|]. cbn [scan_string] in H.
  destruct (is 34 a) eqn:Q. { chr Q. injection H as <- <-. split; [reflexivity|constructor]. }
  destruct (is 92 a) eqn:B.
  - chr B. destruct s1 as [|e s2]; [discriminate|]. destruct (is_escape e) eqn:X.
    + destruct (scan_string s2) as [[t' r']|] eqn:K; [|discriminate]. injection H as <- <-.
      destruct (IH (String.length s2) ltac:(cbn; lia) s2 eq_refl _ _ K) as [-> C].
      split; [reflexivity|]. apply is_escape_iff in X as (n & X). exact (chars_escape (String e "") n t' X C).
    + destruct (is 117 e) eqn:U; [|discriminate]. chr U.
      destruct s2 as [|h1 [|h2 [|h3 [|h4 s3]]]]; try discriminate.
      destruct (is_hex h1) eqn:H1; [|discriminate]. destruct (is_hex h2) eqn:H2; [|discriminate].
      destruct (is_hex h3) eqn:H3; [|discriminate]. destruct (is_hex h4) eqn:H4; [|discriminate]. cbn [andb] in H.
      destruct (scan_string s3) as [[t' r']|] eqn:K; [|discriminate]. injection H as <- <-.
      destruct (IH (String.length s3) ltac:(cbn; lia) s3 eq_refl _ _ K) as [-> C].
      split; [reflexivity|]. apply is_hex_iff in H1 as (x & H1), H2 as (y & H2), H3 as (z & H3), H4 as (w & H4).
      apply (chars_hex (String h1 (String h2 (String h3 (String h4 "")))) (x * 4096 + y * 256 + z * 16 + w)%N); [|exact C].
      exists h1, h2, h3, h4, x, y, z, w. repeat (split; [assumption || reflexivity|]). reflexivity.
  - destruct (N.ltb_spec (code a) 32) as [L|L]; [discriminate|].
    destruct (scan_string s1) as [[t' r']|] eqn:K; [|discriminate]. injection H as <- <-.
    destruct (IH (String.length s1) ltac:(cbn; lia) s1 eq_refl _ _ K) as [-> C]. split; [reflexivity|].
    cbn [append]. apply chars_plain; [exact L| |exact C]. apply is_no in Q, B. cbn. intuition.
Qed.
Lemma scan_string_complete t rest : chars t -> scan_string (t ++ String dquote rest) = Some (t, rest).
Proof.
  induction 1 as [|a s L N C IH|e n s E C IH|h n s H C IH].
  - reflexivity.
  - cbn [append scan_string]. cbn in N.
    rewrite (proj2 (is_no 34 a)) by intuition. rewrite (proj2 (is_no 92 a)) by intuition.
    destruct (N.ltb_spec (code a) 32); [lia|]. now rewrite IH.
  - assert (exists c, e = String c "") as (c & ->) by (cbn in E; repeat destruct E as [E|E]; try (injection E as <- _; eauto); destruct E).
    assert (is_escape c = true) as X by (apply is_escape_iff; eauto).
    cbn [append scan_string]. change (is 34 "\") with false. change (is 92 "\") with true. cbv iota. now rewrite X, IH.
  - destruct H as (a & b & c & d & x & y & z & w & -> & A & B & C' & D & _).
    assert (is_hex a = true) as HA by (apply is_hex_iff; eauto). assert (is_hex b = true) as HB by (apply is_hex_iff; eauto).
    assert (is_hex c = true) as HC by (apply is_hex_iff; eauto). assert (is_hex d = true) as HD by (apply is_hex_iff; eauto).
    cbn [append scan_string]. change (is 34 bslash) with false. change (is 92 bslash) with true.
    change (is_escape "u") with false. change (is 117 "u") with true. cbv iota. rewrite HA, HB, HC, HD. cbn [andb]. now rewrite IH.
Qed.

(** ** Digits *)
Lemma is_digit_iff a : is_digit a = true <-> exists d, digit a d.
Proof.
  unfold is_digit, digit. rewrite between_iff. split; [|intros (d & E & L); lia].
  intros H. exists (code a - 48)%N. lia.
Qed.
Lemma read_digits_one a acc n : read_digits (String a "") acc = Some n <-> exists d, digit a d /\ n = (10 * acc + d)%N.
Proof.
  cbn [read_digits]. destruct ((48 <=? code a) && (code a <=? 57))%N eqn:E.
  - apply Bool.andb_true_iff in E as [E1 E2]. apply N.leb_le in E1, E2. unfold digit. split.
    + intros H. injection H as <-. exists (code a - 48)%N. lia.
    + intros (d & [E L] & ->). f_equal. lia.
  - split; [discriminate|]. intros (d & [H L] & _). apply Bool.andb_false_iff in E. rewrite !N.leb_gt in E. lia.
Qed.
Lemma read_N_digits s : s <> "" -> read_N s = read_digits s 0.
Proof. now destruct s. Qed.
Lemma decimal_read s n : decimal s n -> s <> "" /\ read_digits s 0 = Some n.
Proof.
  induction 1 as [a d H|s n a d H [NE IH] D].
  - split; [discriminate|]. apply read_digits_one. exists d. split; [exact H|reflexivity].
  - split; [destruct s; discriminate|]. rewrite read_digits_app, IH. apply read_digits_one. eauto.
Qed.
Lemma read_decimal s : forall p acc n, (p = "" /\ acc = 0%N \/ decimal p acc) -> s <> "" -> read_digits s acc = Some n -> decimal (p ++ s) n.
Proof.
  induction s as [|a s IH]; intros p acc n P NE H; [now destruct NE|].
  change (String a s) with (String a "" ++ s) in H. rewrite read_digits_app in H.
  destruct (read_digits (String a "") acc) as [m|] eqn:E; [|discriminate]. apply read_digits_one in E as (d & D & ->).
  assert (decimal (p ++ String a "") (10 * acc + d)) as Q.
  { destruct P as [[-> ->]|P]; [|now apply decimal_more]. change (decimal (String a "") d). now apply decimal_one. }
  destruct s as [|b s].
  - cbn in H. injection H as <-. exact Q.
  - change (String a (String b s)) with (String a "" ++ String b s). rewrite <- app_assoc_s.
    apply (IH _ (10 * acc + d)%N); [now right|discriminate|exact H].
Qed.
Lemma decimal_iff s n : decimal s n <-> read_N s = Some n.
Proof.
  split.
  - intros H. apply decimal_read in H as [NE H]. now rewrite read_N_digits.
  - intros H. destruct s as [|a s]; [discriminate|]. apply (read_decimal (String a s) "" 0%N); [now left|discriminate|exact H].
Qed.
Definition digs (x : string) : Prop := exists n, read_digits x 0 = Some n.
Lemma read_digits_any s : forall acc acc' n, read_digits s acc = Some n -> exists n', read_digits s acc' = Some n'.
Proof.
  induction s as [|a s IH]; intros acc acc' n H; cbn in *; [eauto|].
  destruct ((48 <=? code a) && (code a <=? 57))%N; [eauto|discriminate].
Qed.
Lemma digs_nil : digs "". Proof. now exists 0%N. Qed.
Lemma digs_cons a s : digs (String a s) <-> is_digit a = true /\ digs s.
Proof.
  unfold digs, is_digit, between. cbn [read_digits]. destruct ((48 <=? code a) && (code a <=? 57))%N.
  - split; [intros (n & H)|intros (_ & n & H)]; [split; [reflexivity|]|]; eapply read_digits_any; eauto.
  - split; [intros (n & H); discriminate|now intros [? _]].
Qed.
Lemma digs_app s t : digs (s ++ t) <-> digs s /\ digs t.
Proof.
  induction s as [|a s IH]; cbn [append]; [split; [intros H; split; [apply digs_nil|exact H]|tauto]|].
  rewrite !digs_cons, IH. tauto.
Qed.
Lemma decimal_digs s : (exists n, decimal s n) <-> s <> "" /\ digs s.
Proof.
  split.
  - intros (n & H). apply decimal_read in H as [NE H]. split; [exact NE|now exists n].
  - intros [NE (n & H)]. exists n. apply decimal_iff. now rewrite read_N_digits.
Qed.
Definition no_digit (s : string) : Prop := match s with String a _ => is_digit a = false | "" => True end.
Lemma scan_digits_split s : exists x y, scan_digits s = (x, y) /\ s = x ++ y /\ digs x /\ no_digit y.
Proof.
  induction s as [|a s (x & y & E & -> & D & N)]; [now exists "", ""; repeat split; try apply digs_nil|].
  cbn [scan_digits]. destruct (is_digit a) eqn:A.
  - rewrite E. exists (String a x), y. repeat split; [|exact N]. now apply digs_cons.
  - exists "", (String a (x ++ y)). repeat split; [apply digs_nil|exact A].
Qed.
Lemma scan_digits_run x y : digs x -> no_digit y -> scan_digits (x ++ y) = (x, y).
Proof.
  induction x as [|a x IH]; intros D N; cbn [append scan_digits].
  - destruct y as [|b y]; [reflexivity|]. cbn in *. now rewrite N.
  - apply digs_cons in D as [A D]. rewrite A, IH; auto.
Qed.
Lemma scan_digits1_sound s x y : scan_digits1 s = Some (x, y) -> s = x ++ y /\ (exists n, decimal x n).
Proof.
  unfold scan_digits1. destruct (scan_digits_split s) as (x' & y' & -> & -> & D & _). destruct x' as [|a x']; [discriminate|].
  intros H. injection H as <- <-. split; [reflexivity|]. apply decimal_digs. split; [discriminate|exact D].
Qed.
Lemma scan_digits1_run x n y : decimal x n -> no_digit y -> scan_digits1 (x ++ y) = Some (x, y).
Proof.
  intros D N. assert (x <> "" /\ digs x) as [NE DG] by (apply decimal_digs; eauto).
  unfold scan_digits1. rewrite scan_digits_run by assumption. now destruct x.
Qed.

(** ** Numbers *)
Lemma is_digit_code a : is_digit a = true <-> (48 <= code a <= 57)%N.
Proof. apply between_iff. Qed.
Definition ends_number (s : string) : Prop :=
  match s with
  | String a _ => is_digit a = false /\ is 46 a = false /\ is 101 a = false /\ is 69 a = false
  | "" => True
  end.
Lemma scan_int_sound s i r : scan_int s = Some (i, r) -> s = i ++ r /\ int_part i.
Proof.
  destruct s as [|a s]; [discriminate|]. cbn [scan_int]. destruct (is 48 a) eqn:Z.
  - chr Z. intros H. injection H as <- <-. split; [reflexivity|now left].
  - intros H. apply scan_digits1_sound in H as [E D]. split; [exact E|]. right. split; [exact D|].
    intros (q & ->). cbn in E. injection E as -> _. discriminate.
Qed.
Lemma scan_int_run i r : int_part i -> (i = "0" \/ no_digit r) -> scan_int (i ++ r) = Some (i, r).
Proof.
  intros [->|[(n & D) NZ]] N; [reflexivity|]. assert (no_digit r) as N' by (destruct N as [->|N]; [destruct NZ; now exists ""|exact N]).
  pose proof (scan_digits1_run i n r D N') as H. destruct i as [|a i]; [now apply decimal_read in D|].
  cbn [append scan_int] in *. destruct (is 48 a) eqn:Z; [|exact H]. chr Z. destruct NZ. now exists i.
Qed.
Lemma scan_frac_sound s f r : scan_frac s = Some (f, r) -> s = f ++ r /\ exists fd, frac_part f fd.
Proof.
  destruct s as [|a s]; cbn [scan_frac]; [intros H; injection H as <- <-; split; [reflexivity|]; exists ""; left; auto|].
  destruct (is 46 a) eqn:Z.
  - chr Z. destruct (scan_digits1 s) as [[x y]|] eqn:E; [|discriminate]. intros H. injection H as <- <-.
    apply scan_digits1_sound in E as [-> D]. split; [reflexivity|]. exists x. right. auto.
  - intros H. injection H as <- <-. split; [reflexivity|]. exists "". left. auto.
Qed.
Lemma scan_frac_run f fd r : frac_part f fd -> no_digit r -> (forall a q, r = String a q -> is 46 a = false) -> scan_frac (f ++ r) = Some (f, r).
Proof.
  intros [[-> ->]|[-> (n & D)]] N P.
  - cbn [append]. destruct r as [|a r]; [reflexivity|]. cbn [scan_frac]. now rewrite (P a r eq_refl).
  - cbn [append scan_frac]. change (is 46 ".") with true. cbv iota. now rewrite (scan_digits1_run fd n r D N).
Qed.
Lemma scan_exp_sound s x r : scan_exp s = Some (x, r) -> s = x ++ r /\ exists k, exp_part x k.
Proof.
  destruct s as [|a s]; cbn [scan_exp]; [intros H; injection H as <- <-; split; [reflexivity|]; exists 0%Z; left; auto|].
  destruct (is 101 a || is 69 a) eqn:Z.
  - assert (In (String a "") ["e"; "E"]) as IE by (apply Bool.orb_true_iff in Z as [Z|Z]; chr Z; cbn; auto).
    destruct s as [|b s]; [discriminate|]. destruct (is 43 b || is 45 b) eqn:S.
    + destruct (scan_digits1 s) as [[y q]|] eqn:E; [|discriminate]. intros H. injection H as <- <-.
      apply scan_digits1_sound in E as [-> (n & D)]. split; [reflexivity|].
      apply Bool.orb_true_iff in S as [S|S]; chr S; eexists; right; exists (String a ""), y, n; (split; [exact IE|]; split; [exact D|]);
        [right; left|right; right]; split; reflexivity.
    + destruct (scan_digits1 (String b s)) as [[y q]|] eqn:E; [|discriminate]. intros H. injection H as <- <-.
      apply scan_digits1_sound in E as [E (n & D)]. rewrite E. split; [reflexivity|].
      eexists. right. exists (String a ""), y, n. split; [exact IE|]. split; [exact D|]. left. split; reflexivity.
  - intros H. injection H as <- <-. split; [reflexivity|]. exists 0%Z. left. auto.
Qed.
Lemma decimal_start t n : decimal t n -> exists a r, t = String a r /\ is_digit a = true.
Proof.
  intros D. assert (t <> "" /\ digs t) as [NE G] by (apply decimal_digs; eauto). destruct t as [|a r]; [now destruct NE|].
  apply digs_cons in G as [A _]. eauto.
Qed.
Lemma digit_not n a : is_digit a = true -> (n < 48 \/ 57 < n)%N -> is n a = false.
Proof. rewrite is_digit_code, is_no. lia. Qed.
Lemma scan_exp_run x k r : exp_part x k -> ends_number r -> scan_exp (x ++ r) = Some (x, r) /\ (x = "" \/ exists a q, x = String a q /\ (is 101 a || is 69 a) = true).
Proof.
  intros [[-> ->]|(e & t & n & IE & D & X)] N.
  - split; [|now left]. cbn [append]. destruct r as [|a r]; [reflexivity|]. cbn in N |- *. destruct N as (_ & _ & -> & ->). reflexivity.
  - assert (exists a, e = String a "" /\ (is 101 a || is 69 a) = true) as (a & -> & A).
    { cbn in IE. destruct IE as [<-|[<-|[]]]; eexists; split; reflexivity. }
    assert (no_digit r) as ND by (destruct r; [exact I|apply N]).
    split; [|right; destruct X as [[-> _]|[[-> _]|[-> _]]]; exists a; eexists; (split; [reflexivity|exact A])].
    destruct X as [[-> _]|[[-> _]|[-> _]]].
    + rewrite app_assoc_s. cbn [append scan_exp]. rewrite A.
      destruct (decimal_start t n D) as (b & q & -> & B). cbn [append].
      rewrite !(digit_not _ b B) by lia. cbn [orb].
      change (String b (q ++ r)) with (String b q ++ r). now rewrite (scan_digits1_run _ n r D ND).
    + rewrite !app_assoc_s. cbn [append scan_exp]. rewrite A. change (is 43 "+" || is 45 "+") with true. cbv iota.
      now rewrite (scan_digits1_run _ n r D ND).
    + rewrite !app_assoc_s. cbn [append scan_exp]. rewrite A. change (is 43 "-" || is 45 "-") with true. cbv iota.
      now rewrite (scan_digits1_run _ n r D ND).
Qed.
Lemma scan_sign_split s : exists sg r, scan_sign s = (sg, r) /\ s = sg ++ r /\ sign_part sg.
Proof.
  destruct s as [|a s]; [exists "", ""; repeat split; now left|]. cbn [scan_sign]. destruct (is 45 a) eqn:Z.
  - chr Z. exists "-", s. repeat split. now right.
  - exists "", (String a s). repeat split. now left.
Qed.
Lemma int_digs i : int_part i -> i <> "" /\ digs i.
Proof. intros [->|[D _]]; [split; [discriminate|now apply digs_cons; split; [|apply digs_nil]]|now apply decimal_digs]. Qed.
Lemma frac_digs f fd : frac_part f fd -> digs fd.
Proof. intros [[_ ->]|[_ D]]; [apply digs_nil|now apply decimal_digs in D]. Qed.
Lemma scan_number_sound s t r : scan_number s = Some (t, r) -> s = t ++ r /\ is_number t.
Proof.
  unfold scan_number. destruct (scan_sign_split s) as (sg & s1 & -> & -> & SG).
  destruct (scan_int s1) as [[i s2]|] eqn:I; [|discriminate]. apply scan_int_sound in I as [-> I].
  destruct (scan_frac s2) as [[f s3]|] eqn:F; [|discriminate]. apply scan_frac_sound in F as [-> (fd & F)].
  destruct (scan_exp s3) as [[x s4]|] eqn:X; [|discriminate]. apply scan_exp_sound in X as [-> (k & X)].
  intros H. injection H as <- <-. split; [now rewrite !app_assoc_s|].
  destruct (proj2 (decimal_digs (i ++ fd))) as (m & M).
  { destruct (int_digs i I) as [NE D]. split; [destruct i; [now destruct NE|discriminate]|]. apply digs_app. split; [exact D|]. eapply frac_digs; eauto. }
  exists m, (k - Z.of_nat (String.length fd))%Z, sg, i, f, fd, x, k. repeat (split; [assumption || reflexivity|]). reflexivity.
Qed.
(** The parts of a number are found again. *)
Lemma number_parts sg i f fd x k r : sign_part sg -> int_part i -> frac_part f fd -> exp_part x k -> ends_number r ->
  scan_sign (sg ++ i ++ f ++ x ++ r) = (sg, i ++ f ++ x ++ r) /\ scan_int (i ++ f ++ x ++ r) = Some (i, f ++ x ++ r) /\
  scan_frac (f ++ x ++ r) = Some (f, x ++ r) /\ scan_exp (x ++ r) = Some (x, r).
Proof.
  intros SG I F X N. destruct (scan_exp_run x k r X N) as [EX SX].
  assert (no_digit (x ++ r) /\ forall a q, x ++ r = String a q -> is 46 a = false) as [ND NP].
  { destruct SX as [->|(a & q & -> & A)].
    - cbn [append]. destruct r as [|a r]; [split; [exact Logic.I|discriminate]|]. cbn in N. split; [apply N|]. intros b q E. injection E as <- <-. apply N.
    - split; cbn [append no_digit].
      + apply Bool.orb_true_iff in A as [A|A]; chr A; reflexivity.
      + intros b p E. injection E as <- _. apply Bool.orb_true_iff in A as [A|A]; chr A; reflexivity. }
  split; [|split; [|split; [|exact EX]]].
  - destruct SG as [->| ->]; [|reflexivity]. cbn [append]. destruct (int_digs i I) as [NE D]. destruct i as [|a i]; [now destruct NE|].
    apply digs_cons in D as [D _]. cbn [append scan_sign]. now rewrite (digit_not 45 a D) by lia.
  - apply scan_int_run; [exact I|]. right. destruct F as [[-> _]|[-> _]]; [exact ND|reflexivity].
  - now apply (scan_frac_run f fd).
Qed.
Lemma scan_number_complete t r : is_number t -> ends_number r -> scan_number (t ++ r) = Some (t, r).
Proof.
  intros (m & e & sg & i & f & fd & x & k & -> & SG & I & F & X & _) N. rewrite !app_assoc_s.
  destruct (number_parts sg i f fd x k r SG I F X N) as (E1 & E2 & E3 & E4).
  unfold scan_number. now rewrite E1, E2, E3, E4.
Qed.
Lemma number_start t : is_number t -> exists a r, t = String a r /\ (is_digit a = true \/ is 45 a = true).
Proof.
  intros (m & e & sg & i & f & fd & x & k & -> & SG & I & _). destruct SG as [->| ->]; [|eexists; eexists; split; [reflexivity|now right]].
  destruct (int_digs i I) as [NE D]. destruct i as [|a i]; [now destruct NE|]. apply digs_cons in D as [D _].
  eexists. eexists. split; [reflexivity|now left].
Qed.
