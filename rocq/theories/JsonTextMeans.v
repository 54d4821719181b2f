(** Lemmas about JSON text: what literals, member names and integers stand for. *)
From Verif Require Import GoStr GoStrFacts Types TvUtil Json JsonSpdx JsonText SpecJson SpecJsonText JsonTextFacts JsonTextParse JsonTextWrite.
Local Open Scope string_scope.

(** ** UTF-8 *)
Lemma code_byte n : (n < 256)%N -> code (byte n) = n.
Proof. intros L. now apply N_ascii_embedding. Qed.
Lemma byte_code a : byte (code a) = a. Proof. apply ascii_N_embedding. Qed.
Lemma split64 q r : (r < 64)%N -> ((q * 64 + r) / 64 = q /\ (q * 64 + r) mod 64 = r)%N.
Proof.
  intros L. split; [rewrite N.div_add_l, N.div_small by lia; lia|].
  rewrite (N.add_comm (q * 64) r), N.mod_add, N.mod_small by lia. reflexivity.
Qed.
Lemma join64 n : exists q r, (n / 64 = q /\ n mod 64 = r /\ n = q * 64 + r /\ r < 64)%N.
Proof. exists (n / 64)%N, (n mod 64)%N. pose proof (N.div_mod n 64 ltac:(lia)). pose proof (N.mod_lt n 64 ltac:(lia)). repeat apply conj; [reflexivity..|rewrite N.mul_comm; assumption|assumption]. Qed.
Ltac digits64 n := let q := fresh "q" in let r := fresh "r" in let J := fresh "J" in let R := fresh "R" in let Q := fresh "Q" in let M := fresh "M" in
  destruct (join64 n) as (q & r & Q & M & J & R); rewrite ?Q, ?M.
Lemma div4096 n : (n / 4096 = n / 64 / 64)%N. Proof. now rewrite N.div_div by lia. Qed.
Lemma div262144 n : (n / 262144 = n / 64 / 64 / 64)%N. Proof. now rewrite !N.div_div by lia. Qed.

Local Opaque N.add N.div N.modulo byte.
Lemma encoding_2_iff a b : utf8_2 a b = true <-> exists n, encoding n (String a (String b "")).
Proof.
  unfold utf8_2, cont. rewrite Bool.andb_true_iff, !between_iff. split.
  - intros [A B]. set (n := ((code a - 192) * 64 + (code b - 128))%N). exists n.
    destruct (split64 (code a - 192) (code b - 128) ltac:(lia)) as [Q R]. fold n in Q, R.
    assert (a = byte (192 + n / 64)) as Ea by (rewrite Q, <- (byte_code a) at 1; f_equal; lia).
    assert (b = byte (128 + n mod 64)) as Eb by (rewrite R, <- (byte_code b) at 1; f_equal; lia).
    assert (128 <= n < 2048)%N as L by (unfold n; lia). clearbody n. rewrite Ea, Eb. now constructor.
  - intros (n & E). inversion E as [|n' L E1|n' L S E1|n' L E1]; subst. digits64 n. rewrite !code_byte by lia. lia.
Qed.
Lemma encoding_3_iff a b c : utf8_3 a b c = true <-> exists n, encoding n (String a (String b (String c ""))).
Proof.
  unfold utf8_3, cont. repeat rewrite ?Bool.andb_true_iff, ?Bool.orb_true_iff, ?between_iff. split.
  - intros H. exists (((code a - 224) * 64 + (code b - 128)) * 64 + (code c - 128))%N.
    set (n := (((code a - 224) * 64 + (code b - 128)) * 64 + (code c - 128))%N).
    destruct (split64 ((code a - 224) * 64 + (code b - 128)) (code c - 128) ltac:(lia)) as [Q0 R0]. fold n in Q0, R0.
    destruct (split64 (code a - 224) (code b - 128) ltac:(lia)) as [Q1 R1].
    assert (a = byte (224 + n / 4096)) as Ea by (rewrite div4096, Q0, Q1, <- (byte_code a) at 1; f_equal; lia).
    assert (b = byte (128 + n / 64 mod 64)) as Eb by (rewrite Q0, R1, <- (byte_code b) at 1; f_equal; lia).
    assert (c = byte (128 + n mod 64)) as Ec by (rewrite R0, <- (byte_code c) at 1; f_equal; lia).
    assert (2048 <= n < 65536 /\ ~ 55296 <= n < 57344)%N as [L S] by (unfold n; lia). clearbody n. rewrite Ea, Eb, Ec. now constructor.
  - intros (n & E). inversion E as [|n' L E1|n' L S E1|n' L E1]; subst. rewrite div4096. digits64 n. digits64 q. rewrite !code_byte by lia. lia.
Qed.
Lemma encoding_4_iff a b c d : utf8_4 a b c d = true <-> exists n, encoding n (String a (String b (String c (String d "")))).
Proof.
  unfold utf8_4, cont. repeat rewrite ?Bool.andb_true_iff, ?Bool.orb_true_iff, ?between_iff. split.
  - intros H. set (n := ((((code a - 240) * 64 + (code b - 128)) * 64 + (code c - 128)) * 64 + (code d - 128))%N). exists n.
    destruct (split64 (((code a - 240) * 64 + (code b - 128)) * 64 + (code c - 128)) (code d - 128) ltac:(lia)) as [Q0 R0]. fold n in Q0, R0.
    destruct (split64 ((code a - 240) * 64 + (code b - 128)) (code c - 128) ltac:(lia)) as [Q1 R1].
    destruct (split64 (code a - 240) (code b - 128) ltac:(lia)) as [Q2 R2].
    assert (a = byte (240 + n / 262144)) as Ea by (rewrite div262144, Q0, Q1, Q2, <- (byte_code a) at 1; f_equal; lia).
    assert (b = byte (128 + n / 4096 mod 64)) as Eb by (rewrite div4096, Q0, Q1, R2, <- (byte_code b) at 1; f_equal; lia).
    assert (c = byte (128 + n / 64 mod 64)) as Ec by (rewrite Q0, R1, <- (byte_code c) at 1; f_equal; lia).
    assert (d = byte (128 + n mod 64)) as Ed by (rewrite R0, <- (byte_code d) at 1; f_equal; lia).
    assert (65536 <= n < 1114112)%N as L by (unfold n; lia). clearbody n. rewrite Ea, Eb, Ec, Ed. now constructor.
  - intros (n & E). inversion E as [|n' L E1|n' L S E1|n' L E1]; subst. rewrite div262144, div4096.
    digits64 n. digits64 q. digits64 q0.
    rewrite !code_byte by lia. lia.
Qed.
Lemma utf8_encoding n : (n < 1114112)%N -> ~ (55296 <= n < 57344)%N -> encoding n (utf8 n).
Proof.
  intros L S. unfold utf8. destruct (N.ltb_spec n 128); [now constructor|]. destruct (N.ltb_spec n 2048); [constructor; lia|].
  destruct (N.ltb_spec n 65536); [constructor; [lia|exact S]|constructor; lia].
Qed.
Lemma encoding_utf8 n w : encoding n w -> w = utf8 n.
Proof.
  intros E. unfold utf8. destruct E as [n L|n L|n L S|n L]; repeat (match goal with |- context [(n <? ?k)%N] => destruct (N.ltb_spec n k); try lia end); reflexivity.
Qed.
Lemma encoding_range n w : encoding n w -> (n < 1114112)%N /\ ~ (55296 <= n < 57344)%N.
Proof. destruct 1; lia. Qed.
Lemma rune_error_is : rune_error = replacement. Proof. vm_compute. reflexivity. Qed.

(** The multi-byte character at the start of a string. *)
Lemma encoding_start a n w t r : encoding n w -> String a r = w ++ t -> (128 <= code a)%N ->
  (exists b, w = String a (String b "") /\ r = String b t /\ utf8_2 a b = true) \/
  (exists b c, w = String a (String b (String c "")) /\ r = String b (String c t) /\ utf8_2 a b = false /\ utf8_3 a b c = true) \/
  (exists b c d, w = String a (String b (String c (String d ""))) /\ r = String b (String c (String d t)) /\
     utf8_2 a b = false /\ utf8_3 a b c = false /\ utf8_4 a b c d = true).
Proof.
  intros E X A. pose proof E as E0. destruct E as [n L|n L|n L S|n L]; cbn [append] in X; injection X as Xa Xr.
  - rewrite Xa, code_byte in A by lia. lia.
  - left. eexists. split; [now rewrite Xa|]. split; [exact Xr|]. rewrite Xa. apply encoding_2_iff. eauto.
  - right. left. eexists. eexists. split; [now rewrite Xa|]. split; [exact Xr|]. rewrite Xa. split; [|apply encoding_3_iff; eauto].
    unfold utf8_2. apply Bool.andb_false_iff. left. apply Bool.not_true_is_false. rewrite between_iff.
    rewrite div4096. digits64 n. digits64 q. rewrite code_byte by lia. lia.
  - right. right. eexists. eexists. eexists. split; [now rewrite Xa|]. split; [exact Xr|]. rewrite Xa.
    assert (240 <= code (byte (240 + n / 262144)) <= 255)%N as B.
    { rewrite div262144. digits64 n. digits64 q. digits64 q0. rewrite code_byte by lia. lia. }
    split; [|split; [|apply encoding_4_iff; eauto]].
    + unfold utf8_2. apply Bool.andb_false_iff. left. apply Bool.not_true_is_false. rewrite between_iff. lia.
    + unfold utf8_3. apply Bool.not_true_is_false. repeat rewrite ?Bool.andb_true_iff, ?Bool.orb_true_iff, ?between_iff. lia.
Qed.

(** ** Escapes *)
Lemma hex4_iff a b c d n : hex4 a b c d = Some n <-> hexadecimal4 (String a (String b (String c (String d "")))) n.
Proof.
  unfold hex4, hexadecimal4. split.
  - destruct (hex_val a) as [x|] eqn:A; [|discriminate]. destruct (hex_val b) as [y|] eqn:B; [|discriminate].
    destruct (hex_val c) as [z|] eqn:C; [|discriminate]. destruct (hex_val d) as [w|] eqn:D; [|discriminate]. intros H. injection H as <-.
    exists a, b, c, d, x, y, z, w. split; [reflexivity|]. rewrite <- !hexadecimal_iff. auto.
  - intros (a' & b' & c' & d' & x & y & z & w & E & A & B & C & D & ->). injection E as <- <- <- <-.
    apply hexadecimal_iff in A, B, C, D. now rewrite A, B, C, D.
Qed.
Lemma hex4_lt h n : hexadecimal4 h n -> (n < 65536)%N.
Proof.
  intros (a & b & c & d & x & y & z & w & _ & A & B & C & D & ->).
  apply hexadecimal_lt in A, B, C, D. lia.
Qed.
Definition pair_of (n : N) (s : string) : option (N * string) :=
  match s with
  | String x (String y (String g1 (String g2 (String g3 (String g4 s4))))) =>
      if is 92 x && is 117 y then
        match hex4 g1 g2 g3 g4 with
        | Some m => match surrogate_pair n m with Some k => Some (k, s4) | None => None end
        | None => None
        end
      else None
  | _ => None
  end.
Lemma pair_iff n s k rest : pair_of n s = Some (k, rest) <-> completes_pair n s k rest.
Proof.
  unfold pair_of, completes_pair. split.
  - destruct s as [|x [|y [|g1 [|g2 [|g3 [|g4 s4]]]]]]; try discriminate.
    destruct (is 92 x) eqn:X; [|discriminate]. destruct (is 117 y) eqn:Y; [|discriminate]. cbn [andb]. chr X. chr Y.
    destruct (hex4 g1 g2 g3 g4) as [m|] eqn:H; [|discriminate]. unfold surrogate_pair.
    destruct (_ && _)%bool eqn:B; [|discriminate]. intros E. injection E as <- <-.
    exists (String g1 (String g2 (String g3 (String g4 "")))), m. split; [reflexivity|]. split; [now apply hex4_iff|].
    rewrite !Bool.andb_true_iff, !N.leb_le, !N.ltb_lt in B. lia.
  - intros (h & m & -> & H & N1 & M1 & ->). pose proof H as H0. destruct H as (a & b & c & d & _ & _ & _ & _ & -> & _).
    cbn [append]. change (is 92 bslash && is 117 "u") with true. cbv iota. rewrite (proj2 (hex4_iff a b c d m) H0). unfold surrogate_pair.
    replace (_ && _)%bool with true by (symmetry; rewrite !Bool.andb_true_iff, !N.leb_le, !N.ltb_lt; lia). do 2 f_equal. lia.
Qed.
Definition put (x : string) (r : option string) : option string := match r with Some t => Some (x ++ t) | None => None end.
Lemma put_some x r s : put x r = Some s <-> exists t, r = Some t /\ s = x ++ t.
Proof. unfold put. destruct r; split; [intros H; injection H as <-; eauto|intros (t & E & ->); now injection E as ->|discriminate|intros (t & E & _); discriminate]. Qed.
Lemma unescape_letter e n r : In (e, n) letter_escapes -> unescape ("\" ++ e ++ r) = put (String (byte n) "") (unescape r).
Proof.
  intros I. cbn in I. repeat destruct I as [I|I]; try (injection I as <- <-; reflexivity). destruct I.
Qed.
Lemma unescape_hex a b c d n r : hex4 a b c d = Some n ->
  unescape (String bslash (String "u" (String a (String b (String c (String d r)))))) =
  if surrogate n then match pair_of n r with Some (k, s4) => put (utf8 k) (unescape s4) | None => put rune_error (unescape r) end
  else put (utf8 n) (unescape r).
Proof.
  intros H. cbn [unescape]. change (is 92 bslash) with true. cbv iota.
  change (is 34 "u" || is 92 "u" || is 47 "u") with false. change (is 98 "u") with false. change (is 102 "u") with false.
  change (is 110 "u") with false. change (is 114 "u") with false. change (is 116 "u") with false. change (is 117 "u") with true. cbv iota.
  rewrite H. destruct (surrogate n); [|reflexivity].
  destruct r as [|x [|y [|g1 [|g2 [|g3 [|g4 s4]]]]]]; try reflexivity. unfold pair_of.
  destruct (is 92 x && is 117 y); [|reflexivity]. destruct (hex4 g1 g2 g3 g4) as [m|]; [|reflexivity].
  destruct (surrogate_pair n m); reflexivity.
Qed.
Lemma surrogate_iff n : surrogate n = true <-> (55296 <= n < 57344)%N.
Proof. unfold surrogate. rewrite Bool.andb_true_iff, N.leb_le, N.ltb_lt. tauto. Qed.
Lemma unescape_low a r : (32 <= code a < 128)%N -> ~ In (code a) [34; 92]%N -> unescape (String a r) = put (String a "") (unescape r).
Proof.
  intros L N. cbn [unescape]. cbn in N. rewrite (proj2 (is_no 92 a)) by intuition. rewrite (proj2 (is_no 34 a)) by intuition.
  cbn [orb]. destruct (N.ltb_spec (code a) 32); [lia|]. destruct (N.ltb_spec (code a) 128); [reflexivity|lia].
Qed.
Definition wide_step (a : ascii) (s1 : string) : option string :=
  let bad := put rune_error (unescape s1) in
  match s1 with
  | "" => bad
  | String b s2 =>
      if utf8_2 a b then put (String a (String b "")) (unescape s2) else
      match s2 with
      | "" => bad
      | String c s3 =>
          if utf8_3 a b c then put (String a (String b (String c ""))) (unescape s3) else
          match s3 with
          | "" => bad
          | String d s4 => if utf8_4 a b c d then put (String a (String b (String c (String d "")))) (unescape s4) else bad
          end
      end
  end.
Lemma unescape_high a r : (128 <= code a)%N -> unescape (String a r) = wide_step a r.
Proof.
  intros L. cbn [unescape]. rewrite (proj2 (is_no 92 a)) by lia. rewrite (proj2 (is_no 34 a)) by lia.
  cbn [orb]. destruct (N.ltb_spec (code a) 32); [lia|]. destruct (N.ltb_spec (code a) 128); [lia|]. reflexivity.
Qed.
Lemma wide_bad a r : ~ (exists n w t, encoding n w /\ String a r = w ++ t) -> wide_step a r = put rune_error (unescape r).
Proof.
  intros N. unfold wide_step. destruct r as [|b s2]; [reflexivity|].
  destruct (utf8_2 a b) eqn:U2. { apply encoding_2_iff in U2 as (n & E). destruct N. exists n. eexists. exists s2. split; [exact E|reflexivity]. }
  destruct s2 as [|c s3]; [reflexivity|].
  destruct (utf8_3 a b c) eqn:U3. { apply encoding_3_iff in U3 as (n & E). destruct N. exists n. eexists. exists s3. split; [exact E|reflexivity]. }
  destruct s3 as [|d s4]; [reflexivity|].
  destruct (utf8_4 a b c d) eqn:U4; [|reflexivity]. apply encoding_4_iff in U4 as (n & E). destruct N. exists n. eexists. exists s4. split; [exact E|reflexivity].
Qed.
Lemma encoding_low n w : encoding n w -> (n < 128)%N -> w = String (byte n) "".
Proof. destruct 1; intros; try lia. reflexivity. Qed.
Lemma encoding_high n w : encoding n w -> (128 <= n)%N -> exists a r, w = String a r /\ (128 <= code a)%N.
Proof.
  intros E L. destruct E as [n L'|n L'|n L' S|n L']; [lia|..]; eexists; eexists; (split; [reflexivity|]); rewrite ?div262144, ?div4096;
    digits64 n; digits64 q; digits64 q0; rewrite code_byte by lia; lia.
Qed.
Lemma unescape_complete r s : means r s -> unescape r = Some s.
Proof.
  induction 1 as [|n w r s E L N M IH|a r s L N M IH|e n r s I M IH|h n w r s H E M IH|h n r k rest w s H P E M IH|h n r s H S N M IH].
  - reflexivity.
  - destruct (N.lt_ge_cases n 128) as [G|G].
    + rewrite (encoding_low n w E G). cbn [append]. rewrite unescape_low by (rewrite code_byte; (lia || exact N)). now rewrite IH.
    + destruct (encoding_high n w E G) as (a & q & W & A).
      assert (String a (q ++ r) = w ++ r) as X by now rewrite W.
      rewrite <- X, (unescape_high a) by exact A.
      destruct (encoding_start a n w r (q ++ r) E X A) as [(b & -> & -> & U)|[(b & c & -> & -> & U2 & U3)|(b & c & d & -> & -> & U2 & U3 & U4)]];
        unfold wide_step; rewrite ?U, ?U2, ?U3, ?U4, IH; reflexivity.
  - rewrite unescape_high, wide_bad by assumption. rewrite IH, rune_error_is. reflexivity.
  - rewrite (unescape_letter e n) by exact I. now rewrite IH.
  - pose proof H as H0. destruct H as (a & b & c & d & _ & _ & _ & _ & -> & _). apply hex4_iff in H0. cbn [append]. rewrite (unescape_hex a b c d n) by exact H0.
    destruct (surrogate n) eqn:S; [apply surrogate_iff in S; apply encoding_range in E; tauto|]. rewrite IH. cbn [put]. now rewrite (encoding_utf8 n w E).
  - pose proof H as H0. destruct H as (a & b & c & d & _ & _ & _ & _ & -> & _). apply hex4_iff in H0. cbn [append]. rewrite (unescape_hex a b c d n) by exact H0.
    assert (surrogate n = true) as -> by (destruct P as (? & ? & _ & _ & P & _); apply surrogate_iff; lia).
    apply pair_iff in P. rewrite P, IH. cbn [put]. now rewrite (encoding_utf8 k w E).
  - pose proof H as H0. destruct H as (a & b & c & d & _ & _ & _ & _ & -> & _). apply hex4_iff in H0. cbn [append]. rewrite (unescape_hex a b c d n) by exact H0.
    rewrite (proj2 (surrogate_iff n) S). destruct (pair_of n r) as [[k rest]|] eqn:P; [apply pair_iff in P; destruct N; eauto|].
    now rewrite IH, rune_error_is.
Qed.
Lemma utf8_start a s1 : (128 <= code a)%N ->
  ~ (exists n w t, encoding n w /\ String a s1 = w ++ t) \/
  (exists b s2, s1 = String b s2 /\ utf8_2 a b = true) \/
  (exists b c s3, s1 = String b (String c s3) /\ utf8_2 a b = false /\ utf8_3 a b c = true) \/
  (exists b c d s4, s1 = String b (String c (String d s4)) /\ utf8_2 a b = false /\ utf8_3 a b c = false /\ utf8_4 a b c d = true).
Proof.
  intros G.
  destruct s1 as [|b s2].
  { left. intros (n & w & t & E & X). destruct (encoding_start a n w t _ E X G) as [(b & _ & Y & _)|[(b & c & _ & Y & _)|(b & c & d & _ & Y & _)]]; discriminate. }
  destruct (utf8_2 a b) eqn:U2; [right; left; eauto|]. destruct s2 as [|c s3].
  { left. intros (n & w & t & E & X). destruct (encoding_start a n w t _ E X G) as [(b' & _ & Y & U)|[(b' & c & _ & Y & _)|(b' & c & d & _ & Y & _)]]; try discriminate.
    injection Y as <- <-. congruence. }
  destruct (utf8_3 a b c) eqn:U3; [right; right; left; eauto 10|]. destruct s3 as [|d s4].
  { left. intros (n & w & t & E & X). destruct (encoding_start a n w t _ E X G) as [(b' & _ & Y & U)|[(b' & c' & _ & Y & _ & U)|(b' & c' & d & _ & Y & _)]]; try discriminate;
    injection Y as <- <-; [|subst t]; congruence. }
  destruct (utf8_4 a b c d) eqn:U4; [right; right; right; eauto 12|].
  left. intros (n & w & t & E & X). destruct (encoding_start a n w t _ E X G) as [(b' & _ & Y & U)|[(b' & c' & _ & Y & _ & U)|(b' & c' & d' & _ & Y & _ & _ & U)]].
  - injection Y as <- _. congruence.
  - injection Y as <- <- _. congruence.
  - injection Y as <- <- <- _. congruence.
Qed.
Lemma unescape_sound r : forall s, unescape r = Some s -> means r s.
Proof.
  remember (String.length r) as n eqn:E. revert r E. induction n as [n IH] using (well_founded_induction Wf_nat.lt_wf).
  intros r -> s H. assert (forall t s, (String.length t < String.length r)%nat -> unescape t = Some s -> means t s) as K by (intros t s' L; exact (IH _ L t eq_refl s')). clear IH.
  destruct r as [|a s1]; [injection H as <-; constructor|].
  destruct (is 92 a) eqn:B.
  { chr B. destruct s1 as [|e s2]; [discriminate|]. destruct (is_escape e) eqn:X.
    - apply is_escape_iff in X as (n & X). change (String "\" (String e s2)) with ("\" ++ String e "" ++ s2) in H |- *.
      rewrite (unescape_letter _ n) in H by exact X. apply put_some in H as (t & T & ->). apply means_letter; [exact X|].
      apply K; [cbn; lia|exact T].
    - destruct (is 117 e) eqn:U.
      + chr U. destruct s2 as [|h1 [|h2 [|h3 [|h4 s3]]]]; try discriminate.
        destruct (hex4 h1 h2 h3 h4) as [n|] eqn:HX.
        2: { cbn [unescape] in H. change (is 92 "\") with true in H. cbv iota in H.
             change (is 34 "u" || is 92 "u" || is 47 "u") with false in H. change (is 98 "u") with false in H. change (is 102 "u") with false in H.
             change (is 110 "u") with false in H. change (is 114 "u") with false in H. change (is 116 "u") with false in H. change (is 117 "u") with true in H. cbv iota in H.
             rewrite HX in H. discriminate. }
        change "\"%char with bslash in H |- *. rewrite (unescape_hex _ _ _ _ n) in H by exact HX. apply hex4_iff in HX.
        change (String bslash (String "u" (String h1 (String h2 (String h3 (String h4 s3)))))) with
          (String bslash ("u" ++ (String h1 (String h2 (String h3 (String h4 "")))) ++ s3)).
        destruct (surrogate n) eqn:S.
        * destruct (pair_of n s3) as [[k rest]|] eqn:P.
          -- apply pair_iff in P. apply put_some in H as (t & T & ->).
             apply (means_pair _ n s3 k rest); [exact HX|exact P| |apply K; [|exact T]].
             ++ destruct P as (? & ? & _ & _ & P1 & P2 & ->). apply utf8_encoding; lia.
             ++ destruct P as (h & m & -> & HM & _). destruct HM as (? & ? & ? & ? & _ & _ & _ & _ & -> & _). cbn. lia.
          -- apply put_some in H as (t & T & ->). rewrite rune_error_is. apply surrogate_iff in S. apply (means_lone _ n); [exact HX|exact S| |apply K; [cbn; lia|exact T]].
             intros (k & rest & Q). apply pair_iff in Q. congruence.
        * apply put_some in H as (t & T & ->). apply (means_hex _ n); [exact HX| |apply K; [cbn; lia|exact T]].
          apply utf8_encoding; [apply hex4_lt in HX; lia|]. rewrite <- surrogate_iff. congruence.
      + exfalso. unfold is_escape in X. repeat (apply Bool.orb_false_iff in X as [X ?]).
        cbn [unescape] in H. change (is 92 "\") with true in H. cbv iota in H.
        repeat match goal with Q : is _ e = false |- _ => rewrite Q in H; clear Q end. discriminate. }
  apply is_no in B. destruct (N.lt_ge_cases (code a) 128) as [G|G].
  - destruct (N.ltb_spec (code a) 32) as [C|C].
    { exfalso. cbn [unescape] in H. rewrite (proj2 (is_no 92 a) B) in H. apply N.ltb_lt in C. rewrite C, Bool.orb_true_r in H. discriminate. }
    destruct (N.eq_dec (code a) 34) as [Q|Q].
    { exfalso. cbn [unescape] in H. rewrite (proj2 (is_no 92 a) B) in H. rewrite (proj2 (is_iff 34 a) Q) in H. discriminate. }
    rewrite unescape_low in H by (cbn; intuition lia). apply put_some in H as (t & T & ->).
    change (String a s1) with (String a "" ++ s1). apply (means_char (code a)); [|exact C|cbn; intuition|apply K; [cbn; lia|exact T]].
    rewrite <- (byte_code a) at 2. now constructor.
  - rewrite unescape_high in H by exact G. unfold wide_step in H. destruct (utf8_start a s1 G) as [BAD|[(b & s2 & -> & U)|[(b & c & s3 & -> & U2 & U)|(b & c & d & s4 & -> & U2 & U3 & U)]]].
    + fold (wide_step a s1) in H. rewrite wide_bad in H by exact BAD. apply put_some in H as (t & T & ->). rewrite rune_error_is.
      apply means_bad; [exact G|exact BAD|apply K; [cbn; lia|exact T]].
    + rewrite U in H. apply put_some in H as (t & T & ->). apply encoding_2_iff in U as (n & E).
      change (String a (String b s2)) with (String a (String b "") ++ s2). apply (means_char n); [exact E|..].
      * inversion E; subst; lia.
      * inversion E; subst; cbn; lia.
      * apply K; [cbn; lia|exact T].
    + rewrite U2, U in H. apply put_some in H as (t & T & ->). apply encoding_3_iff in U as (n & E).
      change (String a (String b (String c s3))) with (String a (String b (String c "")) ++ s3). apply (means_char n); [exact E|..].
      * inversion E; subst; lia.
      * inversion E; subst; cbn; lia.
      * apply K; [cbn; lia|exact T].
    + rewrite U2, U3, U in H. apply put_some in H as (t & T & ->). apply encoding_4_iff in U as (n & E).
      change (String a (String b (String c (String d s4)))) with (String a (String b (String c (String d ""))) ++ s4). apply (means_char n); [exact E|..].
      * inversion E; subst; lia.
      * inversion E; subst; cbn; lia.
      * apply K; [cbn; lia|exact T].
Qed.
Lemma unescape_iff r s : unescape r = Some s <-> means r s.
Proof. split; [apply unescape_sound|apply unescape_complete]. Qed.

(** Every string of the grammar stands for a text. *)
Lemma chars_tail a s : chars (String a s) -> is 92 a = false -> chars s.
Proof.
  intros C N. inversion C as [|? ? ? ? C'|e n s' I E|h n s' H C' E]; subst; [exact C'|now apply is_no in N..].
Qed.
Lemma chars_means r : chars r -> exists s, unescape r = Some s.
Proof.
  remember (String.length r) as n eqn:E. revert r E. induction n as [n IH] using (well_founded_induction Wf_nat.lt_wf).
  intros r -> C. assert (forall t, (String.length t < String.length r)%nat -> chars t -> exists s, unescape t = Some s) as K by (intros t L; exact (IH _ L t eq_refl)). clear IH.
  destruct C as [|a s L N C|e n s I C|h n s H C].
  - eexists. reflexivity.
  - destruct (N.lt_ge_cases (code a) 128) as [G|G].
    + destruct (K s) as [t T]; [cbn; lia|exact C|]. rewrite unescape_low by (lia || exact N). rewrite T. eexists. reflexivity.
    + rewrite unescape_high by exact G.
      assert (forall b r, (128 <= code b)%N -> chars (String b r) -> chars r) as TAIL.
      { intros b r B X. apply (chars_tail b); [exact X|]. apply is_no. lia. }
      assert (forall b, cont b = true -> (128 <= code b)%N) as CT by (intros b B; apply between_iff in B; lia).
      destruct (utf8_start a s G) as [BAD|[(b & s2 & -> & U)|[(b & c & s3 & -> & U2 & U)|(b & c & d & s4 & -> & U2 & U3 & U)]]].
      * rewrite wide_bad by exact BAD. destruct (K s) as [t T]; [cbn; lia|exact C|]. rewrite T. eexists. reflexivity.
      * unfold wide_step. rewrite U. apply utf8_2_high in U as (A & B). apply TAIL in C; [|exact B].
        destruct (K s2) as [t T]; [cbn; lia|exact C|]. rewrite T. eexists. reflexivity.
      * unfold wide_step. rewrite U2, U. apply utf8_3_high in U as (A & B & B2). apply TAIL in C; [|exact B]. apply TAIL in C; [|exact B2].
        destruct (K s3) as [t T]; [cbn; lia|exact C|]. rewrite T. eexists. reflexivity.
      * unfold wide_step. rewrite U2, U3, U. apply utf8_4_high in U as (A & B & B2 & B3). apply TAIL in C; [|exact B]. apply TAIL in C; [|exact B2]. apply TAIL in C; [|exact B3].
        destruct (K s4) as [t T]; [cbn; lia|exact C|]. rewrite T. eexists. reflexivity.
  - rewrite (unescape_letter e n) by exact I. destruct (K s) as [t T]; [|exact C|rewrite T; eexists; reflexivity].
    cbn in I. repeat destruct I as [I|I]; try (injection I as <- <-; cbn; lia). destruct I.
  - pose proof H as H0. destruct H as (a & b & c & d & _ & _ & _ & _ & -> & _). apply hex4_iff in H0. cbn [append] in *. rewrite (unescape_hex a b c d n) by exact H0.
    assert (forall x t, (String.length t <= String.length s)%nat -> chars t -> exists z, put x (unescape t) = Some z) as P.
    { intros x t L X. destruct (K t) as [z Z]; [cbn; lia|exact X|]. rewrite Z. eexists. reflexivity. }
    destruct (surrogate n); [|now apply P]. destruct (pair_of n s) as [[k rest]|] eqn:Q; [|now apply P].
    apply pair_iff in Q as (h & m & -> & HM & _). destruct HM as (a' & b' & c' & d' & x & y & z & w & -> & HX). apply P; [cbn; lia|].
    clear -C. inversion C as [|? ? ? N C'|e n s I C' E|h n s H C' E]; subst.
    + exfalso. apply N. right. left. reflexivity.
    + exfalso. repeat destruct I as [I|I]; try (injection I as <- <-; discriminate). destruct I.
    + destruct H as (? & ? & ? & ? & _ & _ & _ & _ & -> & _). cbn [append] in *. match goal with Q : String _ _ = String _ _ |- _ => injection Q as <- <- <- <- <- end. exact C'.
Qed.
Lemma chars_iff r : chars r <-> exists s, means r s.
Proof.
  split; [intros C; destruct (chars_means r C) as [s S]; exists s; now apply unescape_iff|].
  intros (s & M). induction M as [|n w r s E L N M IH|a r s L N M IH|e n r s I M IH|h n w r s H E M IH|h n r k rest w s H P E M IH|h n r s H S N M IH].
  - constructor.
  - destruct (N.lt_ge_cases n 128) as [G|G].
    + rewrite (encoding_low n w E G). cbn [append]. constructor; rewrite ?code_byte by lia; assumption.
    + assert (forall a x, (128 <= code a)%N -> chars x -> chars (String a x)) as HI.
      { intros a x A X. constructor; [lia|cbn; lia|exact X]. }
      destruct E as [n L'|n L'|n L' S|n L']; [lia|..]; cbn [append]; rewrite ?div262144, ?div4096;
        digits64 n; digits64 q; digits64 q0; repeat (apply HI; [rewrite code_byte by lia; lia|]); exact IH.
  - constructor; [lia|cbn; lia|exact IH].
  - now apply (chars_escape e n).
  - now apply (chars_hex h n).
  - apply (chars_hex h n); [exact H|]. destruct P as (h' & m & -> & HM & _). now apply (chars_hex h' m).
  - now apply (chars_hex h n).
Qed.

(** ** Member names *)
Local Transparent byte.
Lemma fold_name_plain a s : (code a < 128)%N -> fold_name (String a s) = String (upper_byte a) (fold_name s).
Proof.
  intros L. cbn [fold_name]. rewrite (proj2 (is_no 197 a)), (proj2 (is_no 226 a)) by lia. destruct s as [|b [|c s]]; reflexivity.
Qed.
Lemma upper_iff a b : upper_byte a = upper_byte b <-> same_letter a b.
Proof.
  unfold upper_byte, same_letter. split.
  - intros H. apply (f_equal code) in H.
    destruct ((97 <=? code a) && (code a <=? 122))%N eqn:A; destruct ((97 <=? code b) && (code b <=? 122))%N eqn:B;
      rewrite ?Bool.andb_true_iff, ?Bool.andb_false_iff, ?N.leb_le, ?N.leb_gt in A;
      rewrite ?Bool.andb_true_iff, ?Bool.andb_false_iff, ?N.leb_le, ?N.leb_gt in B;
      pose proof (code_byte (code a - 32)) as CA; pose proof (code_byte (code b - 32)) as CB; unfold byte in CA, CB;
      rewrite ?CA, ?CB in H by lia.
    + left. apply code_inj. lia.
    + right. right. lia.
    + right. left. lia.
    + left. apply code_inj. lia.
  - intros [->|[[A B]|[A B]]]; [reflexivity|..]; rewrite B.
    + replace ((97 <=? code a) && (code a <=? 122))%N with false by (symmetry; rewrite Bool.andb_false_iff, !N.leb_gt; lia).
      replace ((97 <=? code a + 32) && (code a + 32 <=? 122))%N with true by (symmetry; rewrite Bool.andb_true_iff, !N.leb_le; lia).
      rewrite N.add_sub. symmetry. apply byte_code.
    + replace ((97 <=? code b) && (code b <=? 122))%N with false by (symmetry; rewrite Bool.andb_false_iff, !N.leb_gt; lia).
      replace ((97 <=? code b + 32) && (code b + 32 <=? 122))%N with true by (symmetry; rewrite Bool.andb_true_iff, !N.leb_le; lia).
      rewrite N.add_sub. apply byte_code.
Qed.
Lemma same_name_fold k n : Forall (fun c => (c < 128)%N) (bytes k) -> same_name k n -> fold_name n = fold_name k.
Proof.
  intros A S. induction S as [|a b s t L S IH|a s t I S IH|a s t I S IH]; [reflexivity|..]; cbn [bytes] in A; apply Forall_cons_iff in A as [A A'].
  - rewrite (fold_name_plain a) by exact A. rewrite (fold_name_plain b).
    + rewrite IH by exact A'. f_equal. symmetry. now apply upper_iff.
    + destruct L as [->|[L|L]]; [exact A|lia..].
  - rewrite (fold_name_plain a) by exact A. change (fold_name (long_s ++ t)) with (String "S" (fold_name t)). rewrite IH by exact A'.
    cbn in I. destruct I as [<-|[<-|[]]]; reflexivity.
  - rewrite (fold_name_plain a) by exact A. transitivity (String "K" (fold_name t)); [destruct t; reflexivity|]. rewrite IH by exact A'.
    cbn in I. destruct I as [<-|[<-|[]]]; reflexivity.
Qed.
Lemma fold_same_name n : forall k, Forall (fun c => (c < 128)%N) (bytes k) -> fold_name n = fold_name k -> same_name k n.
Proof.
  remember (String.length n) as l eqn:E. revert n E. induction l as [l IH] using (well_founded_induction Wf_nat.lt_wf).
  intros n -> k A F. assert (forall t k, (String.length t < String.length n)%nat -> Forall (fun c => (c < 128)%N) (bytes k) -> fold_name t = fold_name k -> same_name k t) as K by (intros t k' L; exact (IH _ L t eq_refl k')). clear IH.
  destruct k as [|x k].
  { destruct n as [|a [|b [|c n]]]; [constructor|..]; exfalso; cbn [fold_name] in F; try discriminate;
      repeat match type of F with context [if ?c then _ else _] => destruct c end; discriminate. }
  apply Forall_cons_iff in A as [A A']. rewrite fold_name_plain in F by exact A.
  destruct n as [|a s1]; [discriminate|].
  assert (fold_name (String a s1) = String (upper_byte a) (fold_name s1) -> same_name (String x k) (String a s1)) as PLAIN.
  { intros P. rewrite P in F. injection F as F1 F2. constructor; [apply upper_iff; now symmetry|]. apply K; [cbn; lia|exact A'|exact F2]. }
  assert (forall u, upper_byte x = u -> In u ["S"; "K"]%char -> (u = "S"%char -> In x ["s"; "S"]%char) /\ (u = "K"%char -> In x ["k"; "K"]%char)) as LET.
  { intros u U _. split; intros ->.
    - change "S"%char with (upper_byte "S") in U. apply upper_iff in U. destruct U as [->|[[U1 U2]|[U1 U2]]]; [right; now left|..].
      + change (code "S") with 83%N in U2. lia.
      + left. apply code_inj. rewrite U2. reflexivity.
    - change "K"%char with (upper_byte "K") in U. apply upper_iff in U. destruct U as [->|[[U1 U2]|[U1 U2]]]; [right; now left|..].
      + change (code "K") with 75%N in U2. lia.
      + left. apply code_inj. rewrite U2. reflexivity. }
  destruct s1 as [|b s2]; [now apply PLAIN|].
  destruct (is 197 a && is 191 b) eqn:LS.
  - apply Bool.andb_true_iff in LS as [A1 B1]. apply is_iff in A1, B1.
    replace a with (byte 197) in * by (rewrite <- (byte_code a), A1; reflexivity). replace b with (byte 191) in * by (rewrite <- (byte_code b), B1; reflexivity).
    change (fold_name (String (byte 197) (String (byte 191) s2))) with (String "S" (fold_name s2)) in F. injection F as F1 F2.
    change (String (byte 197) (String (byte 191) s2)) with (long_s ++ s2). apply same_name_s; [apply (LET "S"%char); [now symmetry|now left|reflexivity]|].
    apply K; [cbn; lia|exact A'|exact F2].
  - destruct s2 as [|c s3]; [apply PLAIN; cbn [fold_name]; rewrite LS; reflexivity|].
    destruct (is 226 a && is 132 b && is 170 c) eqn:KS; [|apply PLAIN; cbn [fold_name]; rewrite LS, KS; reflexivity].
    apply Bool.andb_true_iff in KS as [KS C1]. apply Bool.andb_true_iff in KS as [A1 B1]. apply is_iff in A1, B1, C1.
    replace a with (byte 226) in * by (rewrite <- (byte_code a), A1; reflexivity). replace b with (byte 132) in * by (rewrite <- (byte_code b), B1; reflexivity).
    replace c with (byte 170) in * by (rewrite <- (byte_code c), C1; reflexivity).
    change (fold_name (String (byte 226) (String (byte 132) (String (byte 170) s3)))) with (String "K" (fold_name s3)) in F. injection F as F1 F2.
    change (String (byte 226) (String (byte 132) (String (byte 170) s3))) with (kelvin ++ s3). apply same_name_k; [apply (LET "K"%char); [now symmetry|right; now left|reflexivity]|].
    apply K; [cbn; lia|exact A'|exact F2].
Qed.
Lemma same_name_iff k n : Forall (fun c => (c < 128)%N) (bytes k) -> same_name k n <-> fold_name n = fold_name k.
Proof. intros A. split; [now apply same_name_fold|now apply fold_same_name]. Qed.

(** ** Integers *)
Lemma atoi_iff t z : atoi t = Ok z <-> integer t z.
Proof.
  assert (forall z, in_int z = true <-> (- 2 ^ 63 <= z < 2 ^ 63)%Z) as INT.
  { intros x. unfold in_int, int_min, int_max. rewrite Bool.andb_true_iff, Z.leb_le. rewrite ?Z.leb_le, ?Z.ltb_lt. change (2 ^ 63)%Z with 9223372036854775808%Z. lia. }
  unfold integer. rewrite <- INT. clear INT. split.
  - unfold atoi. intros H.
    assert (exists neg body, (if neg : bool then t = "-" ++ body else t = body \/ t = "+" ++ body) /\
      match read_N body with None => Err "strconv.Atoi: invalid syntax" | Some n => let z := if neg then (- Z.of_N n)%Z else Z.of_N n in
        if in_int z then Ok z else Err "strconv.Atoi: value out of range" end = Ok z) as (neg & body & T & H').
    { destruct t as [|a s']; [exists false, ""; auto|]. destruct (Ascii.eqb_spec a "-"); [exists true, s'; subst; auto|].
      destruct (Ascii.eqb_spec a "+"); [exists false, s'; subst; auto|exists false, (String a s'); auto]. }
    clear H. destruct (read_N body) as [n|] eqn:R; [|discriminate]. cbv zeta in H'. destruct (in_int _) eqn:I; [|discriminate]. injection H' as <-.
    split; [|exact I]. exists body, n. split; [now apply decimal_iff|]. destruct neg; [auto|]. destruct T; auto.
  - intros [(s & n & D & T) I]. pose proof D as D0. apply decimal_iff in D0. destruct (decimal_start s n D) as (a & r & -> & A).
    unfold atoi. destruct T as [[-> ->]|[[-> ->]|[-> ->]]].
    + destruct (Ascii.eqb_spec a "-"); [subst; discriminate|]. destruct (Ascii.eqb_spec a "+"); [subst; discriminate|]. now rewrite D0, I.
    + cbn [append]. change (Ascii.eqb "+" "-") with false. change (Ascii.eqb "+" "+") with true. cbv iota. now rewrite D0, I.
    + cbn [append]. change (Ascii.eqb "-" "-") with true. cbv iota. now rewrite D0, I.
Qed.
