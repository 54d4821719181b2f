(** Lemmas about JSON text: the parser accepts exactly the JSON texts. *)
From Verif Require Import GoStr GoStrFacts Types TvUtil Json JsonSpdx JsonText SpecJsonText JsonTextFacts.
Local Open Scope string_scope.

(** ** Numbers as float64 *)
Lemma exp_value x k : exp_part x k -> exp_Z x = k.
Proof.
  intros [[-> ->]|(e & t & n & IE & D & X)]; [reflexivity|].
  assert (exists a, e = String a "") as (a & ->) by (cbn in IE; destruct IE as [<-|[<-|[]]]; eauto).
  assert (digits_N t = n) as V by (unfold digits_N; now rewrite (proj1 (decimal_iff t n) D)).
  destruct X as [[-> ->]|[[-> ->]|[-> ->]]]; cbn [append exp_Z].
  - destruct (decimal_start t n D) as (b & q & -> & B). rewrite !(digit_not _ b B) by lia. now rewrite V.
  - change (is 45 "+") with false. change (is 43 "+") with true. cbv iota. now rewrite V.
  - change (is 45 "-") with true. cbv iota. now rewrite V.
Qed.
Definition float_in (m : N) (k : Z) : bool :=
  if (0 <=? k)%Z then (Z.of_N m * 10 ^ k <? float_limit)%Z else (Z.of_N m <? float_limit * 10 ^ (- k))%Z.
Lemma float_number t m k : number t m k -> float_ok t = float_in m k.
Proof.
  intros (sg & i & f & fd & x & k' & -> & SG & I & F & X & D & ->).
  destruct (number_parts sg i f fd x k' "" SG I F X Logic.I) as (E1 & E2 & E3 & _). rewrite !app_nil_r_s in *.
  unfold float_ok. rewrite E1. cbn [snd]. rewrite E2, E3.
  assert (match f with String _ r => r | "" => "" end = fd) as -> by (destruct F as [[-> ->]|[-> _]]; reflexivity).
  rewrite (exp_value x k' X). assert (digits_N (i ++ fd) = m) as -> by (unfold digits_N; now rewrite (proj1 (decimal_iff _ m) D)).
  reflexivity.
Qed.
Lemma float_in_iff m k a b : (0 <= a)%Z -> (0 <= b)%Z -> k = (a - b)%Z ->
  float_in m k = true <-> (Z.of_N m * 10 ^ a < ((2 ^ 53 - 1) * 2 ^ 971 + 2 ^ 970) * 10 ^ b)%Z.
Proof.
  intros A B ->. change ((2 ^ 53 - 1) * 2 ^ 971 + 2 ^ 970)%Z with float_limit. unfold float_in.
  generalize float_limit. intros L. destruct (Z.leb_spec 0 (a - b)) as [G|G].
  - rewrite Z.ltb_lt. replace (10 ^ a)%Z with (10 ^ (a - b) * 10 ^ b)%Z by (rewrite <- Z.pow_add_r by lia; f_equal; lia).
    rewrite Z.mul_assoc. apply Z.mul_lt_mono_pos_r. now apply Z.pow_pos_nonneg.
  - rewrite Z.ltb_lt. replace (10 ^ b)%Z with (10 ^ (- (a - b)) * 10 ^ a)%Z by (rewrite <- Z.pow_add_r by lia; f_equal; lia).
    rewrite Z.mul_assoc. apply Z.mul_lt_mono_pos_r. now apply Z.pow_pos_nonneg.
Qed.
Lemma float_ok_iff t : is_number t -> float_ok t = true <-> fits_float t.
Proof.
  intros (m & k & N). rewrite (float_number t m k N). split.
  - intros F. exists m, k, (Z.max k 0), (Z.max (- k) 0). split; [exact N|]. split; [lia|]. split; [lia|]. split; [lia|].
    apply (float_in_iff m k); [lia|lia|lia|exact F].
  - intros (m' & k' & a & b & N' & A & B & E & F). rewrite <- (float_number t m k N), (float_number t m' k' N').
    now apply (float_in_iff m' k' a b).
Qed.

Ltac flat := repeat progress (cbn [append]; rewrite ?app_assoc_s).
(** ** Grammar *)
Scheme value_mut := Minimality for value Sort Prop
with elements_mut := Minimality for elements Sort Prop
with members_mut := Minimality for members Sort Prop
with member_mut := Minimality for member Sort Prop.
Combined Scheme grammar_ind from value_mut, elements_mut, members_mut, member_mut.

Lemma elements_blank l t w : elements l t -> blank w -> elements l (w ++ t).
Proof.
  intros E B. destruct E; rewrite <- app_assoc_s; constructor; auto; apply blank_app; auto.
Qed.
Lemma member_blank k j t w : member k j t -> blank w -> member k j (w ++ t).
Proof. intros E B. destruct E. rewrite <- app_assoc_s. constructor; auto. now apply blank_app. Qed.
Lemma members_blank l t w : members l t -> blank w -> members l (w ++ t).
Proof.
  intros E B. destruct E; [constructor; now apply member_blank|].
  rewrite <- app_assoc_s. constructor; [now apply member_blank|assumption].
Qed.
Lemma value_start j t : value j t -> exists a r, t = String a r /\ is_blank a = false /\ is 93 a = false /\ is 125 a = false.
Proof.
  intros V. destruct V; try (eexists; eexists; split; [reflexivity|repeat split; reflexivity]).
  destruct (number_start t H) as (a & r & -> & A). exists a, r. split; [reflexivity|].
  destruct A as [A|A]; [|chr A; repeat split; reflexivity].
  unfold is_blank. rewrite !(digit_not _ a A) by lia. auto.
Qed.
Lemma expect_iff w : forall s r, expect w s = Some r <-> s = w ++ r.
Proof.
  induction w as [|a w IH]; intros s r; cbn [expect append].
  - split; [intros H; now injection H|now intros ->].
  - destruct s as [|b s]; [split; discriminate|]. destruct (Ascii.eqb_spec a b) as [->|N].
    + rewrite IH. split; [now intros ->|intros H; now injection H].
    + split; [discriminate|]. intros H. injection H as H _. congruence.
Qed.
Definition nest_list (l : list json) : N := fold_right N.max 0%N (map nesting l).
Definition nest_members (l : list (string * json)) : N := fold_right N.max 0%N (map (fun m => nesting (snd m)) l).

(** ** What is parsed is a JSON text *)
Section Limit.
Variable limit : N.
Lemma parse_sound fuel :
  (forall d s j rest, (d <= limit)%N -> parse_value limit fuel d s = Some (j, rest) ->
     exists t, s = t ++ rest /\ value j t /\ (nesting j + d <= limit)%N) /\
  (forall d s l rest, (d <= limit)%N -> parse_elements limit fuel d s = Some (l, rest) ->
     exists t, s = t ++ "]" ++ rest /\ elements l t /\ (nest_list l + d <= limit)%N) /\
  (forall d s l rest, (d <= limit)%N -> parse_members limit fuel d s = Some (l, rest) ->
     exists t, s = t ++ "}" ++ rest /\ members l t /\ (nest_members l + d <= limit)%N).
Proof.
  induction fuel as [|fuel (IHv & IHe & IHm)]; [repeat split; discriminate|]. split; [|split].
  - intros d s j rest L H. destruct s as [|a r]; [discriminate|]. cbn [parse_value] in H.
    destruct (is 123 a) eqn:OB.
    { chr OB. destruct (N.leb_spec limit d) as [M|M]; [discriminate|].
      destruct (skip_split r) as (w & E & B). destruct (skip r) as [|b r']; [discriminate|].
      destruct (is 125 b) eqn:CB.
      - chr CB. injection H as <- <-. exists ("{" ++ w ++ "}"). rewrite E. split; [cbn [append]; now rewrite app_assoc_s|].
        split; [now constructor|]. cbn [nesting map fold_right]. lia.
      - destruct (parse_members limit fuel (d + 1) (String b r')) as [[ms q]|] eqn:P; [|discriminate]. injection H as <- <-.
        apply IHm in P as (t & T & V & D); [|lia]. exists ("{" ++ (w ++ t) ++ "}"). rewrite E, T. split; [cbn [append]; now rewrite !app_assoc_s|].
        split; [constructor; now apply members_blank|]. change (nesting (JObj ms)) with (1 + nest_members ms)%N. lia. }
    destruct (is 91 a) eqn:AB.
    { chr AB. destruct (N.leb_spec limit d) as [M|M]; [discriminate|].
      destruct (skip_split r) as (w & E & B). destruct (skip r) as [|b r']; [discriminate|].
      destruct (is 93 b) eqn:CB.
      - chr CB. injection H as <- <-. exists ("[" ++ w ++ "]"). rewrite E. split; [cbn [append]; now rewrite app_assoc_s|].
        split; [now constructor|]. cbn [nesting map fold_right]. lia.
      - destruct (parse_elements limit fuel (d + 1) (String b r')) as [[ms q]|] eqn:P; [|discriminate]. injection H as <- <-.
        apply IHe in P as (t & T & V & D); [|lia]. exists ("[" ++ (w ++ t) ++ "]"). rewrite E, T. split; [cbn [append]; now rewrite !app_assoc_s|].
        split; [constructor; now apply elements_blank|]. change (nesting (JArr ms)) with (1 + nest_list ms)%N. lia. }
    destruct (is 34 a) eqn:Q.
    { chr Q. destruct (scan_string r) as [[t q]|] eqn:E; [|discriminate]. injection H as <- <-.
      apply scan_string_sound in E as [-> C]. exists (String dquote (t ++ String dquote "")).
      split; [cbn [append]; now rewrite app_assoc_s|]. split; [now constructor|]. cbn [nesting map fold_right]. lia. }
    destruct (is 110 a) eqn:NU.
    { chr NU. destruct (expect "ull" r) as [q|] eqn:E; [|discriminate]. injection H as <- <-. apply expect_iff in E as ->.
      exists "null". split; [reflexivity|]. split; [constructor|]. cbn [nesting map fold_right]. lia. }
    destruct (is 116 a) eqn:TR.
    { chr TR. destruct (expect "rue" r) as [q|] eqn:E; [|discriminate]. injection H as <- <-. apply expect_iff in E as ->.
      exists "true". split; [reflexivity|]. split; [constructor|]. cbn [nesting map fold_right]. lia. }
    destruct (is 102 a) eqn:FA.
    { chr FA. destruct (expect "alse" r) as [q|] eqn:E; [|discriminate]. injection H as <- <-. apply expect_iff in E as ->.
      exists "false". split; [reflexivity|]. split; [constructor|]. cbn [nesting map fold_right]. lia. }
    destruct (scan_number (String a r)) as [[t q]|] eqn:E; [|discriminate]. injection H as <- <-.
    apply scan_number_sound in E as [-> N]. exists t. split; [reflexivity|]. split; [now constructor|]. cbn [nesting map fold_right]. lia.
  - intros d s l rest L H. cbn [parse_elements] in H. destruct (parse_value limit fuel d s) as [[j r]|] eqn:P; [|discriminate].
    apply IHv in P as (t & -> & V & D); [|exact L]. destruct (skip_split r) as (w & E & B). destruct (skip r) as [|a r']; [discriminate|].
    destruct (is 93 a) eqn:CB.
    + chr CB. injection H as <- <-. exists ("" ++ t ++ w). rewrite E. split; [cbn [append]; now rewrite !app_assoc_s|].
      split; [constructor; auto; apply blank_nil|]. unfold nest_list. cbn [map fold_right]. lia.
    + destruct (is 44 a) eqn:CO; [|discriminate]. chr CO. destruct (parse_elements limit fuel d (skip r')) as [[l' q]|] eqn:P; [|discriminate].
      injection H as <- <-. apply IHe in P as (t' & T' & V' & D'); [|exact L].
      destruct (skip_split r') as (w' & E' & B'). exists ("" ++ t ++ w ++ "," ++ (w' ++ t')). rewrite E, E', T'.
      split; [cbn [append]; now rewrite !app_assoc_s; cbn [append]; rewrite !app_assoc_s|].
      split; [apply elements_more; auto; [apply blank_nil|now apply elements_blank]|]. unfold nest_list in *. cbn [map fold_right]. lia.
  - intros d s l rest L H. cbn [parse_members] in H. destruct s as [|q s1]; [discriminate|].
    destruct (is 34 q) eqn:Q; [|discriminate]. cbn [negb] in H. chr Q.
    destruct (scan_string s1) as [[k s2]|] eqn:SS; [|discriminate]. apply scan_string_sound in SS as [-> C].
    destruct (skip_split s2) as (w2 & E2 & B2). destruct (skip s2) as [|c s3]; [discriminate|].
    destruct (is 58 c) eqn:CL; [|discriminate]. cbn [negb] in H. chr CL.
    destruct (skip_split s3) as (w3 & E3 & B3).
    destruct (parse_value limit fuel d (skip s3)) as [[j r]|] eqn:P; [|discriminate].
    apply IHv in P as (t & T & V & D); [|exact L]. destruct (skip_split r) as (w & E & B). destruct (skip r) as [|a r']; [discriminate|].
    assert (member k j ("" ++ String dquote (k ++ String dquote "") ++ w2 ++ ":" ++ w3 ++ t ++ w)) as M by (constructor; auto; apply blank_nil).
    destruct (is 125 a) eqn:CB.
    + chr CB. injection H as <- <-. eexists. split; [|split; [apply members_one; exact M|]].
      * rewrite E2, E3, T, E. flat. reflexivity.
      * unfold nest_members. cbn [map fold_right snd]. lia.
    + destruct (is 44 a) eqn:CO; [|discriminate]. chr CO. destruct (parse_members limit fuel d (skip r')) as [[l' q']|] eqn:P; [|discriminate].
      injection H as <- <-. apply IHm in P as (t' & T' & V' & D'); [|exact L].
      destruct (skip_split r') as (w' & E' & B'). eexists. split; [|split; [apply members_more; [exact M|apply (members_blank l' t' w'); assumption]|]].
      * rewrite E2, E3, T, E, E', T'. flat. reflexivity.
      * unfold nest_members in *. cbn [map fold_right snd]. lia.
Qed.

(** ** Every JSON text is parsed *)
Lemma ends_blank w r : blank w -> ends_number r -> ends_number (w ++ r).
Proof.
  destruct w as [|a w]; [auto|]. intros B _. apply blank_cons in B as [B _]. apply is_blank_iff in B.
  cbn [append ends_number]. unfold is_digit, between. cbn in B.
  rewrite !is_no. rewrite Bool.andb_false_iff, !N.leb_gt. intuition lia.
Qed.
Lemma skip_value w j t r : blank w -> value j t -> skip (w ++ t ++ r) = t ++ r.
Proof.
  intros B V. apply skip_app_solid; [exact B|]. destruct (value_start j t V) as (a & q & -> & A & _). exact A.
Qed.
Lemma elements_start l t : elements l t -> forall r, exists a q, skip (t ++ r) = String a q /\ is 93 a = false.
Proof.
  intros E r. destruct E as [w j s w' B V B'|w j s w' l' r' B V B' E']; rewrite !app_assoc_s, (skip_value w j s) by assumption;
    destruct (value_start j s V) as (a & q & -> & _ & A & _); cbn [append]; eauto.
Qed.
Lemma members_start l t : members l t -> forall r, exists q, skip (t ++ r) = String dquote q.
Proof.
  intros E r. assert (forall k j s r, member k j s -> exists q, skip (s ++ r) = String dquote q) as K.
  { intros k j s r' M. destruct M. rewrite !app_assoc_s. rewrite skip_app_solid by (assumption || reflexivity). cbn [append]. eauto. }
  destruct E as [k j s M|k j s ms r' M E]; rewrite ?app_assoc_s; now apply (K k j).
Qed.
Lemma parse_complete :
  (forall j t, value j t -> forall fuel d rest, (2 * String.length t <= fuel)%nat -> (nesting j + d <= limit)%N -> ends_number rest ->
     parse_value limit fuel d (t ++ rest) = Some (j, rest)) /\
  (forall l t, elements l t -> forall fuel d rest, (2 * String.length t + 1 <= fuel)%nat -> (nest_list l + d <= limit)%N ->
     parse_elements limit fuel d (skip (t ++ "]" ++ rest)) = Some (l, rest)) /\
  (forall l t, members l t -> forall fuel d rest, (2 * String.length t + 1 <= fuel)%nat -> (nest_members l + d <= limit)%N ->
     parse_members limit fuel d (skip (t ++ "}" ++ rest)) = Some (l, rest)) /\
  (forall k j t, member k j t -> exists w1 w2 w3 v w4, t = w1 ++ String dquote (k ++ String dquote "") ++ w2 ++ ":" ++ w3 ++ v ++ w4 /\
     blank w1 /\ chars k /\ blank w2 /\ blank w3 /\ value j v /\ blank w4 /\
     forall fuel d rest, (2 * String.length t <= fuel)%nat -> (nesting j + d <= limit)%N -> ends_number rest ->
     parse_value limit fuel d (v ++ rest) = Some (j, rest)).
Proof.
  assert (forall k s2 j v w1 w2 w3 w4 fuel d rest, blank w1 -> chars k -> blank w2 -> blank w3 -> value j v -> blank w4 ->
    (forall rest, ends_number rest -> parse_value limit fuel d (v ++ rest) = Some (j, rest)) -> (s2 = "}" ++ rest \/ s2 = "," ++ rest) ->
    parse_members limit (S fuel) d (skip (w1 ++ String dquote (k ++ String dquote "") ++ w2 ++ ":" ++ w3 ++ v ++ w4 ++ s2)) =
    match s2 with
    | "" => None
    | String a r' => if is 125 a then Some ([(k, j)], r') else
        match parse_members limit fuel d (skip r') with Some (ms, q) => Some ((k, j) :: ms, q) | None => None end
    end) as STEP.
  { intros k s2 j v w1 w2 w3 w4 fuel d rest B1 C B2 B3 V B4 P S2.
    rewrite skip_app_solid by (exact B1 || reflexivity). cbn [append parse_members]. change (is 34 dquote) with true. cbn [negb].
    rewrite app_assoc_s. cbn [append]. rewrite scan_string_complete by exact C.
    rewrite skip_app_solid by (exact B2 || reflexivity). change (is 58 ":") with true. cbn [negb].
    rewrite (skip_value w3 j v) by assumption.
    rewrite P by (apply ends_blank; [exact B4|]; destruct S2 as [->| ->]; cbn; auto).
    rewrite skip_app_solid by (exact B4 || (destruct S2 as [->| ->]; reflexivity)).
    destruct S2 as [->| ->]; reflexivity. }
  apply grammar_ind.
  1-3: intros fuel d rest L _ _; destruct fuel as [|fuel]; [cbn in L; lia|]; reflexivity.
  - intros t N fuel d rest L _ R. destruct fuel as [|fuel]; [destruct (number_start t N) as (a & r & -> & _); cbn in L; lia|].
    destruct (number_start t N) as (a & r & E & A). cbn [parse_value].
    assert (match t ++ rest with
            | "" => None
            | String _ _ => match scan_number (t ++ rest) with Some (t, rest) => Some (JNum t, rest) | None => None end
            end = Some (JNum t, rest)) as K by (rewrite (scan_number_complete t rest N R), E; reflexivity).
    rewrite E in K |- *. cbn [append] in K |- *.
    assert (is 123 a = false /\ is 91 a = false /\ is 34 a = false /\ is 110 a = false /\ is 116 a = false /\ is 102 a = false) as (-> & -> & -> & -> & -> & ->).
    { destruct A as [A|A]; [rewrite !(digit_not _ a A) by lia; auto 10|chr A; repeat split; reflexivity]. }
    exact K.
  - intros r C fuel d rest L _ _. destruct fuel as [|fuel]; [cbn in L; lia|]. cbn [append parse_value].
    change (is 123 dquote) with false. change (is 91 dquote) with false. change (is 34 dquote) with true. cbv iota.
    rewrite app_assoc_s. cbn [append]. now rewrite scan_string_complete.
  - intros w B fuel d rest L D _. destruct fuel as [|fuel]; [cbn in L; lia|]. cbn [nesting map fold_right] in D. cbn [append parse_value].
    change (is 123 "[") with false. change (is 91 "[") with true. cbv iota. destruct (N.leb_spec limit d); [lia|].
    rewrite app_assoc_s, skip_app_solid by (exact B || reflexivity). reflexivity.
  - intros l s E IH fuel d rest L D R. change (nesting (JArr l)) with (1 + nest_list l)%N in D.
    cbn [append String.length] in L. rewrite app_length_s in L. cbn [String.length] in L. destruct fuel as [|fuel]; [lia|].
    cbn [append parse_value]. change (is 123 "[") with false. change (is 91 "[") with true. cbv iota. destruct (N.leb_spec limit d); [lia|].
    rewrite app_assoc_s. pose proof (IH fuel (d + 1)%N rest ltac:(lia) ltac:(lia)) as K.
    destruct (elements_start l s E ("]" ++ rest)) as (a & q & S & A). rewrite S in K |- *. now rewrite A, K.
  - intros w B fuel d rest L D _. destruct fuel as [|fuel]; [cbn in L; lia|]. cbn [nesting map fold_right] in D. cbn [append parse_value].
    change (is 123 "{") with true. cbv iota. destruct (N.leb_spec limit d); [lia|].
    rewrite app_assoc_s, skip_app_solid by (exact B || reflexivity). reflexivity.
  - intros l s E IH fuel d rest L D R. change (nesting (JObj l)) with (1 + nest_members l)%N in D.
    cbn [append String.length] in L. rewrite app_length_s in L. cbn [String.length] in L. destruct fuel as [|fuel]; [lia|].
    cbn [append parse_value]. change (is 123 "{") with true. cbv iota. destruct (N.leb_spec limit d); [lia|].
    rewrite app_assoc_s. pose proof (IH fuel (d + 1)%N rest ltac:(lia) ltac:(lia)) as K.
    destruct (members_start l s E ("}" ++ rest)) as (q & S). rewrite S in K |- *. change (is 125 dquote) with false. cbv iota. now rewrite K.
  - intros w j s w' B V IH B' fuel d rest L D. unfold nest_list in D. cbn [map fold_right] in D.
    rewrite !app_length_s in L. destruct fuel as [|fuel]; [lia|]. rewrite !app_assoc_s, (skip_value w j s) by assumption. cbn [parse_elements].
    rewrite IH; [|lia|lia|apply ends_blank; [exact B'|cbn; auto]]. rewrite skip_app_solid by (exact B' || reflexivity). reflexivity.
  - intros w j s w' l r B V IHv B' E IHe fuel d rest L D. unfold nest_list in *. cbn [map fold_right] in D.
    rewrite !app_length_s in L. cbn [String.length append] in L. destruct fuel as [|fuel]; [lia|].
    rewrite !app_assoc_s, (skip_value w j s) by assumption. cbn [parse_elements].
    rewrite IHv; [|lia|lia|apply ends_blank; [exact B'|cbn; auto]]. rewrite skip_app_solid by (exact B' || reflexivity).
    cbn [append]. change (is 93 ",") with false. change (is 44 ",") with true. cbv iota.
    change (String "]" rest) with ("]" ++ rest). rewrite IHe; [reflexivity|lia|lia].
  - intros k j s M (w1 & w2 & w3 & v & w4 & -> & B1 & C & B2 & B3 & V & B4 & P) fuel d rest L D.
    unfold nest_members in D. cbn [map fold_right snd] in D. destruct fuel as [|fuel]; [lia|].
    rewrite !app_assoc_s. rewrite (STEP k ("}" ++ rest) j v w1 w2 w3 w4 fuel d rest); auto. intros r0 R0. apply P; [lia|lia|exact R0].
  - intros k j s ms r M (w1 & w2 & w3 & v & w4 & -> & B1 & C & B2 & B3 & V & B4 & P) E IH fuel d rest L D.
    unfold nest_members in *. cbn [map fold_right snd] in D. rewrite app_length_s in L.
    change (String.length ("," ++ r)) with (S (String.length r)) in L. destruct fuel as [|fuel]; [lia|].
    rewrite !app_assoc_s. rewrite (STEP k ("," ++ r ++ "}" ++ rest) j v w1 w2 w3 w4 fuel d (r ++ "}" ++ rest)); auto.
    2: { intros r0 R0. apply P; [lia|lia|exact R0]. }
    cbn [append]. change (is 125 ",") with false. cbv iota. change (String "}" rest) with ("}" ++ rest).
    rewrite IH; [reflexivity|lia|lia].
  - intros w1 k w2 w3 j t w4 B1 C B2 B3 V IH B4. exists w1, w2, w3, t, w4. split; [reflexivity|]. do 6 (split; [assumption|]).
    intros fuel d rest L D R. apply IH; [|exact D|exact R]. rewrite !app_length_s in L. cbn [append String.length] in L. rewrite !app_length_s in L. lia.
Qed.

Lemma parse_text_to_iff s j : parse_text_to limit s = Some j <-> json_text j s /\ (nesting j <= limit)%N.
Proof.
  unfold parse_text_to. split.
  - destruct (parse_value _ _ 0 (skip s)) as [[j' rest]|] eqn:P; [|discriminate].
    apply (proj1 (parse_sound _)) in P as (t & T & V & D); [|lia].
    destruct (skip rest) as [|a r] eqn:S; [|discriminate]. intros H. injection H as <-.
    apply skip_nil in S. destruct (skip_split s) as (w & E & B). split; [|lia].
    exists w, t, rest. rewrite E, T. auto.
  - intros ((w & t & w' & -> & B & V & B') & D). rewrite (skip_value w j t) by assumption.
    rewrite (proj1 parse_complete j t V); [|rewrite !app_length_s; lia|lia|rewrite <- (app_nil_r_s w'); now apply ends_blank].
    rewrite <- (app_nil_r_s w'), skip_blank by exact B'. reflexivity.
Qed.
End Limit.
Lemma parse_text_iff s j : parse_text s = Some j <-> json_text j s /\ (nesting j <= max_depth)%N.
Proof. apply parse_text_to_iff. Qed.
(** The grammar is unambiguous. *)
Lemma json_text_unique s j j' : json_text j s -> json_text j' s -> j = j'.
Proof.
  intros A B. assert (parse_text_to (N.max (nesting j) (nesting j')) s = Some j) as P by (apply parse_text_to_iff; split; [exact A|lia]).
  assert (parse_text_to (N.max (nesting j) (nesting j')) s = Some j') as P' by (apply parse_text_to_iff; split; [exact B|lia]). congruence.
Qed.
