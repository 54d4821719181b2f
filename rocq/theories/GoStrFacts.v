(** Lemmas about the string functions of [GoStr]. *)
From Verif Require Import GoStr.

Lemma app_nil_r_s s : s ++ "" = s.
Proof. induction s as [|a s IH]; simpl; [reflexivity | now rewrite IH]. Qed.

Lemma app_assoc_s a b c : (a ++ b) ++ c = a ++ (b ++ c).
Proof. induction a as [|x a IH]; simpl; [reflexivity | now rewrite IH]. Qed.

Lemma app_length_s a b : String.length (a ++ b) = String.length a + String.length b.
Proof. induction a as [|x a IH]; simpl; [reflexivity | now rewrite IH]. Qed.

Lemma app_inj_l a b c : a ++ b = a ++ c -> b = c.
Proof. induction a as [|x a IH]; simpl; [auto | intros H; injection H; auto]. Qed.

Lemma app_eq_nil_s a b : a ++ b = "" -> a = "" /\ b = "".
Proof. destruct a; simpl; [auto | discriminate]. Qed.

Lemma nonempty_true s : nonempty s = true <-> s <> "".
Proof. unfold nonempty. destruct (String.eqb_spec s ""); simpl; split; congruence. Qed.
Lemma nonempty_false s : nonempty s = false <-> s = "".
Proof. unfold nonempty. destruct (String.eqb_spec s ""); simpl; split; congruence. Qed.

(** ** Reversal *)
Lemma srev_app_spec s acc : srev_app s acc = srev s ++ acc.
Proof.
  unfold srev. revert acc. induction s as [|a s IH]; intros acc; simpl; [reflexivity|].
  rewrite (IH (String a acc)), (IH (String a "")), app_assoc_s. reflexivity.
Qed.
Lemma srev_cons a s : srev (String a s) = srev s ++ String a "".
Proof. unfold srev at 1. simpl. apply srev_app_spec. Qed.
Lemma srev_app_distr s t : srev (s ++ t) = srev t ++ srev s.
Proof.
  induction s as [|a s IH]; simpl.
  - now rewrite app_nil_r_s.
  - rewrite !srev_cons, IH, app_assoc_s. reflexivity.
Qed.
Lemma srev_involutive s : srev (srev s) = s.
Proof.
  induction s as [|a s IH]; [reflexivity|].
  rewrite srev_cons, srev_app_distr, IH. reflexivity.
Qed.
Lemma srev_inj s t : srev s = srev t -> s = t.
Proof. intros H. rewrite <- (srev_involutive s), H, srev_involutive. reflexivity. Qed.
Lemma srev_nil s : srev s = "" <-> s = "".
Proof.
  split; intros H; [|now subst].
  rewrite <- (srev_involutive s), H. reflexivity.
Qed.
Lemma srev_length s : String.length (srev s) = String.length s.
Proof.
  induction s as [|a s IH]; [reflexivity|].
  rewrite srev_cons, app_length_s, IH. simpl. lia.
Qed.

(** ** Prefixes *)
Lemma strip_prefix_app p r : strip_prefix p (p ++ r) = Some r.
Proof. induction p as [|a p IH]; simpl; [reflexivity|]. now rewrite Ascii.eqb_refl. Qed.
Lemma strip_prefix_spec p s r : strip_prefix p s = Some r <-> s = p ++ r.
Proof.
  split; [|intros ->; apply strip_prefix_app].
  revert s. induction p as [|a p IH]; intros s H; simpl in *; [congruence|].
  destruct s as [|b s]; [discriminate|].
  destruct (Ascii.eqb_spec a b) as [->|]; [|discriminate].
  f_equal. now apply IH.
Qed.
Lemma has_prefix_spec p s : has_prefix p s = true <-> exists r, s = p ++ r.
Proof.
  unfold has_prefix. destruct (strip_prefix p s) as [r|] eqn:E.
  - apply strip_prefix_spec in E. split; eauto.
  - split; [discriminate|]. intros [r ->]. rewrite strip_prefix_app in E. discriminate.
Qed.
Lemma has_prefix_app p r : has_prefix p (p ++ r) = true.
Proof. apply has_prefix_spec. eauto. Qed.
Lemma has_prefix_false p s : has_prefix p s = false <-> strip_prefix p s = None.
Proof. unfold has_prefix. destruct (strip_prefix p s); split; congruence. Qed.
Lemma trim_prefix_app p r : trim_prefix p (p ++ r) = r.
Proof. unfold trim_prefix. now rewrite strip_prefix_app. Qed.
Lemma has_suffix_app p s : has_suffix p (s ++ p) = true.
Proof. unfold has_suffix. rewrite srev_app_distr. apply has_prefix_app. Qed.
Lemma has_suffix_spec p s : has_suffix p s = true <-> exists r, s = r ++ p.
Proof.
  unfold has_suffix. rewrite has_prefix_spec. split; intros [r H].
  - exists (srev r). apply srev_inj. now rewrite H, srev_app_distr, srev_involutive.
  - exists (srev r). now rewrite H, srev_app_distr.
Qed.
Lemma trim_suffix_app p s : trim_suffix p (s ++ p) = s.
Proof.
  unfold trim_suffix. rewrite has_suffix_app, srev_app_distr, trim_prefix_app.
  apply srev_involutive.
Qed.

(** ** Membership of a byte *)
Fixpoint has_byte (c : ascii) (s : string) : bool :=
  match s with "" => false | String a s' => Ascii.eqb a c || has_byte c s' end.

Lemma has_byte_app c s t : has_byte c (s ++ t) = has_byte c s || has_byte c t.
Proof. induction s as [|a s IH]; simpl; [reflexivity|]. now rewrite IH, orb_assoc. Qed.
Lemma has_byte_srev c s : has_byte c (srev s) = has_byte c s.
Proof.
  induction s as [|a s IH]; [reflexivity|].
  rewrite srev_cons, has_byte_app, IH. simpl. rewrite orb_false_r. apply orb_comm.
Qed.

(** ** cut and contains *)
Lemma cut_unfold sep s :
  cut sep s =
  match strip_prefix sep s with
  | Some rest => Some ("", rest)
  | None => match s with
            | "" => None
            | String a s' => match cut sep s' with
                             | Some (x, y) => Some (String a x, y)
                             | None => None
                             end
            end
  end.
Proof. destruct s; reflexivity. Qed.

Lemma cut_some sep s x y : cut sep s = Some (x, y) -> s = x ++ sep ++ y.
Proof.
  revert x y. induction s as [|a s IH]; intros x y H; rewrite cut_unfold in H.
  - destruct (strip_prefix sep "") eqn:E; [|discriminate].
    apply strip_prefix_spec in E. now inversion H; subst.
  - destruct (strip_prefix sep (String a s)) eqn:E.
    + apply strip_prefix_spec in E. now inversion H; subst.
    + destruct (cut sep s) as [[u v]|] eqn:Ec; [|discriminate].
      inversion H; subst. simpl. f_equal. now apply IH.
Qed.

Lemma cut_none_app sep s t : cut sep (s ++ t) = None -> cut sep s = None /\ cut sep t = None.
Proof.
  induction s as [|a s IH]; simpl (_ ++ _); intros H.
  - split; [|assumption].
    rewrite cut_unfold. rewrite cut_unfold in H.
    destruct (strip_prefix sep "") eqn:E; [|reflexivity].
    apply strip_prefix_spec in E. symmetry in E. apply app_eq_nil_s in E as [-> ->].
    simpl in H. discriminate.
  - rewrite cut_unfold in H. rewrite (cut_unfold sep (String a s)).
    destruct (strip_prefix sep (String a (s ++ t))) eqn:E; [discriminate|].
    destruct (cut sep (s ++ t)) as [[u v]|] eqn:Ec; [discriminate|].
    destruct (IH eq_refl) as [H1 H2]. split; [|assumption].
    destruct (strip_prefix sep (String a s)) eqn:E2.
    + apply strip_prefix_spec in E2.
      assert (strip_prefix sep (String a (s ++ t)) = Some (s0 ++ t)) as Hx.
      { apply strip_prefix_spec. change (String a (s ++ t)) with (String a s ++ t).
        now rewrite E2, app_assoc_s. }
      congruence.
    + now rewrite H1.
Qed.

Lemma contains_false sep s : contains sep s = false <-> cut sep s = None.
Proof. unfold contains. destruct (cut sep s); split; congruence. Qed.
Lemma contains_true sep s : contains sep s = true <-> exists x y, s = x ++ sep ++ y.
Proof.
  unfold contains. destruct (cut sep s) as [[x y]|] eqn:E.
  - apply cut_some in E. split; eauto.
  - split; [discriminate|]. intros (x & y & ->). exfalso.
    apply cut_none_app in E as [_ E]. apply cut_none_app in E as [E _].
    rewrite cut_unfold in E.
    pose proof (strip_prefix_app sep "") as Hs. rewrite app_nil_r_s in Hs.
    rewrite Hs in E. discriminate.
Qed.
Lemma contains_app_false sep s t :
  contains sep (s ++ t) = false -> contains sep s = false /\ contains sep t = false.
Proof. rewrite !contains_false. apply cut_none_app. Qed.

Lemma strip_prefix_no_head p a v w :
  has_byte a p = false -> strip_prefix p v = None -> strip_prefix p (v ++ String a w) = None.
Proof.
  revert v. induction p as [|x p IH]; intros v Hb H; simpl in *; [discriminate|].
  apply orb_false_iff in Hb as [Hx Hb].
  destruct v as [|b v]; simpl.
  - now rewrite Hx.
  - destruct (Ascii.eqb x b); [|reflexivity]. now apply IH.
Qed.

(** A separator whose first byte does not occur again in it is found at its
    first explicit position. *)
Lemma cut_app_head a sep v r :
  has_byte a sep = false -> cut (String a sep) v = None ->
  cut (String a sep) (v ++ String a sep ++ r) = Some (v, r).
Proof.
  intros Hb. induction v as [|b v IH]; intros Hc.
  - rewrite cut_unfold. change ("" ++ String a sep ++ r) with (String a sep ++ r). now rewrite strip_prefix_app.
  - rewrite cut_unfold in Hc. rewrite cut_unfold.
    destruct (strip_prefix (String a sep) (String b v)) eqn:E; [discriminate|].
    destruct (cut (String a sep) v) as [[x y]|] eqn:Ec; [discriminate|].
    assert (strip_prefix (String a sep) (String b v ++ String a sep ++ r) = None) as ->.
    { simpl in *. destruct (Ascii.eqb a b); [|reflexivity].
      now apply strip_prefix_no_head. }
    change (String b v ++ String a sep ++ r) with (String b (v ++ String a sep ++ r)).
    cbv iota. rewrite IH by reflexivity. reflexivity.
Qed.

Lemma cut_none_no_head a sep v :
  has_byte a v = false -> cut (String a sep) v = None.
Proof.
  induction v as [|b v IH]; intros H; [reflexivity|].
  simpl in H. apply orb_false_iff in H as [H1 H2].
  rewrite cut_unfold. simpl.
  rewrite Ascii.eqb_sym, H1. now rewrite (IH H2).
Qed.

Lemma cut_byte_none c s : cut (String c "") s = None <-> has_byte c s = false.
Proof.
  split; [|apply cut_none_no_head].
  induction s as [|a s IH]; intros H; [reflexivity|].
  rewrite cut_unfold in H. simpl in *.
  rewrite Ascii.eqb_sym. destruct (Ascii.eqb c a); [discriminate|]. simpl.
  destruct (cut (String c "") s) as [[x y]|]; [discriminate|]. now apply IH.
Qed.
Lemma contains_byte c s : contains (String c "") s = has_byte c s.
Proof.
  destruct (has_byte c s) eqn:E.
  - destruct (contains (String c "") s) eqn:E2; [reflexivity|].
    apply contains_false, cut_byte_none in E2. congruence.
  - apply contains_false, cut_byte_none. exact E.
Qed.
Lemma cut_byte_app c x y :
  has_byte c x = false -> cut (String c "") (x ++ String c y) = Some (x, y).
Proof.
  intros H. apply (cut_app_head c "" x y); [reflexivity|]. now apply cut_byte_none.
Qed.
Lemma cut_byte_some c s x y :
  cut (String c "") s = Some (x, y) <-> s = x ++ String c y /\ has_byte c x = false.
Proof.
  split.
  - revert x y. induction s as [|a s IH]; intros x y H; rewrite cut_unfold in H; simpl in H.
    + discriminate.
    + destruct (Ascii.eqb_spec c a) as [->|Hn].
      * inversion H; subst. auto.
      * destruct (cut (String c "") s) as [[u v]|] eqn:E; [|discriminate].
        inversion H; subst. destruct (IH _ _ eq_refl) as [-> Hb].
        simpl. split; [reflexivity|].
        destruct (Ascii.eqb_spec a c); [congruence|]. exact Hb.
  - intros [-> H]. now apply cut_byte_app.
Qed.

(** ** split_on *)
Lemma split_on_nonnil c s : split_on c s <> [].
Proof.
  destruct s as [|a s]; simpl; [discriminate|].
  destruct (Ascii.eqb a c); [discriminate|]. destruct (split_on c s); discriminate.
Qed.
Lemma split_on_app c x y : split_on c (x ++ String c y) = (split_on c x ++ split_on c y)%list.
Proof.
  induction x as [|a x IH]; simpl.
  - now rewrite Ascii.eqb_refl.
  - destruct (Ascii.eqb a c); simpl.
    + now rewrite IH.
    + rewrite IH. pose proof (split_on_nonnil c x) as Hn.
      destruct (split_on c x) as [|h t]; [congruence|]. reflexivity.
Qed.
Lemma split_on_none c s : has_byte c s = false -> split_on c s = [s].
Proof.
  induction s as [|a s IH]; simpl; [reflexivity|].
  intros H. apply orb_false_iff in H as [-> H]. now rewrite (IH H).
Qed.
Lemma split_on_no_byte c s x : In x (split_on c s) -> has_byte c x = false.
Proof.
  revert x. induction s as [|a s IH]; intros x; simpl.
  - intros [<-|[]]. reflexivity.
  - destruct (Ascii.eqb a c) eqn:E; simpl.
    + intros [<-|H]; [reflexivity|]. auto.
    + pose proof (split_on_nonnil c s) as Hn.
      destruct (split_on c s) as [|h t]; [congruence|]. simpl.
      intros [<-|H].
      * simpl. rewrite E. apply IH. now left.
      * apply IH. now right.
Qed.
Lemma split_on_join c s : join (String c "") (split_on c s) = s.
Proof.
  unfold join. induction s as [|a s IH]; [reflexivity|]. simpl.
  destruct (Ascii.eqb_spec a c) as [->|].
  - pose proof (split_on_nonnil c s) as Hn.
    destruct (split_on c s) as [|h t]; [congruence|]. cbn [String.concat] in *.
    simpl. f_equal. exact IH.
  - pose proof (split_on_nonnil c s) as Hn.
    destruct (split_on c s) as [|h t]; [congruence|]. cbn [String.concat] in *.
    destruct t; simpl in *; now rewrite IH.
Qed.

(** ** White space *)
Definition ascii7 (a : ascii) : bool := (code a <? 128)%N.

Lemma space2_hi_l a b : is_space2 a b = true -> ascii7 a = false.
Proof.
  unfold is_space2, ascii7. rewrite !andb_true_iff, N.eqb_eq. intros [-> _]. reflexivity.
Qed.
Lemma space2_hi_r a b : is_space2 a b = true -> ascii7 b = false.
Proof.
  unfold is_space2, ascii7. rewrite !andb_true_iff, orb_true_iff, !N.eqb_eq.
  intros [_ [->| ->]]; reflexivity.
Qed.
Lemma space3_hi a b c : is_space3 a b c = true ->
  ascii7 a = false /\ ascii7 b = false /\ ascii7 c = false.
Proof.
  unfold is_space3, ascii7. cbv zeta.
  rewrite !orb_true_iff, !andb_true_iff, !orb_true_iff, !andb_true_iff, !N.leb_le, !N.eqb_eq, !N.ltb_ge.
  lia.
Qed.

Definition sp_ok (sp2 : ascii -> ascii -> bool) (sp3 : ascii -> ascii -> ascii -> bool) : Prop :=
  (forall a b, sp2 a b = true -> ascii7 a = false /\ ascii7 b = false) /\
  (forall a b c, sp3 a b c = true -> ascii7 a = false /\ ascii7 b = false /\ ascii7 c = false).

Lemma sp_ok_fwd : sp_ok is_space2 is_space3.
Proof.
  split; intros.
  - split; [eapply space2_hi_l | eapply space2_hi_r]; eauto.
  - now apply space3_hi.
Qed.
Lemma sp_ok_bwd : sp_ok (fun b a => is_space2 a b) (fun c b a => is_space3 a b c).
Proof.
  split; intros.
  - split; [eapply space2_hi_r | eapply space2_hi_l]; eauto.
  - apply space3_hi in H. tauto.
Qed.

(** Whether a string starts with a white-space rune. *)
Definition starts_gen (sp2 : ascii -> ascii -> bool) (sp3 : ascii -> ascii -> ascii -> bool)
  (s : string) : bool :=
  match s with
  | "" => false
  | String a s1 =>
      is_space1 a ||
      match s1 with
      | "" => false
      | String b s2 => sp2 a b || match s2 with "" => false | String c _ => sp3 a b c end
      end
  end.

Lemma trim_gen_cases sp2 sp3 s :
  (starts_gen sp2 sp3 s = false /\ trim_gen sp2 sp3 s = s) \/
  (starts_gen sp2 sp3 s = true /\
   exists p s', p <> "" /\ s = p ++ s' /\ trim_gen sp2 sp3 s = trim_gen sp2 sp3 s').
Proof.
  destruct s as [|a [|b [|c s]]]; simpl.
  - now left.
  - destruct (is_space1 a) eqn:E; simpl.
    + right. split; [reflexivity|]. exists (String a ""), "". repeat split; discriminate.
    + now left.
  - destruct (is_space1 a) eqn:E; simpl.
    + right. split; [reflexivity|]. exists (String a ""), (String b ""). repeat split; discriminate.
    + destruct (sp2 a b) eqn:E2; simpl.
      * right. split; [reflexivity|]. exists (String a (String b "")), "". repeat split; discriminate.
      * now left.
  - destruct (is_space1 a) eqn:E; simpl.
    + right. split; [reflexivity|]. exists (String a ""), (String b (String c s)). repeat split; discriminate.
    + destruct (sp2 a b) eqn:E2; simpl.
      * right. split; [reflexivity|]. exists (String a (String b "")), (String c s). repeat split; discriminate.
      * destruct (sp3 a b c) eqn:E3.
        -- right. split; [reflexivity|].
           exists (String a (String b (String c ""))), s. repeat split; discriminate.
        -- now left.
Qed.

Lemma trim_gen_suffix sp2 sp3 s : exists p, s = p ++ trim_gen sp2 sp3 s.
Proof.
  remember (String.length s) as n eqn:Hn. revert s Hn.
  induction n as [n IH] using lt_wf_ind. intros s Hn.
  destruct (trim_gen_cases sp2 sp3 s) as [[_ ->]|(_ & p & s' & Hp & -> & ->)].
  - now exists "".
  - destruct (IH (String.length s')) with (s := s') as [q Hq]; [|reflexivity|].
    + subst n. rewrite app_length_s. destruct p; [congruence|]. simpl. lia.
    + exists (p ++ q). rewrite app_assoc_s. f_equal. exact Hq.
Qed.

Lemma trim_gen_starts sp2 sp3 s : starts_gen sp2 sp3 (trim_gen sp2 sp3 s) = false.
Proof.
  remember (String.length s) as n eqn:Hn. revert s Hn.
  induction n as [n IH] using lt_wf_ind. intros s Hn.
  destruct (trim_gen_cases sp2 sp3 s) as [[H ->]|(_ & p & s' & Hp & -> & ->)].
  - exact H.
  - apply (IH (String.length s')); [|reflexivity].
    subst n. rewrite app_length_s. destruct p; [congruence|]. simpl. lia.
Qed.

Lemma trim_gen_id sp2 sp3 s : trim_gen sp2 sp3 s = s <-> starts_gen sp2 sp3 s = false.
Proof.
  split; intros H.
  - rewrite <- H. apply trim_gen_starts.
  - destruct (trim_gen_cases sp2 sp3 s) as [[_ ->]|(E & _)]; congruence.
Qed.

Definition starts_space := starts_gen is_space2 is_space3.
Definition ends_space (s : string) : bool :=
  starts_gen (fun b a => is_space2 a b) (fun c b a => is_space3 a b c) (srev s).

Lemma trim_left_id s : trim_left s = s <-> starts_space s = false.
Proof. apply trim_gen_id. Qed.
Lemma trim_right_id s : trim_right s = s <-> ends_space s = false.
Proof.
  unfold trim_right, ends_space. rewrite <- trim_gen_id. split; intros H.
  - apply srev_inj. rewrite H. symmetry. apply srev_involutive.
  - rewrite H. apply srev_involutive.
Qed.
Lemma trim_right_prefix s : exists q, s = trim_right s ++ q.
Proof.
  unfold trim_right.
  destruct (trim_gen_suffix (fun b a => is_space2 a b) (fun c b a => is_space3 a b c) (srev s))
    as [p Hp].
  exists (srev p). apply srev_inj. rewrite srev_app_distr, !srev_involutive. exact Hp.
Qed.
Lemma trim_left_suffix s : exists p, s = p ++ trim_left s.
Proof. apply trim_gen_suffix. Qed.
Lemma trim_right_ends s : ends_space (trim_right s) = false.
Proof.
  unfold ends_space, trim_right. rewrite srev_involutive. apply trim_gen_starts.
Qed.

Lemma starts_gen_app sp2 sp3 s c t : sp_ok sp2 sp3 -> s <> "" -> ascii7 c = true ->
  starts_gen sp2 sp3 (s ++ String c t) = starts_gen sp2 sp3 s.
Proof.
  intros [H2 H3] Hs Hc. destruct s as [|x [|y [|z s]]]; simpl; [congruence| | |reflexivity].
  - f_equal. destruct (sp2 x c) eqn:E.
    { apply H2 in E. destruct E; congruence. }
    simpl. destruct t as [|d t]; [reflexivity|].
    destruct (sp3 x c d) eqn:E3; [|reflexivity]. apply H3 in E3. intuition congruence.
  - f_equal. f_equal.
    destruct (sp3 x y c) eqn:E3; [|reflexivity]. apply H3 in E3. intuition congruence.
Qed.

(** A prefix of a string not starting with a space does not... start with one
    unless it already does: shortening cannot create a leading space. *)
Lemma starts_gen_prefix sp2 sp3 s t : s <> "" ->
  starts_gen sp2 sp3 (s ++ t) = false -> starts_gen sp2 sp3 s = false.
Proof.
  intros Hs. destruct s as [|x [|y [|z s]]]; simpl; [congruence| | |auto].
  - rewrite !orb_false_iff. tauto.
  - rewrite !orb_false_iff. tauto.
Qed.

Lemma starts_space_app s c t : s <> "" -> ascii7 c = true ->
  starts_space (s ++ String c t) = starts_space s.
Proof. apply starts_gen_app, sp_ok_fwd. Qed.
Lemma ends_space_app s c t : t <> "" -> ascii7 c = true ->
  ends_space (s ++ String c t) = ends_space t.
Proof.
  intros Ht Hc. unfold ends_space.
  rewrite srev_app_distr, srev_cons, app_assoc_s. simpl.
  apply starts_gen_app; [apply sp_ok_bwd| |exact Hc].
  intros H. apply (proj1 (srev_nil t)) in H. congruence.
Qed.

Lemma trim_space_id s : trim_space s = s <-> starts_space s = false /\ ends_space s = false.
Proof.
  unfold trim_space. split.
  - intros H. destruct (trim_left_suffix s) as [p Hp].
    destruct (trim_right_prefix (trim_left s)) as [q Hq].
    rewrite H in Hq.
    assert (String.length (trim_left s) = String.length s + String.length q) as L1
      by (rewrite Hq at 1; apply app_length_s).
    assert (String.length s = String.length p + String.length (trim_left s)) as L2
      by (rewrite Hp at 1; apply app_length_s).
    destruct p; [|simpl in *; lia]. destruct q; [|simpl in *; lia].
    simpl in Hp. rewrite <- Hp in H.
    split; [now apply trim_left_id | now apply trim_right_id].
  - intros [H1 H2]. apply trim_left_id in H1. rewrite H1. now apply trim_right_id.
Qed.

Lemma trim_left_space s : trim_left (String " " s) = trim_left s.
Proof. reflexivity. Qed.
Lemma trim_space_space s : trim_space (String " " s) = trim_space s.
Proof. reflexivity. Qed.

Lemma trim_space_trimmed s : trim_space (trim_space s) = trim_space s.
Proof.
  apply trim_space_id. split.
  - unfold trim_space.
    destruct (trim_right_prefix (trim_left s)) as [q Hq].
    destruct (trim_right (trim_left s)) as [|a r] eqn:E; [reflexivity|].
    apply starts_gen_prefix with (t := q); [discriminate|].
    rewrite <- Hq. apply trim_gen_starts.
  - apply trim_right_ends.
Qed.

(** ** Decimal numbers *)
Lemma code_digit d : (d < 10)%N -> code (ascii_of_N (48 + d)) = (48 + d)%N.
Proof. intros H. unfold code. apply N_ascii_embedding. lia. Qed.

Lemma read_digits_app s t acc :
  read_digits (s ++ t) acc =
  match read_digits s acc with Some n => read_digits t n | None => None end.
Proof.
  revert acc. induction s as [|a s IH]; intros acc; simpl; [reflexivity|].
  destruct ((48 <=? code a) && (code a <=? 57))%N; [apply IH|reflexivity].
Qed.

Lemma digits_aux_app fuel n acc : digits_aux fuel n acc = digits_aux fuel n "" ++ acc.
Proof.
  revert n acc. induction fuel as [|fuel IH]; intros n acc; simpl; [reflexivity|].
  destruct (n <? 10)%N; [reflexivity|].
  rewrite IH. rewrite (IH _ (String _ "")). rewrite app_assoc_s. reflexivity.
Qed.

Lemma read_digit_one d acc : (d < 10)%N ->
  read_digits (String (ascii_of_N (48 + d)) "") acc = Some (acc * 10 + d)%N.
Proof.
  intros H. cbn [read_digits]. rewrite code_digit by assumption.
  replace (48 <=? 48 + d)%N with true by (symmetry; apply N.leb_le; lia).
  replace (48 + d <=? 57)%N with true by (symmetry; apply N.leb_le; lia).
  cbn [andb]. f_equal. lia.
Qed.

Lemma read_digits_show fuel n : (N.size n < N.of_nat fuel)%N ->
  read_digits (digits_aux fuel n "") 0%N = Some n.
Proof.
  revert n. induction fuel as [|fuel IH]; intros n Hf; [lia|].
  cbn [digits_aux].
  pose proof (N.mod_lt n 10 ltac:(lia)) as Hm.
  destruct (N.ltb_spec n 10) as [Hlt|Hge].
  - rewrite N.mod_small by assumption. rewrite read_digit_one by assumption. reflexivity.
  - rewrite digits_aux_app, read_digits_app, IH.
    + rewrite read_digit_one by assumption. f_equal.
      pose proof (N.div_mod n 10 ltac:(lia)). lia.
    + assert (N.size (n / 10) < N.size n)%N; [|lia].
      assert (n / 10 <= n / 2)%N as H1.
      { apply N.div_le_compat_l. lia. }
      assert (n / 10 <> 0)%N as H2.
      { intros H0. apply N.div_small_iff in H0; lia. }
      rewrite !N.size_log2 by lia.
      assert (N.log2 (n / 10) <= N.log2 (n / 2))%N by now apply N.log2_le_mono.
      assert (N.log2 (n / 2) < N.log2 n)%N; [|lia].
      rewrite <- N.div2_div.
      rewrite N.div2_spec, N.log2_shiftr.
      assert (1 <= N.log2 n)%N; [|lia].
      change 1%N with (N.log2 2). apply N.log2_le_mono. lia.
Qed.

Lemma show_N_nonempty n : show_N n <> "".
Proof.
  unfold show_N. cbn [digits_aux]. destruct (n <? 10)%N; [discriminate|].
  rewrite digits_aux_app. intros H. apply app_eq_nil_s in H as [_ H]. discriminate.
Qed.
Lemma read_show_N n : read_N (show_N n) = Some n.
Proof.
  unfold read_N. pose proof (show_N_nonempty n) as Hn.
  destruct (show_N n) eqn:E; [congruence|]. rewrite <- E. unfold show_N.
  apply read_digits_show. lia.
Qed.

Lemma digits_aux_bytes fuel n c acc : (forall d, (d < 10)%N -> Ascii.eqb (ascii_of_N (48 + d)) c = false) ->
  has_byte c acc = false -> has_byte c (digits_aux fuel n acc) = false.
Proof.
  intros Hc. revert n acc. induction fuel as [|fuel IH]; intros n acc Ha; cbn [digits_aux]; [assumption|].
  pose proof (N.mod_lt n 10 ltac:(lia)) as Hm.
  destruct (n <? 10)%N; [|apply IH]; cbn [has_byte]; now rewrite Hc by assumption.
Qed.

Lemma digit_not (c : ascii) : ((code c <? 48) || (57 <? code c))%N = true ->
  forall d, (d < 10)%N -> Ascii.eqb (ascii_of_N (48 + d)) c = false.
Proof.
  intros Hc d Hd. destruct (Ascii.eqb_spec (ascii_of_N (48 + d)) c) as [<-|]; [|reflexivity].
  rewrite code_digit in Hc by assumption.
  apply orb_true_iff in Hc. rewrite !N.ltb_lt in Hc. lia.
Qed.

Lemma show_Z_byte c z : ((code c <? 48) || (57 <? code c))%N = true -> Ascii.eqb "-" c = false ->
  has_byte c (show_Z z) = false.
Proof.
  intros Hc Hm. assert (forall n, has_byte c (show_N n) = false) as H.
  { intros n. apply digits_aux_bytes; [now apply digit_not | reflexivity]. }
  unfold show_Z. destruct (z <? 0)%Z; [|apply H].
  change (Ascii.eqb "-" c || has_byte c (show_N (Z.abs_N z)) = false). rewrite Hm. apply H.
Qed.

Lemma show_N_head n : exists a s, show_N n = String a s /\ (48 <= code a <= 57)%N.
Proof.
  assert (forall fuel m acc, (fuel <> O) -> exists a s, digits_aux fuel m acc = String a s /\ (48 <= code a <= 57)%N) as H.
  { intros fuel. induction fuel as [|fuel IH]; intros m acc Hf; [congruence|].
    cbn [digits_aux]. pose proof (N.mod_lt m 10 ltac:(lia)) as Hm.
    destruct (m <? 10)%N.
    - eexists _, _. split; [reflexivity|]. rewrite code_digit by assumption. clear -Hm. generalize dependent (m mod 10)%N. intros; lia.
    - destruct fuel as [|fuel].
      + cbn [digits_aux]. eexists _, _. split; [reflexivity|]. rewrite code_digit by assumption. clear -Hm. generalize dependent (m mod 10)%N. intros; lia.
      + apply IH. discriminate. }
  apply H. discriminate.
Qed.

Lemma atoi_show_Z z : in_int z = true -> atoi (show_Z z) = Ok z.
Proof.
  intros Hz. unfold show_Z. destruct (Z.ltb_spec z 0) as [Hneg|Hpos].
  - unfold atoi. cbn [append]. rewrite Ascii.eqb_refl. rewrite read_show_N.
    rewrite N2Z.inj_abs_N. replace (- Z.abs z)%Z with z by lia. now rewrite Hz.
  - destruct (show_N_head (Z.abs_N z)) as (a & s & E & Ha).
    unfold atoi. rewrite E.
    assert (Ascii.eqb a "-" = false) as ->.
    { destruct (Ascii.eqb_spec a "-") as [->|]; [|reflexivity]. exfalso; destruct Ha as [Ha _]; apply Ha; reflexivity. }
    assert (Ascii.eqb a "+" = false) as ->.
    { destruct (Ascii.eqb_spec a "+") as [->|]; [|reflexivity]. exfalso; destruct Ha as [Ha _]; apply Ha; reflexivity. }
    rewrite <- E, read_show_N.
    rewrite N2Z.inj_abs_N. replace (Z.abs z) with z by lia. now rewrite Hz.
Qed.

(** ** switch *)
Lemma switch_cases {A} (P : A -> Prop) tag cases dflt :
  (forall t a, In (t, a) cases -> tag = t -> P a) ->
  (~ In tag (map fst cases) -> P dflt) ->
  P (switch tag cases dflt).
Proof.
  induction cases as [|[t a] cases IH]; simpl; intros H1 H2; [auto|].
  destruct (String.eqb_spec tag t) as [->|Hn].
  - eapply H1; eauto.
  - apply IH.
    + intros t' a' Hin. apply H1. now right.
    + intros Hin. apply H2. intros [->|]; auto.
Qed.
Lemma switch_default {A} tag (cases : list (string * A)) dflt :
  ~ In tag (map fst cases) -> switch tag cases dflt = dflt.
Proof.
  induction cases as [|[t a] cases IH]; simpl; intros H; [reflexivity|].
  destruct (String.eqb_spec tag t) as [->|Hn]; [exfalso; auto|]. apply IH. auto.
Qed.

(** ** Byte order *)
Lemma str_ltb_irrefl s : str_ltb s s = false.
Proof. induction s as [|a s IH]; simpl; [reflexivity|]. now rewrite Ascii.eqb_refl. Qed.

Lemma code_inj a b : code a = code b -> a = b.
Proof. intros H. rewrite <- (ascii_N_embedding a), <- (ascii_N_embedding b). unfold code in H. now rewrite H. Qed.

Lemma str_ltb_trans s t u : str_ltb s t = true -> str_ltb t u = true -> str_ltb s u = true.
Proof.
  revert t u. induction s as [|a s IH]; intros [|b t] [|c u]; simpl; try congruence.
  destruct (Ascii.eqb_spec a b) as [->|Hab], (Ascii.eqb_spec b c) as [->|Hbc].
  - apply IH.
  - rewrite N.ltb_lt. auto.
  - destruct (Ascii.eqb_spec a c); congruence.
  - rewrite !N.ltb_lt. intros H1 H2.
    destruct (Ascii.eqb_spec a c) as [->|]; [lia|]. apply N.ltb_lt. lia.
Qed.
Lemma str_ltb_total s t : str_ltb s t = true \/ s = t \/ str_ltb t s = true.
Proof.
  revert t. induction s as [|a s IH]; intros [|b t]; simpl; auto.
  destruct (Ascii.eqb_spec a b) as [->|Hab].
  - rewrite Ascii.eqb_refl. destruct (IH t) as [H|[->|H]]; auto.
  - destruct (Ascii.eqb_spec b a) as [->|]; [congruence|].
    rewrite !N.ltb_lt.
    destruct (N.lt_trichotomy (code a) (code b)) as [H|[H|H]]; auto.
    apply code_inj in H. congruence.
Qed.
Lemma str_leb_refl s : str_leb s s = true.
Proof. unfold str_leb. now rewrite str_ltb_irrefl. Qed.
Lemma str_leb_trans s t u : str_leb s t = true -> str_leb t u = true -> str_leb s u = true.
Proof.
  unfold str_leb. rewrite !negb_true_iff. intros H1 H2.
  destruct (str_ltb u s) eqn:E; [|reflexivity].
  destruct (str_ltb_total t u) as [H|[->|H]].
  - rewrite (str_ltb_trans _ _ _ H E) in H1. discriminate.
  - congruence.
  - congruence.
Qed.
Lemma str_leb_antisym s t : str_leb s t = true -> str_leb t s = true -> s = t.
Proof.
  unfold str_leb. rewrite !negb_true_iff. intros H1 H2.
  destruct (str_ltb_total s t) as [H|[H|H]]; congruence.
Qed.
Lemma str_leb_total s t : str_leb s t = true \/ str_leb t s = true.
Proof.
  unfold str_leb. destruct (str_ltb t s) eqn:E; [right|now left].
  destruct (str_ltb s t) eqn:E2; [|reflexivity].
  pose proof (str_ltb_trans _ _ _ E E2) as H. now rewrite str_ltb_irrefl in H.
Qed.
