(** * Facts about package utils *)
From Verif Require Import GoStr GoStrFacts Sorting Types Utils SpecUtils.
Local Open Scope string_scope.

(** ** path_split *)
Lemma no_slash_byte s : no_slash s <-> has_byte "/" s = false.
Proof.
  rewrite <- contains_byte. unfold no_slash. split; intros H.
  - destruct (contains "/" s) eqn:E; [|reflexivity].
    apply contains_true in E. contradiction.
  - intros E. apply contains_true in E. congruence.
Qed.
Definition dirlike (d : string) : Prop := d = "" \/ ends_in_slash d.

Lemma ends_in_slash_cons a d : dirlike (String a d) -> d <> "" -> ends_in_slash d.
Proof.
  intros [H|[x H]] Hd; [discriminate|].
  destruct x as [|b x]; simpl in H.
  - inversion H; subst. contradiction.
  - inversion H; subst. now exists x.
Qed.

Lemma path_split_spec s d f : path_split s = (d, f) <->
  s = d ++ f /\ dirlike d /\ no_slash f.
Proof.
  rewrite no_slash_byte. revert d f. induction s as [|a s IH]; intros d f; simpl.
  - split.
    + intros H. inversion H; subst. repeat split. now left.
    + intros [H _]. symmetry in H. apply app_eq_nil_s in H. destruct H; now subst.
  - destruct (path_split s) as [d' f'] eqn:E.
    destruct (proj1 (IH d' f') eq_refl) as (Hs & Hd & Hf).
    assert (forall g : string, String a s = g ++ f -> dirlike g -> has_byte "/" f = false ->
            (g = "" /\ f = String a s) \/ exists g', g = String a g' /\ s = g' ++ f) as Hinv.
    { intros g Hg _ _. destruct g as [|b g]; simpl in Hg; [left; auto|].
      inversion Hg; subst. right. eauto. }
    destruct (Ascii.eqb a "/") eqn:Ea.
    + apply Ascii.eqb_eq in Ea. subst a. split.
      * intros H. inversion H; subst d f. repeat split; [now rewrite Hs|right|assumption].
        destruct Hd as [->|[x ->]]; [now exists ""|now exists (String "/" x)].
      * intros (H1 & H2 & H3). destruct (Hinv d H1 H2 H3) as [[-> ->]|(g' & -> & Hg')].
        { simpl in H3. discriminate. }
        destruct (String.eqb g' "") eqn:Eg.
        -- apply String.eqb_eq in Eg. subst g'. simpl in Hg'.
           assert (path_split s = ("", f)) as Hx.
           { rewrite E. apply (IH "" f). repeat split; [assumption|now left|assumption]. }
           rewrite E in Hx. now inversion Hx.
        -- apply String.eqb_neq in Eg.
           assert ((d', f') = (g', f)) as Hx.
           { apply IH. repeat split; [assumption| |assumption]. right. now apply (ends_in_slash_cons "/"). }
           now inversion Hx.
    + split.
      * intros H. destruct d' as [|b d'].
        -- inversion H; subst d f. simpl in Hs |- *. subst s. rewrite Ea, Hf. repeat split. now left.
        -- inversion H; subst d f. repeat split; [now rewrite Hs| |assumption].
           right. destruct Hd as [Hd|[x Hd]]; [discriminate|]. exists (String a x). now rewrite Hd.
      * intros (H1 & H2 & H3). destruct (Hinv d H1 H2 H3) as [[-> ->]|(g' & -> & Hg')].
        -- simpl in H3. apply orb_false_iff in H3 as [_ H3].
           assert ((d', f') = ("", s)) as Hx by (apply IH; repeat split; [now left|assumption]).
           inversion Hx; subst. reflexivity.
        -- destruct (String.eqb g' "") eqn:Eg.
           ++ apply String.eqb_eq in Eg. subst g'. destruct H2 as [H2|[x H2]]; [discriminate|].
              destruct x as [|b x]; simpl in H2.
              ** inversion H2; subst. rewrite Ascii.eqb_refl in Ea. discriminate.
              ** inversion H2. destruct x; discriminate.
           ++ apply String.eqb_neq in Eg.
              assert ((d', f') = (g', f)) as Hx.
              { apply IH. repeat split; [assumption| |assumption]. right. now apply (ends_in_slash_cons a). }
              inversion Hx; subst. destruct g'; [contradiction|reflexivity].
Qed.

Lemma path_split_app d f : dirlike d -> no_slash f -> path_split (d ++ f) = (d, f).
Proof. intros. apply path_split_spec. auto. Qed.

(** ** ShouldIgnore *)
Lemma ends_app x d : ends_in_slash d -> ends_in_slash (x ++ d).
Proof. intros [y ->]. exists (x ++ y). now rewrite app_assoc_s. Qed.
Lemma dirlike_app x d : dirlike x -> dirlike d -> dirlike (x ++ d).
Proof.
  intros Hx [->|Hd]; [now rewrite app_nil_r_s|right; now apply ends_app].
Qed.
Lemma dirlike_slash x d : ends_in_slash x -> dirlike d -> ends_in_slash (x ++ d).
Proof.
  intros Hx [->|Hd]; [now rewrite app_nil_r_s|now apply ends_app].
Qed.
Lemma byte_split_app_r c x y u v : has_byte c y = false -> has_byte c v = false ->
  x ++ String c y = u ++ String c v -> x = u /\ y = v.
Proof.
  revert u. induction x as [|a x IH]; intros [|b u] Hy Hv H; simpl in H.
  - now inversion H.
  - inversion H; subst. rewrite has_byte_app in Hy. simpl in Hy.
    rewrite Ascii.eqb_refl, orb_true_r in Hy. discriminate.
  - inversion H; subst. rewrite has_byte_app in Hv. simpl in Hv.
    rewrite Ascii.eqb_refl, orb_true_r in Hv. discriminate.
  - inversion H; subst. destruct (IH u Hy Hv H2). now subst.
Qed.
Lemma slash_suffix d x y : dirlike d -> d = x ++ y -> dirlike y.
Proof.
  intros [->|[z ->]] H.
  - symmetry in H. apply app_eq_nil_s in H as [_ ->]. now left.
  - destruct (String.eqb y "") eqn:E; [left; now apply String.eqb_eq|].
    apply String.eqb_neq in E. right. revert z H. induction x as [|a x IH]; intros z H; simpl in H.
    + now exists z.
    + destruct z as [|b z]; simpl in H.
      * inversion H. symmetry in H2. apply app_eq_nil_s in H2 as [_ ->]. contradiction.
      * inversion H; subst. eauto.
Qed.
Lemma tail_unique d f a b g : dirlike d -> no_slash f -> ends_in_slash b -> no_slash g ->
  d ++ f = a ++ b ++ g -> d = a ++ b /\ f = g.
Proof.
  intros Hd Hf Hb Hg H.
  assert (path_split (d ++ f) = (a ++ b, g)) as E.
  { rewrite H, <- app_assoc_s. apply path_split_app; [right; now apply ends_app|assumption]. }
  rewrite path_split_app in E by assumption. now inversion E.
Qed.
Lemma prefix_dir p d f : dirlike p -> dirlike d -> no_slash f ->
  has_prefix p d = true <-> exists r, d ++ f = p ++ r.
Proof.
  intros Hp Hd Hf. rewrite has_prefix_spec. split.
  - intros [r ->]. exists (r ++ f). now rewrite app_assoc_s.
  - intros [r Hr]. destruct (path_split r) as [rd rf] eqn:E.
    apply path_split_spec in E as (-> & Hrd & Hrf).
    exists rd. assert (path_split (d ++ f) = (p ++ rd, rf)) as E.
    { rewrite Hr, <- app_assoc_s. apply path_split_app; [now apply dirlike_app|assumption]. }
    rewrite path_split_app in E by assumption. now inversion E.
Qed.
Lemma contains_dir p d f : ends_in_slash p -> dirlike d -> no_slash f ->
  contains p d = true <-> exists a b, d ++ f = a ++ p ++ b.
Proof.
  intros Hp Hd Hf. rewrite contains_true. split.
  - intros (x & y & ->). exists x, (y ++ f). now rewrite !app_assoc_s.
  - intros (a & b & Hr). destruct (path_split b) as [bd bf] eqn:E.
    apply path_split_spec in E as (-> & Hbd & Hbf).
    exists a, bd. assert (path_split (d ++ f) = (a ++ p ++ bd, bf)) as E.
    { rewrite Hr, <- !app_assoc_s. apply path_split_app; [|assumption]. rewrite app_assoc_s.
      right. apply ends_app. now apply dirlike_slash. }
    rewrite path_split_app in E by assumption. now inversion E.
Qed.

Lemma floating_split p pd pf : path_split p = (pd, pf) ->
  has_prefix "**" pd = true <-> floating p.
Proof.
  intros E. apply path_split_spec in E as (-> & Hpd & Hpf). rewrite has_prefix_spec. split.
  - intros [r ->]. destruct Hpd as [H|[x H]]; [destruct r; discriminate|].
    assert (exists y, r = y ++ "/") as [y ->].
    { destruct x as [|a [|b x]]; simpl in H; try discriminate.
      - inversion H; subst. now exists x. }
    exists y, pf. now rewrite !app_assoc_s.
  - intros (d & f & H). destruct (path_split f) as [fd ff] eqn:E.
    apply path_split_spec in E as (-> & Hfd & Hff).
    assert (path_split (pd ++ pf) = ("**" ++ (d ++ "/" ++ fd), ff)) as E.
    { rewrite H. replace ("**" ++ d ++ "/" ++ fd ++ ff) with (("**" ++ d ++ "/" ++ fd) ++ ff)
        by now rewrite !app_assoc_s.
      apply path_split_app; [|assumption]. right. apply ends_app. apply ends_app.
      destruct Hfd as [->|[z ->]]; [now exists ""|]. exists ("/" ++ z). reflexivity. }
    rewrite path_split_app in E by assumption. exists (d ++ "/" ++ fd). now inversion E.
Qed.
Lemma floating_dirs d f : ends_in_slash d -> floating ("**" ++ d ++ f).
Proof. intros [x ->]. exists x, f. now rewrite app_assoc_s. Qed.

Lemma pattern_ignores_spec d f p : dirlike d -> no_slash f ->
  pattern_ignores d f p = true <-> matches p (d ++ f).
Proof.
  intros Hd Hf. unfold pattern_ignores.
  destruct (path_split p) as [pd0 pf] eqn:E.
  pose proof (floating_split _ _ _ E) as Hfl.
  pose proof (proj1 (path_split_spec _ _ _) E) as (Hp & Hpd & Hpf).
  destruct (has_prefix "**" pd0) eqn:Est.
  - (* floating *)
    assert (floating p) as Hflp by now apply Hfl.
    apply has_prefix_spec in Est as [pd ->].
    rewrite trim_prefix_app.
    assert (ends_in_slash pd) as Hpd'.
    { destruct (slash_suffix _ "**" pd Hpd eq_refl) as [->|]; [|assumption].
      destruct Hpd as [H|[x H]]; [discriminate|].
      destruct x as [|? [|? x]]; simpl in H; [discriminate|discriminate|].
      inversion H. destruct x; discriminate. }
    cbn [negb andb orb]. rewrite !orb_true_iff, !andb_true_iff.
    rewrite (contains_dir pd d f Hpd' Hd Hf).
    split.
    + intros [[H|H]|H].
      * destruct H as [[H1 H2] H3]. apply String.eqb_eq in H1, H3. subst pd pf.
        apply nonempty_true in H2. subst p. change ("**" ++ "/") with "**/".
        now constructor.
      * destruct H as [[(a & b & Hab) H2] H3]. apply String.eqb_eq in H3. subst pf.
        apply nonempty_true in H2. subst p. rewrite app_assoc_s.
        destruct (path_split b) as [bd bf] eqn:Eb. apply path_split_spec in Eb as (-> & Hbd & Hbf).
        assert (path_split (d ++ f) = (a ++ pd ++ bd, bf)) as E'.
        { rewrite Hab, <- !app_assoc_s. apply path_split_app; [|assumption]. rewrite app_assoc_s.
          right. apply ends_app. now apply dirlike_slash. }
        rewrite path_split_app in E' by assumption. inversion E'; subst.
        rewrite !app_assoc_s. now constructor.
      * destruct H as [(a & b & Hab) H3]. apply String.eqb_eq in H3. subst pf.
        rewrite app_nil_r_s in Hp. subst p. rewrite Hab. now constructor.
    + intros Hm. inversion Hm as [p' d' f' Hnf Hp' Hd' Hne Hnsf Heq Heq'|p' r Hnf Hdl Heq Heq'
        |f' d' Hne Hnsf Hd' Heq Heq'|d' f' a b Hd' Hne Hnsf Hb Heq Heq'|d' a b Hd' Heq Heq'].
      * exfalso. apply Hnf. now rewrite <- Heq'.
      * contradiction.
      * left. left.
        assert (path_split ("**/" ++ f') = ("**/", f')) as E'.
        { apply path_split_app; [right; now exists "**"|assumption]. }
        rewrite Heq, E in E'.
        assert ("**" ++ pd = "**" ++ "/" /\ pf = f') as [Hpd1 Hpf1] by (inversion E'; auto).
        apply app_inj_l in Hpd1. subst pd pf.
        assert (path_split (d ++ f) = (d', f')) as E''.
        { rewrite <- Heq'. apply path_split_app; assumption. }
        rewrite path_split_app in E'' by assumption. inversion E''; subst.
        rewrite !String.eqb_refl. repeat split. now apply nonempty_true.
      * left. right.
        assert (path_split ("**" ++ d' ++ f') = ("**" ++ d', f')) as E'.
        { rewrite <- app_assoc_s. apply path_split_app; [right; now apply ends_app|assumption]. }
        rewrite Heq, E in E'.
        assert ("**" ++ pd = "**" ++ d' /\ pf = f') as [Hpd1 Hpf1] by (inversion E'; auto).
        apply app_inj_l in Hpd1. subst pd pf.
        repeat split.
        -- exists a, (b ++ f'). reflexivity.
        -- now apply nonempty_true.
        -- assert (path_split (d ++ f) = (a ++ d' ++ b, f')) as E''.
           { rewrite <- Heq', <- !app_assoc_s. apply path_split_app; [|assumption].
             rewrite app_assoc_s. right. apply ends_app. now apply dirlike_slash. }
           rewrite path_split_app in E'' by assumption. inversion E''; subst.
           apply String.eqb_refl.
      * right.
        assert (path_split (("**" ++ d') ++ "") = ("**" ++ d', "")) as E'.
        { apply path_split_app; [right; now apply ends_app|intros ([|] & y & Hx); discriminate]. }
        rewrite app_nil_r_s in E'. pose proof E as E2. rewrite <- Heq, E' in E2.
        clear E'. rename E2 into E'.
        assert ("**" ++ pd = "**" ++ d' /\ pf = "") as [Hpd1 Hpf1] by (inversion E'; auto).
        apply app_inj_l in Hpd1. subst pd pf.
        repeat split. exists a, b. reflexivity.
  - (* anchored *)
    assert (~ floating p) as Hflp by (rewrite <- Hfl; congruence).
    cbn [negb andb orb]. rewrite !orb_false_r, orb_true_iff, !andb_true_iff.
    split.
    + intros [H|H].
      * destruct H as [[H1 H2] H3]. apply String.eqb_eq in H1, H3.
        subst pd0 pf. apply nonempty_true in H2. subst p. eapply m_file; eauto.
      * destruct H as [H1 H2]. apply String.eqb_eq in H2. subst pf.
        rewrite app_nil_r_s in Hp. subst pd0.
        apply (prefix_dir p d f) in H1 as [r Hr]; [|assumption..].
        rewrite Hr. now constructor.
    + intros Hm. inversion Hm as [p' d' f' Hnf Hp' Hd' Hne Hnsf Heq Heq'|p' r Hnf Hdl Heq Heq'
        |f' d' Hne Hnsf Hd' Heq Heq'|d' f' a b Hd' Hne Hnsf Hb Heq Heq'|d' a b Hd' Heq Heq'].
      * left. rewrite Heq', path_split_app in E by assumption.
        assert (d = pd0 /\ f = pf) as [Hd1 Hf1] by (inversion E; auto). rewrite <- Hd1, <- Hf1.
        assert (path_split (d ++ f) = (d', f')) as E' by (rewrite Hp'; apply path_split_app; assumption).
        rewrite path_split_app in E' by assumption.
        assert (f = f') as Hf2 by (inversion E'; auto).
        rewrite !String.eqb_refl. repeat split. rewrite Hf2. now apply nonempty_true.
      * right. subst p'.
        assert (path_split (p ++ "") = (p, "")) as E' by (apply path_split_app; [assumption|intros ([|] & y & Hx); discriminate]).
        rewrite app_nil_r_s, E in E'. inversion E'; subst pd0 pf.
        split; [|reflexivity]. apply (prefix_dir p d f); eauto.
      * exfalso. apply Hflp. exists "", f'. symmetry. exact Heq.
      * exfalso. apply Hflp. rewrite <- Heq. now apply floating_dirs.
      * exfalso. apply Hflp. rewrite <- Heq, <- (app_nil_r_s d'). now apply floating_dirs.
Qed.

Lemma should_ignore_spec path pats :
  should_ignore path pats = true <-> exists p, In p pats /\ matches p path.
Proof.
  unfold should_ignore. destruct (path_split path) as [d f] eqn:E.
  apply path_split_spec in E as (-> & Hd & Hf).
  rewrite existsb_exists. split; intros (p & H1 & H2); exists p; split; auto;
    now apply pattern_ignores_spec.
Qed.
Lemma should_ignore_mono path pats more :
  (forall p, In p pats -> In p more) -> should_ignore path pats = true ->
  should_ignore path more = true.
Proof. rewrite !should_ignore_spec. intros H (p & H1 & H2). eauto. Qed.

(** Floating directory patterns of one component. *)
Lemma split_on_slash_parts c path :
  (exists a b, path = a ++ "/" ++ c ++ "/" ++ b) -> has_byte "/" c = false ->
  In c (tl (removelast (split_on "/" path))).
Proof.
  intros (a & b & ->) Hc.
  change ("/" ++ c ++ "/" ++ b) with (String "/" (c ++ String "/" b)).
  rewrite split_on_app, split_on_app, (split_on_none _ _ Hc).
  pose proof (split_on_nonnil "/" a) as Ha. pose proof (split_on_nonnil "/" b) as Hb.
  destruct (split_on "/" a) as [|x la]; [contradiction|].
  rewrite removelast_app by discriminate.
  rewrite removelast_app by assumption.
  simpl. apply in_or_app. right. now left.
Qed.
Lemma join_split_in c l : In c (tl (removelast l)) ->
  exists a b, join "/" l = a ++ "/" ++ c ++ "/" ++ b.
Proof.
  destruct l as [|x l]; [intros []|]. revert x. induction l as [|y l IH]; intros x; [intros []|].
  destruct l as [|z l].
  - simpl. intros [].
  - intros H. change (removelast (x :: y :: z :: l)) with (x :: removelast (y :: z :: l)) in H.
    cbn [tl] in H. change (removelast (y :: z :: l)) with (y :: removelast (z :: l)) in H.
    destruct H as [->|H].
    + exists x, (join "/" (z :: l)). reflexivity.
    + destruct (IH y) as (a & b & Hab); [exact H|].
      exists (x ++ "/" ++ a), b.
      change (join "/" (x :: y :: z :: l)) with (x ++ "/" ++ join "/" (y :: z :: l)).
      rewrite Hab, !app_assoc_s. reflexivity.
Qed.
Lemma component_in c path : no_slash c ->
  (exists a b, path = a ++ ("/" ++ c ++ "/") ++ b) <-> In c (tl (removelast (split_on "/" path))).
Proof.
  intros Hc. apply no_slash_byte in Hc. split.
  - intros (a & b & ->). apply split_on_slash_parts; [|assumption].
    exists a, b. now rewrite !app_assoc_s.
  - intros H. apply join_split_in in H as (a & b & H). rewrite (split_on_join "/" path) in H.
    exists a, b. now rewrite !app_assoc_s.
Qed.

Lemma float_dir_only d path : ends_in_slash d ->
  matches ("**" ++ d) path <-> exists a b, path = a ++ d ++ b.
Proof.
  intros Hd. split.
  - intros H.
    assert (path_split (("**" ++ d) ++ "") = ("**" ++ d, "")) as E.
    { apply path_split_app; [right; now apply ends_app|intros ([|] & y & Hx); discriminate]. }
    assert (floating ("**" ++ d)) as Hfl.
    { rewrite <- (app_nil_r_s d). now apply floating_dirs. }
    inversion H as [p' d' f' Hnf Hp' Hd' Hne Hnsf Heq Heq'|p' r Hnf Hdl Heq Heq'
        |f' d' Hne Hnsf Hd' Heq Heq'|d' f' a b Hd' Hne Hnsf Hb Heq Heq'|d' a b Hd' Heq Heq'].
    + first [contradiction | exfalso; apply Hnf; first [rewrite Heq | rewrite <- Heq | rewrite <- Heq' | rewrite Heq']; exact Hfl].
    + contradiction.
    + exfalso.
      rewrite app_nil_r_s, <- Heq in E.
      change ("**" ++ String "/" f') with ("**/" ++ f') in E.
      rewrite path_split_app in E; [|right; now exists "**"|assumption].
      apply Hne. now inversion E.
    + exfalso. rewrite app_nil_r_s, <- Heq, <- app_assoc_s in E.
      rewrite path_split_app in E; [|right; now apply ends_app|assumption].
      apply Hne. now inversion E.
    + subst d'. eauto.
  - intros (a & b & ->). now constructor.
Qed.
Lemma component_pattern c path : no_slash c ->
  should_ignore path ["**/" ++ c ++ "/"] = true <-> In c (tl (removelast (split_on "/" path))).
Proof.
  intros Hc. rewrite should_ignore_spec, <- component_in by assumption.
  change ("**/" ++ c ++ "/") with ("**" ++ ("/" ++ c ++ "/")).
  assert (ends_in_slash ("/" ++ c ++ "/")) as He.
  { exists ("/" ++ c). now rewrite app_assoc_s. }
  rewrite <- float_dir_only by assumption.
  split; [intros (p & [<-|[]] & H); exact H|intros H; eexists; split; [now left|exact H]].
Qed.

(** ** File enumeration *)
Definition node_rect_strong (P : node -> Prop)
  (Hf : forall c, P (NFile c)) (Hl : P NLink) (Hb : P NBad)
  (Hd : forall es, Forall (fun e => P (snd e)) es -> P (NDir es)) : forall n, P n :=
  fix go n := match n with
  | NFile c => Hf c
  | NLink => Hl
  | NBad => Hb
  | NDir es => Hd es ((fix gos (l : list (string * node)) : Forall (fun e => P (snd e)) l :=
                         match l with
                         | [] => Forall_nil _
                         | e :: r => Forall_cons e (go (snd e)) (gos r)
                         end) es)
  end.

Definition extend (path : string) (comps : list string) : string := fold_left join_path comps path.

Section WalkFacts.
  Variable srt : sorter.
  Variable prefix : string.
  Variable ignored : option (list string).
  Let visit := visit_file prefix ignored.

  Definition walk_ok (n : node) (path : string) (r : res (list string)) : Prop :=
    (bad_at n /\ r = Err "walk") \/
    (~ bad_at n /\ exists cs,
       r = Ok (flat_map (fun c => visit (extend path c)) cs) /\
       StronglySorted walk_before cs /\
       forall c, In c cs <-> exists x, file_at n c x).

  Lemma sorted_app {A} (R : A -> A -> Prop) l1 l2 :
    StronglySorted R l1 -> StronglySorted R l2 ->
    (forall x y, In x l1 -> In y l2 -> R x y) -> StronglySorted R (l1 ++ l2).
  Proof.
    induction l1 as [|a l1 IH]; simpl; intros H1 H2 H; [assumption|].
    inversion H1; subst. constructor.
    - apply IH; auto.
    - apply Forall_app. split; [assumption|]. apply Forall_forall. auto.
  Qed.
  Lemma sorted_map {A B} (R : A -> A -> Prop) (S : B -> B -> Prop) (f : A -> B) l :
    (forall x y, R x y -> S (f x) (f y)) -> StronglySorted R l -> StronglySorted S (map f l).
  Proof.
    intros HRS. induction 1; simpl; constructor; auto.
    apply Forall_map. eapply Forall_impl; [|eassumption]. auto.
  Qed.

  Lemma gather_entries path (es : list (string * node)) :
    StronglySorted (fun a b => str_ltb (fst a) (fst b) = true) es ->
    Forall (fun e => walk_ok (snd e) (join_path path (fst e))
                       (walk srt prefix ignored (snd e) (join_path path (fst e)))) es ->
    walk_ok (NDir es) path
      (gather (map (fun e => walk srt prefix ignored (snd e) (join_path path (fst e))) es)).
  Proof.
    induction es as [|[name n] es IH]; intros Hs Hf.
    - right. split.
      + intros H. inversion H; subst. contradiction.
      + exists []. repeat split; [constructor|intros []|].
        intros (x & H). inversion H; subst. contradiction.
    - inversion Hs as [|? ? Hs' Hlt]; subst. inversion Hf as [|? ? Hn Hf']; subst.
      specialize (IH Hs' Hf'). cbn [map gather fst snd] in *.
      destruct Hn as [[Hb Hn]|(Hb & cs & Hn & Hcs & Hin)]; rewrite Hn; cbn [bindR].
      { left. split; [|reflexivity]. econstructor; [now left|eassumption]. }
      destruct IH as [[Hb' Hr]|(Hb' & cs' & Hr & Hcs' & Hin')]; rewrite Hr; cbn [bindR].
      { left. split; [|reflexivity]. inversion Hb'; subst. econstructor; [right|]; eassumption. }
      right. split.
      { intros H. inversion H as [|? name' n' Hi Hbn]; subst. destruct Hi as [Hi|Hi].
        - inversion Hi; subst. contradiction.
        - apply Hb'. econstructor; eassumption. }
      exists (map (cons name) cs ++ cs')%list. split; [|split].
      + f_equal. rewrite flat_map_app. f_equal.
        clear. induction cs as [|c cs IH]; simpl; [reflexivity|]. now rewrite IH.
      + apply sorted_app; [|assumption|].
        * eapply sorted_map; [|eassumption]. intros. now constructor.
        * intros x y Hx Hy. apply in_map_iff in Hx as (x' & <- & _).
          apply Hin' in Hy as (z & Hz). inversion Hz as [|? name' n' ? ? Hi Hz']; subst.
          apply wb_here. rewrite Forall_forall in Hlt. exact (Hlt _ Hi).
      + intros c. rewrite in_app_iff, in_map_iff. split.
        * intros [(c' & <- & Hc')|Hc].
          -- apply Hin in Hc' as (x & Hx). exists x. econstructor; [now left|eassumption].
          -- apply Hin' in Hc as (x & Hx). exists x.
             inversion Hx; subst. econstructor; [right|]; eassumption.
        * intros (x & Hx). inversion Hx as [|? name' n' c' ? Hi Hx']; subst.
          destruct Hi as [Hi|Hi].
          -- inversion Hi; subst. left. exists c'. split; [reflexivity|]. apply Hin. eauto.
          -- right. apply Hin'. exists x. econstructor; eassumption.
  Qed.

  Lemma strict_sorted {A} (key : A -> string) l : NoDup (map key l) -> ordered key l ->
    StronglySorted (fun a b => str_ltb (key a) (key b) = true) l.
  Proof.
    induction l as [|a l IH]; intros Hn Ho; constructor; inversion Hn as [|? ? Hn1 Hn2]; subst;
      inversion Ho as [|? ? Ho1 Ho2]; subst; [now apply IH|].
    rewrite Forall_forall in *. intros b Hb. specialize (Ho2 b Hb).
    destruct (str_ltb_total (key a) (key b)) as [H|[H|H]]; [assumption| |].
    - exfalso. apply Hn1. rewrite H. now apply in_map.
    - unfold str_leb in Ho2. rewrite H in Ho2. discriminate.
  Qed.

  Lemma file_at_perm es es' c x : Permutation es es' ->
    file_at (NDir es) c x -> file_at (NDir es') c x.
  Proof.
    intros Hp H. inversion H; subst. econstructor; [|eassumption].
    eapply Permutation_in; eassumption.
  Qed.
  Lemma bad_at_perm es es' : Permutation es es' -> bad_at (NDir es) -> bad_at (NDir es').
  Proof.
    intros Hp H. inversion H; subst. econstructor; [|eassumption].
    eapply Permutation_in; eassumption.
  Qed.

  Lemma walk_spec n : wf_tree n -> forall path, walk_ok n path (walk srt prefix ignored n path).
  Proof.
    induction n as [c| | |es IH] using node_rect_strong; intros Hwf path.
    - right. split; [intros H; inversion H|]. exists [[]]. cbn [walk flat_map extend fold_left].
      repeat split.
      + unfold visit. now rewrite app_nil_r.
      + repeat constructor.
      + intros [<-|[]]. exists c. constructor.
      + intros (x & H). inversion H; subst. now left.
    - right. split; [intros H; inversion H|]. exists []. repeat split; [constructor|intros []|].
      intros (x & H). inversion H.
    - left. split; [constructor|reflexivity].
    - inversion Hwf as [| | |? Hnd Hch]; subst. cbn [walk].
      set (g := fun e : string * node =>
                  (fst e, walk srt prefix ignored (snd e) (join_path path (fst e)))).
      destruct (Permutation_map_inv g es (sort_by_perm srt _ fst (map g es))) as (es' & He & Hp).
      rewrite He, map_map.
      assert (walk_ok (NDir es') path (gather (map (fun x => snd (g x)) es'))) as Hw.
      { apply gather_entries.
        - apply strict_sorted.
          + eapply Permutation_NoDup; [|exact Hnd]. now apply Permutation_map.
          + pose proof (sort_by_ordered srt _ fst (map g es)) as Ho. rewrite He in Ho.
            clear -Ho. induction es' as [|e es' IH]; constructor; inversion Ho; subst.
            * now apply IH.
            * rewrite Forall_map in H2. exact H2.
        - eapply Permutation_Forall; [exact Hp|]. rewrite Forall_forall in IH |- *.
          intros [name n] Hin. apply (IH _ Hin). now destruct (Hch name n Hin) as (_ & _ & _ & H). }
      destruct Hw as [[Hb Hw]|(Hb & cs & Hw & Hs & Hin)].
      + left. split; [|assumption]. eapply bad_at_perm; [symmetry|]; eassumption.
      + right. split.
        * intros H. apply Hb. eapply bad_at_perm; eassumption.
        * exists cs. repeat split; auto.
          -- intros H. apply Hin in H as (x & Hx). exists x. eapply file_at_perm; [symmetry|]; eassumption.
          -- intros (x & Hx). apply Hin. exists x. eapply file_at_perm; eassumption.
  Qed.
End WalkFacts.

(** *** Names of files *)
Definition slashed (comps : list string) : string := String.concat "" (map (append "/") comps).
Lemma slashed_cons a l : slashed (a :: l) = "/" ++ a ++ slashed l.
Proof.
  unfold slashed. destruct l as [|b l]; simpl.
  - now rewrite app_nil_r_s.
  - reflexivity.
Qed.
Lemma rooted_slashed comps : comps <> [] -> rooted comps = slashed comps.
Proof.
  destruct comps as [|a l]; [contradiction|]. intros _. unfold rooted.
  revert a. induction l as [|b l IH]; intros a.
  - rewrite slashed_cons. simpl. now rewrite app_nil_r_s.
  - rewrite slashed_cons, <- IH. reflexivity.
Qed.
Lemma extend_slashed path comps : path <> "/" -> Forall (fun x => x <> "") comps ->
  extend path comps = path ++ slashed comps.
Proof.
  intros Hp Hc. revert path Hp. induction Hc as [|a l Ha Hl IH]; intros path Hp.
  - simpl. now rewrite app_nil_r_s.
  - unfold extend in *. simpl. unfold join_path.
    rewrite (proj2 (String.eqb_neq path "/")) by assumption.
    rewrite IH, slashed_cons, !app_assoc_s; [reflexivity|].
    destruct path as [|c [|c' path]]; simpl.
    + intros H. inversion H; subst. contradiction.
    + intros H. discriminate.
    + intros H. discriminate.
Qed.
Lemma short_path root comps : clean_root root -> Forall (fun x => x <> "") comps ->
  let short0 := trim_prefix (trim_suffix "/" root) (extend root comps) in
  (if has_prefix "/" short0 then short0 else "/" ++ short0) = rooted comps.
Proof.
  intros Hr Hc. cbn zeta.
  destruct (String.eqb root "/") eqn:Er.
  - apply String.eqb_eq in Er. subst root.
    change (trim_suffix "/" "/") with "".
    assert (extend "/" comps = rooted comps) as ->.
    { destruct Hc as [|a l Ha Hl]; [reflexivity|].
      unfold extend. cbn [fold_left]. change (join_path "/" a) with ("/" ++ a).
      fold (extend ("/" ++ a) l). rewrite extend_slashed; [|destruct a; [contradiction|discriminate]|assumption].
      rewrite rooted_slashed, slashed_cons by discriminate. reflexivity. }
    reflexivity.
  - apply String.eqb_neq in Er. destruct Hr as [Hr|Hr]; [contradiction|].
    assert (trim_suffix "/" root = root) as ->.
    { unfold trim_suffix. destruct (has_suffix "/" root) eqn:E; [|reflexivity].
      apply has_suffix_spec in E. contradiction. }
    rewrite extend_slashed, trim_prefix_app by assumption.
    destruct Hc as [|a l Ha Hl]; [reflexivity|].
    rewrite rooted_slashed, slashed_cons by discriminate. reflexivity.
Qed.

Lemma file_at_names n c x : wf_tree n -> file_at n c x ->
  Forall (fun a => a <> "" /\ a <> "." /\ no_slash a) c.
Proof.
  intros Hwf H. induction H as [c|es name n comps c Hi Hf IH]; constructor;
    inversion Hwf as [| | |? Hnd Hch]; subst; destruct (Hch _ _ Hi) as (H1 & H2 & H3 & H4); auto.
Qed.

Definition ignored_by (ignored : option (list string)) (p : string) : Prop :=
  exists pats pat, ignored = Some pats /\ In pat pats /\ matches pat p.

Lemma visit_rooted root ignored comps : clean_root root -> Forall (fun x => x <> "") comps ->
  (ignored_by ignored (rooted comps) /\ visit_file (trim_suffix "/" root) ignored (extend root comps) = []) \/
  (~ ignored_by ignored (rooted comps) /\
   visit_file (trim_suffix "/" root) ignored (extend root comps) = [rooted comps]).
Proof.
  intros Hr Hc. unfold visit_file. cbv zeta. rewrite (short_path root comps Hr Hc).
  destruct ignored as [pats|].
  - destruct (should_ignore (rooted comps) pats) eqn:E.
    + left. split; [|reflexivity]. apply should_ignore_spec in E as (p & H1 & H2). exists pats, p. auto.
    + right. split; [|reflexivity]. intros (pats' & p & H1 & H2 & H3). inversion H1; subst pats'.
      assert (should_ignore (rooted comps) pats = true) by (apply should_ignore_spec; eauto). congruence.
  - right. split; [|reflexivity]. intros (? & ? & ? & _). discriminate.
Qed.

Lemma sorted_filter {A} (R : A -> A -> Prop) f l : StronglySorted R l -> StronglySorted R (filter f l).
Proof.
  induction 1 as [|a l Hs IH Hf]; simpl; [constructor|].
  destruct (f a); [|assumption]. constructor; [assumption|].
  rewrite Forall_forall in *. intros x Hx. apply filter_In in Hx. now apply Hf.
Qed.

Lemma get_all_spec srt root tree ignored : clean_root root -> wf_tree tree ->
  (bad_at tree /\ get_all_file_paths srt root tree ignored = Err "walk") \/
  (~ bad_at tree /\ exists cs,
     get_all_file_paths srt root tree ignored = Ok (map rooted cs) /\
     StronglySorted walk_before cs /\
     forall c, In c cs <-> ~ ignored_by ignored (rooted c) /\ exists x, file_at tree c x).
Proof.
  intros Hr Hwf. unfold get_all_file_paths.
  destruct (walk_spec srt (trim_suffix "/" root) ignored tree Hwf root) as [H|(Hb & cs & Hw & Hs & Hin)].
  - now left.
  - right. split; [assumption|]. rewrite Hw. clear Hw.
    assert (Forall (fun c => Forall (fun x => x <> "") c) cs) as Hne.
    { apply Forall_forall. intros c Hc. apply Hin in Hc as (x & Hx).
      eapply Forall_impl; [|eapply file_at_names; eassumption]. simpl. tauto. }
    assert (exists cs', flat_map (fun c => visit_file (trim_suffix "/" root) ignored (extend root c)) cs
             = map rooted cs' /\ StronglySorted walk_before cs' /\
             forall c, In c cs' <-> In c cs /\ ~ ignored_by ignored (rooted c)) as (cs' & H1 & H2 & H3).
    { clear Hin Hb. induction cs as [|c cs IH].
      - exists []. repeat split; [constructor|contradiction..|tauto].
      - inversion Hs as [|? ? Hs' Hlt]; subst. inversion Hne as [|? ? Hc Hne']; subst.
        destruct (IH Hs' Hne') as (cs' & H1 & H2 & H3).
        cbn [flat_map]. rewrite H1.
        destruct (visit_rooted root ignored c Hr Hc) as [[Hi ->]|[Hi ->]].
        + exists cs'. repeat split; auto.
          * right. now apply H3.
          * now apply H3.
          * intros [[<-|H] Hn]; [contradiction|]. now apply H3.
        + exists (c :: cs'). repeat split.
          * constructor; [assumption|]. rewrite Forall_forall in *. intros y Hy. apply H3 in Hy. now apply Hlt.
          * destruct H as [->|H]; [now left|]. right. now apply H3.
          * destruct H as [->|H]; [assumption|]. now apply H3.
          * intros [[<-|H] Hn]; [now left|]. right. now apply H3. }
    exists cs'. rewrite H1. repeat split; auto.
    + now apply H3.
    + apply Hin. now apply H3.
    + intros [Hn Hx]. apply H3. split; [|assumption]. now apply Hin.
Qed.

Lemma walk_before_irrefl c : ~ walk_before c c.
Proof.
  induction c as [|a c IH]; intros H; inversion H; subst; auto.
  rewrite str_ltb_irrefl in *. discriminate.
Qed.
Lemma sorted_nodup cs : StronglySorted walk_before cs -> NoDup cs.
Proof.
  induction 1 as [|c cs Hs IH Hf]; constructor; [|assumption].
  intros Hin. rewrite Forall_forall in Hf. exact (walk_before_irrefl c (Hf c Hin)).
Qed.
Lemma rooted_inj c c' :
  Forall (fun a => a <> "" /\ a <> "." /\ no_slash a) c ->
  Forall (fun a => a <> "" /\ a <> "." /\ no_slash a) c' ->
  rooted c = rooted c' -> c = c'.
Proof.
  intros H H' E. unfold rooted in E. apply app_inj_l in E.
  assert (forall l, l <> [] -> Forall (fun a => a <> "" /\ a <> "." /\ no_slash a) l ->
            split_on "/" (String.concat "/" l) = l) as Hsplit.
  { clear. intros l Hl H. destruct H as [|a l Ha Hf]; [contradiction|]. clear Hl.
    revert a Ha. induction Hf as [|b l Hb Hf IH]; intros a Ha.
    - simpl. apply split_on_none, no_slash_byte, Ha.
    - change (String.concat "/" (a :: b :: l)) with (a ++ String "/" (String.concat "/" (b :: l))).
      rewrite split_on_app, (IH b Hb), split_on_none by apply no_slash_byte, Ha. reflexivity. }
  assert (forall l : list string, Forall (fun a => a <> "" /\ a <> "." /\ no_slash a) l ->
            String.concat "/" l = "" -> l = []) as Hnil.
  { clear. intros l H E. destruct H as [|a l Ha Hf]; [reflexivity|].
    destruct a as [|x a]; [now destruct Ha|]. destruct l; simpl in E; discriminate. }
  destruct c as [|a c].
  - symmetry. now apply Hnil.
  - destruct c' as [|a' c'].
    + now apply Hnil.
    + rewrite <- (Hsplit (a :: c)), <- (Hsplit (a' :: c')), E; auto; discriminate.
Qed.
Lemma nodup_map_in {A B} (f : A -> B) l :
  (forall x y, In x l -> In y l -> f x = f y -> x = y) -> NoDup l -> NoDup (map f l).
Proof.
  intros H Hn. induction Hn as [|a l Ha Hn IH]; simpl; constructor.
  - intros Hin. apply in_map_iff in Hin as (b & E & Hb). apply Ha.
    rewrite (H a b); auto; [now left|now right].
  - apply IH. intros. apply H; auto; now right.
Qed.

(** ** Verification code *)
Lemma collect_shas_some files exclude :
  collect_shas (map Some files) exclude =
  Ok (flat_map sha1_values (filter (fun f => negb (String.eqb (f_FileName f) exclude)) files)).
Proof.
  induction files as [|f files IH]; [reflexivity|].
  cbn [map collect_shas]. rewrite IH. cbn [bindR filter].
  assert (map ck_Value (filter (fun c => String.eqb (ck_Algorithm c) "SHA1") (f_Checksums f))
          = sha1_values f) as ->.
  { unfold sha1_values. induction (f_Checksums f) as [|c l IHl]; simpl; [reflexivity|].
    destruct (String.eqb (ck_Algorithm c) "SHA1"); simpl; now rewrite IHl. }
  destruct (String.eqb (f_FileName f) exclude); simpl; reflexivity.
Qed.
Lemma collect_shas_nil files exclude : In None files ->
  exists m, collect_shas files exclude = Err m.
Proof.
  induction files as [|[f|] files IH]; intros H; [contradiction| |].
  - destruct H as [H|H]; [discriminate|]. destruct (IH H) as [m Hm].
    exists m. cbn [collect_shas]. now rewrite Hm.
  - eexists. reflexivity.
Qed.
Lemma in_none_dec {A} (l : list (option A)) : In None l \/ ~ In None l.
Proof.
  induction l as [|[a|] l [IH|IH]]; simpl; auto.
  right. intros [H|H]; [discriminate|auto].
Qed.
Lemma all_some {A} (l : list (option A)) : ~ In None l -> exists l', l = map Some l'.
Proof.
  induction l as [|[a|] l IH]; intros H.
  - now exists [].
  - destruct IH as [l' ->]; [intros Hn; apply H; now right|]. now exists (a :: l').
  - exfalso. apply H. now left.
Qed.

Lemma verification_code_ok srt sha1 files exclude :
  exists text, digest_input files exclude text /\
    get_verification_code srt sha1 (map Some files) exclude =
    Ok (MkVC (sha1 text) (if nonempty exclude then [exclude] else [])).
Proof.
  unfold get_verification_code. rewrite collect_shas_some. cbn [bindR].
  eexists. split; [|reflexivity].
  eexists. split; [apply sort_by_perm|]. split; [apply sort_by_ordered|reflexivity].
Qed.

Lemma ordered_perm_unique_id l1 l2 :
  Permutation l1 l2 -> ordered (fun x : string => x) l1 -> ordered (fun x => x) l2 -> l1 = l2.
Proof.
  revert l2. induction l1 as [|x l1 IH]; intros l2 Hp Ho1 Ho2.
  - apply Permutation_nil in Hp. now subst.
  - destruct l2 as [|y l2]; [symmetry in Hp; apply Permutation_nil in Hp; discriminate|].
    inversion Ho1 as [|? ? Ho1' Hf1]; subst. inversion Ho2 as [|? ? Ho2' Hf2]; subst.
    assert (x = y) as ->.
    { assert (In y (x :: l1)) as Hy by (eapply Permutation_in; [symmetry; exact Hp|now left]).
      assert (In x (y :: l2)) as Hx by (eapply Permutation_in; [exact Hp|now left]).
      destruct Hy as [->|Hy]; [reflexivity|]. destruct Hx as [->|Hx]; [reflexivity|].
      rewrite Forall_forall in Hf1, Hf2. now apply str_leb_antisym; auto. }
    f_equal. apply IH; auto. eapply Permutation_cons_inv. exact Hp.
Qed.
Lemma digest_input_unique files files' exclude exclude' t t' :
  digest_input files exclude t -> digest_input files' exclude' t' ->
  Permutation (flat_map sha1_values (filter (fun f => negb (String.eqb (f_FileName f) exclude)) files))
              (flat_map sha1_values (filter (fun f => negb (String.eqb (f_FileName f) exclude')) files')) ->
  t = t'.
Proof.
  intros (l & Hp & Ho & ->) (l' & Hp' & Ho' & ->) H.
  f_equal. apply ordered_perm_unique_id; auto. now rewrite Hp, Hp'.
Qed.

(** Values of equal length can be told apart in their concatenation. *)
Lemma concat_fixed_inj n l l' : n <> 0 ->
  Forall (fun s => String.length s = n) l -> Forall (fun s => String.length s = n) l' ->
  String.concat "" l = String.concat "" l' -> l = l'.
Proof.
  intros Hn0.
  assert (forall a (l : list string), String.concat "" (a :: l) = a ++ String.concat "" l) as Hc.
  { intros a [|b m]; simpl; [now rewrite app_nil_r_s|reflexivity]. }
  assert (forall a b x y : string, String.length a = String.length b -> a ++ x = b ++ y -> a = b /\ x = y) as Hsp.
  { induction a as [|c a IH]; intros [|d b] x y Hl E; simpl in *; try discriminate; [auto|].
    inversion E; subst. destruct (IH b x y); [lia|assumption|]. now subst. }
  intros H. revert l'. induction H as [|a l Ha Hl IH]; intros l' H' E.
  - destruct H' as [|b l' Hb Hl']; [reflexivity|]. rewrite Hc in E. simpl in E.
    symmetry in E. apply app_eq_nil_s in E as [-> _]. simpl in Hb. congruence.
  - destruct H' as [|b l' Hb Hl'].
    + rewrite Hc in E. simpl in E. apply app_eq_nil_s in E as [-> _]. simpl in Ha. congruence.
    + rewrite !Hc in E. destruct (Hsp a b _ _ (eq_trans Ha (eq_sym Hb)) E) as [-> E'].
      f_equal. now apply IH.
Qed.

Lemma walk_before_asym c c' : walk_before c c' -> walk_before c' c -> False.
Proof.
  induction 1 as [x y xs ys H|x xs ys H IH]; intros H'; inversion H'; subst.
  - pose proof (str_ltb_trans _ _ _ H H1) as Ht. rewrite str_ltb_irrefl in Ht. discriminate.
  - rewrite str_ltb_irrefl in H. discriminate.
  - rewrite str_ltb_irrefl in H1. discriminate.
  - auto.
Qed.
Lemma sorted_ext cs cs' : StronglySorted walk_before cs -> StronglySorted walk_before cs' ->
  (forall c, In c cs <-> In c cs') -> cs = cs'.
Proof.
  intros H. revert cs'. induction H as [|c cs Hs IH Hf]; intros cs' H' Hin.
  - destruct cs' as [|c' cs']; [reflexivity|]. exfalso. apply (Hin c'). now left.
  - destruct H' as [|c' cs' Hs' Hf'].
    + exfalso. apply (Hin c). now left.
    + rewrite Forall_forall in Hf, Hf'.
      assert (c = c') as <-.
      { destruct (proj1 (Hin c) (or_introl eq_refl)) as [H|H]; [auto|].
        destruct (proj2 (Hin c') (or_introl eq_refl)) as [H0|H0]; [auto|].
        exfalso. eapply walk_before_asym; eauto. }
      f_equal. apply IH; [assumption|]. intros x. split; intros Hx.
      * destruct (proj1 (Hin x) (or_intror Hx)) as [<-|H]; [|assumption].
        exfalso. exact (walk_before_irrefl c (Hf c Hx)).
      * destruct (proj2 (Hin x) (or_intror Hx)) as [<-|H]; [|assumption].
        exfalso. exact (walk_before_irrefl c (Hf' c Hx)).
Qed.
