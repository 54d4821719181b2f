(** Lemmas about Building. *)
From Verif Require Import GoStr GoStrFacts Sorting Types TvUtil TvParser TvWriter Utils SpecUtils UtilsFacts Builder IdSearcher Stream Building SpecBuilding.
Local Open Scope string_scope.

Lemma slashed_app a b : slashed (a ++ b) = slashed a ++ slashed b.
Proof. induction a as [|x a IH]; [reflexivity|]. cbn [app]. now rewrite !slashed_cons, IH, !app_assoc_s. Qed.
Lemma dirs_split dirs file : Forall (fun a => a <> "" /\ no_slash a) (dirs ++ [file]) ->
  path_split (rooted (dirs ++ [file])) = (slashed dirs ++ "/", file).
Proof.
  intros F. rewrite rooted_slashed by (now destruct dirs). rewrite slashed_app, slashed_cons. cbn [slashed map String.concat]. rewrite app_nil_r_s, <- app_assoc_s.
  apply Forall_app in F as [_ F]. inversion F as [|? ? [_ N] _]; subst. apply path_split_app; [|exact N]. right. now exists (slashed dirs).
Qed.
Lemma slashed_split dirs : Forall (fun a => no_slash a) dirs -> split_on "/" (slashed dirs ++ "/") = ("" :: dirs ++ [""])%list.
Proof.
  change (slashed dirs ++ "/") with (slashed dirs ++ String "/" ""). rewrite split_on_app. intros F. cbn [split_on].
  assert (G : split_on "/" (slashed dirs) = "" :: dirs).
  { induction F as [|x l N F IH]; [reflexivity|]. rewrite slashed_cons. change ("/" ++ x ++ slashed l) with ("" ++ String "/" (x ++ slashed l)). rewrite split_on_app. cbn [split_on app]. f_equal.
    apply no_slash_byte in N. destruct l as [|y l].
    - cbn [slashed map String.concat]. rewrite app_nil_r_s. now apply split_on_none.
    - rewrite slashed_cons in IH |- *. change ("/" ++ y ++ slashed l) with (String "/" (y ++ slashed l)) in IH |- *. rewrite split_on_app, (split_on_none _ _ N).
      change (String "/" (y ++ slashed l)) with ("" ++ String "/" (y ++ slashed l)) in IH. rewrite split_on_app in IH. cbn [split_on app] in IH. injection IH as ->. reflexivity. }
  now rewrite G.
Qed.
Lemma in_dirs x dirs : Forall (fun a => no_slash a) dirs -> no_slash x -> contains ("/" ++ x ++ "/") (slashed dirs ++ "/") = true <-> In x dirs.
Proof.
  intros F N. rewrite contains_true. transitivity (exists a b, slashed dirs ++ "/" = a ++ ("/" ++ x ++ "/") ++ b); [reflexivity|].
  rewrite component_in, slashed_split by assumption. rewrite app_comm_cons, removelast_app by discriminate. cbn [removelast]. now rewrite app_nil_r.
Qed.
Lemma first_dir x dirs : Forall (fun a => no_slash a) dirs -> no_slash x -> has_prefix ("/" ++ x ++ "/") (slashed dirs ++ "/") = true <-> exists l, dirs = x :: l.
Proof.
  intros F N. rewrite has_prefix_spec. split.
  - intros (r & E). assert (S : split_on "/" (slashed dirs ++ "/") = split_on "/" (("/" ++ x ++ "/") ++ r)) by now rewrite E.
    rewrite slashed_split in S by exact F. apply no_slash_byte in N.
    replace (("/" ++ x ++ "/") ++ r) with ("" ++ String "/" (x ++ String "/" r)) in S by now rewrite !app_assoc_s.
    rewrite split_on_app, split_on_app, (split_on_none _ _ N) in S. cbn [split_on app] in S. injection S as S.
    destruct dirs as [|y l]; cbn [app] in S.
    + injection S as _ S. now apply eq_sym, split_on_nonnil in S.
    + injection S as -> _. eauto.
  - intros (l & ->). exists (match slashed l with "" => "" | String _ t => t ++ "/" end). rewrite slashed_cons. destruct l as [|y l].
    + cbn [slashed map String.concat]. now rewrite !app_nil_r_s, !app_assoc_s.
    + rewrite slashed_cons. change ("/" ++ y ++ slashed l) with (String "/" (y ++ slashed l)). cbv iota. rewrite !app_assoc_s. cbn [append]. now rewrite !app_assoc_s.
Qed.
Lemma ignores_git d f : pattern_ignores d f "/.git/" = has_prefix "/.git/" d.
Proof. unfold pattern_ignores. change (path_split "/.git/") with ("/.git/", ""). cbv iota beta zeta. change (has_prefix "**" "/.git/") with false. cbv iota. destruct (has_prefix "/.git/" d), (String.eqb "/.git/" d); reflexivity. Qed.
Lemma ignores_pycache d f : pattern_ignores d f "**/__pycache__/" = contains "/__pycache__/" d.
Proof. unfold pattern_ignores. change (path_split "**/__pycache__/") with ("**/__pycache__/", ""). cbv iota beta zeta. change (has_prefix "**" "**/__pycache__/") with true. cbv iota. change (trim_prefix "**" "**/__pycache__/") with "/__pycache__/". destruct (contains "/__pycache__/" d); reflexivity. Qed.
Lemma ignores_ignorefile d f : pattern_ignores d f "/.ignorefile" = String.eqb "/" d && String.eqb ".ignorefile" f.
Proof. unfold pattern_ignores. change (path_split "/.ignorefile") with ("/", ".ignorefile"). cbv iota beta zeta. change (has_prefix "**" "/") with false. cbv iota. destruct (String.eqb "/" d), (String.eqb ".ignorefile" f), (has_prefix "/" d); reflexivity. Qed.
Lemma ignores_ds d f : pattern_ignores d f "**/.DS_Store" = String.eqb ".DS_Store" f.
Proof. unfold pattern_ignores. change (path_split "**/.DS_Store") with ("**/", ".DS_Store"). cbv iota beta zeta. change (has_prefix "**" "**/") with true. cbv iota. change (trim_prefix "**" "**/") with "/". destruct (String.eqb ".DS_Store" f), (contains "/" d); reflexivity. Qed.
Definition patterns : list string := ["/.git/"; "**/__pycache__/"; "/.ignorefile"; "**/.DS_Store"].
Lemma left_out_iff names : Forall (fun a => a <> "" /\ a <> "." /\ no_slash a) names ->
  (exists pat, In pat patterns /\ matches pat (rooted names)) <-> left_out names.
Proof.
  intros F. rewrite <- should_ignore_spec. unfold should_ignore, left_out. destruct (rev names) as [|file r] eqn:R.
  - apply (f_equal (@rev string)) in R. rewrite rev_involutive in R. subst names. split; [intros H; vm_compute in H; discriminate|].
    intros (dirs & file & E & _). now destruct dirs.
  - apply (f_equal (@rev string)) in R. rewrite rev_involutive in R. cbn [rev] in R. set (dirs := rev r) in *. clearbody dirs. subst names.
    assert (D : Forall (fun a => no_slash a) dirs). { apply Forall_app in F as [F _]. eapply Forall_impl; [|exact F]. cbn. tauto. }
    rewrite dirs_split by (eapply Forall_impl; [|exact F]; cbn; tauto).
    assert (G : forall x, x = ".git" \/ x = "__pycache__" -> no_slash x) by (intros x [-> | ->]; apply no_slash_byte; reflexivity).
    pose proof (first_dir ".git" dirs D (G _ (or_introl eq_refl))) as P1. pose proof (in_dirs "__pycache__" dirs D (G _ (or_intror eq_refl))) as P2.
    cbn [append] in P1, P2.
    transitivity ((exists below, dirs = ".git" :: below) \/ In "__pycache__" dirs \/ (dirs = [] /\ file = ".ignorefile") \/ file = ".DS_Store").
    + rewrite <- P1, <- P2. unfold patterns, existsb. rewrite ignores_git, ignores_pycache, ignores_ignorefile, ignores_ds, !orb_true_iff, andb_true_iff, !String.eqb_eq.
      assert (Q : "/" = slashed dirs ++ "/" <-> dirs = []).
      { split; [|now intros ->]. destruct dirs as [|x l]; [reflexivity|]. rewrite slashed_cons. intros E. exfalso. cbn [append] in E. injection E as E.
        destruct x; [|discriminate E]. apply Forall_app in F as [F _]. inversion F as [|? ? [N _] _]. now apply N. }
      rewrite Q. split; [intros [H|[H|[[H1 H2]|[H|H]]]]|intros [H|[H|[[H1 H2]|H]]]]; auto 6; try discriminate H.
    + split; [intros H; exists dirs, file; auto|]. intros (dirs' & file' & E & H). apply app_inj_tail in E as [<- <-]. exact H.
Qed.
Lemma left_out_ignored tree names x : wf_tree tree -> file_at tree names x ->
  (exists pats pat, Some patterns = Some pats /\ In pat pats /\ matches pat (rooted names)) <-> left_out names.
Proof.
  intros W A. rewrite <- left_out_iff by (eapply file_at_names; eassumption). split.
  - intros (pats & pat & E & H). injection E as <-. eauto.
  - intros (pat & H). eauto.
Qed.
