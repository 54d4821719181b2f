(** * Properties of package utils (C17, C18, C19) *)
From Verif Require Import GoStr GoStrFacts Sorting Types Utils SpecUtils UtilsFacts.
Local Open Scope string_scope.

(** ** C17: package verification code *)

(** The code is the digest of the sorted SHA1 values of the files other than
    the excluded one; the excluded name is recorded. *)
Theorem C17_code : forall srt sha1 files exclude,
  exists text, digest_input files exclude text /\
    get_verification_code srt sha1 (map Some files) exclude =
    Ok (MkVC (sha1 text) (if String.eqb exclude "" then [] else [exclude])).
Proof.
  intros. destruct (verification_code_ok srt sha1 files exclude) as (t & H1 & H2).
  exists t. split; [exact H1|]. rewrite H2. unfold nonempty. now destruct (String.eqb exclude "").
Qed.
Print Assumptions C17_code.

(** It fails exactly when some file is nil, and never panics. *)
Theorem C17_fails_iff_nil : forall srt sha1 files exclude,
  (In None files -> exists m, get_verification_code srt sha1 files exclude = Err m) /\
  (~ In None files -> exists c, get_verification_code srt sha1 files exclude = Ok c).
Proof.
  intros. split; intros H.
  - destruct (collect_shas_nil files exclude H) as [m Hm]. exists m.
    unfold get_verification_code. now rewrite Hm.
  - destruct (all_some files H) as [l ->].
    destruct (verification_code_ok srt sha1 l exclude) as (t & _ & H2). eauto.
Qed.
Print Assumptions C17_fails_iff_nil.

(** Only the multiset of SHA1 values of the files that are not excluded
    matters: not the order of the files, not the sorting algorithm, not any
    other attribute of a file. *)
Theorem C17_multiset : forall srt srt' sha1 (files files' : list File) exclude,
  Permutation
    (flat_map sha1_values (filter (fun f => negb (String.eqb (f_FileName f) exclude)) files))
    (flat_map sha1_values (filter (fun f => negb (String.eqb (f_FileName f) exclude)) files')) ->
  get_verification_code srt sha1 (map Some files) exclude =
  get_verification_code srt' sha1 (map Some files') exclude.
Proof.
  intros srt srt' sha1 files files' exclude H.
  destruct (verification_code_ok srt sha1 files exclude) as (t & H1 & ->).
  destruct (verification_code_ok srt' sha1 files' exclude) as (t' & H1' & ->).
  now rewrite (digest_input_unique _ _ _ _ _ _ H1 H1' H).
Qed.
Print Assumptions C17_multiset.

Theorem C17_order : forall srt srt' sha1 files files' exclude,
  Permutation files files' ->
  get_verification_code srt sha1 files exclude = get_verification_code srt' sha1 files' exclude
  \/ In None files.
Proof.
  intros srt srt' sha1 files files' exclude H.
  destruct (in_none_dec files) as [Hi|Hf]; [now right|].
  - left.
    destruct (all_some files Hf) as [l ->].
    destruct (Permutation_map_inv Some _ (Permutation_sym H)) as (l' & -> & Hl).
    apply C17_multiset.
    apply Permutation_flat_map. clear -Hl.
    induction Hl; simpl; [constructor| | |].
    + destruct (negb _); [now constructor|assumption].
    + destruct (negb (String.eqb (f_FileName x) exclude)), (negb (String.eqb (f_FileName y) exclude));
        try reflexivity. apply perm_swap.
    + now rewrite IHHl1.
Qed.
Print Assumptions C17_order.

(** Files with the excluded name do not count, and only those. *)
Theorem C17_exclusion : forall srt sha1 (files files' : list File) f exclude,
  f_FileName f = exclude ->
  get_verification_code srt sha1 (map Some (files ++ f :: files')) exclude =
  get_verification_code srt sha1 (map Some (files ++ files')) exclude.
Proof.
  intros. apply C17_multiset. rewrite !filter_app. cbn [filter].
  subst exclude. rewrite String.eqb_refl. reflexivity.
Qed.
Print Assumptions C17_exclusion.

(** Conversely, for SHA1 values of one length, equal codes mean equal multisets of values, or that the two
    texts that are hashed are a collision: no change of a value goes unnoticed without one. *)
Theorem C17_sensitive : forall srt sha1 n (files files' : list File) exclude, n <> 0 ->
  (forall f v, In f (files ++ files') -> In v (sha1_values f) -> String.length v = n) ->
  get_verification_code srt sha1 (map Some files) exclude =
  get_verification_code srt sha1 (map Some files') exclude ->
  Permutation
    (flat_map sha1_values (filter (fun f => negb (String.eqb (f_FileName f) exclude)) files))
    (flat_map sha1_values (filter (fun f => negb (String.eqb (f_FileName f) exclude)) files')) \/
  exists text text', digest_input files exclude text /\ digest_input files' exclude text' /\ text <> text' /\ sha1 text = sha1 text'.
Proof.
  intros srt sha1 n files files' exclude Hn Hlen E.
  destruct (verification_code_ok srt sha1 files exclude) as (t & D & E1).
  destruct (verification_code_ok srt sha1 files' exclude) as (t' & D' & E1').
  rewrite E1, E1' in E. inversion E as [E2].
  destruct (String.string_dec t t') as [Et|Et]; [left|right; now exists t, t'].
  destruct D as (l & Hp & Ho & Ht), D' as (l' & Hp' & Ho' & Ht'). subst t t'.
  assert (forall m fs, (forall f, In f fs -> In f (files ++ files')) ->
           Permutation m (flat_map sha1_values (filter (fun f => negb (String.eqb (f_FileName f) exclude)) fs)) ->
           Forall (fun s => String.length s = n) m) as Hm.
  { intros m fs Hin Hpm. eapply Permutation_Forall; [symmetry; exact Hpm|].
    apply Forall_forall. intros v Hv. apply in_flat_map in Hv as (f & Hf & Hv).
    apply filter_In in Hf as [Hf _]. eauto. }
  rewrite <- Hp, <- Hp'.
  rewrite (concat_fixed_inj n l l'); [reflexivity|assumption| | |assumption].
  - apply (Hm l files); [|assumption]. intros. apply in_or_app. now left.
  - apply (Hm l' files'); [|assumption]. intros. apply in_or_app. now right.
Qed.
Print Assumptions C17_sensitive.

(** The values are concatenated without a separator, so values of different
    lengths can collide for every hash. *)
Definition mk_sha (name v : string) : File :=
  set_f_Checksums [MkChecksum "SHA1" v] (set_f_FileName name zero_FileOf).
Theorem C17_sensitive_any_length_refuted : forall srt sha1,
  exists files files',
    ~ Permutation (flat_map sha1_values files) (flat_map sha1_values files') /\
    get_verification_code srt sha1 (map Some files) "" =
    get_verification_code srt sha1 (map Some files') "".
Proof.
  intros. exists [mk_sha "a" "12"; mk_sha "b" "3"], [mk_sha "a" "1"; mk_sha "b" "23"].
  split.
  - intros H. assert (In "12" ["1"; "23"]) as Hin.
    { eapply Permutation_in; [exact H|now left]. }
    destruct Hin as [Hin|[Hin|[]]]; discriminate.
  - destruct (verification_code_ok srt sha1 [mk_sha "a" "12"; mk_sha "b" "3"] "")
      as (t & (l & Hp & Ho & Ht) & ->).
    destruct (verification_code_ok srt sha1 [mk_sha "a" "1"; mk_sha "b" "23"] "")
      as (t' & (l' & Hp' & Ho' & Ht') & ->).
    assert (l = ["12"; "3"]) as ->.
    { apply ordered_perm_unique_id; [exact Hp|exact Ho|]. repeat constructor. }
    assert (l' = ["1"; "23"]) as ->.
    { apply ordered_perm_unique_id; [exact Hp'|exact Ho'|]. repeat constructor. }
    now subst.
Qed.
Print Assumptions C17_sensitive_any_length_refuted.

Example C17_witness :
  get_verification_code insertion_sorter (fun x => "<" ++ x ++ ">")
    [Some (mk_sha "b" "bb"); Some (mk_sha "skip" "zz"); Some (mk_sha "a" "aa")] "skip" =
  Ok (MkVC "<aabb>" ["skip"]).
Proof. reflexivity. Qed.

(** ** C18: ignore rules *)
Theorem C18_should_ignore : forall path patterns,
  should_ignore path patterns = true <-> exists p, In p patterns /\ matches p path.
Proof. exact should_ignore_spec. Qed.
Print Assumptions C18_should_ignore.

Theorem C18_monotone : forall path patterns more,
  (forall p, In p patterns -> In p more) ->
  should_ignore path patterns = true -> should_ignore path more = true.
Proof. exact should_ignore_mono. Qed.
Print Assumptions C18_monotone.

(** A floating directory pattern matches complete path components only. *)
Theorem C18_component : forall c path, no_slash c ->
  should_ignore path ["**/" ++ c ++ "/"] = true <->
  In c (tl (removelast (split_on "/" path))).
Proof. exact component_pattern. Qed.
Print Assumptions C18_component.

(** An empty pattern ignores every path, so the statement restricted to
    non-empty patterns does not hold of the code. *)
Theorem C18_nonempty_patterns_refuted :
  ~ forall path patterns,
      should_ignore path patterns = true <-> exists p, p <> "" /\ In p patterns /\ matches p path.
Proof.
  intros H. destruct (proj1 (H "/a" [""]) eq_refl) as (p & Hp & [<-|[]] & _). contradiction.
Qed.
Print Assumptions C18_nonempty_patterns_refuted.

Example C18_witness :
  should_ignore "/src/vendor/x.go" ["/docs/"; "**/vendor/"] = true /\
  should_ignore "/src/vendored/x.go" ["/docs/"; "**/vendor/"] = false /\
  matches "**/vendor/" "/src/vendor/x.go".
Proof.
  split; [reflexivity|split; [reflexivity|]].
  apply (m_float_dir "/vendor/" "/src" "x.go"). now exists "/vendor".
Qed.

(** ** C19: enumeration of files *)

(** On success the result lists exactly the files under the root that no
    pattern ignores, in the order of a tree walk, each once. *)
Theorem C19_enumeration : forall srt root tree ignored paths,
  clean_root root -> wf_tree tree ->
  get_all_file_paths srt root tree ignored = Ok paths ->
  (forall p, In p paths <->
     exists comps content, file_at tree comps content /\ p = rooted comps /\
       ~ exists pats pat, ignored = Some pats /\ In pat pats /\ matches pat p) /\
  NoDup paths /\
  exists cs, paths = map rooted cs /\ StronglySorted walk_before cs.
Proof.
  intros srt root tree ignored paths Hr Hwf E.
  destruct (get_all_spec srt root tree ignored Hr Hwf) as [[_ H]|(_ & cs & H & Hs & Hin)];
    rewrite H in E; inversion E; subst paths. repeat split.
  - intros Hp. apply in_map_iff in Hp as (c & <- & Hc). apply Hin in Hc as [Hn [x Hx]].
    exists c, x. auto.
  - intros (c & x & Hx & -> & Hn). apply in_map. apply Hin. split; [exact Hn|eauto].
  - apply nodup_map_in; [|now apply sorted_nodup].
    intros x y Hx Hy Hxy. apply Hin in Hx as [_ [cx Hx]]. apply Hin in Hy as [_ [cy Hy]].
    eapply rooted_inj; eauto; eapply file_at_names; eauto.
  - eauto.
Qed.
Print Assumptions C19_enumeration.

(** It fails exactly when the walk meets an entry that cannot be examined. *)
Theorem C19_total : forall srt root tree ignored,
  clean_root root -> wf_tree tree ->
  (bad_at tree -> exists m, get_all_file_paths srt root tree ignored = Err m) /\
  (~ bad_at tree -> exists paths, get_all_file_paths srt root tree ignored = Ok paths).
Proof.
  intros srt root tree ignored Hr Hwf.
  destruct (get_all_spec srt root tree ignored Hr Hwf) as [[Hb H]|(Hb & cs & H & _)];
    split; intros Hx; try contradiction; eauto.
Qed.
Print Assumptions C19_total.

(** The result depends neither on the location of the root nor on the order in
    which the system lists a directory. *)
Theorem C19_location : forall srt srt' root root' tree ignored,
  clean_root root -> clean_root root' -> wf_tree tree ->
  get_all_file_paths srt root tree ignored = get_all_file_paths srt' root' tree ignored.
Proof.
  intros srt srt' root root' tree ignored Hr Hr' Hwf.
  destruct (get_all_spec srt root tree ignored Hr Hwf) as [[Hb H]|(Hb & cs & H & Hs & Hin)];
  destruct (get_all_spec srt' root' tree ignored Hr' Hwf) as [[Hb' H']|(Hb' & cs' & H' & Hs' & Hin')];
    try contradiction; rewrite H, H'; [reflexivity|].
  do 2 f_equal. eapply sorted_ext; eauto. intros c. now rewrite Hin, Hin'.
Qed.
Print Assumptions C19_location.

Example C19_witness :
  let tree := NDir [("src", NDir [("b.go", NFile (Some "x")); ("a.go", NFile None)]);
                    ("link", NLink); ("README", NFile (Some "r")); ("vendor", NDir [("v.go", NFile None)])] in
  wf_tree tree /\ clean_root "/tmp/p" /\
  get_all_file_paths insertion_sorter "/tmp/p" tree (Some ["/vendor/"]) =
  Ok ["/README"; "/src/a.go"; "/src/b.go"].
Proof.
  cbv zeta. split; [|split].
  - constructor.
    + cbn. repeat constructor; cbn; intuition discriminate.
    + intros name n H. cbn in H. decompose [or] H; try contradiction;
        match goal with E : _ = _ |- _ => inversion E; subst end;
        (split; [discriminate|]); (split; [discriminate|]);
        (split; [apply no_slash_byte; reflexivity|]); try constructor;
        try (cbn; repeat constructor; cbn; intuition discriminate);
        intros name n H'; cbn in H'; decompose [or] H'; try contradiction;
        match goal with E : _ = _ |- _ => inversion E; subst end;
        (split; [discriminate|]); (split; [discriminate|]);
        (split; [apply no_slash_byte; reflexivity|]); constructor.
  - right. intros H. apply has_suffix_spec in H. discriminate.
  - reflexivity.
Qed.
