(** * Facts about builder and idsearcher *)
From Verif Require Import GoStr GoStrFacts Sorting Types TvReader SpecTv TvReaderFacts
  Utils SpecUtils UtilsFacts SpdxLib LicenseTools SpecTools ToolsFacts Builder IdSearcher.
Local Open Scope string_scope.

(** ** Opening enumerated files *)
Lemma bindR_some {A B} (r : res A) (f : A -> res B) y : bindR r f = Ok y -> exists a, r = Ok a /\ f a = Ok y.
Proof. destruct r; cbn; try discriminate. eauto. Qed.
Lemma find_entry_in name n es : NoDup (map fst es) -> In (name, n) es -> find_entry name es = Some n.
Proof.
  induction es as [|[k m] es IH]; intros Hn H; [contradiction|]. cbn [find_entry].
  inversion Hn as [|? ? Hk Hn']; subst. destruct H as [H|H].
  - inversion H; subst. now rewrite String.eqb_refl.
  - destruct (String.eqb_spec k name) as [->|_]; [|auto].
    exfalso. apply Hk. change name with (fst (name, n)). now apply in_map.
Qed.
Lemma open_at_file n comps x : wf_tree n -> file_at n comps x -> open_at comps n = x.
Proof.
  intros Hwf H. induction H as [c|es name n comps c Hi Hf IH]; [reflexivity|].
  inversion Hwf as [| | |? Hnd Hch]; subst. destruct (Hch _ _ Hi) as (H1 & H2 & H3 & H4).
  cbn [open_at]. rewrite (proj2 (String.eqb_neq _ _) H1), (proj2 (String.eqb_neq _ _) H2). cbn [orb].
  rewrite (find_entry_in _ _ _ Hnd Hi). auto.
Qed.
Lemma split_on_join_names l : l <> [] -> Forall (fun a => a <> "" /\ a <> "." /\ no_slash a) l ->
  split_on "/" (String.concat "/" l) = l.
Proof.
  intros Hl H. destruct H as [|a l Ha Hf]; [contradiction|]. clear Hl.
  revert a Ha. induction Hf as [|b l Hb Hf IH]; intros a Ha.
  - simpl. apply split_on_none, no_slash_byte, Ha.
  - change (String.concat "/" (a :: b :: l)) with (a ++ String "/" (String.concat "/" (b :: l))).
    rewrite split_on_app, (IH b Hb), split_on_none by apply no_slash_byte, Ha. reflexivity.
Qed.
Lemma open_file_at tree comps x : wf_tree tree -> file_at tree comps x ->
  open_file tree ("." ++ rooted comps) = x.
Proof.
  intros Hwf H. pose proof (file_at_names _ _ _ Hwf H) as Hn.
  unfold open_file, rooted.
  change ("." ++ "/" ++ String.concat "/" comps) with ("." ++ String "/" (String.concat "/" comps)).
  rewrite split_on_app.
  change (split_on "/" ".") with ["."]. cbn [app open_at]. cbn [String.eqb Ascii.eqb Bool.eqb orb].
  destruct comps as [|a comps].
  - inversion H; subst. reflexivity.
  - rewrite split_on_join_names by (assumption || discriminate). now apply open_at_file.
Qed.

(** ** Building files *)
(** [f] is the file section for the [i]-th file, stored at [comps] *)
Definition built_file (h : hashes) (tree : node) (i : N) (comps : list string) (f : File) : Prop :=
  exists content, file_at tree comps (Some content) /\
    f_FileName f = "." ++ rooted comps /\
    f_SPDXIdentifier f = "File" ++ show_N i /\
    f_Checksums f = [MkChecksum "SHA1" (h_sha1 h content); MkChecksum "SHA256" (h_sha256 h content);
                     MkChecksum "MD5" (h_md5 h content)].
Fixpoint built_files (h : hashes) (tree : node) (i : N) (cs : list (list string)) (fs : list File) : Prop :=
  match cs, fs with
  | [], [] => True
  | c :: cs', f :: fs' => built_file h tree i c f /\ built_files h tree (i + 1) cs' fs'
  | _, _ => False
  end.

Lemma build_files_ok h tree cs i fs : wf_tree tree ->
  (forall c, In c cs -> exists x, file_at tree c x) ->
  build_files h tree (map rooted cs) i = Ok fs -> built_files h tree i cs fs.
Proof.
  intros Hwf. revert i fs. induction cs as [|c cs IH]; intros i fs Hin H; cbn [map build_files] in H.
  - inversion H. exact I.
  - unfold build_file_section, get_hashes_for_file_path in H.
    destruct (Hin c (or_introl eq_refl)) as [x Hx].
    rewrite (open_file_at tree c x Hwf Hx) in H.
    destruct x as [content|]; cbn [bindR] in H; [|discriminate].
    destruct (build_files h tree (map rooted cs) (i + 1)) as [fs'| |] eqn:E; cbn [bindR] in H; try discriminate.
    inversion H; subst fs. split.
    + exists content. repeat split; assumption.
    + apply IH; [|assumption]. intros. apply Hin. now right.
Qed.
Lemma build_files_total h tree cs i : wf_tree tree ->
  (forall c, In c cs -> exists x, file_at tree c x) ->
  ((exists fs, build_files h tree (map rooted cs) i = Ok fs) /\ (forall c, In c cs -> ~ file_at tree c None)) \/
  ((exists m, build_files h tree (map rooted cs) i = Err m) /\ exists c, In c cs /\ file_at tree c None).
Proof.
  intros Hwf. revert i. induction cs as [|c cs IH]; intros i Hin; cbn [map build_files].
  - left. split; [eauto|intros ? []].
  - unfold build_file_section, get_hashes_for_file_path.
    destruct (Hin c (or_introl eq_refl)) as [x Hx].
    rewrite (open_file_at tree c x Hwf Hx).
    destruct x as [content|]; cbn [bindR].
    + destruct (IH (i + 1)%N) as [[[fs Hfs] Hno]|[[m Hm] (c' & Hc' & Hf)]];
        [intros; apply Hin; now right| |].
      * left. rewrite Hfs. cbn [bindR]. split; [eauto|]. intros c' [<-|Hc'] Hf; [|now apply (Hno c')].
        pose proof (open_at_file _ _ _ Hwf Hx). pose proof (open_at_file _ _ _ Hwf Hf). congruence.
      * right. rewrite Hm. cbn [bindR]. split; [eauto|]. exists c'. split; [now right|assumption].
    + right. split; [eauto|]. exists c. split; [now left|assumption].
Qed.

Lemma show_N_inj a b : show_N a = show_N b -> a = b.
Proof. intros H. pose proof (read_show_N a) as Ha. rewrite H, read_show_N in Ha. now inversion Ha. Qed.

Lemma built_files_ids h tree cs fs i f : built_files h tree i cs fs -> In f fs ->
  exists k, (i <= k)%N /\ f_SPDXIdentifier f = "File" ++ show_N k.
Proof.
  revert cs i. induction fs as [|g fs IH]; intros [|c cs] i H Hf; cbn in H; try contradiction.
  destruct H as [(x & _ & _ & Hid & _) H]. destruct Hf as [<-|Hf].
  - exists i. split; [lia|assumption].
  - destruct (IH _ _ H Hf) as (k & Hk & E). exists k. split; [lia|assumption].
Qed.
Lemma built_files_nodup h tree cs fs i : built_files h tree i cs fs -> NoDup (map f_SPDXIdentifier fs).
Proof.
  revert cs i. induction fs as [|g fs IH]; intros [|c cs] i H; cbn in H; try contradiction; cbn [map];
    constructor; destruct H as [(x & _ & _ & Hid & _) H]; [|eauto].
  intros Hin. apply in_map_iff in Hin as (f & E & Hf).
  destruct (built_files_ids _ _ _ _ _ _ H Hf) as (k & Hk & Ek).
  rewrite Hid, Ek in E. apply app_inj_l in E. apply show_N_inj in E. lia.
Qed.
Lemma built_files_forall2 h tree cs fs i : built_files h tree i cs fs ->
  Forall2 (fun c f => exists content, file_at tree c (Some content) /\ f_FileName f = "." ++ rooted c /\
    f_Checksums f = [MkChecksum "SHA1" (h_sha1 h content); MkChecksum "SHA256" (h_sha256 h content);
                     MkChecksum "MD5" (h_md5 h content)]) cs fs.
Proof.
  revert cs i. induction fs as [|g fs IH]; intros [|c cs] i H; cbn in H; try contradiction; constructor.
  - destruct H as [(x & H1 & H2 & H3 & H4) _]. eauto.
  - destruct H as [_ H]. eauto.
Qed.

(** ** stripTrash *)
Lemma kept_spec a : kept a = true <-> keep_char a.
Proof.
  unfold keep_char. split.
  - intros H. destruct a as [[] [] [] [] [] [] [] []]; try (vm_compute in H; discriminate);
      vm_compute; tauto.
  - intros [H|H].
    + cbn [list_ascii_of_string] in H. repeat (destruct H as [<-|H]; [reflexivity|]). destruct H.
    + destruct a as [[] [] [] [] [] [] [] []]; try reflexivity; exfalso; vm_compute in H; intuition discriminate.
Qed.
Lemma strip_trash_spec s t : kept_of s t <-> t = strip_trash s.
Proof.
  split.
  - induction 1 as [|a s t Ha H IH|a s t Ha H IH]; cbn [strip_trash]; [reflexivity| |].
    + rewrite (proj2 (kept_spec a) Ha). now f_equal.
    + destruct (kept a) eqn:E; [apply kept_spec in E; contradiction|assumption].
  - intros ->. induction s as [|a s IH]; cbn [strip_trash]; [constructor|].
    destruct (kept a) eqn:E.
    + constructor; [now apply kept_spec|assumption].
    + apply ko_drop; [|assumption]. intros H. apply kept_spec in H. congruence.
Qed.

(** ** Operators *)
Lemma lower_letter a b : lower_byte a = lower_byte b <-> same_letter a b.
Proof.
  split.
  - intros H. destruct (Ascii.ascii_dec a b) as [->|Hne]; [now left|]. right.
    assert (Hcase : forall c, lower_byte c = c \/ exists n, (n < 26)%N /\ c = ascii_of_N (65 + n) /\ lower_byte c = ascii_of_N (97 + n)).
    { intros c. unfold lower_byte. destruct ((65 <=? code c) && (code c <=? 90))%N eqn:E; [|now left].
      right. apply andb_true_iff in E as [E1 E2]. apply N.leb_le in E1, E2.
      exists (code c - 65)%N. split; [lia|]. split.
      - replace (65 + (code c - 65))%N with (code c) by lia. unfold code. now rewrite ascii_N_embedding.
      - f_equal. lia. }
    destruct (Hcase a) as [Ea|(n & Hn & Ea & Ela)], (Hcase b) as [Eb|(m & Hm & Eb & Elb)].
    + congruence.
    + exists m. split; [assumption|]. right. split; [assumption|]. congruence.
    + exists n. split; [assumption|]. left. split; [assumption|]. congruence.
    + exfalso. rewrite Ela, Elb in H.
      assert (97 + n = 97 + m)%N as E.
      { apply (f_equal N_of_ascii) in H. rewrite !N_ascii_embedding in H by lia. exact H. }
      assert (n = m) by lia. subst. congruence.
  - intros [->|(n & Hn & [[-> ->]|[-> ->]])]; [reflexivity| |];
      unfold lower_byte, code; rewrite !N_ascii_embedding by lia;
      rewrite (proj2 (N.leb_le 65 (65 + n))), (proj2 (N.leb_le (65 + n) 90)) by lia; cbn [andb];
      rewrite (proj2 (N.leb_gt (97 + n) 90)) by lia; rewrite andb_false_r; f_equal; lia.
Qed.
Lemma equal_fold_spec s t : equal_fold s t = true <-> same_word s t.
Proof.
  unfold equal_fold. rewrite String.eqb_eq. split.
  - revert t. induction s as [|a s IH]; intros [|b t] H; cbn [lower_bytes] in H; try discriminate; constructor.
    + injection H as H1 H2. now apply lower_letter.
    + injection H as H1 H2. auto.
  - induction 1 as [|a b s t H1 H2 IH]; [reflexivity|]. cbn [lower_bytes].
    f_equal; [now apply lower_letter|assumption].
Qed.

(** ** Pieces of an expression *)
Fixpoint sep_split (s : string) : list string :=
  match s with
  | "" => [""]
  | String a s' =>
      if is_sep a then "" :: sep_split s'
      else match sep_split s' with
           | h :: t => String a h :: t
           | [] => [String a ""]
           end
  end.
Lemma replaced_split s :
  split_on " " (replace_byte "+" " " (replace_byte ")" " " (replace_byte "(" " " s))) = sep_split s.
Proof.
  induction s as [|a s IH]; [reflexivity|]. cbn [replace_byte split_on sep_split]. rewrite IH.
  unfold is_sep.
  destruct (Ascii.eqb_spec a "(") as [->|H1]; [reflexivity|].
  destruct (Ascii.eqb_spec a ")") as [->|H2]; [reflexivity|].
  destruct (Ascii.eqb_spec a "+") as [->|H3]; [reflexivity|].
  destruct (Ascii.eqb_spec a " ") as [->|H4]; reflexivity.
Qed.
Lemma sep_split_head s : exists h t, sep_split s = h :: t /\ sep_free h = true /\
  exists b, s = h ++ b /\ (b = "" \/ exists c b', b = String c b' /\ is_sep c = true).
Proof.
  induction s as [|a s (h & t & E & Hf & b & Hb & Hs)]; cbn [sep_split].
  - exists "", []. repeat split. exists "". auto.
  - destruct (is_sep a) eqn:Ea.
    + exists "", (sep_split s). repeat split. exists (String a s). split; [reflexivity|]. right. eauto.
    + rewrite E. exists (String a h), t. split; [reflexivity|]. split; [cbn; now rewrite Ea, Hf|].
      exists b. split; [cbn; now rewrite Hb|assumption].
Qed.
Lemma sep_free_app s t : sep_free (s ++ t) = sep_free s && sep_free t.
Proof. induction s as [|a s IH]; cbn; [reflexivity|]. now rewrite IH, andb_assoc. Qed.

Lemma piece_first s t b : s = t ++ b -> sep_free t = true ->
  (b = "" \/ exists c b', b = String c b' /\ is_sep c = true) -> exists r, sep_split s = t :: r.
Proof.
  revert s. induction t as [|a t IH]; intros s -> Hf Hb; cbn in *.
  - destruct Hb as [->|(c & b' & -> & Hc)]; cbn; [eauto|]. rewrite Hc. eauto.
  - apply andb_true_iff in Hf as [Ha Hf]. destruct (is_sep a); [discriminate|].
    destruct (IH (t ++ b) eq_refl Hf Hb) as [r ->]. eauto.
Qed.
Lemma sep_split_app a c r : is_sep c = true -> sep_split (a ++ String c r) = (sep_split a ++ sep_split r)%list.
Proof.
  intros Hc. induction a as [|x a IH]; cbn.
  - now rewrite Hc.
  - destruct (is_sep x); [now rewrite IH|]. rewrite IH.
    destruct (sep_split_head a) as (h & t & E & _). rewrite E. reflexivity.
Qed.
Lemma later_piece s t : In t (tl (sep_split s)) ->
  exists a c b, s = a ++ String c (t ++ b) /\ is_sep c = true /\ sep_free t = true /\
    (b = "" \/ exists c b', b = String c b' /\ is_sep c = true).
Proof.
  induction s as [|x s IH]; cbn [sep_split]; [intros []|].
  destruct (is_sep x) eqn:Ex.
  - cbn [tl]. intros H. destruct (sep_split_head s) as (h & r & E & Hf & b & Hb & Hs).
    rewrite E in H, IH. destruct H as [<-|H].
    + exists "", x, b. rewrite Hb. auto.
    + destruct (IH H) as (a & c & b' & -> & H1). exists (String x a), c, b'. auto.
  - destruct (sep_split_head s) as (h & r & E & _). rewrite E in IH |- *. cbn [tl] in *. intros H.
    destruct (IH H) as (a & c & b' & -> & H1). exists (String x a), c, b'. auto.
Qed.
Lemma piece_in s t : piece s t <-> In t (sep_split s).
Proof.
  split.
  - intros (a & b & -> & Hf & Ha & Hb).
    destruct (piece_first (t ++ b) t b eq_refl Hf Hb) as [r Hr].
    destruct Ha as [->|(a' & c & -> & Hc)].
    + cbn. rewrite Hr. now left.
    + rewrite app_assoc_s. cbn [append]. rewrite sep_split_app, Hr by assumption.
      apply in_or_app. right. now left.
  - intros H. destruct (sep_split_head s) as (h & r & E & Hf & b & Hb & Hs).
    rewrite E in H. destruct H as [<-|H].
    + exists "", b. auto.
    + destruct (later_piece s t) as (a & c & b' & -> & Hc & Hft & Hb'); [now rewrite E|].
      exists (a ++ String c ""), b'. rewrite app_assoc_s. repeat split; auto. right. eauto.
Qed.

Lemma individual_spec srt expr lic :
  In lic (get_individual_licenses srt expr) <-> individual expr lic.
Proof.
  unfold get_individual_licenses, individual. rewrite sort_by_in, filter_In, in_map_iff, replaced_split.
  rewrite negb_true_iff, !orb_false_iff. unfold operator.
  assert (forall w, equal_fold lic w = false <-> ~ same_word lic w) as Hop.
  { intros w. rewrite <- equal_fold_spec. destruct (equal_fold lic w); intuition congruence. }
  rewrite !Hop, String.eqb_neq. split.
  - intros [(t & E & Ht) [[[H1 H2] H3] H4]]. exists t. rewrite piece_in. intuition.
  - intros (t & Ht & E & H1 & H2). rewrite piece_in in Ht. split; [exists t; auto|]. intuition.
Qed.

(** ** Lines *)
Lemma until_spec content line :
  In line (until_too_long (raw_lines content)) <-> searched_line content line.
Proof.
  unfold searched_line, raw_lines, stream_lines.
  assert (forall l, drop_last_empty l = strip_last_empty l) as ->.
  { induction l as [|x [|y l] IH]; [reflexivity| |].
    - cbn. unfold nonempty. now destruct (String.eqb x "").
    - cbn [drop_last_empty strip_last_empty] in *. now rewrite IH. }
  assert (forall l, fits l = true <-> short l) as Hfit by (intros; unfold fits, short; apply N.ltb_lt).
  generalize (strip_last_empty (split_on (byte 10) content)). intros l.
  induction l as [|x l IH]; cbn [until_too_long].
  - split; [intros []|]. intros (b & r & a & E & _). destruct b; discriminate.
  - destruct (fits x) eqn:Ef.
    + cbn [In]. rewrite IH. split.
      * intros [<-|(b & r & a & -> & H1 & H2 & H3)].
        -- exists [], x, l. repeat split; [constructor|now apply Hfit].
        -- exists (x :: b), r, a. repeat split; auto. constructor; [now apply Hfit|assumption].
      * intros (b & r & a & E & H1 & H2 & H3). destruct b as [|y b]; cbn in E; inversion E; subst.
        -- left. reflexivity.
        -- right. inversion H1; subst. exists b, r, a. auto.
    + split; [intros []|]. intros (b & r & a & E & H1 & H2 & H3).
      destruct b as [|y b]; cbn in E; inversion E; subst.
      * apply Hfit in H2. congruence.
      * inversion H1 as [|? ? Hs _]; subst. apply Hfit in Hs. congruence.
Qed.
Lemma first_cut_unique sep s x y x' y' :
  first_cut sep s x y -> first_cut sep s x' y' -> x = x' /\ y = y'.
Proof. intros H H'. apply cut_first_cut in H, H'. rewrite H in H'. now inversion H'. Qed.
Lemma cut_none_occurs sep s : cut sep s = None -> ~ occurs sep s.
Proof.
  intros H Ho. assert (contains sep s = true) as Hc by now apply contains_true.
  unfold contains in Hc. now rewrite H in Hc.
Qed.
Lemma line_id_spec line lid : In lid (line_id line) <-> line_mentions line lid.
Proof.
  unfold line_id, line_mentions.
  destruct (cut "SPDX-License-Identifier:" line) as [[before after]|] eqn:E.
  - assert (first_cut "SPDX-License-Identifier:" line before after) as Hc by now apply cut_first_cut.
    destruct (Nat.ltb_spec 5 (String.length (strip_trash before))) as [Hl|Hl].
    + split; [intros []|]. intros (b & a & p & t & H1 & H2 & H3 & _).
      assert (b = before /\ a = after) as [-> ->] by (eapply first_cut_unique; eassumption).
      apply strip_trash_spec in H2. subst p. lia.
    + set (text := match cut "*/" after with Some (x, _) => x | None => after end).
      assert (((exists junk, first_cut "*/" after text junk) \/ (~ occurs "*/" after /\ text = after)) /\
              forall t, ((exists junk, first_cut "*/" after t junk) \/ (~ occurs "*/" after /\ t = after)) -> t = text)
        as [Ht Hu].
      { subst text. destruct (cut "*/" after) as [[x y]|] eqn:E2.
        - assert (first_cut "*/" after x y) as Hc2 by now apply cut_first_cut.
          split; [left; eauto|]. intros t [(j & Hj)|[Hno ->]].
          + destruct (first_cut_unique _ _ _ _ _ _ Hj Hc2). assumption.
          + exfalso. apply Hno. apply cut_some in E2. exists x, y. assumption.
        - assert (~ occurs "*/" after) as Hno by now apply cut_none_occurs.
          split; [right; auto|]. intros t [(j & [Hj _])|[_ ->]]; [|reflexivity].
          exfalso. apply Hno. exists t, j. assumption. }
      cbn [In]. split.
      * intros [<-|[]]. exists before, after, (strip_trash before), text.
        repeat split; try assumption; try apply Hc; now apply strip_trash_spec.
      * intros (b & a & p & t & H1 & H2 & H3 & H4 & H5).
        assert (b = before /\ a = after) as [-> ->] by (eapply first_cut_unique; eassumption).
        apply Hu in H4. subst t. apply strip_trash_spec in H5. auto.
  - split; [intros []|]. intros (b & a & p & t & [H1 _] & _).
    assert (~ occurs "SPDX-License-Identifier:" line) as Hno by now apply cut_none_occurs.
    apply Hno. exists b, a. assumption.
Qed.
Lemma sorted_set_spec srt l :
  ordered (fun x => x) (sorted_set srt l) /\ NoDup (sorted_set srt l) /\
  forall x, In x (sorted_set srt l) <-> In x l.
Proof.
  unfold sorted_set. split; [apply sort_by_ordered|]. split.
  - eapply Permutation_NoDup; [symmetry; apply sort_by_perm|]. apply NoDup_nodup.
  - intros x. rewrite sort_by_in. apply nodup_In.
Qed.
Lemma search_spec srt content lid :
  In lid (search_file_ids srt content) <-> exists line, searched_line content line /\ line_mentions line lid.
Proof.
  unfold search_file_ids. rewrite (proj2 (proj2 (sorted_set_spec srt _))), in_flat_map.
  split; intros (l & H1 & H2); exists l; (split; [now apply until_spec|now apply line_id_spec]).
Qed.
