(** Lemmas about the tokenizer. *)
From Verif Require Import GoStr GoStrFacts TvReader SpecTv.

Lemma cut_minimal sep s x y x' y' :
  cut sep s = Some (x, y) -> s = x' ++ sep ++ y' -> String.length x <= String.length x'.
Proof.
  revert x y x'. induction s as [|a s IH]; intros x y x' Hc Hs; rewrite cut_unfold in Hc.
  - destruct (strip_prefix sep "") eqn:E; [|discriminate]. inversion Hc; subst. simpl. lia.
  - destruct (strip_prefix sep (String a s)) eqn:E.
    + inversion Hc; subst. simpl. lia.
    + destruct (cut sep s) as [[u v]|] eqn:Ec; [|discriminate]. inversion Hc; subst.
      destruct x' as [|b x'].
      * simpl in Hs. rewrite Hs in E. rewrite strip_prefix_app in E. discriminate.
      * simpl in Hs. inversion Hs; subst. simpl.
        pose proof (IH u y x' eq_refl eq_refl). lia.
Qed.

Lemma app_eq_length x1 x2 y1 y2 :
  x1 ++ y1 = x2 ++ y2 -> String.length x1 = String.length x2 -> x1 = x2 /\ y1 = y2.
Proof.
  revert x2. induction x1 as [|a x1 IH]; intros [|b x2] H L; simpl in *; try discriminate; auto.
  inversion H; subst. destruct (IH x2) as [-> ->]; auto.
Qed.

Lemma cut_first_cut sep s x y : cut sep s = Some (x, y) <-> first_cut sep s x y.
Proof.
  split.
  - intros H. split; [now apply cut_some|]. intros x' y'. now apply (cut_minimal _ _ _ y).
  - intros [Hs Hm]. destruct (cut sep s) as [[u v]|] eqn:E.
    + pose proof (cut_some _ _ _ _ E) as Hu.
      pose proof (Hm _ _ Hu) as L1. pose proof (cut_minimal _ _ _ _ _ _ E Hs) as L2.
      assert (u = x /\ sep ++ v = sep ++ y) as [-> H].
      { apply app_eq_length; [congruence|lia]. }
      apply app_inj_l in H. now subst.
    + exfalso. assert (contains sep s = true) as C by (apply contains_true; eauto).
      apply contains_false in E. congruence.
Qed.

Lemma occurs_contains s t : occurs s t <-> contains s t = true.
Proof. unfold occurs. symmetry. apply contains_true. Qed.
Lemma not_occurs s t : ~ occurs s t <-> cut s t = None.
Proof.
  rewrite occurs_contains, <- contains_false. destruct (contains s t); split; congruence.
Qed.

Definition ready (l : list (string * string)) : tvr := MkTvr false l "" "".

Lemma read_all_app r l1 l2 :
  read_all r (l1 ++ l2) = let* r' := read_all r l1 in read_all r' l2.
Proof.
  revert r. induction l1 as [|x l1 IH]; intros r; simpl; [reflexivity|].
  destruct (fits x); [|reflexivity].
  destruct (read_next_line r (drop_cr x)) as [r'| |]; simpl; auto.
Qed.

Lemma drop_last_empty_spec l : drop_last_empty l = strip_last_empty l.
Proof.
  induction l as [|x [|y l] IH]; simpl in *; auto.
  - unfold nonempty. now destruct (String.eqb x "").
  - now rewrite IH.
Qed.
Lemma raw_lines_spec s : raw_lines s = stream_lines s.
Proof. apply drop_last_empty_spec. Qed.

Lemma drop_last_empty_app l1 l2 : l2 <> [] ->
  drop_last_empty (l1 ++ l2) = (l1 ++ drop_last_empty l2)%list.
Proof.
  intros H2. induction l1 as [|x l1 IH]; [reflexivity|].
  simpl. destruct (l1 ++ l2)%list eqn:E.
  - apply app_eq_nil in E as [_ E]. congruence.
  - now rewrite IH.
Qed.

(** Lines of a concatenation after a line feed. *)
Lemma raw_lines_app b rest :
  raw_lines (b ++ LF ++ rest) = (split_on (byte 10) b ++ raw_lines rest)%list.
Proof.
  unfold raw_lines, LF. simpl (String _ "" ++ rest). rewrite split_on_app.
  apply drop_last_empty_app, split_on_nonnil.
Qed.
Lemma raw_lines_term b : raw_lines (b ++ LF) = split_on (byte 10) b.
Proof.
  rewrite <- (app_nil_r_s LF), raw_lines_app. simpl. apply app_nil_r.
Qed.

(** ** Soundness and completeness with respect to the grammar *)

Lemma skippable_dec l :
  (skippable l /\ (String.eqb (trim_left l) "" || has_prefix "#" (trim_left l)) = true) \/
  (~ skippable l /\ (String.eqb (trim_left l) "" || has_prefix "#" (trim_left l)) = false).
Proof.
  unfold skippable. destruct (String.eqb_spec (trim_left l) "") as [E|E]; simpl.
  - left. auto.
  - destruct (has_prefix "#" (trim_left l)) eqn:P.
    + left. split; [|reflexivity]. right. exact (proj1 (has_prefix_spec "#" _) P).
    + right. split; [|reflexivity]. intros [H|H]; [auto|].
      apply (has_prefix_spec "#") in H. congruence.
Qed.

Definition pre (ps : list (string * string)) (r : tvr) : tvr :=
  MkTvr (tv_midtext r) (ps ++ tv_list r) (tv_tag r) (tv_value r).

Lemma read_next_line_pre ps r l :
  read_next_line (pre ps r) l = match read_next_line r l with Ok r' => Ok (pre ps r') | Err m => Err m | Panic => Panic end.
Proof.
  destruct r as [m li tg vl]. unfold read_next_line, pre. simpl. destruct m.
  - unfold read_midtext. simpl. destruct (cut "</text>" l) as [[x y]|]; simpl; [|reflexivity].
    now rewrite app_assoc.
  - unfold read_ready. simpl.
    destruct (trim_left l =? "") eqn:E1; [reflexivity|].
    destruct (has_prefix "#" (trim_left l)); [reflexivity|].
    destruct (cut ":" (trim_left l)) as [[t rest]|]; [|reflexivity].
    destruct (cut "<text>" rest) as [[b a]|]; simpl; [|now rewrite app_assoc].
    destruct (cut "</text>" a) as [[v j]|]; simpl; [now rewrite app_assoc|reflexivity].
Qed.
Lemma read_all_pre ps r ls :
  read_all (pre ps r) ls = match read_all r ls with Ok r' => Ok (pre ps r') | Err m => Err m | Panic => Panic end.
Proof.
  revert r. induction ls as [|l ls IH]; intros r; simpl; [reflexivity|].
  destruct (fits l); [|reflexivity]. rewrite read_next_line_pre.
  destruct (read_next_line r (drop_cr l)); simpl; auto.
Qed.
Lemma pre_nil r : pre [] r = r.
Proof. now destruct r. Qed.

(** Reading from a ready state is reading from scratch, prefixed. *)
Lemma read_all_ready ps ls :
  read_all (ready ps) ls = match read_all tvr_init ls with Ok r' => Ok (pre ps r') | Err m => Err m | Panic => Panic end.
Proof.
  rewrite <- read_all_pre. unfold ready, pre, tvr_init. simpl. now rewrite app_nil_r.
Qed.

Definition run_lines (ls : list string) : res (list (string * string)) :=
  let* r := read_all tvr_init ls in finalize r.

Lemma read_all_never_panics r ls : read_all r ls <> Panic.
Proof.
  revert r. induction ls as [|l ls IH]; intros r; simpl; [discriminate|].
  destruct (fits l); [|discriminate].
  unfold read_next_line. destruct (tv_midtext r).
  - unfold read_midtext. destruct (cut "</text>" (drop_cr l)) as [[x y]|]; simpl; apply IH.
  - unfold read_ready. destruct (trim_left (drop_cr l) =? ""); [apply IH|].
    destruct (has_prefix "#" (trim_left (drop_cr l))); [apply IH|].
    destruct (cut ":" (trim_left (drop_cr l))) as [[t rest]|]; [|discriminate].
    destruct (cut "<text>" rest) as [[b a]|]; simpl; [|apply IH].
    destruct (cut "</text>" a) as [[v j]|]; simpl; apply IH.
Qed.
Lemma read_tag_values_never_panics s : read_tag_values s <> Panic.
Proof.
  unfold read_tag_values. destruct (read_all tvr_init (raw_lines s)) as [r| |] eqn:E; simpl.
  - unfold finalize. destruct (tv_midtext r); discriminate.
  - discriminate.
  - now apply read_all_never_panics in E.
Qed.

Lemma concat_cons x l : String.concat "" (x :: l) = x ++ String.concat "" l.
Proof. destruct l; simpl; [now rewrite app_nil_r_s|reflexivity]. Qed.
Lemma concat_app l1 l2 : String.concat "" (l1 ++ l2) = String.concat "" l1 ++ String.concat "" l2.
Proof.
  induction l1 as [|x l1 IH]; [reflexivity|].
  rewrite <- app_comm_cons, !concat_cons, IH. now rewrite app_assoc_s.
Qed.

(** Lines inside a text block. *)
Lemma read_all_mid ps tag v ls r :
  read_all (MkTvr true ps tag v) ls = Ok r ->
  (exists mid last rest x junk,
      ls = (mid ++ last :: rest)%list /\ Forall (fun m => cut "</text>" (drop_cr m) = None) mid /\
      cut "</text>" (drop_cr last) = Some (x, junk) /\
      forallb fits (mid ++ [last]) = true /\
      read_all (ready (ps ++ [(tag, v ++ String.concat "" (map (fun m => drop_cr m ++ LF) mid) ++ x)])) rest = Ok r)
  \/ (Forall (fun m => cut "</text>" (drop_cr m) = None) ls /\ tv_midtext r = true).
Proof.
  revert v. induction ls as [|l ls IH]; intros v H; simpl in H.
  - inversion H; subst. right. split; [constructor|reflexivity].
  - destruct (fits l) eqn:F; [|discriminate].
    unfold read_next_line, read_midtext in H. simpl in H.
    destruct (cut "</text>" (drop_cr l)) as [[x junk]|] eqn:C; simpl in H.
    + left. exists [], l, ls, x, junk. simpl. rewrite F. repeat split; auto.
    + apply IH in H. destruct H as [(mid & last & rest & x & junk & -> & H1 & H2 & H3 & H4)|[H1 H2]].
      * left. exists (l :: mid), last, rest, x, junk. cbn [map]. rewrite concat_cons. simpl. rewrite F.
        repeat split; auto.
        rewrite !app_assoc_s in *. exact H4.
      * right. split; [constructor; assumption|assumption].
Qed.

Lemma concat_block v0 mid x :
  (v0 ++ LF) ++ String.concat "" (map (fun m => m ++ LF) mid) ++ x = String.concat LF (v0 :: mid ++ [x]).
Proof.
  revert v0. induction mid as [|m mid IH]; intros v0.
  - simpl. now rewrite app_assoc_s.
  - change (String.concat LF (v0 :: (m :: mid) ++ [x])) with (v0 ++ LF ++ String.concat LF (m :: mid ++ [x])).
    rewrite <- IH. cbn [map]. rewrite concat_cons, ?app_assoc_s. reflexivity.
Qed.

Lemma item_ready l tag rest : item l tag rest <->
  (trim_left l =? "") = false /\ has_prefix "#" (trim_left l) = false /\
  exists t, cut ":" (trim_left l) = Some (t, rest) /\ tag = trim_space t.
Proof.
  unfold item. split.
  - intros [Hs (t & Hc & ->)].
    destruct (skippable_dec l) as [[H _]|[_ H]]; [contradiction|].
    apply orb_false_iff in H as [H1 H2]. repeat split; auto.
    exists t. split; [now apply cut_first_cut|reflexivity].
  - intros (H1 & H2 & t & Hc & ->). split.
    + destruct (skippable_dec l) as [[_ H]|[H _]]; [|exact H].
      rewrite H1, H2 in H. discriminate.
    + exists t. split; [now apply cut_first_cut|reflexivity].
Qed.

Lemma run_lines_sound ls : forall ps r,
  read_all tvr_init ls = Ok r -> tv_midtext r = false -> tv_list r = ps ->
  tokens (map drop_cr ls) ps /\ forallb fits ls = true.
Proof.
  remember (length ls) as n eqn:Hn. revert ls Hn.
  induction n as [n IH] using lt_wf_ind. intros ls Hn ps r H Hm Hps.
  destruct ls as [|l ls]; simpl in H.
  { inversion H; subst. simpl. split; [constructor|reflexivity]. }
  destruct (fits l) eqn:F; [|discriminate].
  assert (IHt : forall ls' p' r', length ls' < n ->
            read_all (ready [p']) ls' = Ok r' -> tv_midtext r' = false ->
            exists ps', tv_list r' = p' :: ps' /\ tokens (map drop_cr ls') ps' /\ forallb fits ls' = true).
  { intros ls' p' r' L Hr Hm'. rewrite read_all_ready in Hr.
    destruct (read_all tvr_init ls') as [r0| |] eqn:E0; [|discriminate|discriminate].
    inversion Hr; subst. simpl in Hm'. simpl. exists (tv_list r0). split; [reflexivity|].
    eapply IH; eauto. }
  unfold read_next_line in H. simpl in H. unfold read_ready in H.
  destruct (trim_left (drop_cr l) =? "") eqn:E1.
  { destruct (IH (length ls)) with (ls := ls) (ps := ps) (r := r) as [T1 T2]; auto.
    - subst n. simpl. lia.
    - simpl. rewrite F, T2. split; [|reflexivity]. apply tk_skip; [|exact T1].
      left. now apply String.eqb_eq. }
  destruct (has_prefix "#" (trim_left (drop_cr l))) eqn:E2.
  { destruct (IH (length ls)) with (ls := ls) (ps := ps) (r := r) as [T1 T2]; auto.
    - subst n. simpl. lia.
    - simpl. rewrite F, T2. split; [|reflexivity]. apply tk_skip; [|exact T1].
      right. exact (proj1 (has_prefix_spec "#" _) E2). }
  destruct (cut ":" (trim_left (drop_cr l))) as [[t rest]|] eqn:E3; [|discriminate].
  assert (Hitem : item (drop_cr l) (trim_space t) rest) by (apply item_ready; eauto).
  destruct (cut "<text>" rest) as [[b a]|] eqn:E4; simpl in H.
  - destruct (cut "</text>" a) as [[v j]|] eqn:E5; simpl in H.
    + apply IHt in H; [|subst n; simpl; lia|exact Hm].
      destruct H as (ps' & Hl & T1 & T2). rewrite Hps in Hl. subst ps.
      simpl. rewrite F, T2. split; [|reflexivity].
      apply cut_first_cut in E4, E5. eapply tk_text; eauto.
    + apply read_all_mid in H. destruct H as [(mid & last & rest' & x & junk & -> & H1 & H2 & H3 & H4)|[_ H2]]; [|congruence].
      simpl in H4. apply IHt in H4; [|subst n; simpl; rewrite app_length; simpl; lia|exact Hm].
      destruct H4 as (ps' & Hl & T1 & T2). rewrite Hps in Hl. subst ps.
      split.
      * simpl. rewrite map_app. simpl.
        rewrite <- (map_map drop_cr (fun m => m ++ LF)), concat_block.
        apply cut_first_cut in E4, H2. apply not_occurs in E5.
        eapply tk_block; eauto.
        rewrite Forall_map. eapply Forall_impl; [|exact H1]. intros m Hmm. now apply not_occurs.
      * simpl. rewrite F. simpl. rewrite forallb_app in *. simpl in *.
        rewrite andb_true_r in H3. apply andb_true_iff in H3 as [-> ->]. now rewrite T2.
  - apply IHt in H; [|subst n; simpl; lia|exact Hm].
    destruct H as (ps' & Hl & T1 & T2). rewrite Hps in Hl. subst ps.
    simpl. rewrite F, T2. split; [|reflexivity].
    apply tk_plain; auto. now apply not_occurs.
Qed.

Lemma read_all_mid_complete ps tag v mid last x junk rest :
  Forall (fun m => cut "</text>" (drop_cr m) = None) mid ->
  cut "</text>" (drop_cr last) = Some (x, junk) ->
  forallb fits (mid ++ [last]) = true ->
  read_all (MkTvr true ps tag v) (mid ++ last :: rest) =
  read_all (ready (ps ++ [(tag, v ++ String.concat "" (map (fun m => drop_cr m ++ LF) mid) ++ x)])) rest.
Proof.
  revert v. induction mid as [|m mid IH]; intros v Hm Hl Hf; cbn [map]; rewrite ?concat_cons; simpl in *.
  - rewrite andb_true_r in Hf. rewrite Hf. unfold read_next_line, read_midtext. simpl. now rewrite Hl.
  - apply andb_true_iff in Hf as [F1 F2]. rewrite F1. inversion Hm; subst.
    unfold read_next_line at 1, read_midtext. simpl. rewrite H1. simpl. rewrite IH by auto.
    rewrite !app_assoc_s. reflexivity.
Qed.

Lemma run_lines_complete ls' ps : tokens ls' ps -> forall ls, ls' = map drop_cr ls ->
  forallb fits ls = true -> read_all tvr_init ls = Ok (ready ps).
Proof.
  induction 1 as [|l ls0 ps Hsk _ IH|l tag rest ls0 ps Hit Hno _ IH
    |l tag rest b a v j ls0 ps Hit Hc1 Hc2 _ IH
    |l tag rest b v0 mid last v1 j ls0 ps Hit Hc1 Hno Hmid Hlast _ IH]; intros ls Hls Hf.
  - destruct ls; [reflexivity|discriminate].
  - destruct ls as [|l0 ls]; [discriminate|]. simpl in Hls. inversion Hls; subst.
    simpl in Hf. apply andb_true_iff in Hf as [F1 F2]. simpl. rewrite F1.
    unfold read_next_line, read_ready. simpl.
    destruct (skippable_dec (drop_cr l0)) as [[_ Hd]|[Hd _]]; [|contradiction].
    destruct (trim_left (drop_cr l0) =? ""); [apply IH; auto|].
    simpl in Hd. rewrite Hd. apply IH; auto.
  - destruct ls as [|l0 ls]; [discriminate|]. simpl in Hls. inversion Hls; subst.
    simpl in Hf. apply andb_true_iff in Hf as [F1 F2]. simpl. rewrite F1.
    unfold read_next_line, read_ready. simpl.
    apply item_ready in Hit as (-> & -> & t & -> & ->).
    apply not_occurs in Hno. rewrite Hno. simpl.
    change (MkTvr false [(trim_space t, trim_space rest)] "" "") with (ready [(trim_space t, trim_space rest)]).
    rewrite read_all_ready, (IH ls) by auto. reflexivity.
  - destruct ls as [|l0 ls]; [discriminate|]. simpl in Hls. inversion Hls; subst.
    simpl in Hf. apply andb_true_iff in Hf as [F1 F2]. simpl. rewrite F1.
    unfold read_next_line, read_ready. simpl.
    apply item_ready in Hit as (-> & -> & t & -> & ->).
    apply cut_first_cut in Hc1, Hc2. rewrite Hc1, Hc2. simpl.
    change (MkTvr false [(trim_space t, v)] "" "") with (ready [(trim_space t, v)]).
    rewrite read_all_ready, (IH ls) by auto. reflexivity.
  - destruct ls as [|l0 ls]; [discriminate|]. simpl in Hls. inversion Hls as [[Hl Hrest]]; subst.
    symmetry in Hrest. apply map_eq_app in Hrest as (mid' & tl & -> & <- & Htl).
    destruct tl as [|last' ls1]; [discriminate|]. simpl in Htl. inversion Htl; subst.
    simpl in Hf. apply andb_true_iff in Hf as [F1 F2].
    rewrite forallb_app in F2. simpl in F2.
    apply andb_true_iff in F2 as [F2 F3]. apply andb_true_iff in F3 as [F3 F4].
    simpl. rewrite F1. unfold read_next_line, read_ready. simpl.
    apply item_ready in Hit as (-> & -> & t & -> & ->).
    apply cut_first_cut in Hc1. apply not_occurs in Hno. rewrite Hc1, Hno. simpl.
    apply cut_first_cut in Hlast.
    rewrite (read_all_mid_complete _ _ _ mid' last' v1 j ls1); auto.
    + simpl ([] ++ _)%list. rewrite read_all_ready, (IH ls1) by auto.
      unfold pre. simpl.
      rewrite <- (map_map drop_cr (fun m => m ++ LF)), concat_block. reflexivity.
    + rewrite Forall_map in Hmid. eapply Forall_impl; [|exact Hmid]. intros m Hm. now apply not_occurs.
    + rewrite forallb_app. simpl. now rewrite F2, F3.
Qed.

Lemma fits_short l : fits l = true <-> short l.
Proof. unfold fits, short. apply N.ltb_lt. Qed.
Lemma forallb_fits ls : forallb fits ls = true <-> Forall short ls.
Proof.
  rewrite forallb_forall, Forall_forall. split; intros H x Hx; apply fits_short; auto.
Qed.

(** The reader accepts exactly the grammar. *)
Lemma read_tag_values_iff s ps :
  read_tag_values s = Ok ps <->
  tokens (map drop_cr (stream_lines s)) ps /\ Forall short (stream_lines s).
Proof.
  unfold read_tag_values. rewrite raw_lines_spec. split.
  - destruct (read_all tvr_init (stream_lines s)) as [r| |] eqn:E; simpl; try discriminate.
    unfold finalize. destruct (tv_midtext r) eqn:M; [discriminate|]. intros H. inversion H; subst.
    rewrite <- forallb_fits. eapply run_lines_sound; eauto.
  - rewrite <- forallb_fits. intros [H1 H2]. erewrite run_lines_complete; eauto. reflexivity.
Qed.

(** ** Concatenation *)
Lemma read_tag_values_app a b ps : 
  read_tag_values (a ++ LF) = Ok ps ->
  read_tag_values (a ++ LF ++ b) = let* qs := read_tag_values b in Ok (ps ++ qs)%list.
Proof.
  unfold read_tag_values. rewrite raw_lines_term, raw_lines_app, read_all_app.
  destruct (read_all tvr_init (split_on (byte 10) a)) as [r| |] eqn:E; simpl; try discriminate.
  unfold finalize at 1. destruct (tv_midtext r) eqn:M; [discriminate|]. intros H. inversion H; subst.
  assert (r = ready (tv_list r)) as ->.
  { pose proof (run_lines_sound _ _ _ E M eq_refl) as [T1 T2].
    pose proof (run_lines_complete _ _ T1 _ eq_refl T2) as C. rewrite E in C. now inversion C. }
  rewrite read_all_ready. simpl.
  destruct (read_all tvr_init (raw_lines b)) as [r2| |]; simpl; auto.
  unfold finalize. simpl. destruct (tv_midtext r2); reflexivity.
Qed.

(** ** Reading back one printed item *)
Lemma drop_cr_app s t : t <> "" -> drop_cr (s ++ t) = s ++ drop_cr t.
Proof.
  intros Ht. unfold drop_cr, trim_suffix, has_suffix. rewrite srev_app_distr.
  change (srev (String CR "")) with (String CR "").
  assert (srev t <> "") as Hr by (intros H; apply (proj1 (srev_nil t)) in H; contradiction).
  destruct (srev t) as [|a u] eqn:E; [congruence|].
  unfold has_prefix, trim_prefix. cbn [strip_prefix append].
  destruct (Ascii.eqb CR a); [|reflexivity].
  rewrite srev_app_distr, srev_involutive. reflexivity.
Qed.
Lemma drop_cr_nil : drop_cr "" = "".
Proof. reflexivity. Qed.
Lemma drop_cr_ends s : ends_space s = false -> drop_cr s = s.
Proof.
  unfold ends_space, drop_cr, trim_suffix, has_suffix. intros H.
  change (srev (String CR "")) with (String CR "").
  destruct (srev s) as [|a u] eqn:E.
  - reflexivity.
  - unfold has_prefix. cbn [strip_prefix]. destruct (Ascii.eqb_spec CR a) as [<-|]; [|reflexivity].
    cbn in H. discriminate.
Qed.
Lemma drop_cr_cases s : drop_cr s = s \/ s = drop_cr s ++ String CR "".
Proof.
  unfold drop_cr, trim_suffix. destruct (has_suffix (String CR "") s) eqn:E; [|now left].
  right. apply has_suffix_spec in E as [r ->].
  rewrite srev_app_distr, trim_prefix_app, srev_involutive. reflexivity.
Qed.
Lemma drop_cr_no_crlf s t : contains (String CR LF) (s ++ LF ++ t) = false -> drop_cr s = s.
Proof.
  intros H. destruct (drop_cr_cases s) as [E|E]; [exact E|].
  exfalso.
  assert (contains (String CR LF) (s ++ LF ++ t) = true); [|congruence].
  apply contains_true. exists (drop_cr s), t. rewrite E at 1. now rewrite app_assoc_s.
Qed.

Lemma has_byte_lf s : contains LF s = has_byte (byte 10) s.
Proof. apply contains_byte. Qed.

Lemma good_tag_line t rest : good_tag t ->
  trim_left (t ++ ":" ++ rest) = t ++ ":" ++ rest /\
  (t ++ ":" ++ rest =? "") = false /\ has_prefix "#" (t ++ ":" ++ rest) = false /\
  cut ":" (t ++ ":" ++ rest) = Some (t, rest).
Proof.
  intros (H1 & H2 & H3 & H4). apply trim_space_id in H1 as [Hs He].
  rewrite contains_byte in H2. repeat split.
  - apply trim_left_id. destruct t as [|a t]; [destruct rest as [|b [|c rest]]; reflexivity|].
    change (":" ++ rest) with (String ":" rest). rewrite starts_space_app; [exact Hs|discriminate|reflexivity].
  - now destruct t.
  - destruct t as [|a t]; [reflexivity|].
    apply has_prefix_false in H4. apply has_prefix_false.
    cbn [strip_prefix append] in *. destruct (Ascii.eqb "#" a); [discriminate|reflexivity].
  - change (":" ++ rest) with (String ":" rest). now apply cut_byte_app.
Qed.

Lemma read_ready_plain ps t v : good_tag t -> good_line_value v ->
  read_ready (ready ps) (drop_cr (t ++ ": " ++ v)) = Ok (ready (ps ++ [(t, v)])).
Proof.
  intros Ht (V1 & V2 & V3).
  assert (drop_cr (t ++ ": " ++ v) = t ++ ": " ++ v) as ->.
  { rewrite drop_cr_app by discriminate. f_equal. destruct v as [|a v]; [reflexivity|].
    rewrite drop_cr_app by discriminate. f_equal. apply drop_cr_ends.
    now apply trim_space_id in V2 as [_ ->]. }
  change (": " ++ v) with (":" ++ (String " " v)).
  destruct (good_tag_line t (String " " v) Ht) as (E1 & E2 & E3 & E4).
  unfold read_ready. rewrite E1, E2, E3, E4.
  apply contains_false in V3.
  assert (cut "<text>" (String " " v) = None) as ->.
  { rewrite cut_unfold. cbn [strip_prefix]. change (Ascii.eqb "<" " ") with false. cbv iota. now rewrite V3. }
  rewrite trim_space_space, V2. destruct Ht as (-> & _). reflexivity.
Qed.

Lemma read_mid_text w : forall ps tag acc,
  contains "</text>" w = false -> contains (String CR LF) w = false ->
  forallb fits (split_on (byte 10) (w ++ "</text>")) = true ->
  read_all (MkTvr true ps tag acc) (split_on (byte 10) (w ++ "</text>")) = Ok (ready (ps ++ [(tag, acc ++ w)])).
Proof.
  remember (String.length w) as n eqn:Hn. revert w Hn.
  induction n as [n IH] using lt_wf_ind. intros w Hn ps tag acc Hc Hr Hf.
  destruct (cut LF w) as [[x y]|] eqn:E.
  - apply cut_byte_some in E as [-> Hx].
    assert (L : String.length y < n) by (subst n; rewrite app_length_s; simpl; lia).
    rewrite app_assoc_s in *. change (String (byte 10) y ++ "</text>") with (String (byte 10) (y ++ "</text>")) in *.
    rewrite split_on_app, split_on_none in * by exact Hx.
    simpl in Hf. apply andb_true_iff in Hf as [F1 F2].
    cbn [app read_all]. rewrite F1.
    rewrite (drop_cr_no_crlf x y) by exact Hr.
    unfold read_next_line, read_midtext. cbn [tv_midtext tv_list tv_tag tv_value].
    apply contains_app_false in Hc as [Hc1 Hc2].
    rewrite (proj1 (contains_false _ _) Hc1). cbn [bindR].
    rewrite (IH (String.length y)); auto.
    + unfold LF. rewrite !app_assoc_s. reflexivity.
    + change (String (byte 10) y) with (LF ++ y) in Hc2. now apply contains_app_false in Hc2 as [_ ->].
    + apply contains_app_false in Hr as [_ Hr]. change (String (byte 10) y) with (LF ++ y) in Hr.
      now apply contains_app_false in Hr as [_ ->].
  - apply cut_byte_none in E.
    assert (N : has_byte (byte 10) (w ++ "</text>") = false) by (rewrite has_byte_app, E; reflexivity).
    rewrite split_on_none in * by exact N.
    simpl in Hf. rewrite andb_true_r in Hf. cbn [read_all]. rewrite Hf.
    rewrite drop_cr_app by discriminate. change (drop_cr "</text>") with "</text>".
    unfold read_next_line, read_midtext. cbn [tv_midtext tv_list tv_tag tv_value].
    change "</text>" with ("</text>" ++ "") at 2.
    rewrite cut_app_head; [reflexivity|reflexivity|]. now apply contains_false.
Qed.

(** One item whose value may go into a text block. *)
Lemma read_text_item ps t v : good_tag t -> good_text_value v ->
  forallb fits (split_on (byte 10) (t ++ ": " ++ (if has_newline v then "<text>" ++ v ++ "</text>" else v))) = true ->
  read_all (ready ps) (split_on (byte 10) (t ++ ": " ++ (if has_newline v then "<text>" ++ v ++ "</text>" else v)))
  = Ok (ready (ps ++ [(t, v)])).
Proof.
  intros Ht Hv Hf. unfold good_text_value in Hv. unfold has_newline in *.
  pose proof Ht as (_ & _ & Tn & _). rewrite has_byte_lf in Tn.
  destruct (contains LF v) eqn:C.
  - destruct Hv as [V1 V2]. apply contains_true in C as (x0 & y0 & C).
    destruct (cut LF v) as [[x y]|] eqn:E.
    2:{ apply cut_byte_none in E. rewrite C, !has_byte_app in E. unfold LF in E. simpl in E.
        rewrite orb_true_r in E. discriminate. }
    clear x0 y0 C. apply cut_byte_some in E as [-> Hx].
    assert (R : t ++ ": " ++ "<text>" ++ (x ++ String (byte 10) y) ++ "</text>"
              = (t ++ ": <text>" ++ x) ++ String (byte 10) (y ++ "</text>")).
    { rewrite !app_assoc_s. simpl. rewrite ?app_assoc_s. reflexivity. }
    rewrite R in *. clear R. rewrite split_on_app in *.
    rewrite (split_on_none _ (t ++ ": <text>" ++ x)) in *
      by (rewrite !has_byte_app, Tn, Hx; reflexivity).
    cbn [app forallb] in Hf. apply andb_true_iff in Hf as [F1 F2].
    cbn [app read_all]. rewrite F1.
    assert (D : drop_cr (t ++ ": <text>" ++ x) = t ++ ": <text>" ++ x).
    { rewrite drop_cr_app by discriminate. f_equal. destruct x as [|a x]; [reflexivity|].
      rewrite drop_cr_app by discriminate. f_equal. now apply drop_cr_no_crlf with (t := y). }
    rewrite D. change (": <text>" ++ x) with (":" ++ (" " ++ "<text>" ++ x)).
    destruct (good_tag_line t (" " ++ "<text>" ++ x) Ht) as (E1 & E2 & E3 & E4).
    unfold read_next_line, read_ready, ready at 1. cbn [tv_midtext]. rewrite E1, E2, E3, E4.
    rewrite (cut_app_head "<" "text>" " " x) by reflexivity.
    apply contains_app_false in V1 as [V1 V1'].
    rewrite (proj1 (contains_false _ _) V1). cbn [bindR].
    rewrite read_mid_text.
    + destruct Ht as (-> & _). unfold ready. simpl. rewrite app_assoc_s. reflexivity.
    + change (String (byte 10) y) with (LF ++ y) in V1'. now apply contains_app_false in V1' as [_ ->].
    + apply contains_app_false in V2 as [_ V2]. change (String (byte 10) y) with (LF ++ y) in V2.
      now apply contains_app_false in V2 as [_ ->].
    + exact F2.
  - destruct Hv as [V1 V2].
    pose proof C as C'. rewrite has_byte_lf in C'.
    rewrite split_on_none in * by (rewrite !has_byte_app, Tn, C'; reflexivity).
    cbn [forallb] in Hf. rewrite andb_true_r in Hf. cbn [read_all]. rewrite Hf.
    unfold read_next_line. cbn [tv_midtext ready].
    change (MkTvr false ps "" "") with (ready ps).
    rewrite read_ready_plain; [reflexivity|exact Ht|]. split; auto.
Qed.

Lemma read_plain_item ps t v : good_tag t -> good_line_value v -> fits (t ++ ": " ++ v) = true ->
  read_all (ready ps) (split_on (byte 10) (t ++ ": " ++ v)) = Ok (ready (ps ++ [(t, v)])).
Proof.
  intros Ht Hv Hf. pose proof Ht as (_ & _ & Tn & _). rewrite has_byte_lf in Tn.
  pose proof Hv as (Vn & _). rewrite has_byte_lf in Vn.
  rewrite split_on_none by (rewrite !has_byte_app, Tn, Vn; reflexivity).
  cbn [read_all]. rewrite Hf. unfold read_next_line. cbn [tv_midtext ready].
  change (MkTvr false ps "" "") with (ready ps).
  rewrite read_ready_plain; auto.
Qed.

Lemma read_skipped ps ls : Forall (fun l => skippable (drop_cr l)) ls -> forallb fits ls = true ->
  read_all (ready ps) ls = Ok (ready ps).
Proof.
  induction ls as [|l ls IH]; intros H F; [reflexivity|].
  inversion H; subst. simpl in F. apply andb_true_iff in F as [F1 F2].
  simpl. rewrite F1. unfold read_next_line, read_ready. simpl.
  destruct (skippable_dec (drop_cr l)) as [[_ Hd]|[Hd _]]; [|contradiction].
  destruct (trim_left (drop_cr l) =? ""); [apply IH; auto|].
  simpl in Hd. rewrite Hd. apply IH; auto.
Qed.

(** *** C03: printing then reading *)
Lemma print_read_all l : forall ps,
  Forall (fun p => good_tag (fst p) /\ good_text_value (snd p)) l ->
  forallb fits (raw_lines (print_pairs l)) = true ->
  read_all (ready ps) (raw_lines (print_pairs l)) = Ok (ready (ps ++ l)).
Proof.
  induction l as [|[t v] l IH]; intros ps H F.
  - cbn. now rewrite app_nil_r.
  - inversion H as [|? ? [Ht Hv] Hl]; subst. cbn [fst snd] in *.
    unfold print_pairs in *. cbn [map] in *. rewrite concat_cons in *.
    unfold print_pair at 1 in F. unfold print_pair at 1. cbn [fst snd] in *.
    set (body := if has_newline v then "<text>" ++ v ++ "</text>" else v) in *.
    rewrite !app_assoc_s in *.
    replace (t ++ ": " ++ body ++ LF ++ String.concat "" (map print_pair l))
      with ((t ++ ": " ++ body) ++ LF ++ String.concat "" (map print_pair l)) in *
      by (rewrite !app_assoc_s; reflexivity).
    rewrite raw_lines_app in *. rewrite forallb_app in F. apply andb_true_iff in F as [F1 F2].
    rewrite read_all_app. unfold body. rewrite read_text_item by auto. cbn [bindR].
    rewrite IH by auto. now rewrite <- app_assoc.
Qed.
Lemma print_read l :
  Forall (fun p => good_tag (fst p) /\ good_text_value (snd p)) l ->
  Forall short (stream_lines (print_pairs l)) ->
  read_tag_values (print_pairs l) = Ok l.
Proof.
  intros H F. rewrite <- raw_lines_spec in F. apply forallb_fits in F.
  unfold read_tag_values. pose proof (print_read_all l [] H F) as E.
  change (ready []) with tvr_init in E. rewrite E. reflexivity.
Qed.

(** *** C04, C05 *)
Lemma read_complete_app a b ps : complete_lines a -> read_tag_values a = Ok ps ->
  read_tag_values (a ++ b) = let* qs := read_tag_values b in Ok (ps ++ qs)%list.
Proof.
  intros [->|[a' ->]] H.
  - inversion H; subst. simpl. now destruct (read_tag_values b).
  - rewrite app_assoc_s. now apply read_tag_values_app.
Qed.

Lemma read_skip_line line b : one_line line -> skippable (drop_cr line) -> short line ->
  read_tag_values (line ++ LF ++ b) = read_tag_values b.
Proof.
  intros H1 H2 H3. unfold read_tag_values. rewrite raw_lines_app, read_all_app.
  unfold one_line in H1. rewrite has_byte_lf in H1. rewrite split_on_none by exact H1.
  change tvr_init with (ready []). rewrite read_skipped; [reflexivity| |].
  - constructor; [exact H2|constructor].
  - simpl. now rewrite (proj2 (fits_short _) H3).
Qed.

Lemma insert_skippable a line b ps :
  complete_lines a -> read_tag_values a = Ok ps ->
  one_line line -> skippable (drop_cr line) -> short line ->
  read_tag_values (a ++ line ++ LF ++ b) = read_tag_values (a ++ b).
Proof.
  intros Ha Hr H1 H2 H3.
  rewrite (read_complete_app a _ ps), (read_complete_app a b ps) by assumption.
  now rewrite read_skip_line.
Qed.

Lemma read_text_block t v : good_tag t ->
  contains "</text>" v = false -> contains (String CR LF) v = false ->
  Forall short (stream_lines (t ++ ": <text>" ++ v ++ "</text>" ++ LF)) ->
  read_tag_values (t ++ ": <text>" ++ v ++ "</text>" ++ LF) = Ok [(t, v)].
Proof.
  intros Ht V1 V2 F. rewrite <- raw_lines_spec in F. apply forallb_fits in F.
  unfold read_tag_values.
  replace (t ++ ": <text>" ++ v ++ "</text>" ++ LF) with ((t ++ ": <text>" ++ v ++ "</text>") ++ LF) in *
    by (rewrite ?app_assoc_s; reflexivity).
  rewrite raw_lines_term in *.
  destruct (contains LF v) eqn:C.
  - pose proof (read_text_item [] t v Ht) as R. unfold good_text_value, has_newline in R. rewrite C in R.
    change (": <text>" ++ v ++ "</text>") with (": " ++ "<text>" ++ v ++ "</text>") in *.
    change tvr_init with (ready []). rewrite R; [reflexivity|auto|exact F].
  - rewrite has_byte_lf in C. pose proof Ht as (_ & _ & Tn & _). rewrite has_byte_lf in Tn.
    rewrite split_on_none in * by (rewrite !has_byte_app, Tn, C; reflexivity).
    cbn [forallb] in F. rewrite andb_true_r in F. cbn [read_all]. rewrite F.
    assert (drop_cr (t ++ ": <text>" ++ v ++ "</text>") = t ++ ": <text>" ++ v ++ "</text>") as ->.
    { rewrite drop_cr_app by discriminate. f_equal. rewrite drop_cr_app by now destruct v. f_equal.
      rewrite drop_cr_app by discriminate. reflexivity. }
    change (": <text>" ++ v ++ "</text>") with (":" ++ (" " ++ "<text>" ++ v ++ "</text>")).
    destruct (good_tag_line t (" " ++ "<text>" ++ v ++ "</text>") Ht) as (E1 & E2 & E3 & E4).
    unfold read_next_line, read_ready. cbn [tv_midtext tvr_init]. rewrite E1, E2, E3, E4.
    rewrite (cut_app_head "<" "text>" " " (v ++ "</text>")) by reflexivity.
    change (v ++ "</text>") with (v ++ "</text>" ++ "").
    rewrite cut_app_head; [|reflexivity|now apply contains_false].
    destruct Ht as (-> & _). reflexivity.
Qed.

Lemma read_not_ok s : (forall ps, read_tag_values s <> Ok ps) -> exists e, read_tag_values s = Err e.
Proof.
  intros H. destruct (read_tag_values s) eqn:E; eauto.
  - now elim (H a).
  - now apply read_tag_values_never_panics in E.
Qed.

Lemma read_rejects s : (forall ps, ~ tokens (map drop_cr (stream_lines s)) ps) ->
  exists e, read_tag_values s = Err e.
Proof.
  intros H. apply read_not_ok. intros ps E. apply read_tag_values_iff in E as [E _]. now apply (H ps).
Qed.

Lemma read_rejects_long s line : In line (stream_lines s) -> ~ short line ->
  exists e, read_tag_values s = Err e.
Proof.
  intros Hi Hl. apply read_not_ok. intros ps E. apply read_tag_values_iff in E as [_ E].
  rewrite Forall_forall in E. auto.
Qed.

Lemma raw_lines_line line b : one_line line ->
  exists r, raw_lines (line ++ LF ++ b) = line :: r /\ r = raw_lines b.
Proof.
  intros H. unfold one_line in H. rewrite has_byte_lf in H.
  rewrite raw_lines_app, split_on_none by exact H. eexists. split; reflexivity.
Qed.

Lemma reject_no_colon a line b ps :
  complete_lines a -> read_tag_values a = Ok ps -> one_line line ->
  ~ skippable (drop_cr line) -> ~ occurs ":" line ->
  exists e, read_tag_values (a ++ line ++ LF ++ b) = Err e.
Proof.
  intros Ha Hr H1 H2 H3. rewrite (read_complete_app a _ ps) by assumption.
  assert (exists e, read_tag_values (line ++ LF ++ b) = Err e) as [e ->]; [|eexists; reflexivity].
  apply read_not_ok. intros qs E. apply read_tag_values_iff in E as [E _].
  rewrite <- raw_lines_spec in E.
  destruct (raw_lines_line line b H1) as (r & Er & _). rewrite Er in E. simpl in E.
  assert (forall tag rest, ~ item (drop_cr line) tag rest).
  { intros tag rest [_ (t & [Ht _] & _)]. apply H3.
    destruct (trim_left_suffix (drop_cr line)) as [p Hp]. rewrite Ht in Hp.
    destruct (drop_cr_cases line) as [D|D]; rewrite D in *.
    - exists (p ++ t), rest. rewrite Hp, app_assoc_s. reflexivity.
    - rewrite D. exists (p ++ t), (rest ++ String CR ""). rewrite Hp, !app_assoc_s. reflexivity. }
  inversion E; subst; try contradiction; eapply H; eauto.
Qed.

Lemma reject_unterminated a line b ps tag rest before after :
  complete_lines a -> read_tag_values a = Ok ps -> one_line line ->
  item (drop_cr line) tag rest -> first_cut "<text>" rest before after ->
  ~ occurs "</text>" after -> ~ occurs "</text>" b ->
  exists e, read_tag_values (a ++ line ++ LF ++ b) = Err e.
Proof.
  intros Ha Hr H1 Hit Hc Hn Hb. rewrite (read_complete_app a _ ps) by assumption.
  assert (exists e, read_tag_values (line ++ LF ++ b) = Err e) as [e ->]; [|eexists; reflexivity].
  apply read_not_ok. intros qs E. unfold read_tag_values in E.
  destruct (raw_lines_line line b H1) as (r & Er & Er2). rewrite Er in E. cbn [read_all] in E.
  destruct (fits line); [|discriminate].
  unfold read_next_line, read_ready in E. cbn [tv_midtext tvr_init] in E.
  apply item_ready in Hit as (I1 & I2 & t & I3 & I4).
  rewrite I1, I2, I3 in E. apply cut_first_cut in Hc. rewrite Hc in E.
  apply not_occurs in Hn. rewrite Hn in E. cbn [bindR] in E.
  match type of E with context [read_all ?r0 r] => destruct (read_all r0 r) as [r'| |] eqn:E' end;
    simpl in E; try discriminate.
  unfold finalize in E. destruct (tv_midtext r') eqn:M; [discriminate|].
  apply read_all_mid in E' as [(mid & last & rst & x & junk & -> & _ & L & _)|[_ M']]; [|congruence].
  apply Hb. apply cut_some in L.
  assert (In last (split_on (byte 10) b)) as Hin.
  { assert (In last (raw_lines b)) as I by (rewrite <- Er2; apply in_or_app; right; now left).
    revert I. unfold raw_lines. generalize (split_on (byte 10) b). clear.
    intros l. induction l as [|y [|z l] IH]; simpl; auto.
    - destruct (nonempty y); simpl; tauto.
    - intros [->|I]; [now left|right; now apply IH]. }
  assert (occurs last b) as (p & q & ->).
  { rewrite <- (split_on_join (byte 10) b). revert Hin. generalize (split_on (byte 10) b). clear.
    intros l. unfold join. induction l as [|y [|z l] IH]; simpl; intros I.
    - contradiction.
    - destruct I as [->|[]]. exists "", "". simpl. now rewrite app_nil_r_s.
    - destruct I as [->|I].
      + exists "". eexists. simpl. reflexivity.
      + destruct (IH I) as (p & q & E). simpl in E. rewrite E.
        exists (y ++ String (byte 10) p), q. rewrite ?app_assoc_s. reflexivity. }
  destruct (drop_cr_cases last) as [D|D]; rewrite D in *.
  - exists (p ++ x), (junk ++ q). rewrite L, ?app_assoc_s. reflexivity.
  - rewrite D, L. exists (p ++ x), (junk ++ String CR "" ++ q). rewrite ?app_assoc_s. reflexivity.
Qed.
