(** Facts for [SpecTrunc]: tag-value texts cut off at an arbitrary byte. *)
From Verif Require Import GoStr GoStrFacts Types TvReader TvUtil TvParser SpecTv SpecId SpecDoc SpecRead SpecTrunc
  TvReaderFacts TvUtilFacts TvParserFacts DenoteBase DenoteUnique.
Local Open Scope string_scope.

(** ** Lists *)
Lemma beginning_impl {A} (R S : A -> A -> Prop) xs ys : (forall x y, R x y -> S x y) -> beginning R xs ys -> beginning S xs ys.
Proof. intros H B. induction B; constructor; auto. Qed.
Lemma beginning_app {A} (R : A -> A -> Prop) a xs ys : beginning R xs ys -> beginning R (a ++ xs)%list (a ++ ys)%list.
Proof. intros B. induction a; [exact B|]. cbn. now constructor. Qed.

Definition same_tag (x y : string * string) : Prop := fst x = fst y.
Definition cut_pairs : pairs -> pairs -> Prop := beginning same_tag.
Definition cut_part (s t : string * pairs) : Prop := cut_pairs (snd s) (snd t).

Lemma segs_cut t l' l : cut_pairs l' l ->
  cut_pairs (fst (segs t l')) (fst (segs t l)) /\ beginning cut_part (snd (segs t l')) (snd (segs t l)) /\
  (snd (segs t l') <> [] -> fst (segs t l') = fst (segs t l)).
Proof.
  intros B. induction B as [l|[k x] [k' y] l E|[k x] l' l B IH].
  - cbn. split; [constructor|]. split; [constructor|congruence].
  - unfold same_tag in E; cbn in E; subst k'. cbn [segs]. destruct (segs t l) as [h ss]. destruct (String.eqb k t); cbn.
    + split; [constructor|]. split; [|reflexivity]. apply beginning_last. constructor.
    + split; [apply beginning_last; reflexivity|]. split; [constructor|congruence].
  - cbn [segs]. destruct (segs t l') as [h' ss'], (segs t l) as [h ss]. cbn [fst snd] in IH. destruct IH as (H1 & H2 & H3).
    destruct (String.eqb k t); cbn [fst snd].
    + split; [constructor|]. split; [|reflexivity].
      destruct ss' as [|s ss']; [apply beginning_last; exact H1|]. rewrite H3 by discriminate. now apply beginning_cons.
    + split; [now apply beginning_cons|]. split; [exact H2|]. intros N. now rewrite H3.
Qed.
Lemma parts_cut t l' l : cut_pairs l' l -> beginning cut_part (parts_of t l') (parts_of t l).
Proof. apply segs_cut. Qed.
Lemma head_cut t l' l : cut_pairs l' l -> cut_pairs (head_of t l') (head_of t l).
Proof. apply segs_cut. Qed.
Lemma head_same t l' l : cut_pairs l' l -> parts_of t l' <> [] -> head_of t l' = head_of t l.
Proof. apply segs_cut. Qed.
Lemma values_cut t l' l : cut_pairs l' l -> beginning anything (values t l') (values t l).
Proof.
  intros B. unfold values. induction B as [l|[k x] [k' y] l E|[k x] l' l B IH].
  - constructor.
  - unfold same_tag in E; cbn in E; subst k'. cbn [filter fst]. destruct (String.eqb k t); cbn [map filter snd]; [apply beginning_last; exact I|constructor].
  - cbn [filter fst]. destruct (String.eqb k t); cbn [map snd]; [now apply beginning_cons|exact IH].
Qed.

Lemma forall2_cut {A B} (P : A -> B -> Prop) (R : A -> A -> Prop) (S : B -> B -> Prop) xs' xs ys' ys :
  (forall x y y', P x y -> P x y' -> y = y') -> (forall x' x y' y, R x' x -> P x' y' -> P x y -> S y' y) ->
  beginning R xs' xs -> Forall2 P xs' ys' -> Forall2 P xs ys -> beginning S ys' ys.
Proof.
  intros U T C. revert ys' ys. induction C as [xs|x y l E|x l' l C IH]; intros ys' ys F' F.
  - inversion F'; subst. constructor.
  - inversion F' as [|? ? ? ? Px G]; subst. inversion G; subst. inversion F; subst. apply beginning_last. eauto.
  - inversion F' as [|? b' ? ? X' G']; subst. inversion F as [|? b ? ? X G]; subst. replace b with b' by eauto. apply beginning_cons. eauto.
Qed.

(** ** Elements *)
Lemma file_den_cut v s' s f' f : cut_part s' s -> file_den v s' f' -> file_den v s f -> file_cut f' f.
Proof.
  intros C [_ H'] [_ H]. unfold file_cut. eapply forall2_cut; [| |apply parts_cut; exact C|exact H'|exact H]; [|intros; exact I].
  cbn. intros x [k z] [k' z'] [K Z] [K' Z']. cbn [fst snd] in *. pose proof (snippet_fun _ _ _ _ Z Z'). congruence.
Qed.
Lemma package_den_cut v s' s p' p : cut_part s' s -> package_den v s' p' -> package_den v s p -> package_cut p' p.
Proof.
  intros C [_ H'] [_ H]. unfold package_cut.
  eapply forall2_cut; [exact (file_fun v)|exact (file_den_cut v)|apply parts_cut; exact C|exact H'|exact H].
Qed.
Lemma document_den_cut v l' l d' d : cut_pairs l' l -> document_den v l' d' -> document_den v l d -> document_cut d' d.
Proof.
  intros C (G' & _ & P' & F') (G & _ & P & F). destruct G', G. constructor.
  - eapply forall2_cut; [exact edr_text_fun|intros; exact I|apply values_cut; exact C|eassumption|eassumption].
  - eapply forall2_cut; [exact (package_fun v)|exact (package_den_cut v)|apply parts_cut; exact C|eassumption|eassumption].
  - eapply forall2_cut; [exact (file_fun v)|exact (file_den_cut v)|apply parts_cut, head_cut; exact C|eassumption|eassumption].
  - eapply forall2_cut; [exact license_fun|intros; exact I|apply parts_cut; exact C|eassumption|eassumption].
  - eapply forall2_cut; [exact (relationship_fun v)|intros; exact I|apply parts_cut; exact C|eassumption|eassumption].
  - eapply forall2_cut; [exact annotation_fun|intros; exact I|apply parts_cut; exact C|eassumption|eassumption].
  - eapply forall2_cut; [exact review_fun|intros; exact I|apply parts_cut; exact C|eassumption|eassumption].
  - intros N. assert (parts_of "PackageName" l' <> []) as Q.
    { intros Q. rewrite Q in P'. inversion P'; congruence. }
    rewrite (head_same _ _ _ C Q) in F'. eapply two_lists; [exact (file_fun v)|exact F'|exact F].
Qed.

(** ** Lines *)
Lemma trim_gen_step sp2 sp3 s : starts_gen sp2 sp3 s = true ->
  exists p s', p <> "" /\ s = p ++ s' /\ forall t, trim_gen sp2 sp3 (s ++ t) = trim_gen sp2 sp3 (s' ++ t).
Proof.
  destruct s as [|a [|b [|c s]]]; cbn [starts_gen]; intros H.
  - discriminate.
  - rewrite orb_false_r in H. exists (String a ""), "". split; [discriminate|]. split; [reflexivity|]. intros t. cbn. now rewrite H.
  - destruct (is_space1 a) eqn:E.
    + exists (String a ""), (String b ""). split; [discriminate|]. split; [reflexivity|]. intros t. cbn [append trim_gen]. now rewrite E.
    + rewrite orb_false_r in H. cbn in H. exists (String a (String b "")), "". split; [discriminate|]. split; [reflexivity|].
      intros t. cbn [append trim_gen]. now rewrite E, H.
  - destruct (is_space1 a) eqn:E; [|destruct (sp2 a b) eqn:E2].
    + exists (String a ""), (String b (String c s)). split; [discriminate|]. split; [reflexivity|]. intros t. cbn [append trim_gen]. now rewrite E.
    + exists (String a (String b "")), (String c s). split; [discriminate|]. split; [reflexivity|]. intros t. cbn [append trim_gen]. now rewrite E, E2.
    + cbn in H. exists (String a (String b (String c ""))), s. split; [discriminate|]. split; [reflexivity|]. intros t.
      cbn [append trim_gen]. now rewrite E, E2, H.
Qed.
Lemma trim_left_app s a c b t : ascii7 c = true -> is_space1 c = false ->
  trim_left s = a ++ String c b -> trim_left (s ++ t) = trim_left s ++ t.
Proof.
  intros Hc Hs. remember (String.length s) as n eqn:Hn. revert s Hn.
  induction n as [n IH] using lt_wf_ind. intros s Hn H.
  destruct (starts_space s) eqn:E.
  - destruct (trim_gen_step _ _ _ E) as (p & s' & Hp & Es & T).
    assert (trim_left s = trim_left s') as T0.
    { specialize (T ""). now rewrite !app_nil_r_s in T. }
    unfold trim_left at 1. rewrite T. fold (trim_left (s' ++ t)). rewrite T0. apply (IH (String.length s')); [|reflexivity|].
    + rewrite Hn, Es, app_length_s. destruct p; [congruence|]. cbn. lia.
    + congruence.
  - assert (trim_left s = s) as I by now apply trim_left_id. rewrite I in H |- *.
    apply trim_left_id. rewrite H in E |- *. rewrite app_assoc_s. cbn [append].
    destruct a as [|x a].
    + cbn [append]. unfold starts_space, starts_gen. rewrite Hs. destruct sp_ok_fwd as [S2 S3].
      destruct (b ++ t) as [|y [|z r]]; [reflexivity| |].
      * destruct (is_space2 c y) eqn:X; [apply S2 in X; destruct X; congruence|reflexivity].
      * destruct (is_space2 c y) eqn:X; [apply S2 in X; destruct X; congruence|].
        destruct (is_space3 c y z) eqn:Y; [apply S3 in Y; intuition congruence|reflexivity].
    + rewrite starts_space_app in E |- * by (auto; discriminate). exact E.
Qed.

Lemma strip_prefix_app sep s t r : strip_prefix sep s = Some r -> strip_prefix sep (s ++ t) = Some (r ++ t).
Proof.
  revert s. induction sep as [|a sep IH]; intros s H; cbn in *; [congruence|].
  destruct s as [|b s]; [discriminate|]. cbn. destruct (Ascii.eqb a b); [auto|discriminate].
Qed.
Lemma strip_prefix_none sep s t : String.length sep <= String.length s -> strip_prefix sep s = None -> strip_prefix sep (s ++ t) = None.
Proof.
  revert s. induction sep as [|a sep IH]; intros s L H; cbn in *; [discriminate|].
  destruct s as [|b s]; [cbn in L; lia|]. cbn in *. destruct (Ascii.eqb a b); [apply IH; auto; lia|reflexivity].
Qed.
Lemma cut_app sep s a b t : cut sep s = Some (a, b) -> cut sep (s ++ t) = Some (a, b ++ t).
Proof.
  revert a b. induction s as [|x s IH]; intros a b H.
  - rewrite cut_unfold in H. destruct (strip_prefix sep "") as [r|] eqn:E; [|discriminate]. injection H as <- <-.
    rewrite cut_unfold, (strip_prefix_app _ _ t _ E). reflexivity.
  - rewrite cut_unfold in H. destruct (strip_prefix sep (String x s)) as [r|] eqn:E.
    + injection H as <- <-. rewrite cut_unfold, (strip_prefix_app _ _ t _ E). reflexivity.
    + destruct (cut sep s) as [[y z]|] eqn:C; [|discriminate]. injection H as <- <-.
      rewrite cut_unfold, strip_prefix_none; [|apply cut_some in C; rewrite C; cbn; rewrite !app_length_s; lia|exact E].
      cbn [append]. now rewrite (IH _ _ eq_refl).
Qed.

(** The pairs found by two readers that read a line and a longer line *)
Lemma line_cut r x y r1 r2 : read_next_line r x = Ok r1 -> tv_midtext r1 = false -> read_next_line r (x ++ y) = Ok r2 ->
  tv_list r1 = tv_list r \/
  exists t v, tv_list r1 = (tv_list r ++ [(t, v)])%list /\
    ((tv_midtext r2 = false /\ exists w, tv_list r2 = (tv_list r ++ [(t, w)])%list) \/
     (tv_midtext r2 = true /\ tv_tag r2 = t /\ tv_list r2 = tv_list r)).
Proof.
  unfold read_next_line. destruct (tv_midtext r) eqn:M.
  - unfold read_midtext. destruct (cut "</text>" x) as [[u w]|] eqn:C; intros H1 M1 H2; injection H1 as <-; [|discriminate M1].
    rewrite (cut_app _ _ _ _ y C) in H2. injection H2 as <-. right. cbn. do 2 eexists. split; [reflexivity|]. left. eauto.
  - unfold read_ready. intros H1 M1 H2.
    destruct (String.eqb (trim_left x) "") eqn:E0; [injection H1 as <-; now left|].
    destruct (has_prefix "#" (trim_left x)) eqn:P; [injection H1 as <-; now left|].
    destruct (cut ":" (trim_left x)) as [[t rest]|] eqn:C; [|discriminate].
    assert (trim_left (x ++ y) = trim_left x ++ y) as T.
    { pose proof (cut_some _ _ _ _ C) as E. eapply trim_left_app; [| |exact E]; reflexivity. }
    rewrite T, (cut_app _ _ _ _ y C) in H2.
    destruct (trim_left x) as [|c z] eqn:Z; [discriminate E0|]. cbn [append] in H2. cbn [String.eqb] in H2.
    replace (has_prefix "#" (String c (z ++ y))) with false in H2.
    2: { unfold has_prefix in P |- *. cbn [strip_prefix] in P |- *. destruct (Ascii.eqb "#" c); [discriminate P|reflexivity]. }
    assert (exists v, tv_list r1 = (tv_list r ++ [(trim_space t, v)])%list) as (v & L1).
    { destruct (cut "<text>" rest) as [[? rest2]|]; [destruct (cut "</text>" rest2) as [[v ?]|]|]; injection H1 as <-;
        [eexists; reflexivity|discriminate M1|eexists; reflexivity]. }
    right. exists (trim_space t), v. split; [exact L1|].
    destruct (cut "<text>" (rest ++ y)) as [[? rest2]|]; [destruct (cut "</text>" rest2) as [[w ?]|]|]; injection H2 as <-; cbn; eauto 6.
Qed.

Lemma read_all_grows ls : forall r r', read_all r ls = Ok r' -> tv_midtext r' = false ->
  if tv_midtext r then exists v m, tv_list r' = (tv_list r ++ (tv_tag r, v) :: m)%list else exists m, tv_list r' = (tv_list r ++ m)%list.
Proof.
  induction ls as [|l ls IH]; intros r r' H M; cbn [read_all] in H.
  - injection H as <-. rewrite M. exists []. now rewrite app_nil_r.
  - destruct (fits l); [|discriminate]. destruct (read_next_line r (drop_cr l)) as [r2| |] eqn:R; cbn [bindR] in H; try discriminate.
    specialize (IH _ _ H M). unfold read_next_line in R. destruct (tv_midtext r) eqn:M0.
    + unfold read_midtext in R. destruct (cut _ _) as [[u w]|]; injection R as <-; cbn [tv_midtext tv_list tv_tag] in IH.
      * destruct IH as (m & ->). do 2 eexists. now rewrite <- app_assoc.
      * destruct IH as (v & m & ->). eauto.
    + unfold read_ready in R.
      destruct (String.eqb _ _); [injection R as <-; rewrite M0 in IH; exact IH|].
      destruct (has_prefix _ _); [injection R as <-; rewrite M0 in IH; exact IH|].
      destruct (cut _ _) as [[t rest]|]; [|discriminate].
      destruct (cut _ _) as [[? rest2]|]; [destruct (cut _ _) as [[v ?]|]|]; injection R as <-; cbn [tv_midtext tv_list tv_tag] in IH.
      * destruct IH as (m & ->). eexists. now rewrite <- app_assoc.
      * destruct IH as (v & m & ->). eauto.
      * destruct IH as (m & ->). eexists. now rewrite <- app_assoc.
Qed.

Lemma last_line p : has_byte (byte 10) p = false \/ exists b x, p = b ++ LF ++ x /\ has_byte (byte 10) x = false.
Proof.
  induction p as [|c p IH]; [now left|]. destruct IH as [IH|(b & x & -> & Hx)].
  - destruct (Ascii.eqb c (byte 10)) eqn:E.
    + right. apply Ascii.eqb_eq in E as ->. exists "", p. auto.
    + left. cbn [has_byte]. now rewrite E, IH.
  - right. exists (String c b), x. auto.
Qed.

Lemma drop_cr_prefix x y : exists z, drop_cr (x ++ y) = drop_cr x ++ z.
Proof.
  destruct y as [|c y]; [exists ""; now rewrite !app_nil_r_s|].
  assert (exists z, drop_cr (x ++ String c y) = x ++ z) as (z & E).
  { eexists. apply drop_cr_app. discriminate. }
  rewrite E. destruct (drop_cr_cases x) as [->|H]; [now exists z|]. exists (String CR "" ++ z). rewrite <- app_assoc_s. now rewrite <- H.
Qed.

Lemma tail_cut r x q r1 r2 : has_byte (byte 10) x = false -> read_all r (raw_lines x) = Ok r1 -> tv_midtext r1 = false ->
  read_all r (raw_lines (x ++ q)) = Ok r2 -> tv_midtext r2 = false ->
  exists m1 m2, tv_list r1 = (tv_list r ++ m1)%list /\ tv_list r2 = (tv_list r ++ m2)%list /\ cut_pairs m1 m2.
Proof.
  intros Hx H1 M1 H2 M2. pose proof (read_all_grows _ _ _ H2 M2) as W. unfold raw_lines at 1 in H1. rewrite split_on_none in H1 by exact Hx. cbn [drop_last_empty] in H1.
  destruct (nonempty x) eqn:Nx; cbn [read_all] in H1.
  2: { injection H1 as <-. apply read_all_grows in H2; [|exact M2]. rewrite M1 in H2. destruct H2 as (m & H2).
       exists [], m. rewrite app_nil_r. split; [reflexivity|]. split; [exact H2|constructor]. }
  destruct (fits x); [|discriminate]. destruct (read_next_line r (drop_cr x)) as [r0| |] eqn:R1; cbn [bindR] in H1; try discriminate.
  injection H1 as ->.
  assert (exists y rest, raw_lines (x ++ q) = (x ++ y) :: rest) as (y & rest & L).
  { destruct (cut (String (byte 10) "") q) as [[y q']|] eqn:C.
    - apply cut_byte_some in C as [-> Hy]. exists y, (raw_lines q').
      change (String (byte 10) q') with (LF ++ q'). rewrite <- app_assoc_s, raw_lines_app, split_on_none; [reflexivity|].
      now rewrite has_byte_app, Hx, Hy.
    - apply cut_byte_none in C. exists q, []. unfold raw_lines. rewrite split_on_none by (rewrite has_byte_app, Hx, C; reflexivity).
      cbn [drop_last_empty]. replace (nonempty (x ++ q)) with true; [reflexivity|]. destruct x; [discriminate|reflexivity]. }
  rewrite L in H2. cbn [read_all] in H2. destruct (fits (x ++ y)); [|discriminate].
  destruct (read_next_line r (drop_cr (x ++ y))) as [r3| |] eqn:R2; cbn [bindR] in H2; try discriminate.
  pose proof (read_all_grows _ _ _ H2 M2) as G.
  destruct (drop_cr_prefix x y) as (z & Z). rewrite Z in R2.
  pose proof (line_cut _ _ _ _ _ R1 M1 R2) as K.
  destruct K as [K|(t & v & K1 & [(Mr & w & K2)|(Mr & K2 & K3)])].
  - assert (exists m, tv_list r2 = (tv_list r ++ m)%list) as (m & E) by (destruct (tv_midtext r); [destruct W as (? & ? & ->)|destruct W as (? & ->)]; eauto).
    exists [], m. rewrite app_nil_r. split; [exact K|]. split; [exact E|constructor].
  - rewrite Mr, K2 in G. destruct G as (m & G). rewrite <- app_assoc in G. do 2 eexists. split; [exact K1|]. split; [exact G|].
    apply beginning_last. reflexivity.
  - rewrite Mr, K2, K3 in G. destruct G as (u & m & G). do 2 eexists. split; [exact K1|]. split; [exact G|].
    apply beginning_last. reflexivity.
Qed.

Lemma tokens_cut p q l' l : read_tag_values p = Ok l' -> read_tag_values (p ++ q) = Ok l -> cut_pairs l' l.
Proof.
  unfold read_tag_values, finalize. intros H1 H2.
  destruct (read_all tvr_init (raw_lines p)) as [r1| |] eqn:R1; cbn [bindR] in H1; try discriminate.
  destruct (tv_midtext r1) eqn:M1; [discriminate|]. injection H1 as <-.
  destruct (read_all tvr_init (raw_lines (p ++ q))) as [r2| |] eqn:R2; cbn [bindR] in H2; try discriminate.
  destruct (tv_midtext r2) eqn:M2; [discriminate|]. injection H2 as <-.
  destruct (last_line p) as [N|(b & x & -> & N)].
  - destruct (tail_cut _ _ _ _ _ N R1 M1 R2 M2) as (m1 & m2 & -> & -> & B). cbn. exact B.
  - rewrite !app_assoc_s in R2. rewrite raw_lines_app, read_all_app in R1, R2.
    destruct (read_all tvr_init (split_on (byte 10) b)) as [r| |]; cbn [bindR] in R1, R2; try discriminate.
    destruct (tail_cut _ _ _ _ _ N R1 M1 R2 M2) as (m1 & m2 & -> & -> & B). now apply beginning_app.
Qed.
