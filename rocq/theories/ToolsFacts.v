(** * Facts about spdxlib, licensediff and reporter *)
From Verif Require Import GoStr GoStrFacts Sorting Types TvUtil TvState TvParser
  Utils SpecUtils UtilsFacts SpdxLib LicenseTools SpecTools.
Local Open Scope string_scope.

(** ** spdxlib *)
Lemma deid_eqb_eq a b : deid_eqb a b = true <-> a = b.
Proof.
  unfold deid_eqb. rewrite !andb_true_iff, !String.eqb_eq. destruct a, b; simpl.
  split; [intros [[-> ->] ->]; reflexivity|intros H; inversion H; auto].
Qed.
Lemma valid_ids_spec doc id : existsb (String.eqb id) (valid_element_ids doc) = true <-> names_element doc id.
Proof.
  unfold valid_element_ids, names_element. rewrite existsb_exists. split.
  - intros (x & Hx & E). apply String.eqb_eq in E. subst x.
    rewrite !in_app_iff, !in_map_iff in Hx. destruct Hx as [(p & E & H)|[(f & E & H)|[H|[]]]].
    + right. left. eauto.
    + right. right. eauto.
    + left. now rewrite <- H.
  - intros H. exists id. split; [|apply String.eqb_refl].
    rewrite !in_app_iff, !in_map_iff. destruct H as [->|[(p & H & E)|(f & H & E)]].
    + right. right. now left.
    + left. eauto.
    + right. left. eauto.
Qed.
Lemma check_relationships_spec valid rlns :
  (check_relationships valid rlns = Ok tt /\
   forall r, In r rlns -> existsb (String.eqb (de_ElementRefID (r_RefA r))) valid = true /\
                          existsb (String.eqb (de_ElementRefID (r_RefB r))) valid = true) \/
  (exists m, check_relationships valid rlns = Err m) /\
   exists r, In r rlns /\ (existsb (String.eqb (de_ElementRefID (r_RefA r))) valid = false \/
                           existsb (String.eqb (de_ElementRefID (r_RefB r))) valid = false).
Proof.
  induction rlns as [|r rlns IH]; simpl.
  - left. split; [reflexivity|intros ? []].
  - destruct (existsb (String.eqb (de_ElementRefID (r_RefA r))) valid) eqn:Ea; cbn [negb].
    2: right; split; [eexists; reflexivity|exists r; auto].
    destruct (existsb (String.eqb (de_ElementRefID (r_RefB r))) valid) eqn:Eb; cbn [negb].
    2: right; split; [eexists; reflexivity|exists r; auto].
    destruct IH as [[H1 H2]|[[m Hm] (r' & H1 & H2)]].
    + left. split; [assumption|]. intros r' [<-|H]; auto.
    + right. split; [eauto|exists r'; auto].
Qed.

Lemma described_end_some r id : described_end r = Some id <-> says_described r id.
Proof.
  unfold described_end, says_described, make_doc_element_id. fold the_document.
  destruct (String.eqb (r_Relationship r) "DESCRIBES" && deid_eqb (r_RefA r) the_document) eqn:E1.
  - apply andb_true_iff in E1 as [E1 E2]. apply String.eqb_eq in E1. apply deid_eqb_eq in E2.
    split.
    + intros H. inversion H. left. auto.
    + intros [(_ & _ & <-)|(H & _)]; [reflexivity|]. rewrite E1 in H. discriminate.
  - destruct (String.eqb (r_Relationship r) "DESCRIBED_BY" && deid_eqb (r_RefB r) the_document) eqn:E2.
    + apply andb_true_iff in E2 as [E2 E3]. apply String.eqb_eq in E2. apply deid_eqb_eq in E3.
      split.
      * intros H. inversion H. right. auto.
      * intros [(H & _)|(_ & _ & <-)]; [|reflexivity]. rewrite E2 in H. discriminate.
    + split; [discriminate|]. intros [(H1 & H2 & _)|(H1 & H2 & _)].
      * rewrite H1, (proj2 (deid_eqb_eq _ _) H2) in E1. discriminate.
      * rewrite H1, (proj2 (deid_eqb_eq _ _) H2) in E2. discriminate.
Qed.
Lemma filter_relationships_in rlns f id :
  In id (filter_relationships rlns f) <-> exists r, In r rlns /\ f r = Some id.
Proof.
  induction rlns as [|r rlns IH]; simpl.
  - split; [intros []|intros (? & [] & _)].
  - destruct (f r) as [x|] eqn:E; simpl; rewrite IH; split.
    + intros [<-|(r' & H & E')]; eauto.
    + intros (r' & [<-|H] & E'); [left; congruence|eauto].
    + intros (r' & H & E'); eauto.
    + intros (r' & [<-|H] & E'); [congruence|eauto].
Qed.
Lemma filter_relationships_flat rlns f :
  filter_relationships rlns f = flat_map (fun r => match f r with Some x => [x] | None => [] end) rlns.
Proof. induction rlns as [|r l IH]; simpl; [reflexivity|]. destruct (f r); simpl; now rewrite IH. Qed.

(** ** maps *)
Lemma map_get_put {A} k k' (x : A) m :
  map_get k (map_put k' x m) = if String.eqb k k' then Some x else map_get k m.
Proof.
  induction m as [|[k1 y] m IH]; simpl.
  - reflexivity.
  - destruct (String.eqb k' k1) eqn:E1; simpl.
    + apply String.eqb_eq in E1. subst k1. destruct (String.eqb k k'); reflexivity.
    + rewrite IH. destruct (String.eqb k k1) eqn:E2; [|reflexivity].
      apply String.eqb_eq in E2. subst k1.
      destruct (String.eqb k k') eqn:E3; [|reflexivity].
      apply String.eqb_eq in E3. subst. rewrite String.eqb_refl in E1. discriminate.
Qed.
Lemma map_put_keys {A} k (x : A) m k' :
  In k' (map fst (map_put k x m)) <-> k' = k \/ In k' (map fst m).
Proof.
  induction m as [|[k1 y] m IH]; simpl; [intuition|].
  destruct (String.eqb k k1) eqn:E; simpl.
  - apply String.eqb_eq in E. subst k1. intuition.
  - rewrite IH. intuition.
Qed.
Lemma map_put_nodup {A} k (x : A) m : NoDup (map fst m) -> NoDup (map fst (map_put k x m)).
Proof.
  induction m as [|[k1 y] m IH]; simpl; intros H; [repeat constructor; auto|].
  destruct (String.eqb k k1) eqn:E; simpl.
  - apply String.eqb_eq in E. now subst.
  - inversion H as [|? ? H1 H2]; subst. constructor; [|now apply IH].
    rewrite map_put_keys. intros [->|H']; [|contradiction].
    rewrite String.eqb_refl in E. discriminate.
Qed.
Lemma map_get_in {A} k (x : A) m : NoDup (map fst m) -> map_get k m = Some x <-> In (k, x) m.
Proof.
  induction m as [|[k1 y] m IH]; simpl; intros H; [intuition discriminate|].
  inversion H as [|? ? H1 H2]; subst.
  destruct (String.eqb k k1) eqn:E.
  - apply String.eqb_eq in E. subst k1. split.
    + intros H'. inversion H'. auto.
    + intros [H'|H']; [now inversion H'|]. exfalso. apply H1.
      change k with (fst (k, x)). now apply in_map.
  - apply String.eqb_neq in E. rewrite (IH H2). split; [auto|].
    intros [H'|H']; [inversion H'; congruence|assumption].
Qed.
Lemma map_get_none {A} k (m : list (string * A)) : map_get k m = None <-> ~ In k (map fst m).
Proof.
  induction m as [|[k1 y] m IH]; simpl; [intuition|].
  destruct (String.eqb k k1) eqn:E.
  - apply String.eqb_eq in E. subst. split; [discriminate|]. intros H. exfalso. apply H. now left.
  - apply String.eqb_neq in E. rewrite IH. intuition.
Qed.
Lemma map_get_perm {A} k (m m' : list (string * A)) : NoDup (map fst m) -> Permutation m m' ->
  map_get k m = map_get k m'.
Proof.
  intros Hn Hp.
  assert (NoDup (map fst m')) as Hn' by (eapply Permutation_NoDup; [apply Permutation_map, Hp|exact Hn]).
  destruct (map_get k m) as [x|] eqn:E.
  - symmetry. apply map_get_in; [assumption|]. eapply Permutation_in; [exact Hp|].
    now apply map_get_in in E.
  - symmetry. apply map_get_none. apply map_get_none in E. intros H. apply E.
    eapply Permutation_in; [apply Permutation_map; symmetry; exact Hp|exact H].
Qed.

(** ** licensediff *)
Definition last_license (files : list File) (name : string) (d : option string) : option string :=
  fold_left (fun acc f => if String.eqb name (f_FileName f) then Some (f_LicenseConcluded f) else acc) files d.

Lemma last_license_some files name d l : last_license files name (Some d) = Some l ->
  last_license files name None = Some l \/ (last_license files name None = None /\ l = d).
Proof.
  revert d. induction files as [|f files IH]; intros d; cbn.
  - intros H. inversion H. auto.
  - destruct (String.eqb name (f_FileName f)).
    + auto.
    + apply IH.
Qed.
Lemma last_license_never_none files name d : last_license files name (Some d) <> None.
Proof.
  revert d. induction files as [|f files IH]; intros d; cbn; [discriminate|].
  destruct (String.eqb name (f_FileName f)); apply IH.
Qed.
Lemma last_license_spec files name :
  match last_license files name None with
  | Some l => exists before f after, files = (before ++ f :: after)%list /\ f_FileName f = name /\
                f_LicenseConcluded f = l /\ forall g, In g after -> f_FileName g <> name
  | None => forall f, In f files -> f_FileName f <> name
  end.
Proof.
  induction files as [|f files IH]; [intros ? []|]. cbn [last_license fold_left].
  fold (last_license files name). fold (last_license files name None) in *.
  destruct (String.eqb name (f_FileName f)) eqn:E.
  - apply String.eqb_eq in E.
    change (fold_left _ files (Some (f_LicenseConcluded f))) with
      (last_license files name (Some (f_LicenseConcluded f))).
    destruct (last_license files name (Some (f_LicenseConcluded f))) as [l|] eqn:El;
      [|now apply last_license_never_none in El].
    apply last_license_some in El as [El|[El ->]]; rewrite El in IH.
    + destruct IH as (b & g & a & -> & H1 & H2 & H3). exists (f :: b), g, a. auto.
    + exists [], f, files. auto.
  - apply String.eqb_neq in E.
    change (fold_left _ files None) with (last_license files name None).
    destruct (last_license files name None) as [l|].
    + destruct IH as (b & g & a & -> & H1 & H2 & H3). exists (f :: b), g, a. auto.
    + intros g [<-|H]; [congruence|auto].
Qed.

Lemma add_first_get files name m :
  map_get name (fold_left add_first files m) =
  match last_license files name None with
  | Some l => Some (MkLP l "")
  | None => map_get name m
  end.
Proof.
  revert m. induction files as [|f files IH]; intros m; [reflexivity|]. cbn [fold_left].
  rewrite IH. unfold last_license at 2. cbn [fold_left].
  unfold add_first. rewrite map_get_put.
  destruct (String.eqb name (f_FileName f)) eqn:E.
  - fold (last_license files name (Some (f_LicenseConcluded f))).
    destruct (last_license files name (Some (f_LicenseConcluded f))) as [l|] eqn:El;
      [|now apply last_license_never_none in El].
    apply last_license_some in El as [El|[El ->]]; now rewrite El.
  - reflexivity.
Qed.
Lemma add_second_get files name m :
  map_get name (fold_left add_second files m) =
  match last_license files name None with
  | Some l => Some (MkLP (match map_get name m with Some p => lp_First p | None => "" end) l)
  | None => map_get name m
  end.
Proof.
  revert m. induction files as [|f files IH]; intros m; [reflexivity|]. cbn [fold_left].
  rewrite IH. unfold last_license at 2. cbn [fold_left].
  unfold add_second. rewrite map_get_put.
  destruct (String.eqb name (f_FileName f)) eqn:E.
  - apply String.eqb_eq in E. subst name. cbn [lp_First].
    fold (last_license files (f_FileName f) (Some (f_LicenseConcluded f))).
    destruct (last_license files (f_FileName f) (Some (f_LicenseConcluded f))) as [l|] eqn:El;
      [|now apply last_license_never_none in El].
    apply last_license_some in El as [El|[El ->]]; now rewrite El.
  - reflexivity.
Qed.
Lemma make_pairs_get p1 p2 name :
  map_get name (make_pairs p1 p2) =
  match last_license (p_Files p1) name None, last_license (p_Files p2) name None with
  | Some a, Some b => Some (MkLP a b)
  | Some a, None => Some (MkLP a "")
  | None, Some b => Some (MkLP "" b)
  | None, None => None
  end.
Proof.
  unfold make_pairs. rewrite add_second_get, add_first_get.
  destruct (last_license (p_Files p1) name None), (last_license (p_Files p2) name None); reflexivity.
Qed.
Lemma make_pairs_nodup p1 p2 : NoDup (map fst (make_pairs p1 p2)).
Proof.
  unfold make_pairs.
  assert (forall l m, NoDup (map fst m) -> NoDup (map fst (fold_left add_first l m))) as H1.
  { induction l as [|f l IH]; intros m Hm; [assumption|]. apply IH. now apply map_put_nodup. }
  assert (forall l m, NoDup (map fst m) -> NoDup (map fst (fold_left add_second l m))) as H2.
  { induction l as [|f l IH]; intros m Hm; [assumption|]. apply IH. now apply map_put_nodup. }
  apply H2, H1. constructor.
Qed.

Lemma license_for_last p name l :
  license_for p name l <-> l = match last_license (p_Files p) name None with Some x => x | None => "" end.
Proof.
  unfold license_for. pose proof (last_license_spec (p_Files p) name) as H.
  destruct (last_license (p_Files p) name None) as [x|].
  - destruct H as (b & f & a & Hf & Hn & Hl & Ha). split.
    + intros [(b' & f' & a' & Hf' & Hn' & Hl' & Ha')|[Hno _]].
      * (* the last file of a name is unique *)
        assert (f = f') as <-; [|congruence].
        rewrite Hf in Hf'. clear - Hf' Hn Hn' Ha Ha'.
        revert b' Hf'. induction b as [|g b IH]; intros [|g' b'] E; simpl in E.
        -- now inversion E.
        -- inversion E; subst. exfalso. apply (Ha f'); [|reflexivity || assumption].
           apply in_or_app. right. now left.
        -- inversion E; subst. exfalso. apply (Ha' f); [|reflexivity || assumption].
           apply in_or_app. right. now left.
        -- inversion E; subst. eauto.
      * exfalso. apply Hno. exists f. split; [|assumption]. rewrite Hf. apply in_or_app. right. now left.
    + intros ->. left. exists b, f, a. auto.
  - split.
    + intros [(b & f & a & Hf & Hn & _)|[_ ->]]; [|reflexivity].
      exfalso. apply (H f); [|assumption]. rewrite Hf. apply in_or_app. right. now left.
    + intros ->. right. split; [|reflexivity]. intros (f & Hf & Hn). now apply (H f).
Qed.
Lemma has_file_last p name : has_file p name <-> last_license (p_Files p) name None <> None.
Proof.
  pose proof (last_license_spec (p_Files p) name) as H.
  destruct (last_license (p_Files p) name None) as [x|]; split.
  - discriminate.
  - intros _. destruct H as (b & f & a & Hf & Hn & _). exists f. split; [|assumption].
    rewrite Hf. apply in_or_app. right. now left.
  - intros (f & Hf & Hn). now apply H in Hf.
  - intros []. reflexivity.
Qed.

(** classification *)
Definition class_same (p : LicensePair) : option string :=
  if String.eqb (lp_First p) (lp_Second p) then Some (lp_First p) else None.
Definition class_second (p : LicensePair) : option string :=
  if String.eqb (lp_First p) (lp_Second p) then None
  else if String.eqb (lp_First p) "" then Some (lp_Second p) else None.
Definition class_first (p : LicensePair) : option string :=
  if String.eqb (lp_First p) (lp_Second p) then None
  else if String.eqb (lp_First p) "" then None
  else if String.eqb (lp_Second p) "" then Some (lp_First p) else None.
Definition class_changed (p : LicensePair) : option LicensePair :=
  if String.eqb (lp_First p) (lp_Second p) then None
  else if String.eqb (lp_First p) "" then None
  else if String.eqb (lp_Second p) "" then None else Some p.

Definition select {A B} (f : A -> option B) (e d : option B) (x : option A) : option B :=
  match x with Some y => match f y with Some z => Some z | None => e end | None => d end.

Lemma classify_gen l d n : NoDup (map fst l) ->
  let r := fold_left classify l d in
  map_get n (ld_InBothSame r) = select class_same (map_get n (ld_InBothSame d)) (map_get n (ld_InBothSame d)) (map_get n l) /\
  map_get n (ld_InFirstOnly r) = select class_first (map_get n (ld_InFirstOnly d)) (map_get n (ld_InFirstOnly d)) (map_get n l) /\
  map_get n (ld_InSecondOnly r) = select class_second (map_get n (ld_InSecondOnly d)) (map_get n (ld_InSecondOnly d)) (map_get n l) /\
  map_get n (ld_InBothChanged r) = select class_changed (map_get n (ld_InBothChanged d)) (map_get n (ld_InBothChanged d)) (map_get n l).
Proof.
  revert d. induction l as [|[k p] l IH]; intros d Hn; cbn zeta; [repeat split|].
  cbn [fold_left]. inversion Hn as [|? ? Hk Hl]; subst.
  destruct (IH (classify d (k, p)) Hl) as (H1 & H2 & H3 & H4).
  rewrite H1, H2, H3, H4. clear H1 H2 H3 H4 IH.
  destruct d as [changed same first second]. cbn [map_get].
  destruct (String.eqb n k) eqn:E.
  - apply String.eqb_eq in E. subst n.
    rewrite (proj2 (map_get_none k l) Hk). cbn [select].
    unfold classify, class_same, class_first, class_second, class_changed.
    destruct (String.eqb (lp_First p) (lp_Second p)) eqn:E1; cbn; rewrite ?map_get_put, ?String.eqb_refl; [auto|].
    destruct (String.eqb (lp_First p) "") eqn:E2; cbn; rewrite ?map_get_put, ?String.eqb_refl; [auto|].
    destruct (String.eqb (lp_Second p) "") eqn:E3; cbn; rewrite ?map_get_put, ?String.eqb_refl; auto.
  - unfold classify.
    destruct (String.eqb (lp_First p) (lp_Second p)) eqn:E1; cbn; rewrite ?map_get_put, ?E; [auto|].
    destruct (String.eqb (lp_First p) "") eqn:E2; cbn; rewrite ?map_get_put, ?E; [auto|].
    destruct (String.eqb (lp_Second p) "") eqn:E3; cbn; rewrite ?map_get_put, ?E; auto.
Qed.
Lemma classify_nodup l d :
  NoDup (map fst (ld_InBothSame d)) -> NoDup (map fst (ld_InFirstOnly d)) ->
  NoDup (map fst (ld_InSecondOnly d)) -> NoDup (map fst (ld_InBothChanged d)) ->
  let r := fold_left classify l d in
  NoDup (map fst (ld_InBothSame r)) /\ NoDup (map fst (ld_InFirstOnly r)) /\
  NoDup (map fst (ld_InSecondOnly r)) /\ NoDup (map fst (ld_InBothChanged r)).
Proof.
  revert d. induction l as [|[k p] l IH]; intros d H1 H2 H3 H4; cbn zeta; [auto|].
  cbn [fold_left]. destruct d as [changed same first second].
  apply IH; unfold classify; destruct (String.eqb (lp_First p) (lp_Second p));
    try destruct (String.eqb (lp_First p) ""); try destruct (String.eqb (lp_Second p) "");
    cbn in *; auto using map_put_nodup.
Qed.

(** ** reporter *)
Definition lic_found (f : File) : bool := negb (no_license f).
Lemma no_license_eq f :
  String.eqb (f_LicenseConcluded f) "" || String.eqb (f_LicenseConcluded f) "NOASSERTION" = no_license f.
Proof. reflexivity. Qed.
Lemma count_fold files a b m :
  exists m',
    fold_left count_file files (a, b, m) =
      ((a + N.of_nat (length (filter lic_found files)))%N,
       (b + N.of_nat (length (filter no_license files)))%N, m') /\
    (NoDup (map fst m) -> NoDup (map fst m')) /\
    forall lic, map_get lic m' =
      let n := N.of_nat (length (filter (concludes lic) (filter lic_found files))) in
      match map_get lic m with
      | Some k => Some (k + n)%N
      | None => if (n =? 0)%N then None else Some n
      end.
Proof.
  revert a b m. induction files as [|f files IH]; intros a b m.
  - exists m. split; [cbn; f_equal; f_equal; lia|]. split; [auto|]. intros lic. cbn.
    destruct (map_get lic m); [f_equal; lia|reflexivity].
  - cbn [fold_left count_file]. rewrite no_license_eq. cbn [filter].
    pose proof (eq_refl : lic_found f = negb (no_license f)) as Hlf.
    destruct (no_license f) eqn:E; cbn [negb] in Hlf; rewrite Hlf.
    + destruct (IH a (b + 1)%N m) as (m' & H1 & H2 & H3). exists m'. split; [rewrite H1; cbn [length]; f_equal; f_equal; lia|].
      split; [assumption|]. intros lic. rewrite H3. reflexivity.
    + destruct (IH (a + 1)%N b (bump (f_LicenseConcluded f) m)) as (m' & H1 & H2 & H3).
      exists m'. split; [rewrite H1; cbn [length]; f_equal; f_equal; lia|]. split.
      { intros Hn. apply H2. now apply map_put_nodup. }
      intros lic. rewrite H3. cbn zeta. unfold bump. rewrite map_get_put.
      cbn [filter]. change (concludes lic f) with (String.eqb (f_LicenseConcluded f) lic). rewrite (String.eqb_sym (f_LicenseConcluded f) lic).
      destruct (String.eqb lic (f_LicenseConcluded f)) eqn:El.
      * apply String.eqb_eq in El. subst lic. cbn [length].
        set (n := length (filter (concludes (f_LicenseConcluded f)) (filter lic_found files))).
        destruct (map_get (f_LicenseConcluded f) m).
        -- f_equal. lia.
        -- replace (N.of_nat (S n) =? 0)%N with false by (symmetry; apply N.eqb_neq; lia).
           f_equal. lia.
      * reflexivity.
Qed.
Lemma filter_filter_length {A} (p : A -> bool) l :
  length (filter p l) + length (filter (fun x => negb (p x)) l) = length l.
Proof. induction l as [|a l IH]; simpl; [reflexivity|]. destruct (p a); simpl; lia. Qed.
Lemma concludes_found lic files : lic <> "" -> lic <> "NOASSERTION" ->
  filter (concludes lic) (filter lic_found files) = filter (concludes lic) files.
Proof.
  intros H1 H2. induction files as [|f files IH]; [reflexivity|]. cbn [filter]. unfold lic_found at 1.
  destruct (no_license f) eqn:E; cbn [negb filter].
  - rewrite IH. unfold no_license, concludes in *.
    destruct (String.eqb (f_LicenseConcluded f) lic) eqn:El; [|reflexivity].
    apply String.eqb_eq in El. rewrite El in E. apply orb_true_iff in E.
    rewrite !String.eqb_eq in E. destruct E; contradiction.
  - destruct (concludes lic f); now rewrite IH.
Qed.
Lemma concludes_not_found lic files : lic = "" \/ lic = "NOASSERTION" ->
  filter (concludes lic) (filter lic_found files) = [].
Proof.
  intros H. induction files as [|f files IH]; [reflexivity|]. cbn [filter]. unfold lic_found at 1.
  destruct (no_license f) eqn:E; cbn [negb filter]; [assumption|].
  unfold concludes at 1. destruct (String.eqb (f_LicenseConcluded f) lic) eqn:El; [|assumption].
  unfold no_license, concludes in E. apply String.eqb_eq in El. rewrite El in E.
  destruct H as [->| ->]; discriminate.
Qed.

Definition sum_counts (l : list (string * N)) : N := fold_right (fun e n => (snd e + n)%N) 0%N l.
Lemma sum_counts_perm l l' : Permutation l l' -> sum_counts l = sum_counts l'.
Proof. unfold sum_counts. induction 1; cbn [fold_right]; lia. Qed.

(** the counts of distinct classes add up *)
Lemma sum_by_class files (m : list (string * N)) : NoDup (map fst m) ->
  (forall lic, map_get lic m =
     let n := N.of_nat (length (filter (concludes lic) files)) in if (n =? 0)%N then None else Some n) ->
  sum_counts m = N.of_nat (length files).
Proof.
  revert files. induction m as [|[k c] m IH]; intros files Hn Hg.
  - destruct files as [|f files]; [reflexivity|]. specialize (Hg (f_LicenseConcluded f)).
    cbn in Hg. unfold concludes at 1 in Hg. rewrite String.eqb_refl in Hg. cbn [length] in Hg.
    match type of Hg with context [(?n =? 0)%N] => destruct (N.eqb_spec n 0) end; [lia|discriminate].
  - inversion Hn as [|? ? Hk Hm]; subst.
    pose proof (Hg k) as Hk'. cbn [map_get] in Hk'. rewrite String.eqb_refl in Hk'. cbn zeta in Hk'.
    destruct (N.of_nat (length (filter (concludes k) files)) =? 0)%N; [discriminate|].
    inversion Hk'; subst c.
    cbn [sum_counts fold_right snd]. fold (sum_counts m).
    rewrite (IH (filter (fun f => negb (concludes k f)) files)); [|assumption|].
    + rewrite <- (filter_filter_length (concludes k) files). lia.
    + intros lic. specialize (Hg lic). cbn [map_get] in Hg. cbn zeta in *.
      destruct (String.eqb lic k) eqn:E.
      * apply String.eqb_eq in E. subst lic. rewrite (proj2 (map_get_none k m) Hk).
        replace (filter (concludes k) (filter (fun f => negb (concludes k f)) files)) with (@nil File); [reflexivity|].
        symmetry. clear. induction files as [|f files IH]; [reflexivity|]. cbn [filter].
        destruct (concludes k f) eqn:E; cbn [negb filter]; [assumption|]. now rewrite E.
      * rewrite Hg.
        replace (filter (concludes lic) (filter (fun f => negb (concludes k f)) files))
          with (filter (concludes lic) files); [reflexivity|].
        apply String.eqb_neq in E. clear - E.
        induction files as [|f files IH]; [reflexivity|]. cbn [filter].
        destruct (concludes k f) eqn:Ek; cbn [negb filter]; rewrite <- ?IH; [|now rewrite IH].
        unfold concludes in *. apply String.eqb_eq in Ek. rewrite Ek.
        rewrite (proj2 (String.eqb_neq k lic)) by congruence. now rewrite IH.
Qed.
