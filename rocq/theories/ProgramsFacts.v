(** * Facts about Programs.v *)
From Verif Require Import GoStr GoStrFacts Sorting Types TvUtil TvState TvParser SpdxLib LicenseTools SpecUtils SpecTools UtilsFacts ToolsFacts PropsTools ReportFacts
  Stream TabWriter Report SpecReport PropsReport Programs SpecPrograms.
Local Open Scope string_scope.

Lemma ends_filter rs : ends rs (filter_relationships rs described_end).
Proof.
  induction rs as [|r rs IH]; cbn [filter_relationships]; [constructor|].
  destruct (described_end r) as [id|] eqn:E; constructor; try assumption.
  - now apply described_end_some.
  - intros id H. apply described_end_some in H. congruence.
Qed.
Lemma ends_inj rs a b : ends rs a -> ends rs b -> a = b.
Proof.
  intros H. revert b. induction H as [|r rs id ids S H IH|r rs ids S H IH]; intros b H'; inversion H'; subst; try reflexivity.
  - f_equal; [|now apply IH]. apply described_end_some in S. apply described_end_some in H2. congruence.
  - now apply H2 in S.
  - now apply S in H2.
  - now apply IH.
Qed.
Lemma topics_iff srt doc ids : get_described_package_ids srt doc = Ok ids <-> topics doc ids.
Proof.
  unfold get_described_package_ids, topics. pose proof (ends_filter (d_Relationships doc)) as E.
  destruct (d_Packages doc) as [|p [|p' ps]].
  - split; [discriminate|]. intros [(q & H & _)|(H & _)]; [discriminate|cbn in H; lia].
  - split; [intros H; injection H as <-; left; now exists p|]. intros [(q & H & ->)|(H & _)]; [now injection H as <-|cbn in H; lia].
  - split.
    + destruct (d_Relationships doc) as [|r rs]; [discriminate|].
      destruct (filter_relationships (r :: rs) described_end) as [|x xs]; [discriminate|].
      intros H. injection H as <-. right. unfold sort_element_ids. split; [cbn; lia|]. split; [|split; [apply sort_by_ordered|]].
      * intros H. pose proof (sort_by_perm srt _ (fun x : string => x) (x :: xs)) as P. rewrite H in P. apply Permutation_nil in P. discriminate.
      * exists (x :: xs). split; [assumption|]. apply sort_by_perm.
    + intros [(q & H & _)|(_ & N & O & l & L & P)]; [discriminate|]. rewrite <- (ends_inj _ _ _ E L) in P. clear L l.
      destruct (d_Relationships doc) as [|r rs]. { cbn [filter_relationships] in P. symmetry in P. apply Permutation_nil in P. contradiction. }
      destruct (filter_relationships (r :: rs) described_end) as [|x xs]. { symmetry in P. apply Permutation_nil in P. contradiction. }
      f_equal. unfold sort_element_ids. apply ordered_perm_unique_id; [now rewrite sort_by_perm|apply sort_by_ordered|assumption].
Qed.
Lemma topics_inj doc a b : topics doc a -> topics doc b -> a = b.
Proof. intros A B. apply (topics_iff insertion_sorter) in A, B. congruence. Qed.

Lemma package_with_some id doc p : package_with id doc = Some p <-> is_package doc id p.
Proof.
  unfold package_with, is_package. induction (d_Packages doc) as [|q l IH]; cbn [find].
  - split; [discriminate|]. intros ([|? ?] & a & H & _); discriminate.
  - destruct (String.eqb_spec (p_SPDXIdentifier q) id) as [E|E].
    + split.
      * intros H. injection H as <-. exists [], l. repeat split; [assumption|]. intros ? [].
      * intros ([|b bs] & a & H & I & N); injection H as -> ->; [reflexivity|]. exfalso. now apply (N b (or_introl eq_refl)).
    + rewrite IH. split.
      * intros (b & a & -> & I & N). exists (q :: b), a. repeat split; [assumption|]. intros r [<-|R]; [assumption|now apply N].
      * intros ([|b bs] & a & H & I & N); injection H as -> ->; [contradiction|]. exists bs, a. repeat split; [assumption|].
        intros r R. apply N. now right.
Qed.
Lemma package_with_none id doc : package_with id doc = None <-> no_package doc id.
Proof.
  unfold package_with, no_package. split.
  - intros H p I E. apply (find_none _ _ H) in I. apply String.eqb_neq in I. contradiction.
  - intros H. destruct (find _ _) as [p|] eqn:F; [|reflexivity]. apply find_some in F as [I E]. apply String.eqb_eq in E. now apply H in I.
Qed.
Lemma is_package_inj doc id p q : is_package doc id p -> is_package doc id q -> p = q.
Proof. rewrite <- !package_with_some. congruence. Qed.
Lemma is_no_package doc id p : is_package doc id p -> ~ no_package doc id.
Proof. rewrite <- package_with_some, <- package_with_none. congruence. Qed.

Lemma number_of_inj P Q n m : (forall x, P x <-> Q x) -> number_of P n -> number_of Q m -> n = m.
Proof.
  intros E (l & D & I & <-) (l' & D' & I' & <-). apply Nat.le_antisymm; apply NoDup_incl_length; try assumption; intros x H.
  - apply I', E, I, H.
  - apply I, E, I', H.
Qed.
Lemma number_of_ext P Q n : (forall x, P x <-> Q x) -> number_of P n -> number_of Q n.
Proof. intros E (l & D & I & L). exists l. split; [assumption|]. split; [|assumption]. intros x. rewrite I. apply E. Qed.
Lemma number_of_map {A} (m : list (string * A)) P : NoDup (map fst m) -> (forall x, (exists a, map_get x m = Some a) <-> P x) ->
  number_of P (List.length m).
Proof.
  intros D I. exists (map fst m). split; [assumption|]. split; [|apply map_length]. intros x. rewrite <- I. split.
  - intros H. destruct (map_get x m) as [a|] eqn:E; [now exists a|]. now apply map_get_none in E.
  - intros (a & H). apply (map_get_in x a m D) in H. apply (in_map fst _ _ H).
Qed.
Lemma says_compared iter p1 p2 : (forall l, Permutation (iter l) l) ->
  let r := make_results (iter (make_pairs p1 p2)) in
  number_of (fun x => exists a, licensed_as p1 p2 x a "" /\ a <> "") (List.length (ld_InFirstOnly r)) /\
  number_of (fun x => exists b, licensed_as p1 p2 x "" b /\ b <> "") (List.length (ld_InSecondOnly r)) /\
  number_of (fun x => exists a b, licensed_as p1 p2 x a b /\ a <> "" /\ b <> "" /\ a <> b) (List.length (ld_InBothChanged r)) /\
  number_of (fun x => exists a, licensed_as p1 p2 x a a) (List.length (ld_InBothSame r)).
Proof.
  intros P r. destruct (C22_pairs p1 p2) as [D G].
  destruct (C22_classes (make_pairs p1 p2) (iter (make_pairs p1 p2)) D (P _)) as [(D1 & D2 & D3 & D4) C]. fold r in D1, D2, D3, D4, C.
  repeat split; apply number_of_map; try assumption; intros x; destruct (C x) as (C1 & C2 & C3 & C4); unfold licensed_as.
  - split; intros (a & H); exists a; [apply C2 in H|apply C2]; now rewrite G in *.
  - split; intros (a & H); exists a; [apply C3 in H|apply C3]; now rewrite G in *.
  - split.
    + intros ([a b] & H). exists a, b. apply C4 in H. now rewrite G in H.
    + intros (a & b & H). exists (MkLP a b). apply C4. now rewrite G.
  - split; intros (a & H); exists a; [apply C1 in H|apply C1]; now apply G.
Qed.

Lemma says_exists iter d1 d2 id : (forall l, Permutation (iter l) l) ->
  exists v, says d1 d2 id v /\ diff_first iter d1 d2 id = first_text v.
Proof.
  intros P. unfold diff_first, says. destruct (package_with id d1) as [p1|] eqn:E1.
  - pose proof (proj1 (package_with_some _ _ _) E1) as K1. destruct (package_with id d2) as [p2|] eqn:E2.
    + pose proof (proj1 (package_with_some _ _ _) E2) as K2. destruct (says_compared iter p1 p2 P) as (N1 & N2 & N3 & N4).
      eexists (Compared id (p_PackageName p1) _ _ _ _). split.
      * right. right. exists p1, p2. do 4 eexists. repeat (split; [eassumption || reflexivity|]). exact N4.
      * unfold first_text, line, rule. cbv zeta. now rewrite ?app_assoc_s.
    + apply package_with_none in E2. exists (Alone id (p_PackageName p1)). split; [right; left; now exists p1|].
      unfold first_text, line, rule. now rewrite ?app_assoc_s.
  - apply package_with_none in E1. exists (Unknown id). split; [now left|]. unfold first_text, line, rule. now rewrite ?app_assoc_s.
Qed.
Lemma says_second d1 d2 id v : says d2 d1 id v -> diff_second d1 d2 id = second_text v.
Proof.
  unfold diff_second, line, rule. intros [(H & ->)|[(p & H1 & H2 & ->)|(p1 & p2 & n1 & n2 & n3 & n4 & H1 & H2 & -> & _)]]; unfold second_text.
  - apply package_with_none in H. rewrite H. unfold line. now rewrite ?app_assoc_s.
  - apply package_with_some in H1. apply package_with_none in H2. rewrite H1, H2. unfold line. now rewrite ?app_assoc_s.
  - apply package_with_some in H1, H2. now rewrite H1, H2.
Qed.
Lemma says_inj d1 d2 id v w : says d1 d2 id v -> says d1 d2 id w -> v = w.
Proof.
  intros [(H & ->)|[(p & H1 & H2 & ->)|(p1 & p2 & n1 & n2 & n3 & n4 & H1 & H2 & -> & A1 & A2 & A3 & A4)]]
         [(K & ->)|[(q & K1 & K2 & ->)|(q1 & q2 & m1 & m2 & m3 & m4 & K1 & K2 & -> & B1 & B2 & B3 & B4)]];
    try reflexivity; try (exfalso; match goal with A : is_package ?d ?i _, B : no_package ?d ?i |- _ => exact (is_no_package _ _ _ A B) end).
  - now rewrite (is_package_inj _ _ _ _ H1 K1).
  - pose proof (is_package_inj _ _ _ _ H1 K1) as <-. pose proof (is_package_inj _ _ _ _ H2 K2) as <-.
    f_equal; eapply number_of_inj; try eassumption; reflexivity.
Qed.

(** ** The report *)
Lemma report_packages_spec cs ids pkgs : Forall plain_licenses pkgs -> exists l, chosen ids pkgs l /\
  ((Forall reportable l /\ exists ts, Forall2 chapter l ts /\ report_packages cs ids pkgs = Ok (String.concat "" ts)) \/
   (exists a p b ts, l = (a ++ p :: b)%list /\ Forall reportable a /\ ~ reportable p /\ Forall2 chapter a ts /\
      report_packages cs ids pkgs = Ok (String.concat "" ts ++ complaint p))).
Proof.
  intros P. induction P as [|p pkgs Pp P IH]; cbn [report_packages].
  - exists []. split; [constructor|]. left. split; [constructor|]. exists []. split; [constructor|reflexivity].
  - destruct IH as (l & C & IH). destruct (existsb (String.eqb (p_SPDXIdentifier p)) ids) eqn:E.
    2:{ exists l. split; [|exact IH]. constructor; [|assumption]. intros I. rewrite <- Bool.not_true_iff_false in E. apply E. apply existsb_exists.
        exists (p_SPDXIdentifier p). split; [assumption|apply String.eqb_refl]. }
    apply existsb_exists in E as (i & I & E). apply String.eqb_eq in E. subst i.
    exists (p :: l). split; [now constructor|]. destruct (p_FilesAnalyzed p) eqn:A; cbn [negb].
    + destruct (p_Files p) as [|f fs] eqn:F.
      * right. exists [], p, l, []. repeat split; try constructor.
        { intros [_ N]. now apply N. }
        unfold complaint, line. rewrite A. now rewrite ?app_assoc_s.
      * assert (reportable p) as R by (split; [assumption|rewrite F; discriminate]).
        destruct (C51_text (fun _ => Accept) cs p (fun _ => eq_refl) A Pp) as (c & L & G). rewrite G. cbn [bindR].
        assert (chapter p (heading p ++ report (licensed p) (unlicensed p) c)) as K by (now exists c).
        destruct IH as [(FR & ts & T & ->)|(a & q & b & ts & -> & FR & N & T & ->)]; cbn [bindR].
        -- left. split; [now constructor|]. exists ((heading p ++ report (licensed p) (unlicensed p) c) :: ts). split; [now constructor|].
           f_equal. rewrite concat_cons. unfold heading, line. now rewrite ?app_assoc_s.
        -- right. exists (p :: a), q, b, ((heading p ++ report (licensed p) (unlicensed p) c) :: ts). repeat split; [now constructor|assumption|now constructor|].
           f_equal. rewrite concat_cons. unfold heading, line. now rewrite ?app_assoc_s.
    + right. exists [], p, l, []. repeat split; try constructor.
      { intros [N _]. congruence. }
      unfold complaint, line. rewrite A. now rewrite ?app_assoc_s.
Qed.
