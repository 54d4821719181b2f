(** * Properties of spdxlib, licensediff and reporter (C20 - C23) *)
From Verif Require Import GoStr GoStrFacts Sorting Types TvUtil TvState TvParser
  Utils SpdxLib LicenseTools SpecUtils SpecTools UtilsFacts ToolsFacts.
Local Open Scope string_scope.

(** ** C20: reference validation *)
Theorem C20_validate : forall doc,
  (validate_document doc = Ok tt <->
   forall r, In r (d_Relationships doc) ->
     names_element doc (de_ElementRefID (r_RefA r)) /\ names_element doc (de_ElementRefID (r_RefB r))) /\
  (validate_document doc <> Ok tt -> exists m, validate_document doc = Err m).
Proof.
  intros doc. unfold validate_document.
  destruct (check_relationships_spec (valid_element_ids doc) (d_Relationships doc))
    as [[H1 H2]|[[m Hm] (r & H1 & H2)]]; split.
  - split; [|intros; assumption]. intros _ r Hr. destruct (H2 r Hr). split; now apply valid_ids_spec.
  - intros H. contradiction.
  - rewrite Hm. split; [discriminate|]. intros H. destruct (H r H1) as [Ha Hb].
    apply valid_ids_spec in Ha, Hb. destruct H2; congruence.
  - eauto.
Qed.
Print Assumptions C20_validate.

(** Only the element part of a reference is looked at: a reference into another
    document passes if some local element has the same identifier, so "names an
    element of this document" in the strict sense is not what is checked. *)
Theorem C20_strict_refuted :
  ~ forall doc, validate_document doc = Ok tt ->
      forall r, In r (d_Relationships doc) ->
        de_DocumentRefID (r_RefA r) = "" /\ de_DocumentRefID (r_RefB r) = "".
Proof.
  intros H.
  destruct (H (set_d_Relationships [MkRln the_document (MkDEID "other" "DOCUMENT" "") "AMENDS" ""] zero_DocumentOf)
              eq_refl _ (or_introl eq_refl)) as [_ H']. discriminate.
Qed.
Print Assumptions C20_strict_refuted.
(** A relationship to NONE or NOASSERTION is rejected, although SPDX allows it,
    in every document whose packages and files all have identifiers. *)
Theorem C20_special_rejected : forall doc r,
  In r (d_Relationships doc) -> de_ElementRefID (r_RefB r) = "" ->
  (forall p, In p (d_Packages doc) -> p_SPDXIdentifier p <> "") ->
  (forall f, In f (d_Files doc) -> f_SPDXIdentifier f <> "") ->
  exists m, validate_document doc = Err m.
Proof.
  intros doc r Hr Hs Hp Hf. apply C20_validate. intros H.
  destruct (proj1 (proj1 (C20_validate doc)) H r Hr) as [_ [E|[(p & H1 & H2)|(f & H1 & H2)]]].
  - rewrite Hs in E. discriminate.
  - apply (Hp p H1). congruence.
  - apply (Hf f H1). congruence.
Qed.
Print Assumptions C20_special_rejected.

Definition w_pkg (name id : string) : Package :=
  set_p_SPDXIdentifier id (set_p_PackageName name zero_PackageOf).
Definition w_doc : Document :=
  set_d_Relationships
    [MkRln the_document (MkDEID "" "b" "") "DESCRIBES" "";
     MkRln (MkDEID "" "a" "") (MkDEID "" "b" "") "DEPENDS_ON" "";
     MkRln (MkDEID "" "a" "") the_document "DESCRIBED_BY" ""]
    (set_d_Packages [w_pkg "A" "a"; w_pkg "B" "b"] zero_DocumentOf).
Example C20_witness :
  validate_document w_doc = Ok tt /\
  validate_document (set_d_Packages [w_pkg "A" "a"] w_doc) <> Ok tt.
Proof. split; [reflexivity|discriminate]. Qed.

(** The error names the first identifier that is not one of an element. *)
Theorem C20_message : forall doc m, validate_document doc = Err m <->
  exists before id after, referred doc = (before ++ id :: after)%list /\ (forall x, In x before -> names_element doc x) /\ ~ names_element doc id /\
    m = id ++ " used in relationship but no such package exists".
Proof.
  intros doc m. unfold validate_document, referred.
  assert (V : forall x, existsb (String.eqb x) (valid_element_ids doc) = true <-> names_element doc x).
  { intros x. rewrite existsb_exists. unfold names_element, valid_element_ids. split.
    - intros (y & I & E). apply String.eqb_eq in E. subst y. rewrite !in_app_iff, !in_map_iff in I. destruct I as [(p & E & I)|[(f & E & I)|[E|[]]]].
      + right. left. eauto.
      + right. right. eauto.
      + left. now rewrite <- E.
    - intros H. exists x. split; [|apply String.eqb_refl]. rewrite !in_app_iff, !in_map_iff. destruct H as [->|[(p & I & E)|(f & I & E)]]; [right; right; now left|left; eauto|right; left; eauto]. }
  assert (W : forall x, existsb (String.eqb x) (valid_element_ids doc) = false <-> ~ names_element doc x).
  { intros x. rewrite <- V. destruct (existsb _ _); split; congruence. }
  induction (d_Relationships doc) as [|r rs IH].
  - split; [discriminate|]. intros ([|? ?] & ? & ? & E & _); discriminate E.
  - cbn [check_relationships flat_map app].
    destruct (existsb (String.eqb (de_ElementRefID (r_RefA r))) (valid_element_ids doc)) eqn:EA; cbn [negb].
    2: { split.
      - intros E. inversion E. exists [], (de_ElementRefID (r_RefA r)). eexists. split; [reflexivity|]. split; [intros ? []|]. split; [now apply W|reflexivity].
      - intros ([|x b] & id & a & E & F & N & ->); cbn [app] in E; injection E as E _; [now rewrite E|].
        exfalso. apply W in EA. apply EA. rewrite E. apply F. now left. }
    destruct (existsb (String.eqb (de_ElementRefID (r_RefB r))) (valid_element_ids doc)) eqn:EB; cbn [negb].
    2: { split.
      - intros E. inversion E. exists [de_ElementRefID (r_RefA r)], (de_ElementRefID (r_RefB r)). eexists. split; [reflexivity|].
        split; [intros ? [<-|[]]; now apply V|]. split; [now apply W|reflexivity].
      - intros ([|x [|y b]] & id & a & E & F & N & ->); cbn [app] in E.
        + injection E as E _. exfalso. apply N. rewrite <- E. now apply V.
        + injection E as _ E _. now rewrite E.
        + injection E as _ E _. exfalso. apply W in EB. apply EB. rewrite E. apply F. right. now left. }
    rewrite IH. split.
    + intros (b & id & a & E & F & N & M). exists (de_ElementRefID (r_RefA r) :: de_ElementRefID (r_RefB r) :: b), id, a.
      split; [cbn [app]; now rewrite E|]. split; [|now split]. intros x [<-|[<-|I]]; [now apply V|now apply V|now apply F].
    + intros ([|x [|y b]] & id & a & E & F & N & M); cbn [app] in E.
      * injection E as E _. exfalso. apply N. rewrite <- E. now apply V.
      * injection E as _ E _. exfalso. apply N. rewrite <- E. now apply V.
      * injection E as _ _ E. exists b, id, a. split; [exact E|]. split; [|now split]. intros z I. apply F. right. now right.
Qed.
Print Assumptions C20_message.
Example C20_message_witness : validate_document (set_d_Packages [w_pkg "A" "a"] w_doc) = Err "b used in relationship but no such package exists".
Proof. reflexivity. Qed.

(** ** C21: described packages *)
Theorem C21_described : forall srt doc,
  match d_Packages doc with
  | [] => exists m, get_described_package_ids srt doc = Err m
  | [p] => get_described_package_ids srt doc = Ok [p_SPDXIdentifier p]
  | _ =>
      (forall ids, get_described_package_ids srt doc = Ok ids ->
         ids <> [] /\ ordered (fun x => x) ids /\ forall id, In id ids <-> described doc id) /\
      ((exists id, described doc id) <-> exists ids, get_described_package_ids srt doc = Ok ids) /\
      ((forall id, ~ described doc id) -> exists m, get_described_package_ids srt doc = Err m)
  end.
Proof.
  intros srt doc. unfold get_described_package_ids.
  assert (forall id, In id (filter_relationships (d_Relationships doc) described_end) <-> described doc id) as Hin.
  { intros id. rewrite filter_relationships_in. unfold described.
    split; intros (r & H1 & H2); exists r; (split; [assumption|]); now apply described_end_some. }
  destruct (d_Packages doc) as [|p [|p' ps]]; [eauto|reflexivity|].
  destruct (d_Relationships doc) as [|r rs] eqn:Er.
  - split; [discriminate|]. split; [|eauto]. split; [|intros (? & ?); discriminate].
    intros (id & H). apply Hin in H. destruct H.
  - destruct (filter_relationships (r :: rs) described_end) as [|x xs] eqn:Ef.
    + split; [discriminate|]. split; [|eauto]. split; [|intros (? & ?); discriminate].
      intros (id & H). apply Hin in H. destruct H.
    + split; [|split].
      * intros ids E. inversion E; subst ids. unfold sort_element_ids. split; [|split].
        -- intros H. pose proof (sort_by_perm srt _ (fun x : string => x) (x :: xs)) as Hp.
           rewrite H in Hp. apply Permutation_nil in Hp. discriminate.
        -- apply sort_by_ordered.
        -- intros id. rewrite sort_by_in. apply Hin.
      * split; [eauto|]. intros _. exists x. apply Hin. now left.
      * intros H. exfalso. apply (H x). apply Hin. now left.
Qed.
Print Assumptions C21_described.

(** With two or more packages the multiplicity is fixed too: an identifier is returned once
    for each relationship that says it is described. *)
Theorem C21_multiplicity : forall srt doc ids, 2 <= length (d_Packages doc) -> get_described_package_ids srt doc = Ok ids ->
  exists l, described_list (d_Relationships doc) l /\ Permutation l ids.
Proof.
  intros srt doc ids L. unfold get_described_package_ids.
  assert (T : forall rs, described_list rs (filter_relationships rs described_end)).
  { induction rs as [|r rs IH]; [constructor|]. cbn [filter_relationships]. destruct (described_end r) as [id|] eqn:E.
    - constructor; [now apply described_end_some|exact IH].
    - constructor; [|exact IH]. intros id H. apply described_end_some in H. congruence. }
  specialize (T (d_Relationships doc)). destruct (d_Packages doc) as [|p [|p' ps]]; cbn [length] in L; [lia|lia|].
  destruct (d_Relationships doc) as [|r rs]; [discriminate|].
  destruct (filter_relationships (r :: rs) described_end) as [|x xs]; [discriminate|]. intros E. inversion E; subst ids.
  exists (x :: xs). split; [exact T|]. symmetry. apply sort_by_perm.
Qed.
Print Assumptions C21_multiplicity.
(** FilterRelationships returns what the closure returns for the relationships, in their order, without the nils;
    SortElementIDs returns the same identifiers, as often, in order, whatever the sorting algorithm. *)
Theorem C21_filter : forall rlns f, map Some (filter_relationships rlns f) = filter (fun o => match o with Some _ => true | None => false end) (map f rlns).
Proof.
  intros rlns f. induction rlns as [|r rs IH]; [reflexivity|]. cbn [filter_relationships map filter]. destruct (f r); [cbn [map]; now rewrite IH|exact IH].
Qed.
Print Assumptions C21_filter.
Theorem C21_sort : forall srt ids l, sort_element_ids srt ids = l <-> Permutation l ids /\ ordered (fun x => x) l.
Proof.
  intros srt ids l. unfold sort_element_ids. split.
  - intros <-. split; [apply sort_by_perm|apply sort_by_ordered].
  - intros [P O]. apply ordered_perm_unique_id; [|apply sort_by_ordered|exact O]. now rewrite sort_by_perm, P.
Qed.
Print Assumptions C21_sort.
Example C21_sort_witness : sort_element_ids insertion_sorter ["b"; "a"; "b"] = ["a"; "b"; "b"] /\
  filter_relationships [MkRln the_document (MkDEID "" "x" "") "CONTAINS" ""; MkRln the_document (MkDEID "" "y" "") "DESCRIBES" ""; MkRln the_document (MkDEID "" "a" "") "CONTAINS" ""]
    (fun r => if String.eqb (r_Relationship r) "CONTAINS" then Some (de_ElementRefID (r_RefB r)) else None) = ["x"; "a"].
Proof. split; vm_compute; reflexivity. Qed.
(** The order is fixed as well, whatever the sorting algorithm. *)
Theorem C21_deterministic : forall srt srt' doc,
  get_described_package_ids srt doc = get_described_package_ids srt' doc.
Proof.
  intros. unfold get_described_package_ids, sort_element_ids.
  destruct (d_Packages doc) as [|p [|p' ps]]; try reflexivity.
  destruct (d_Relationships doc) as [|r rs]; try reflexivity.
  destruct (filter_relationships (r :: rs) described_end) as [|x xs]; try reflexivity.
  f_equal. apply ordered_perm_unique_id; try apply sort_by_ordered.
  now rewrite !sort_by_perm.
Qed.
Print Assumptions C21_deterministic.

(** The result is not checked against the packages, and with a single package
    the relationships are not consulted at all. *)
Theorem C21_package_ids_refuted : forall srt,
  ~ forall doc ids id, get_described_package_ids srt doc = Ok ids -> In id ids ->
      exists p, In p (d_Packages doc) /\ p_SPDXIdentifier p = id.
Proof.
  intros srt H.
  pose (doc := set_d_Relationships [MkRln the_document (MkDEID "" "file" "") "DESCRIBES" ""]
                (set_d_Packages [w_pkg "A" "a"; w_pkg "B" "b"] zero_DocumentOf) : Document).
  pose proof (C21_deterministic srt insertion_sorter doc) as E.
  destruct (H doc ["file"] "file") as (p & [<-|[<-|[]]] & Hp); try discriminate.
  - rewrite E. reflexivity.
  - now left.
Qed.
Print Assumptions C21_package_ids_refuted.

Example C21_witness : forall srt, get_described_package_ids srt w_doc = Ok ["a"; "b"].
Proof. intros. rewrite (C21_deterministic srt insertion_sorter). reflexivity. Qed.

(** ** C22: comparison of licenses *)
Theorem C22_pairs : forall p1 p2,
  NoDup (map fst (make_pairs p1 p2)) /\
  forall name a b,
    map_get name (make_pairs p1 p2) = Some (MkLP a b) <->
    (has_file p1 name \/ has_file p2 name) /\ license_for p1 name a /\ license_for p2 name b.
Proof.
  intros p1 p2. split; [apply make_pairs_nodup|]. intros name a b.
  rewrite make_pairs_get, !has_file_last, !license_for_last.
  destruct (last_license (p_Files p1) name None), (last_license (p_Files p2) name None);
    (split; [intros H; inversion H; subst; repeat split; auto; (left; discriminate) || (right; discriminate)
            |intros (H1 & -> & ->)]); try reflexivity.
  destruct H1 as [H1|H1]; exfalso; now apply H1.
Qed.
Print Assumptions C22_pairs.

(** The four classes, whatever the order in which the map is visited. *)
Theorem C22_classes : forall pairs visited,
  NoDup (map fst pairs) -> Permutation visited pairs ->
  let d := make_results visited in
  (NoDup (map fst (ld_InBothSame d)) /\ NoDup (map fst (ld_InFirstOnly d)) /\
   NoDup (map fst (ld_InSecondOnly d)) /\ NoDup (map fst (ld_InBothChanged d))) /\
  forall name,
    (forall a, map_get name (ld_InBothSame d) = Some a <-> map_get name pairs = Some (MkLP a a)) /\
    (forall a, map_get name (ld_InFirstOnly d) = Some a <->
               map_get name pairs = Some (MkLP a "") /\ a <> "") /\
    (forall b, map_get name (ld_InSecondOnly d) = Some b <->
               map_get name pairs = Some (MkLP "" b) /\ b <> "") /\
    (forall p, map_get name (ld_InBothChanged d) = Some p <->
               map_get name pairs = Some p /\ lp_First p <> "" /\ lp_Second p <> "" /\
               lp_First p <> lp_Second p).
Proof.
  intros pairs visited Hn Hp d.
  assert (NoDup (map fst visited)) as Hv.
  { eapply Permutation_NoDup; [apply Permutation_map; symmetry; exact Hp|exact Hn]. }
  split.
  { apply classify_nodup; constructor. }
  intros name.
  destruct (classify_gen visited (MkLD [] [] [] []) name Hv) as (H1 & H2 & H3 & H4).
  fold (make_results visited) in *. fold d in H1, H2, H3, H4. cbn [ld_InBothSame ld_InFirstOnly
    ld_InSecondOnly ld_InBothChanged map_get] in *.
  rewrite (map_get_perm name visited pairs Hv Hp) in H1, H2, H3, H4.
  rewrite H1, H2, H3, H4. clear H1 H2 H3 H4.
  destruct (map_get name pairs) as [[a b]|]; cbn [select].
  2: repeat split; intros; try discriminate; intuition discriminate.
  unfold class_same, class_first, class_second, class_changed. cbn [lp_First lp_Second].
  destruct (String.eqb_spec a b) as [->|Hab].
  { repeat split; intros; try discriminate; intuition (try congruence).
    all: try (match goal with H : Some _ = Some _ |- _ => inversion H; subst end); cbn in *; intuition congruence. }
  destruct (String.eqb_spec a "") as [->|Ha].
  { repeat split; intros; try discriminate; intuition (try congruence).
    all: try (match goal with H : Some _ = Some _ |- _ => inversion H; subst end); cbn in *; intuition congruence. }
  destruct (String.eqb_spec b "") as [->|Hb];
    (repeat split; intros; try discriminate; intuition (try congruence));
    try (match goal with H : Some _ = Some _ |- _ => inversion H; subst end); cbn in *; intuition congruence.
Qed.
Print Assumptions C22_classes.

(** Every file name is in exactly one class. *)
Theorem C22_partition : forall pairs visited name,
  NoDup (map fst pairs) -> Permutation visited pairs ->
  let d := make_results visited in
  let same := map_get name (ld_InBothSame d) <> None in
  let first := map_get name (ld_InFirstOnly d) <> None in
  let second := map_get name (ld_InSecondOnly d) <> None in
  let changed := map_get name (ld_InBothChanged d) <> None in
  (map_get name pairs <> None ->
     (same /\ ~ first /\ ~ second /\ ~ changed) \/ (~ same /\ first /\ ~ second /\ ~ changed) \/
     (~ same /\ ~ first /\ second /\ ~ changed) \/ (~ same /\ ~ first /\ ~ second /\ changed)) /\
  (map_get name pairs = None -> ~ same /\ ~ first /\ ~ second /\ ~ changed).
Proof.
  intros pairs visited name Hn Hp d same first second changed.
  assert (NoDup (map fst visited)) as Hv.
  { eapply Permutation_NoDup; [apply Permutation_map; symmetry; exact Hp|exact Hn]. }
  destruct (classify_gen visited (MkLD [] [] [] []) name Hv) as (H1 & H2 & H3 & H4).
  fold (make_results visited) in *. fold d in H1, H2, H3, H4. cbn [ld_InBothSame ld_InFirstOnly
    ld_InSecondOnly ld_InBothChanged map_get] in *.
  rewrite (map_get_perm name visited pairs Hv Hp) in H1, H2, H3, H4.
  subst same first second changed. rewrite H1, H2, H3, H4. clear.
  destruct (map_get name pairs) as [[a b]|]; cbn [select]; split; intros H; try contradiction; try discriminate.
  2: intuition.
  unfold class_same, class_first, class_second, class_changed. cbn [lp_First lp_Second].
  destruct (String.eqb a b); [left; intuition discriminate|].
  destruct (String.eqb a ""); [right; right; left; intuition discriminate|].
  destruct (String.eqb b ""); [right; left; intuition discriminate|].
  right; right; right; intuition discriminate.
Qed.
Print Assumptions C22_partition.

(** The classes follow the licenses, not the presence of the file: a file of
    both packages with an empty license in the second is reported as being in
    the first only. *)
Definition w_file (name lic : string) : File :=
  set_f_LicenseConcluded lic (set_f_FileName name zero_FileOf).
Theorem C22_presence_refuted :
  ~ forall p1 p2 name,
      map_get name (ld_InFirstOnly (make_results (make_pairs p1 p2))) <> None -> ~ has_file p2 name.
Proof.
  intros H.
  apply (H (set_p_Files [w_file "a" "MIT"] zero_PackageOf) (set_p_Files [w_file "a" ""] zero_PackageOf) "a").
  - discriminate.
  - exists (w_file "a" ""). split; [now left|reflexivity].
Qed.
Print Assumptions C22_presence_refuted.

Example C22_witness :
  make_results (make_pairs
    (set_p_Files [w_file "a" "MIT"; w_file "b" "X"; w_file "c" "Y"] zero_PackageOf)
    (set_p_Files [w_file "d" "Z"; w_file "b" "W"; w_file "c" "Y"] zero_PackageOf)) =
  MkLD [("b", MkLP "X" "W")] [("c", "Y")] [("a", "MIT")] [("d", "Z")].
Proof. reflexivity. Qed.

(** ** C23: license report *)
Theorem C23_report : forall cs pkg rows,
  generate cs pkg = Ok rows ->
  exists found not_found counts,
    rows = ([Row found "License found"; Row not_found "License not found";
             Row (found + not_found) "TOTAL"; Blank]
            ++ map (fun e => Row (snd e) (fst e)) counts ++ [Row found "TOTAL FOUND"])%list /\
    not_found = N.of_nat (length (filter no_license (p_Files pkg))) /\
    (found + not_found)%N = N.of_nat (length (p_Files pkg)) /\
    found = fold_right (fun e n => (snd e + n)%N) 0%N counts /\
    NoDup (map fst counts) /\
    (forall lic n, In (lic, n) counts <->
       n = concluding lic pkg /\ n <> 0%N /\ lic <> "" /\ lic <> "NOASSERTION") /\
    StronglySorted (fun a b => (snd b <= snd a)%N) counts.
Proof.
  intros cs pkg rows. unfold generate, count_licenses.
  destruct (p_FilesAnalyzed pkg); cbn [negb]; [|discriminate].
  destruct (count_fold (p_Files pkg) 0 0 []) as (m & H1 & H2 & H3).
  rewrite H1, !N.add_0_l. intros E. injection E as E. subst rows.
  pose proof (by_count_perm cs m) as Hp.
  assert (NoDup (map fst m)) as Hn by (apply H2; constructor).
  assert (forall lic, map_get lic m = let n := N.of_nat (length (filter (concludes lic) (filter lic_found (p_Files pkg)))) in
            if (n =? 0)%N then None else Some n) as H3' by (intros; apply H3).
  eexists _, _, (by_count cs m). split; [reflexivity|]. split; [reflexivity|].
  split; [|split; [|split; [|split]]].
  - rewrite <- Nat2N.inj_add. f_equal.
    rewrite <- (filter_filter_length no_license (p_Files pkg)), Nat.add_comm. reflexivity.
  - change (N.of_nat (length (filter lic_found (p_Files pkg))) = sum_counts (by_count cs m)).
    rewrite (sum_counts_perm _ _ Hp). symmetry. now apply sum_by_class.
  - eapply Permutation_NoDup; [apply Permutation_map; symmetry; exact Hp|exact Hn].
  - intros lic n.
    transitivity (In (lic, n) m); [split; apply Permutation_in; [|symmetry]; exact Hp|].
    rewrite <- map_get_in by assumption. rewrite H3'. cbn zeta. unfold concluding.
    destruct (string_dec lic "") as [Hl|Hl]; [|destruct (string_dec lic "NOASSERTION") as [Hl'|Hl']].
    + rewrite concludes_not_found by auto. cbn. split; [discriminate|]. intros (_ & _ & H & _). contradiction.
    + rewrite concludes_not_found by auto. cbn. split; [discriminate|]. intros (_ & _ & _ & H). contradiction.
    + rewrite concludes_found by assumption.
      destruct (N.eqb_spec (N.of_nat (length (filter (concludes lic) (p_Files pkg)))) 0) as [E|E].
      * split; [discriminate|]. intros (-> & H & _). contradiction.
      * split; [intros H; inversion H; subst; auto|]. intros (-> & _). reflexivity.
  - apply by_count_desc.
Qed.
Print Assumptions C23_report.

(** A report is produced exactly for packages with analysed files. *)
Theorem C23_total : forall cs pkg,
  (p_FilesAnalyzed pkg = true <-> exists rows, generate cs pkg = Ok rows) /\
  (p_FilesAnalyzed pkg = false <-> exists m, generate cs pkg = Err m).
Proof.
  intros. unfold generate. destruct (p_FilesAnalyzed pkg); cbn [negb];
    destruct (count_licenses pkg) as [[a b] m]; split; split; eauto; try discriminate;
    intros [? H]; discriminate.
Qed.
Print Assumptions C23_total.

(** Permuting the files changes at most the order of licenses with equal counts. *)
Theorem C23_order : forall cs cs' pkg pkg' rows rows',
  Permutation (p_Files pkg) (p_Files pkg') ->
  generate cs pkg = Ok rows -> generate cs' pkg' = Ok rows' -> Permutation rows rows'.
Proof.
  intros cs cs' pkg pkg' rows rows' Hp H H'.
  destruct (C23_report _ _ _ H) as (f & n & c & -> & Hn & Ht & Hs & Hd & Hin & _).
  destruct (C23_report _ _ _ H') as (f' & n' & c' & -> & Hn' & Ht' & Hs' & Hd' & Hin' & _).
  assert (forall p, Permutation (filter p (p_Files pkg)) (filter p (p_Files pkg'))) as Hf.
  { intros p. clear - Hp. induction Hp; cbn [filter].
    - constructor.
    - destruct (p x); [now constructor|assumption].
    - destruct (p x), (p y); try reflexivity. apply perm_swap.
    - now rewrite IHHp1. }
  assert (n = n') as <- by (rewrite Hn, Hn'; f_equal; now apply Permutation_length).
  assert (f = f') as <-.
  { assert (f + n = f' + n)%N by (rewrite Ht, Ht'; f_equal; now apply Permutation_length). lia. }
  apply Permutation_app_head, Permutation_app_tail, Permutation_map.
  apply NoDup_Permutation.
  - eapply NoDup_map_inv. exact Hd.
  - eapply NoDup_map_inv. exact Hd'.
  - intros [lic k]. rewrite Hin, Hin'. unfold concluding.
    now rewrite (Permutation_length (Hf (concludes lic))).
Qed.
Print Assumptions C23_order.

(** A file concluding NONE counts as a file with a license. *)
Fixpoint cinsert (x : string * N) (l : list (string * N)) : list (string * N) :=
  match l with
  | [] => [x]
  | y :: r => if (snd y <=? snd x)%N then x :: l else y :: cinsert x r
  end.
Lemma cinsert_perm x l : Permutation (cinsert x l) (x :: l).
Proof.
  induction l as [|y l IH]; simpl; [reflexivity|]. destruct (snd y <=? snd x)%N; [reflexivity|].
  rewrite IH. apply perm_swap.
Qed.
Lemma cinsert_desc x l : StronglySorted (fun a b => (snd b <= snd a)%N) l ->
  StronglySorted (fun a b => (snd b <= snd a)%N) (cinsert x l).
Proof.
  induction l as [|y l IH]; simpl; intros H; [repeat constructor|].
  inversion H as [|? ? H1 H2]; subst. destruct (N.leb_spec (snd y) (snd x)).
  - constructor; [assumption|]. constructor; [assumption|].
    eapply Forall_impl; [|exact H2]. simpl. intros. lia.
  - constructor; [auto|]. eapply Permutation_Forall; [symmetry; apply cinsert_perm|].
    constructor; [lia|assumption].
Qed.
Lemma csort_perm l : Permutation (fold_right cinsert [] l) l.
Proof. induction l as [|x l IH]; simpl; [reflexivity|]. rewrite cinsert_perm. now constructor. Qed.
Lemma csort_desc l : StronglySorted (fun a b => (snd b <= snd a)%N) (fold_right cinsert [] l).
Proof. induction l as [|x l IH]; simpl; [constructor|]. now apply cinsert_desc. Qed.
Definition insertion_count_sorter := MkCountSorter _ csort_perm csort_desc.

Example C23_witness :
  generate insertion_count_sorter
    (set_p_FilesAnalyzed true (set_p_Files
      [w_file "a" "MIT"; w_file "b" "NOASSERTION"; w_file "c" "X"; w_file "d" "MIT"; w_file "e" "NONE"] zero_PackageOf)) =
  Ok [Row 4 "License found"; Row 1 "License not found"; Row 5 "TOTAL"; Blank;
      Row 2 "MIT"; Row 1 "X"; Row 1 "NONE"; Row 4 "TOTAL FOUND"].
Proof. reflexivity. Qed.
