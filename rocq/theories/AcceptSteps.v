(** Acceptance of one pair, section by section. *)
From Verif Require Import GoStr GoStrFacts Types TvState TvUtil TvReader TvParser SpecTv SpecId SpecDoc SpecRead
  TvReaderFacts TvUtilFacts TvParserFacts DenoteBase DenoteGlobal DenoteElems DenoteSteps DenoteCases DenoteSections
  DenoteFile DenoteRead AcceptBase.
From Verif Require SpecTags SpecAccept.
Import SpecAccept.

Lemma in_context_open h : artifact_open h = true <->
  exists h1 y h2, h = (h1 ++ ("ArtifactOfProjectName", y) :: h2)%list /\ Forall (fun p => In (fst p) artifact_fields) h2.
Proof.
  induction h as [|[k x] h IH] using rev_ind.
  - split; [discriminate|]. intros (h1 & y & h2 & E & _). destruct h1; discriminate.
  - rewrite artifact_open_snoc. split.
    + intros H. apply orb_true_iff in H as [H|H].
      * apply String.eqb_eq in H. subst k. exists h, x, []. auto.
      * apply andb_true_iff in H as [H1 H2]. apply IH in H1 as (h1 & y & h2 & -> & F).
        exists h1, y, (h2 ++ [(k, x)])%list. rewrite <- app_assoc. split; [reflexivity|].
        apply Forall_app. split; [exact F|]. constructor; [|constructor]. apply orb_true_iff in H2 as [H|H];
          apply String.eqb_eq in H; cbn; auto.
    + intros (h1 & y & h2 & E & F). destruct (list_last_case h2) as [->|(h3 & [k' x'] & ->)].
      * apply app_inj_tail in E as [_ E]. inversion E. reflexivity.
      * rewrite app_comm_cons, app_assoc in E. apply app_inj_tail in E as [-> E]. inversion E; subst.
        apply Forall_app in F as [F1 F2]. inversion F2 as [|? ? K _]; subst. apply orb_true_iff. right. apply andb_true_iff. split.
        -- apply IH. eauto.
        -- cbn in K. apply orb_true_iff. destruct K as [<-|[<-|[]]]; rewrite String.eqb_refl; auto.
Qed.
Lemma prev_ext h : prev_tag h = "ExternalRef" <-> exists h' y, h = (h' ++ [("ExternalRef", y)])%list.
Proof.
  destruct (list_last_case h) as [->|(h' & [k x] & ->)].
  - split; [discriminate|]. intros (h' & y & E). destruct h'; discriminate.
  - rewrite prev_tag_snoc. split; [intros ->; eauto|]. intros (h2 & y & E). apply app_inj_tail in E as [_ E]. now inversion E.
Qed.

Section Acc.
  Context (v : version) (h : pairs) (x : string) (sec : section) (st : string -> pstate).

  Definition pcase (c : string * action) : Prop :=
    (forall s', snd c x (st (fst c)) = Ok s' -> cond v h (fst c) x /\ next v sec (fst c) = Some (sec_of (ps_st s'))) /\
    (cond v h (fst c) x -> idok h (fst c) -> noerr (snd c x (st (fst c)))).

  Lemma switch_pcase t cases e : Forall pcase cases ->
    (forall s', switch t cases (fun _ _ => Err e) x (st t) = Ok s' ->
       In t (map fst cases) /\ cond v h t x /\ next v sec t = Some (sec_of (ps_st s'))) /\
    (In t (map fst cases) -> cond v h t x -> idok h t -> noerr (switch t cases (fun _ _ => Err e) x (st t))).
  Proof.
    intros F. induction cases as [|[k a] r IH]; cbn [switch map fst].
    - split; [discriminate|]. intros [].
    - inversion F as [|? ? [P1 P2] F']; subst. cbn [fst snd] in *. destruct (String.eqb_spec t k) as [->|N].
      + split; [intros s' H; split; [now left|now apply P1]|intros _; exact P2].
      + destruct (IH F') as [I1 I2]. split.
        * intros s' H. destruct (I1 s' H) as (J & K). split; [now right|exact K].
        * intros [E|J]; [congruence|now apply I2].
  Qed.

  Lemma pcase_plain t a : mem t special = false -> noerr (a x (st t)) ->
    (forall s', a x (st t) = Ok s' -> next v sec t = Some (sec_of (ps_st s'))) -> pcase (t, a).
  Proof. intros M N E. split; cbn [fst snd]; [|auto]. intros s' H. split; [now apply cond_plain|auto]. Qed.

  Context (p : pst) (SP : sec_of p = sec) (ST : forall t, ps_st (st t) = p) (DOC : forall t, ps_doc (st t) <> None)
    (RL : forall t, ps_rln (st t) <> None <-> In "Relationship" (map fst h))
    (AN : forall t, ps_ann (st t) <> None <-> In "Annotator" (map fst h))
    (NX : forall t, mem t SpecTags.relation_tags = true -> next v sec t = Some sec).

  Lemma stays t s' : ps_st s' = ps_st (st t) -> next v sec t = Some sec -> next v sec t = Some (sec_of (ps_st s')).
  Proof. intros -> E. now rewrite ST, SP. Qed.

  Lemma pcase_with_ann t f : In t ["AnnotationDate"; "AnnotationType"; "AnnotationComment"] ->
    pcase (t, fun value => with_ann (f value)).
  Proof.
    intros I. split; cbn [fst snd].
    - unfold with_ann. intros s' H. rewrite (cond_ann v h t x I). destruct (ps_ann (st t)) eqn:E; [|discriminate].
      split; [apply (AN t); congruence|]. apply upd_in_doc_st in H. apply stays; [exact H|]. apply NX.
      destruct I as [<-|[<-|[<-|[]]]]; reflexivity.
    - intros C _. apply (cond_ann v h t x I) in C. unfold with_ann. apply (AN t) in C.
      destruct (ps_ann (st t)); [apply noerr_upd_ann|contradiction].
  Qed.
  Lemma pcase_rel_ann : Forall pcase (rel_ann_cases v).
  Proof.
    unfold rel_ann_cases. constructor; [|constructor; [|constructor; [|constructor; [|constructor; [|constructor; [|constructor; [|constructor]]]]]]].
    - split; cbn [fst snd].
      + intros s' H. unfold do_relationship in H. destruct (ps_doc (st "Relationship")) as [d|]; [|discriminate]. cbv zeta in H.
        apply bindR_ok in H as ([[a r] b] & E & H). split; [apply cond_relationship; eauto|].
        apply upd_in_doc_st in H. apply stays; [exact H|now apply NX].
      + intros C _. apply cond_relationship in C as [[[a r] b] E]. unfold do_relationship.
        destruct (ps_doc _); [|apply noerr_panic]. rewrite E. apply noerr_upd_rln.
    - split; cbn [fst snd].
      + intros s' H. unfold do_relationship_comment in H. destruct (ps_rln (st _)) eqn:E; [|discriminate].
        split; [apply cond_rel_comment, (RL "RelationshipComment"); congruence|].
        apply upd_in_doc_st in H. apply stays; [exact H|now apply NX].
      + intros C _. apply cond_rel_comment in C. unfold do_relationship_comment. apply (RL "RelationshipComment") in C.
        destruct (ps_rln _); [apply noerr_upd_rln|contradiction].
    - split; cbn [fst snd].
      + intros s' H. unfold do_annotator in H. destruct (ps_doc (st _)) as [d|]; [|discriminate]. cbv zeta in H.
        apply bindR_ok in H as ([k n] & E & H). split; [apply cond_actor; [cbn; auto|eauto]|].
        apply upd_in_doc_st in H. apply stays; [exact H|now apply NX].
      + intros C _. apply cond_actor in C as [[k n] E]; [|cbn; auto]. unfold do_annotator.
        destruct (ps_doc _); [|apply noerr_panic]. rewrite E. apply noerr_upd_ann.
    - apply (pcase_with_ann "AnnotationDate" set_a_Date). cbn; auto.
    - apply (pcase_with_ann "AnnotationType" set_a_Type). cbn; auto.
    - split; cbn [fst snd].
      + intros s' H. unfold do_spdxref in H. destruct (ps_ann (st _)) eqn:E; [|discriminate].
        apply bindR_ok in H as (d & X & H). split; [apply cond_spdxref; split; [eauto|apply (AN "SPDXREF"); congruence]|].
        apply upd_in_doc_st in H. apply stays; [exact H|now apply NX].
      + intros C _. apply cond_spdxref in C as [[d E] C]. unfold do_spdxref. apply (AN "SPDXREF") in C.
        destruct (ps_ann _); [|contradiction]. rewrite E. apply noerr_upd_ann.
    - apply (pcase_with_ann "AnnotationComment" set_a_Comment). cbn; auto.
  Qed.

  Lemma reviewer_ok s s' : do_reviewer x s = Ok s' -> cond v h "Reviewer" x /\ ps_st s' = ps_st s.
  Proof.
    unfold do_reviewer. destruct (ps_doc s) as [d|]; [|discriminate]. cbv zeta. intros H.
    apply bindR_ok in H as ([k n] & E & H). split; [apply cond_actor; [cbn; auto|eauto]|].
    now apply upd_in_doc_st in H.
  Qed.
  Lemma reviewer_noerr s : cond v h "Reviewer" x -> noerr (do_reviewer x s).
  Proof.
    intros C. apply cond_actor in C as [[k n] E]; [|cbn; auto]. unfold do_reviewer.
    destruct (ps_doc s); [|apply noerr_panic]. rewrite E. apply noerr_upd_rev.
  Qed.
  Lemma pcase_enter_review : next v sec "Reviewer" = Some ReviewSec -> pcase ("Reviewer", enter_review).
  Proof.
    intros N. split; cbn [fst snd]; unfold enter_review.
    - intros s' H. apply reviewer_ok in H as [C E]. split; [exact C|]. rewrite E. exact N.
    - intros C _. now apply reviewer_noerr.
  Qed.
  Lemma license_ok s s' : do_license_id x s = Ok s' -> ps_st s' = ps_st s.
  Proof. unfold do_license_id. destruct (ps_doc s) as [d|]; [|discriminate]. cbv zeta. intros H. now apply upd_in_doc_st in H. Qed.
  Lemma license_noerr s : noerr (do_license_id x s).
  Proof. unfold do_license_id. destruct (ps_doc s); [|apply noerr_panic]. apply noerr_upd_lic. Qed.
  Lemma pcase_enter_license : next v sec "LicenseID" = Some LicenseSec -> pcase ("LicenseID", enter_license).
  Proof.
    intros N. apply pcase_plain; [reflexivity|apply license_noerr|]. unfold enter_license. intros s' H.
    apply license_ok in H. rewrite H. exact N.
  Qed.
  (** a plain update *)
  Lemma pcase_keep t a : mem t special = false -> next v sec t = Some sec ->
    noerr (a x (st t)) -> (forall s', a x (st t) = Ok s' -> ps_st s' = ps_st (st t)) -> pcase (t, a).
  Proof. intros M X N E. apply pcase_plain; [exact M|exact N|]. intros s' H. apply stays; auto. Qed.
  (** an update with the result of an extraction *)
  Lemma pcase_extract {A} t (f : string -> res A) (k : A -> pstate -> res pstate) :
    (cond v h t x <-> exists y, f x = Ok y) -> next v sec t = Some sec ->
    (forall y, noerr (k y (st t))) -> (forall y s', k y (st t) = Ok s' -> ps_st s' = ps_st (st t)) ->
    pcase (t, fun value s => let* y := f value in k y s).
  Proof.
    intros C N K E. split; cbn [fst snd].
    - intros s' H. apply bindR_ok in H as (y & Y & H). split; [apply C; eauto|]. apply stays; [eauto|exact N].
    - intros D _. apply C in D as [y Y]. rewrite Y. apply K.
  Qed.
End Acc.

(** ** Review and license sections *)
Ltac nx := match goal with v : version |- _ => destruct v; reflexivity end.
Ltac upd_noerr := first [apply noerr_upd_doc | apply noerr_upd_pkg | apply noerr_upd_file | apply noerr_upd_snip
  | apply noerr_upd_lic | apply noerr_upd_rev | apply noerr_upd_ci].
Ltac upd_st := let H := fresh in intros ? H; first [now apply upd_doc_st in H | now apply upd_pkg_st in H | now apply upd_file_st in H
  | now apply upd_snip_st in H | now apply upd_in_doc_st in H | now apply upd_ci_st in H].
Ltac keep := eapply pcase_keep; [eassumption..|reflexivity|nx|upd_noerr|upd_st].

Lemma relation_stays v sec t : sec <> Header -> mem t SpecTags.relation_tags = true -> next v sec t = Some sec.
Proof.
  intros N M. apply leads_next. apply mem_In in M. unfold leads.
  destruct sec; [contradiction|..]; cbn [moves]; (eexists; split; [now left|apply in_or_app; now right]).
Qed.

Section Sec.
  Context (v : version) (h : pairs) (s : pstate) (x : string)
    (DOC : ps_doc s <> None)
    (RL : ps_rln s <> None <-> In "Relationship" (map fst h))
    (AN : ps_ann s <> None <-> In "Annotator" (map fst h)).

  Definition agrees (sec : section) (t : string) (r : res pstate) : Prop :=
    (forall s', r = Ok s' -> cond v h t x /\ next v sec t = Some (sec_of (ps_st s'))) /\
    (next v sec t <> None -> cond v h t x -> idok h t -> noerr r).
  Lemma agrees_switch sec t cases e (st : string -> pstate) : Forall (pcase v h x sec st) cases ->
    (next v sec t <> None -> In t (map fst cases)) ->
    agrees sec t (switch t cases (fun _ _ => Err e) x (st t)).
  Proof.
    intros F N. destruct (switch_pcase v h x sec st t cases e F) as [P1 P2]. split.
    - intros s' H. now apply P1 in H as (_ & H).
    - intros K. apply P2. now apply N.
  Qed.
  Lemma next_in sec t L : (forall m, In m (moves v sec) -> incl (fst m) L) -> next v sec t <> None -> In t L.
  Proof.
    intros I N. unfold next in N. destruct (find _ _) as [m|] eqn:F; [|now elim N].
    apply find_some in F as [J M]. apply mem_In in M. eapply I; eauto.
  Qed.
  Lemma next_cases sec t L : forallb (fun m => forallb (fun t => mem t L) (fst m)) (moves v sec) = true ->
    next v sec t <> None -> In t L.
  Proof.
    intros C. apply next_in. intros m J k K. rewrite forallb_forall in C. specialize (C _ J).
    rewrite forallb_forall in C. apply mem_In. auto.
  Qed.

  Lemma agrees_review t : ps_st s = PsReview -> agrees ReviewSec t (parse_review v t x s).
  Proof.
    intros St. unfold parse_review. apply (agrees_switch ReviewSec t (review_cases v) _ (fun _ => s)).
    2: { apply next_cases. destruct v; reflexivity. }
    assert (ST : forall t : string, ps_st s = PsReview) by auto. assert (SP : sec_of PsReview = ReviewSec) by reflexivity.
    unfold review_cases. apply Forall_app. split.
    - constructor; [|constructor; [|constructor; [|constructor]]].
      + split; cbn [fst snd].
        * intros s' H. apply (reviewer_ok v h) in H as [C E]. split; [exact C|]. rewrite E, St. nx.
        * intros C _. now apply (reviewer_noerr v h).
      + keep.
      + keep.
    - eapply pcase_rel_ann; eauto. intros. now apply relation_stays.
  Qed.
  Lemma agrees_license t : ps_st s = PsOtherLicense -> agrees LicenseSec t (parse_license v t x s).
  Proof.
    intros St. unfold parse_license. apply (agrees_switch LicenseSec t (license_cases v) _ (fun _ => s)).
    2: { apply next_cases. destruct v; reflexivity. }
    assert (ST : forall t : string, ps_st s = PsOtherLicense) by auto. assert (SP : sec_of PsOtherLicense = LicenseSec) by reflexivity.
    unfold license_cases. apply Forall_app. split; [|apply Forall_app; split].
    - constructor; [|constructor; [keep|constructor; [keep|constructor; [keep|constructor; [keep|constructor]]]]].
      eapply pcase_keep; [eassumption..|reflexivity|nx|apply license_noerr|]. intros s'. apply license_ok.
    - eapply pcase_rel_ann; eauto. intros. now apply relation_stays.
    - constructor; [|constructor]. apply pcase_enter_review. nx.
  Qed.
End Sec.
