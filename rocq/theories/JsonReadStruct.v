(** * Reading JSON values exactly: the parts of a document. *)
From Coq Require Import Permutation.
From Verif Require Import GoStr GoStrFacts Types TvUtil TvUtilFacts TvParser SpecTv SpecId SpecDoc Json JsonSpdx SpecJson JsonFacts JsonCodec JsonHooks SpecJsonRead JsonReadFacts.
Local Open Scope string_scope.

(** ** Text without the quotation marks around it *)
Definition starts_quote (s : string) : Prop := exists r, s = String dquote r.
Lemma trim_left_decomp s : exists a, s = a ++ trim_left_byte dquote s /\ quotes a /\ ~ starts_quote (trim_left_byte dquote s).
Proof.
  induction s as [|c s (a & E & Q & N)]; cbn [trim_left_byte].
  - exists "". split; [reflexivity|]. split; [constructor|]. intros (r & K). discriminate.
  - destruct (Ascii.eqb_spec c dquote) as [->|Nc].
    + exists (String dquote a). cbn [append]. split; [now f_equal|]. split; [now constructor|assumption].
    + exists "". split; [reflexivity|]. split; [constructor|]. intros (r & K). congruence.
Qed.
Lemma trim_left_quotes a s : quotes a -> ~ starts_quote s -> trim_left_byte dquote (a ++ s) = s.
Proof.
  intros Q N. induction Q as [|a Q IH]; cbn [append trim_left_byte].
  - destruct s as [|c s]; [reflexivity|]. cbn [trim_left_byte]. destruct (Ascii.eqb_spec c dquote) as [->|]; [|reflexivity].
    exfalso. apply N. now exists s.
  - now rewrite Ascii.eqb_refl.
Qed.
Lemma quotes_app a b : quotes a -> quotes b -> quotes (a ++ b).
Proof. intros Q R. induction Q; cbn; [assumption|now constructor]. Qed.
Lemma quotes_srev a : quotes a -> quotes (srev a).
Proof. intros Q. induction Q; [constructor|]. rewrite srev_cons. apply quotes_app; [assumption|]. repeat constructor. Qed.
Lemma srev_starts s : starts_quote (srev s) <-> exists r, s = r ++ String dquote "".
Proof.
  split; intros (r & E).
  - exists (srev r). apply srev_inj. rewrite srev_app_distr, srev_involutive. exact E.
  - exists (srev r). rewrite E, srev_app_distr. reflexivity.
Qed.
Lemma quotes_trim a : quotes a -> trim_left_byte dquote a = "".
Proof. intros Q. induction Q as [|a Q IH]; [reflexivity|]. cbn [trim_left_byte]. now rewrite Ascii.eqb_refl. Qed.
Lemma bare_iff j s : bare j s <-> unquote_trim (text j) = s.
Proof.
  unfold unquote_trim, trim_byte, bare. generalize (text j) as t. intros t. split.
  - intros (a & b & -> & Qa & Qb & N1 & N2). destruct s as [|c s].
    + cbn [append]. rewrite (quotes_trim (a ++ b)) by (now apply quotes_app). reflexivity.
    + rewrite trim_left_quotes; [|assumption|].
      2:{ intros (r & E). apply N1. exists s. cbn [append] in E. injection E as -> _. reflexivity. }
      rewrite srev_app_distr, trim_left_quotes; [apply srev_involutive|now apply quotes_srev|].
      intros K. apply srev_starts in K. auto.
  - intros <-. set (u := trim_left_byte dquote t). destruct (trim_left_decomp t) as (a & Ea & Qa & Na). fold u in Ea, Na.
    destruct (trim_left_decomp (srev u)) as (b & Eb & Qb & Nb).
    set (w := trim_left_byte dquote (srev u)) in *. exists a, (srev b).
    assert (u = srev w ++ srev b) as Eu.
    { apply srev_inj. rewrite srev_app_distr, !srev_involutive. exact Eb. }
    rewrite <- Eu. split; [assumption|]. split; [assumption|]. split; [now apply quotes_srev|]. split.
    + intros (r & E). apply Na. rewrite Eu, E. eexists. reflexivity.
    + intros H. apply Nb. apply srev_starts in H. now rewrite srev_involutive in H.
Qed.
Lemma bare_fun j s t : bare j s -> bare j t -> s = t.
Proof. rewrite !bare_iff. congruence. Qed.
Lemma bare_self j : bare j (unquote_trim (text j)).
Proof. now apply bare_iff. Qed.

Lemma exactly_element_id : exactly c_element_id "" (id_is "SPDXRef-").
Proof.
  intros j x _. rewrite (element_id_of j _ "" x eq_refl). unfold id_is. rewrite bare_iff. reflexivity.
Qed.
Lemma exactly_document_id : exactly c_document_id "" (id_is "DocumentRef-").
Proof.
  intros j x _. rewrite (document_id_of j _ "" x eq_refl). unfold id_is. rewrite bare_iff. reflexivity.
Qed.
Ltac bare_goal :=
  split; [intros H; eexists; split; [apply bare_self|exact H]
         |intros (s & B & H); apply bare_iff in B as <-; exact H].
Lemma exactly_reference : exactly c_doc_element_id zero_DocElementID reference_is.
Proof. intros j x _. unfold zero_DocElementID. rewrite (ref_of j _ x eq_refl). unfold reference_is. bare_goal. Qed.
Lemma exactly_creator : exactly c_creator zero_Creator creator_is.
Proof. intros j x _. rewrite (creator_of j _ _ x eq_refl). unfold creator_is. bare_goal. Qed.
Lemma exactly_annotator : exactly c_annotator zero_Annotator annotator_is.
Proof. intros j x _. rewrite (annotator_of j _ _ x eq_refl). unfold annotator_is. bare_goal. Qed.
Lemma exactly_supplier : exactly c_supplier zero_Supplier supplier_is.
Proof.
  intros j x _. rewrite (supplier_of j _ x eq_refl). unfold supplier_is. split.
  - intros [(E & ->)|(N & H)]; [left|right].
    + split; [now apply bare_iff|reflexivity].
    + eexists. split; [apply bare_self|auto].
  - intros [(E & ->)|(s & B & N & H)]; [left|right].
    + apply bare_iff in E. auto.
    + apply bare_iff in B. subst s. auto.
Qed.
Lemma left_trimmed_iff s t : left_trimmed s t <-> t = trim_left_blanks s.
Proof.
  assert (forall c, is 32 c = true <-> c = ch 32) as H32.
  { intros c. unfold is. rewrite N.eqb_eq. split; [intros H|intros ->; reflexivity].
    rewrite <- (ascii_N_embedding c). unfold code in H. rewrite H. reflexivity. }
  assert (forall c, is 9 c = true <-> c = ch 9) as H9.
  { intros c. unfold is. rewrite N.eqb_eq. split; [intros H|intros ->; reflexivity].
    rewrite <- (ascii_N_embedding c). unfold code in H. rewrite H. reflexivity. }
  split.
  - intros (b & -> & B & N). induction b as [|c b IH].
    + cbn [append]. destruct t as [|c r]; [reflexivity|]. cbn [trim_left_blanks].
      destruct (is 32 c || is 9 c)%bool eqn:E; [|reflexivity]. exfalso. apply N. exists c, r. split; [reflexivity|].
      apply orb_prop in E as [E|E]; [left; now apply H32|right; now apply H9].
    + cbn [append trim_left_blanks].
      assert (is 32 c || is 9 c = true)%bool as ->.
      { destruct (B c) as [K|K]; [exists "", b; reflexivity| |]; apply orb_true_iff.
        - left. now apply H32.
        - right. now apply H9. }
      apply IH. intros c' (x & y & E). apply B. exists (String c x), y. now rewrite E.
  - intros ->. induction s as [|c s (b & E & B & N)].
    + exists "". split; [reflexivity|]. split.
      * intros c (x & y & E). destruct x; discriminate.
      * intros (c & r & E & _). discriminate.
    + cbn [trim_left_blanks]. destruct (is 32 c || is 9 c)%bool eqn:K.
      * exists (String c b). cbn [append]. split; [now f_equal|]. split; [|exact N].
        intros c' (x & y & E'). destruct x as [|x0 x].
        -- cbn in E'. injection E' as -> _. apply orb_prop in K as [K|K]; [left; now apply H32|right; now apply H9].
        -- cbn in E'. injection E' as _ E'. apply B. exists x, y. exact E'.
      * exists "". split; [reflexivity|]. split.
        -- intros c' (x & y & E'). destruct x; discriminate.
        -- intros (c' & r & E' & D). injection E' as -> _. apply orb_false_elim in K as (K1 & K2).
           destruct D as [D|D]; [apply H32 in D|apply H9 in D]; congruence.
Qed.
Lemma exactly_originator : exactly c_originator zero_Originator originator_is.
Proof.
  intros j x _. rewrite (originator_of j _ x eq_refl). unfold originator_is. split.
  - intros [(E & ->)|(N & b & E & O & L)]; [left|right].
    + split; [now apply bare_iff|reflexivity].
    + exists (unquote_trim (text j)), b. split; [apply bare_self|]. rewrite left_trimmed_iff. auto.
  - intros [(E & ->)|(s & b & B & N & E & O & L)]; [left|right].
    + apply bare_iff in E. auto.
    + apply bare_iff in B. subst s. rewrite left_trimmed_iff in L. split; [assumption|]. exists b. auto.
Qed.

Lemma exactly_strings : exactly c_strings [] (list_is text_is).
Proof. apply exactly_list, exactly_string. Qed.
Create HintDb exactly.
Global Hint Resolve exactly_string exactly_strings exactly_bool exactly_int exactly_list exactly_ptr exactly_ptrs
  exactly_element_id exactly_document_id exactly_reference exactly_creator exactly_annotator
  exactly_supplier exactly_originator : exactly.

(** ** Structs *)
Ltac lens := cbv [opt_in_23]; cbn [lenses map fold_right app]; repeat split; intros; reflexivity.
Ltac ext := intros [] []; cbn; intros;
  repeat match goal with H : _ /\ _ |- _ => destruct H end;
  repeat match goal with H : (_, _) = (_, _) |- _ => injection H as ? end; subst; reflexivity.
Ltac names := apply nodupb_ok; vm_compute; reflexivity.
(** One field in either direction. *)
Ltac member :=
  match goal with
  | C : Forall _ ?ms, H : said ?ms ?z ?x (Field _ ?k _ ?c _ _) |- at_member ?ms ?k ?d ?R ?y =>
      exact (proj1 (member_exactly _ c d R ms k y C ltac:(auto 7 with exactly)) H)
  | C : Forall _ ?ms, H : at_member ?ms ?k ?d ?R ?y |- said ?ms ?z ?x (Field _ ?k _ ?c _ _) =>
      exact (proj2 (member_exactly _ c d R ms k y C ltac:(auto 7 with exactly)) H)
  end.
Ltac spec_names := cbv [list_at text_at texts_at flag_at number_at id_at] in *.
Ltac conj := repeat match goal with H : _ /\ _ |- _ => destruct H end.
Ltac parts tac :=
  repeat match goal with |- _ /\ _ => split end; try member; try exact I; try tac.
Ltac struct_exact ig :=
  intros j x C;
  match goal with |- dec ?c j ?z = Ok x <-> _ =>
    let c1 := eval red in c in
    let c2 := eval cbv [app opt_in_23] in c1 in
    match c2 with c_struct ?fs =>
      apply (iff_trans (struct_said ig fs z ltac:(lens) ltac:(names) ltac:(ext) j x C))
    end
  end;
  match goal with |- _ <-> ?r => let r' := eval red in r in change r with r' end;
  unfold object_is; spec_names; cbn [map fold_right]; cbv [req opt opt_in_23];
  split; intros [H|(ms & -> & H)];
    [now left | right; exists ms; conj; split; [reflexivity|]; split; [assumption|]
    |now left | right; exists ms; conj; split; [reflexivity|];
                assert (Forall (fun m => clear (snd m)) ms) by (now apply clear_obj in C);
                split; [assumption|]; split; [assumption|]; split].

Ltac ignored :=
  first [ match goal with H : ?a = _ |- ?a = _ => exact H end
        | match goal with H : (_, _) = (_, _) |- _ => injection H; intros; match goal with K : ?a = _ |- ?a = _ => exact K end end
        | cbv beta; repeat match goal with H : ?g ?x = _ |- context [?g ?x] => rewrite H end; reflexivity ].
Lemma exactly_checksum : exactly c_checksum zero_Checksum checksum_is.
Proof. struct_exact (fun _ : Checksum => tt); parts ignored. Qed.
Global Hint Resolve exactly_checksum : exactly.
Lemma exactly_code : exactly c_verification_code zero_VerificationCode code_is.
Proof. struct_exact (fun _ : VerificationCode => tt); parts ignored. Qed.
Lemma exactly_pointer : exactly c_range_pointer zero_RangePointer pointer_is.
Proof. struct_exact (fun _ : RangePointer => tt); parts ignored. Qed.
Global Hint Resolve exactly_code exactly_pointer : exactly.
Lemma exactly_range : exactly c_range zero_SnippetRange range_is.
Proof. struct_exact (fun _ : SnippetRange => tt); parts ignored. Qed.
Lemma exactly_external_document : exactly c_external_document_ref zero_ExternalDocumentRef external_document_is.
Proof. struct_exact (fun _ : ExternalDocumentRef => tt); parts ignored. Qed.
Lemma exactly_creation : exactly c_creation_info zero_CreationInfo creation_is.
Proof. struct_exact (fun _ : CreationInfo => tt); parts ignored. Qed.
Lemma exactly_relationship : exactly c_relationship zero_Relationship relationship_is.
Proof. struct_exact (fun _ : Relationship => tt); parts ignored. Qed.
Lemma exactly_annotation : exactly c_annotation zero_Annotation annotation_is.
Proof. struct_exact a_SPDXIdentifier; parts ignored. Qed.
Lemma exactly_license : exactly c_other_license zero_OtherLicense license_is.
Proof. struct_exact (fun _ : OtherLicense => tt); parts ignored. Qed.
Lemma exactly_artifact : exactly c_artifact zero_Artifact artifact_is.
Proof. struct_exact (fun _ : Artifact => tt); parts ignored. Qed.
Global Hint Resolve exactly_range exactly_external_document exactly_creation exactly_relationship
  exactly_annotation exactly_license exactly_artifact : exactly.
Lemma exactly_snippet v : exactly (c_snippet v) zero_Snippet snippet_is.
Proof. destruct v; struct_exact s_AttributionTexts; parts ignored. Qed.
Lemma exactly_file v : exactly (c_file v) zero_file (file_is v).
Proof.
  destruct v.
  - struct_exact (fun f : JFile => (f_Snippets f, f_AttributionTexts f, f_Artifacts f, f_Dependencies f)); parts ignored.
  - struct_exact (fun f : JFile => (f_Snippets f, f_Artifacts f, f_Dependencies f)); parts ignored.
  - struct_exact (fun f : JFile => f_Snippets f); parts ignored.
Qed.
Global Hint Resolve exactly_snippet exactly_file : exactly.
