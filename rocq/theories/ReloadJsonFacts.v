(** * What is read from JSON can be written again *)
From Verif Require Import GoStr GoStrFacts Types TvUtil TvUtilFacts TvParser SpecTv SpecId SpecDoc SpecWrite Json JsonSpdx JsonText SpecJson SpecJsonRead SpecJsonText SpecReloadJson
  JsonFacts JsonCodec JsonReadFacts JsonReadStruct JsonReadDoc JsonTextFacts JsonTextMeans JsonTextParse JsonTextCodec JsonTextLaws SaveJson.
Local Open Scope string_scope.

Lemma encoding_ok n w : encoding n w -> utf8_ok w.
Proof.
  intros E. pose proof E as E0. destruct E as [n L|n L|n L S|n L].
  - apply utf8_one; [|constructor]. rewrite code_byte by lia. lia.
  - apply utf8_two; [|constructor]. apply encoding_2_iff. eauto.
  - apply utf8_three; [|constructor]. apply encoding_3_iff. eauto.
  - apply utf8_four; [|constructor]. apply encoding_4_iff. eauto.
Qed.
Lemma replacement_ok : utf8_ok replacement.
Proof. apply utf8_three; [reflexivity|constructor]. Qed.
Lemma letter_ok e n : In (e, n) letter_escapes -> (n < 128)%N.
Proof. intros I. repeat destruct I as [I|I]; try (injection I as <- <-; lia). destruct I. Qed.
Lemma means_ok r s : means r s -> utf8_ok s.
Proof.
  induction 1 as [|n w r s E _ _ _ IH|a r s _ _ _ IH|e n r s I _ IH|h n w r s _ E _ IH|h n r k rest w s _ _ E _ IH|h n r s _ _ _ _ IH].
  - constructor.
  - apply utf8_app; [exact (encoding_ok n w E)|exact IH].
  - apply utf8_app; [exact replacement_ok|exact IH].
  - pose proof (letter_ok e n I). apply utf8_one; [rewrite code_byte by lia; assumption|exact IH].
  - apply utf8_app; [exact (encoding_ok n w E)|exact IH].
  - apply utf8_app; [exact (encoding_ok k w E)|exact IH].
  - apply utf8_app; [exact replacement_ok|exact IH].
Qed.

(** ** Members *)
Lemma text_utf8 j s : text_is j s -> utf8_ok s.
Proof. intros [(_ & ->)|(r & _ & U)]; [constructor|]. apply unescape_iff in U. exact (means_ok r s U). Qed.
Lemma list_forall X (R : json -> X -> Prop) (P : X -> Prop) j l : (forall j x, R j x -> P x) -> list_is R j l -> Forall P l.
Proof. intros H [(_ & ->)|(js & _ & F)]; [constructor|]. induction F; constructor; eauto. Qed.
Lemma at_forall X (R : json -> X -> Prop) (P : X -> Prop) ms k d x : P d -> (forall j x, R j x -> P x) -> at_member ms k d R x -> P x.
Proof. intros D H [(_ & ->)|(m & _ & _ & E)]; eauto. Qed.
Lemma text_at_ok ms k s : text_at ms k s -> utf8_ok s.
Proof. apply (at_forall _ text_is utf8_ok); [constructor|exact text_utf8]. Qed.
Lemma texts_at_ok ms k l : texts_at ms k l -> texts l.
Proof. apply (at_forall _ (list_is text_is) texts); [constructor|]. intros j x. apply list_forall. exact text_utf8. Qed.
Lemma list_at_ok X (R : json -> X -> Prop) (P : X -> Prop) ms k l : (forall j x, R j x -> P x) -> list_at ms k R l -> Forall P l.
Proof. intros H. apply (at_forall _ (list_is R) (Forall P)); [constructor|]. intros j x. now apply list_forall. Qed.
Lemma number_at_ok ms k z : number_at ms k z -> in_int z = true.
Proof.
  apply (at_forall _ number_is (fun z => in_int z = true)); [reflexivity|]. intros j x [(_ & ->)|(t & _ & A)]; [reflexivity|].
  apply atoi_iff in A as (_ & B). unfold in_int, int_min, int_max. rewrite Bool.andb_true_iff, !Z.leb_le. change (2 ^ 63)%Z with 9223372036854775808%Z in B. lia.
Qed.
(** Two facts about the elements of a list. *)
Lemma forall_and X (P Q R : X -> Prop) l : (forall x, P x -> Q x -> R x) -> Forall P l -> Forall Q l -> Forall R l.
Proof. intros H A. induction A; intros B; inversion B; subst; constructor; auto. Qed.
Lemma opt_and X (P Q R : X -> Prop) o : (forall x, P x -> Q x -> R x) -> opt_ok P o -> opt_ok Q o -> opt_ok R o.
Proof. intros H. destruct o; cbn; auto. Qed.

Section Reload.
  Variables (v : version) (h : bool).
  Definition implies {X} (R : json -> X -> Prop) (S J : X -> Prop) : Prop := forall j x, R j x -> S x -> J x.
  Lemma list_implies X (R : json -> X -> Prop) (S J : X -> Prop) ms k l : implies R S J -> list_at ms k R l -> Forall S l -> Forall J l.
  Proof.
    intros H L F. assert (Forall (fun x => S x -> J x) l) as G by (eapply list_at_ok; [|exact L]; intros j x; apply H).
    clear L. induction G; inversion F; subst; constructor; auto.
  Qed.
  Lemma null_implies X (R : json -> X -> Prop) (S J : X -> Prop) : implies R S J -> implies (nullable R) (opt_ok S) (opt_ok J).
  Proof. intros H j [x|]; cbn; [intros [_ A]; eauto|auto]. Qed.
  Lemma nulls_at_ok X (R : json -> X -> Prop) (P : X -> Prop) ms k l : (forall j x, R j x -> P x) -> list_at ms k (nullable R) l -> Forall (opt_ok P) l.
  Proof. intros H. apply list_at_ok. intros j [x|]; cbn; [intros [_ A]; eauto|auto]. Qed.
  Ltac fields := repeat match goal with H : _ /\ _ |- _ => destruct H end; repeat match goal with |- _ /\ _ => split end; try assumption;
    try (eapply text_at_ok; eassumption); try (eapply texts_at_ok; eassumption); try (eapply number_at_ok; eassumption).
  Lemma checksum_back j c : checksum_is j c -> checksum_json c.
  Proof. intros [(_ & ->)|(ms & _ & _ & H)]; [split; constructor|unfold checksum_json; fields]. Qed.
  Lemma checksums_at_ok ms k l : list_at ms k checksum_is l -> Forall checksum_json l.
  Proof. apply list_at_ok. exact checksum_back. Qed.
  Lemma pointer_back : implies pointer_is (pointer_settled h) (pointer_json h).
  Proof. intros j p [(_ & ->)|(ms & _ & _ & H)] S; [split; [reflexivity|split; [reflexivity|exact S]]|]. unfold pointer_json. fields. Qed.
  Lemma range_back : implies range_is (fun r => pointer_settled h (sr_StartPointer r) /\ pointer_settled h (sr_EndPointer r)) (range_json h).
  Proof.
    assert (forall ms k p, at_member ms k zero_RangePointer pointer_is p -> pointer_settled h p -> pointer_json h p) as P.
    { intros ms k p [(_ & ->)|(m & _ & _ & A)] S; [split; [reflexivity|split; [reflexivity|exact S]]|]. exact (pointer_back _ _ A S). }
    intros j r [(_ & ->)|(ms & _ & _ & H)] [S E].
    - split; split; try reflexivity; split; try reflexivity; assumption.
    - destruct H as [A B]. split; eapply P; eassumption.
  Qed.
  Lemma external_document_back : implies external_document_is (fun e => json_id h "DocumentRef-" (edr_DocumentRefID e)) (external_document_json h).
  Proof.
    intros j e [(_ & ->)|(ms & _ & _ & H)] S; [split; [exact S|split; [constructor|split; constructor]]|].
    destruct H as (_ & A & B). split; [exact S|]. split; [eapply text_at_ok; eassumption|].
    revert B. apply (at_forall _ checksum_is checksum_json); [split; constructor|exact checksum_back].
  Qed.
  Lemma creation_back : implies creation_is (fun c => Forall (fun c => json_actor h (cr_CreatorType c) (cr_Creator c)) (ci_Creators c)) (creation_json h).
  Proof. intros j c [(_ & ->)|(ms & _ & _ & H)] S; [repeat split; constructor|]. unfold creation_json. fields. Qed.
  Lemma no_underscore v' s t : v' <> V21 -> category_is v' s t -> ~ occurs "_" t.
  Proof.
    intros N C. assert (String.length t = String.length s /\ forall i c, get i s = Some c -> get i t = Some (if Ascii.eqb c "_" then "-"%char else c)) as [L G] by (destruct v'; [congruence|exact C..]).
    intros (a & b & E).
    assert (get (String.length a) t = Some "_"%char) as U.
    { rewrite E. clear. induction a as [|x a IH]; [reflexivity|exact IH]. }
    assert (exists c, get (String.length a) s = Some c) as (c & Gc).
    { assert (String.length a < String.length s) as K. { rewrite <- L, E, !app_length_s. cbn. lia. }
      clear -K. revert K. generalize (String.length a). induction s as [|x s IH]; intros n K; [cbn in K; lia|].
      destruct n; [exists x; reflexivity|]. cbn in *. apply IH. lia. }
    specialize (G _ _ Gc). rewrite U in G. injection G as G. destruct (Ascii.eqb_spec c "_"); [discriminate|congruence].
  Qed.
  Lemma category_replaced v' s t : v' <> V21 -> category_is v' s t -> t = replace_byte "_" "-" s.
  Proof.
    intros N C. assert (String.length t = String.length s /\ forall i c, get i s = Some c -> get i t = Some (if Ascii.eqb c "_" then "-"%char else c)) as [L G] by (destruct v'; [congruence|exact C..]).
    clear N C. revert t L G. induction s as [|x s IH]; intros [|y t] L G; try discriminate; [reflexivity|]. cbn [replace_byte].
    pose proof (G 0 x eq_refl) as G0. cbn in G0. injection G0 as ->. f_equal. apply IH; [cbn in L; lia|]. intros i c E. exact (G (S i) c E).
  Qed.
  Lemma category_ok s t : utf8_ok s -> category_is v s t -> utf8_ok t.
  Proof.
    intros U C. assert (v = V21 \/ v <> V21) as [Ev|Nv] by (destruct v; [left; reflexivity|right..]; discriminate).
    - rewrite Ev in C. cbn in C. now subst t.
    - rewrite (category_replaced v s t Nv C). now apply JsonRound.replace_utf8.
  Qed.
  Lemma external_ref_back j r : external_ref_is v j r -> external_ref_json v r.
  Proof.
    intros [(_ & ->)|(ms & _ & _ & H)].
    - unfold external_ref_json. repeat split; try constructor. intros _ (a & b & E). destruct a; discriminate E.
    - destruct H as ((s & A & C) & H). unfold external_ref_json. split; [exact (category_ok s _ (text_at_ok _ _ _ A) C)|]. fields.
      intros N. exact (no_underscore v s _ N C).
  Qed.
  Lemma annotation_back : implies annotation_is (annotation_settled h) (annotation_json h).
  Proof. intros j a [(_ & ->)|(ms & _ & _ & H)] S; unfold annotation_json; [repeat (split; [first [exact S|constructor]|]); reflexivity|]. fields. Qed.
  Lemma license_back j o : license_is j o -> other_license_json o.
  Proof. intros [(_ & ->)|(ms & _ & _ & H)]; unfold other_license_json; [repeat (split; [constructor|]); constructor|]. fields. Qed.
  Lemma artifact_back j o : artifact_is j o -> artifact_json o.
  Proof. intros [(_ & ->)|(ms & _ & _ & H)]; unfold artifact_json; [repeat (split; [constructor|]); constructor|]. fields. Qed.
  Lemma relationship_back : implies relationship_is (fun r => json_ref h (r_RefA r) /\ json_ref h (r_RefB r)) (relationship_json h).
  Proof. intros j r [(_ & ->)|(ms & _ & _ & H)] [S S']; unfold relationship_json; [repeat (split; [first [assumption|constructor]|]); constructor|]. fields. Qed.
  Lemma snippet_back : implies snippet_is (snippet_settled h) (snippet_json h).
  Proof.
    intros j s [(_ & ->)|(ms & _ & _ & H)] (S1 & S2 & S3); unfold snippet_json.
    - split; [exact S1|]. split; [exact S2|]. split; [constructor|]. repeat (split; [constructor|]). reflexivity.
    - fields. eapply list_implies; [exact range_back|eassumption|exact S3].
  Qed.
  Lemma file_back : implies (file_is v) (file_settled h) (file_json v h).
  Proof.
    intros j f [(_ & ->)|(ms & _ & _ & H)] (S1 & S2); unfold file_json.
    - split; [constructor|]. split; [exact S1|]. repeat first [split; [first [reflexivity|constructor|intros _; reflexivity]|]]; constructor.
    - destruct H as (H1 & H2 & H3 & H4 & H5 & H6 & H7 & H8 & H9 & H10 & H11 & H12 & HA & HB & HS).
      assert (texts (f_AttributionTexts f) /\ (v = V21 -> f_AttributionTexts f = [])) as [A1 A2].
      { destruct v; [split; [rewrite HA; constructor|intros _; exact HA]|split; [eapply texts_at_ok; eassumption|discriminate]..]. }
      assert (Forall (opt_ok artifact_json) (f_Artifacts f) /\ (v <> V23 -> f_Artifacts f = []) /\ texts (f_Dependencies f) /\ (v <> V23 -> f_Dependencies f = [])) as (B1 & B2 & B3 & B4).
      { destruct v.
        1,2: destruct HB as [-> ->]; repeat split; constructor.
        destruct HB as [X Y]. split; [eapply nulls_at_ok; [|exact X]; exact artifact_back|].
        split; [congruence|]. split; [eapply texts_at_ok; eassumption|congruence]. }
      fields; try (eapply checksums_at_ok; eassumption). eapply list_implies; [exact annotation_back|eassumption|exact S2].
  Qed.
  Lemma code_back j c : code_is j c -> utf8_ok (vc_Value c) /\ texts (vc_ExcludedFiles c).
  Proof. intros [(_ & ->)|(ms & _ & _ & H)]; [split; constructor|]. fields. Qed.
  Lemma package_back j p files : package_is v j (p, files) -> package_settled h p -> package_json v h (mark v p).
  Proof.
    intros (ms & _ & _ & H & HF & _) (S1 & S2 & S3 & S4 & S5). unfold package_members in H.
    destruct H as (H1 & H2 & H3 & H4 & H5 & H6 & H7 & HV & H8 & H9 & H10 & H11 & H12 & H13 & H14 & H15 & H16 & H17 & H18 & H19 & HA & HB & H20 & H21 & H22).
    assert (opt_ok (code_json v) (p_VerificationCode p)) as V.
    { assert (forall c, at_member ms "packageVerificationCode" zero_VerificationCode code_is c -> utf8_ok (vc_Value c) /\ texts (vc_ExcludedFiles c)) as K
        by (intros c; apply (at_forall _ code_is (fun c => utf8_ok (vc_Value c) /\ texts (vc_ExcludedFiles c))); [split; constructor|exact code_back]).
      unfold code_json. destruct v.
      1,2: destruct HV as (c & A & Z & E); specialize (K c A);
        assert (c = MkVC "" [] \/ c <> MkVC "" []) as [D|D] by (destruct c as [[|x y] [|z w]]; [left; reflexivity|right; discriminate..]);
        [rewrite (Z D); exact I|rewrite (E D)]; cbn [opt_ok]; split; [tauto|]; split; [tauto|]; intros _; destruct c as [[|x y] [|z w]]; cbn; [now destruct D|right; discriminate|left; discriminate..].
      destruct (p_VerificationCode p) as [c|]; [|exact I]. cbn [opt_ok].
      destruct HV as [(_ & E)|(m & _ & _ & E)]; [discriminate|]. cbn in E. destruct E as [_ E]. destruct (code_back _ _ E) as [X Y].
      split; [exact X|]. split; [exact Y|congruence]. }
    assert (texts (p_AttributionTexts p) /\ (v = V21 -> p_AttributionTexts p = [])) as [A1 A2].
    { destruct v; [split; [rewrite HA; constructor|intros _; exact HA]|split; [eapply texts_at_ok; eassumption|discriminate]..]. }
    assert (utf8_ok (p_PrimaryPackagePurpose p) /\ utf8_ok (p_ReleaseDate p) /\ utf8_ok (p_BuiltDate p) /\ utf8_ok (p_ValidUntilDate p) /\
      (v <> V23 -> p_PrimaryPackagePurpose p = "" /\ p_ReleaseDate p = "" /\ p_BuiltDate p = "" /\ p_ValidUntilDate p = "")) as (B1 & B2 & B3 & B4 & B5).
    { destruct v; [destruct HB as (-> & -> & -> & ->); repeat split; constructor..|].
      destruct HB as (X1 & X2 & X3 & X4). repeat (split; [eapply text_at_ok; eassumption|]). congruence. }
    assert (match v with V21 => p_IsFilesAnalyzedTagPresent p | V22 | V23 => true end = match v with V21 => false | V22 | V23 => true end) as M
      by (destruct v; [exact (proj2 HF)|reflexivity..]).
    unfold package_json, mark. cbn. clear HV HA HB HF. fields.
    - eapply checksums_at_ok; eassumption.
    - eapply nulls_at_ok; [|eassumption]. exact external_ref_back.
    - eapply list_implies; [apply null_implies, file_back|eassumption|exact S4].
    - eapply list_implies; [apply annotation_back|eassumption|exact S5].
  Qed.

  Lemma adds_in known wanted added : adds known wanted added -> forall r, In r added -> In r wanted.
  Proof. induction 1 as [|k r w a _ _ IH|k r w a _ _ IH]; intros x I; [exact I|right; auto|destruct I as [->|I]; [now left|right; auto]]. Qed.
  Lemma implied_ok id l pk r : In r (implied id l pk) -> utf8_ok (r_Relationship r) /\ utf8_ok (r_Comment r).
  Proof.
    unfold implied. intros I. apply in_app_or in I as [I|I].
    - apply in_map_iff in I as (e & <- & _). split; [now apply asciib_ok|constructor].
    - apply in_flat_map in I as ((q & fs) & _ & I). apply in_map_iff in I as (e & <- & _). split; [now apply asciib_ok|constructor].
  Qed.
  Lemma relationship_texts j r : relationship_is j r -> utf8_ok (r_Relationship r) /\ utf8_ok (r_Comment r).
  Proof. intros [(_ & ->)|(ms & _ & _ & H)]; [split; constructor|]. fields. Qed.
  Lemma called_once ms m m' k : clear (JObj ms) -> In m ms -> In m' ms -> called k m -> called k m' -> m = m'.
  Proof.
    intros C I I' (a & A & E) (b & B & F). apply clear_obj in C as [N _].
    assert (option_map fold_name (unescape (fst m)) = option_map fold_name (unescape (fst m'))) as K by (rewrite A, B; cbn; congruence).
    clear A B E F. revert I I' K N. set (f := fun m : string * json => option_map fold_name (unescape (fst m))).
    change (option_map fold_name (unescape (fst m))) with (f m). change (option_map fold_name (unescape (fst m'))) with (f m'). clearbody f.
    induction ms as [|x l IH]; [contradiction|]. cbn [map]. intros I I' K N. inversion N as [|y z N1 N2]; subst.
    destruct I as [->|I], I' as [->|I']; [reflexivity| | |auto].
    - exfalso. apply N1. rewrite K. now apply in_map.
    - exfalso. apply N1. rewrite <- K. now apply in_map.
  Qed.
  Lemma document_back j d : clear j -> version_is j v -> document_is v j d -> settled h d -> document_json v h (marked v d).
  Proof.
    intros C V (ms & -> & _ & H1 & H2 & H3 & H4 & H5 & H6 & H7 & H8 & H9 & H10 & H11 & H12 & H13 & pk & rl & P1 & P2 & P3 & P4) (S1 & S2 & S3 & S4 & S5 & S6 & S7 & S8).
    assert (d_SPDXVersion d = match v with V21 => "SPDX-2.1" | V22 => "SPDX-2.2" | V23 => "SPDX-2.3" end) as E.
    { destruct V as (ms' & m & r & E & I & U & Er & W). injection E as <-.
      assert (called "spdxVersion" m) as K by (now exists "spdxVersion").
      destruct H1 as [(A & _)|(m' & I' & K' & T)]; [rewrite Forall_forall in A; now destruct (A m I)|].
      rewrite <- (called_once _ _ _ _ C I I' K K') in T; rewrite Er in T.
      destruct T as [(X & _)|(r' & X & Y)]; [discriminate|]. injection X as <-. congruence. }
    unfold document_json, marked. cbn. split; [exact E|].
    assert (Forall (opt_ok (package_json v h)) (map (option_map (mark v)) (d_Packages d))) as PK.
    { rewrite P3 in S4 |- *. clear -P1 S4.
      assert (Forall (fun o : option (JPackage * list DocElementID) => match o with Some (p, _) => package_settled h p -> package_json v h (mark v p) | None => True end) pk) as F.
      { eapply list_at_ok; [|exact P1]. intros j [(p, fs)|] K; [|exact I]. cbn in K. destruct K as [_ K]. now apply (package_back j p fs). }
      clear P1. induction F as [|[(p, fs)|] l A F IH]; cbn in *; [constructor| |]; inversion S4; subst; constructor; cbn in *; auto. }
    assert (Forall (opt_ok (relationship_json h)) (d_Relationships d) /\ (v <> V21 -> ~ In None (d_Relationships d))) as [RL RN].
    { set (ok := fun r : Relationship => utf8_ok (r_Relationship r) /\ utf8_ok (r_Comment r)).
      assert (Forall (opt_ok ok) (d_Relationships d) /\ (v <> V21 -> ~ In None (d_Relationships d))) as [F N].
      { assert (Forall (opt_ok ok) rl) as G by (eapply nulls_at_ok; [|exact P2]; exact relationship_texts).
        assert (forall ad : list Relationship, Forall ok ad -> Forall (opt_ok ok) (map Some (proper rl ++ ad))) as G'.
        { intros ad A. apply Forall_map. change (Forall ok (proper rl ++ ad)). apply Forall_app. split; [|exact A].
          clear -G. unfold proper. induction G as [|[r|] l A G IH]; cbn; [constructor|constructor; auto|exact IH]. }
        assert (forall l : list Relationship, ~ In None (map Some l)) as N by (intros l I; apply in_map_iff in I as (x & X & _); discriminate).
        destruct v.
        - rewrite P4. split; [exact G|congruence].
        - destruct P4 as (ds & ad & _ & A & ->). split; [|intros _; apply N]. apply G'. apply Forall_forall. intros r I. eapply implied_ok, adds_in; eassumption.
        - destruct P4 as (ds & ad & _ & A & ->). split; [|intros _; apply N]. apply G'. apply Forall_forall. intros r I. eapply implied_ok, adds_in; eassumption. }
      split; [|exact N]. refine (forall_and _ _ _ _ _ _ S6 F). intros [r|]; [|auto]. intros [A B] [X Y]. cbn in *. repeat split; assumption || tauto. }
    clear E V P1 P2 P3 P4. fields.
    - eapply list_implies; [apply external_document_back|eassumption|assumption].
    - destruct (d_CreationInfo d) as [c|]; [|exact I]. cbn in S3 |- *. destruct H8 as [(_ & K)|(m & _ & _ & K)]; [discriminate|].
      cbn in K. destruct K as [_ K]. exact (creation_back _ _ K S3).
    - eapply list_implies; [apply null_implies, file_back|eassumption|assumption].
    - eapply nulls_at_ok; [|eassumption]. exact license_back.
    - eapply list_implies; [apply null_implies, annotation_back|eassumption|assumption].
    - eapply list_implies; [apply snippet_back|eassumption|assumption].
  Qed.
End Reload.

Lemma mark_mark v p : mark v (mark v p) = mark v p.
Proof. destruct v; reflexivity. Qed.
Lemma marked_marked v d : marked v (marked v d) = marked v d.
Proof. unfold marked. cbn. f_equal. rewrite map_map. apply map_ext. intros [p|]; [|reflexivity]. cbn. now rewrite mark_mark. Qed.
Lemma mark_written v p fs : enc (c_package v) (mark v p, fs) = enc (c_package v) (p, fs).
Proof. destruct v, p; reflexivity. Qed.
Lemma enc_fields_same A (fs : list (field A)) a b : Forall (fun f => f_enc f a = f_enc f b) fs -> enc_fields fs a = enc_fields fs b.
Proof. induction 1 as [|f fs E F IH]; [reflexivity|]. cbn [enc_fields]. now rewrite E, IH. Qed.
Lemma marked_written v h d : marshal_document v h (marked v d) = marshal_document v h d.
Proof.
  unfold marshal_document, marked. cbn [d_SPDXVersion d_DataLicense d_SPDXIdentifier d_DocumentName d_DocumentNamespace
    d_ExternalDocumentReferences d_DocumentComment d_CreationInfo d_Packages d_Files d_OtherLicenses d_Relationships d_Annotations d_Snippets d_Reviews].
  f_equal. unfold c_document_struct, c_struct. cbn [enc]. f_equal. apply enc_fields_same.
  repeat apply Forall_cons; try apply Forall_nil; try reflexivity.
  unfold f_enc, opt. cbn [f_omit f_codec f_get with_packages d_Packages].
  assert (forall l, mapR (enc (c_ptr (c_package v) zero_jpackage)) (map (fun p => match p with Some q => Some (q, []) | None => None end) (map (option_map (mark v)) l)) =
    mapR (enc (c_ptr (c_package v) zero_jpackage)) (map (fun p => match p with Some q => Some (q, []) | None => None end) l)) as M.
  { induction l as [|[p|] l IH]; [reflexivity| |]; cbn [map option_map mapR].
    - rewrite IH. cbn [enc c_ptr]. now rewrite mark_written.
    - now rewrite IH. }
  specialize (M (d_Packages d)). destruct (d_Packages d) as [|o l]; [reflexivity|].
  exact (f_equal (fun r => let* j := let* js := r in Ok (JArr js) in Ok (Some j)) M).
Qed.
Theorem json_reload h ind s j v d : json_text j s -> clear j -> blank ind -> json_read_into s = Ok (v, d) -> settled h d ->
  exists s', json_write v h ind d = Ok s' /\ json_write v h ind (marked v d) = Ok s' /\ json_read_into s' = Ok (v, marked v d).
Proof.
  intros T C B R S. apply read_into_iff in R as (k & K & _ & _ & R). rewrite (json_text_unique _ _ _ K T) in R.
  apply (read_exact j v d C) in R as [V D]. pose proof (document_back v h j d C V D S) as J.
  destruct (round_trip_bytes v h ind (marked v d) B J) as (s' & W & X). exists s'. split; [|split; assumption].
  unfold json_write in *. now rewrite marked_written in W.
Qed.
