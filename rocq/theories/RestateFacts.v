(** * Restated JSON values describe the same documents *)
From Coq Require Import Permutation.
From Verif Require Import GoStr GoStrFacts Types TvUtil SpecTv SpecId SpecDoc Json JsonSpdx JsonText SpecJson SpecJsonRead SpecJsonText SpecRestate
  JsonCodec JsonReadFacts JsonReadStruct JsonReadDoc JsonTextFacts JsonTextParse JsonTextLaws.
Local Open Scope string_scope.

(** ** Objects *)
Definition related (m m' : string * json) : Prop :=
  same_key (fst m) (fst m') /\ (snd m = snd m' \/ ~ parsed m /\ restated (snd m) (snd m')).
Definition idle (m : string * json) : Prop :=
  snd m = JNull /\ (exists a, unescape (fst m) = Some a) /\ ~ parsed m.
Definition objects (ms ms'' : list (string * json)) : Prop :=
  exists ms' nulls, Forall2 related ms ms' /\ Forall idle nulls /\ Permutation (ms' ++ nulls) ms''.
Definition stable {X} (R : json -> X -> Prop) : Prop :=
  forall j j' x, restated j j' -> clear j' -> (R j x <-> R j' x).

Lemma restated_objects ms ms'' : restated (JObj ms) (JObj ms'') <-> objects ms ms''.
Proof.
  split.
  - intros H. inversion H; subst. exists ms', nulls. auto.
  - intros (ms' & nulls & A & B & C). econstructor; eauto.
Qed.
Lemma same_key_called k m m' : same_key (fst m) (fst m') -> (called k m <-> called k m').
Proof.
  intros (a & a' & A & A' & [->|(F & _)]); unfold called; rewrite A, A'; [reflexivity|].
  split; intros (n & E & K); injection E as <-; [exists a'|exists a]; split; congruence.
Qed.
Lemma forall2_in_l X Y (R : X -> Y -> Prop) l l' x : Forall2 R l l' -> In x l -> exists y, In y l' /\ R x y.
Proof. induction 1 as [|a b l l' H F IH]; [contradiction|]. intros [->|I]; [exists b; split; [now left|exact H]|]. destruct (IH I) as (y & A & B). exists y. split; [now right|exact B]. Qed.
Lemma forall2_in_r X Y (R : X -> Y -> Prop) l l' y : Forall2 R l l' -> In y l' -> exists x, In x l /\ R x y.
Proof. induction 1 as [|a b l l' H F IH]; [contradiction|]. intros [->|I]; [exists a; split; [now left|exact H]|]. destruct (IH I) as (x & A & B). exists x. split; [now right|exact B]. Qed.

Lemma objects_fwd ms ms'' m : objects ms ms'' -> In m ms -> exists m', In m' ms'' /\ related m m'.
Proof.
  intros (ms' & nulls & F & _ & P) I. destruct (forall2_in_l _ _ _ _ _ _ F I) as (m' & I' & R). exists m'. split; [|exact R].
  apply (Permutation_in _ P). apply in_or_app. now left.
Qed.
Lemma objects_bwd ms ms'' m' : objects ms ms'' -> In m' ms'' -> idle m' \/ exists m, In m ms /\ related m m'.
Proof.
  intros (ms' & nulls & F & N & P) I. apply (Permutation_in _ (Permutation_sym P)), in_app_or in I as [I|I].
  - right. apply (forall2_in_r _ _ _ _ _ _ F I).
  - left. rewrite Forall_forall in N. auto.
Qed.
(** An idle member and one that stands for a member are not called the same *)
Lemma objects_idle ms ms'' m m'' k : objects ms ms'' -> clear (JObj ms'') -> In m ms -> called k m ->
  In m'' ms'' -> called k m'' -> exists m0, In m0 ms /\ related m0 m''.
Proof.
  intros (ms' & nulls & F & N & P) C I K I'' K''. apply (Permutation_in _ (Permutation_sym P)), in_app_or in I'' as [J|J].
  - apply (forall2_in_r _ _ _ _ _ _ F J).
  - exfalso. destruct (forall2_in_l _ _ _ _ _ _ F I) as (m' & I' & (S & _)). apply (same_key_called k _ _ S) in K.
    apply clear_obj in C as [D _]. apply (Permutation_NoDup (Permutation_sym (Permutation_map _ P))) in D.
    rewrite map_app in D. destruct K as (a & A & EA), K'' as (b & B & EB).
    set (f := fun m : string * json => option_map fold_name (unescape (fst m))) in D.
    assert (f m' = f m'') as E by (unfold f; rewrite A, B; cbn; congruence).
    apply (in_map f) in I', J. rewrite E in I'. clear -D I' J.
    induction (map f ms') as [|x l IH]; [contradiction|]. cbn in D. inversion D; subst. destruct I' as [->|I']; [|auto].
    apply H1, in_or_app. now right.
Qed.
Lemma objects_named ms ms'' : objects ms ms'' -> (named ms <-> named ms'').
Proof.
  intros O. unfold named. rewrite !Forall_forall. split.
  - intros _ m'' I. destruct (objects_bwd _ _ _ O I) as [(_ & H & _)|(m & _ & (a & a' & _ & A & _) & _)]; [exact H|now exists a'].
  - intros _ m I. destruct (objects_fwd _ _ _ O I) as (m' & _ & (a & a' & A & _) & _). now exists a.
Qed.
Lemma clear_member ms m : clear (JObj ms) -> In m ms -> clear (snd m).
Proof. intros C I. apply clear_obj in C as [_ F]. rewrite Forall_forall in F. auto. Qed.

(** ** Members *)
Lemma at_parsed X (R : json -> X -> Prop) ms ms'' k d x : objects ms ms'' -> In k parsed_names ->
  (at_member ms k d R x <-> at_member ms'' k d R x).
Proof.
  intros O K. unfold at_member. rewrite !Forall_forall.
  assert (forall m m', related m m' -> called k m -> snd m = snd m') as E by (intros m m' (_ & [E|(N & _)]) C; [exact E|exfalso; apply N; now exists k]).
  split; intros [(A & ->)|(m & I & C & H)].
  - left. split; [|reflexivity]. intros m'' I C. destruct (objects_bwd _ _ _ O I) as [(_ & _ & N)|(m & I' & (S & _))]; [apply N; now exists k|].
    apply (A m I'). now apply (same_key_called k _ _ S).
  - right. destruct (objects_fwd _ _ _ O I) as (m' & I' & L). exists m'. rewrite <- (E _ _ L C). split; [exact I'|]. split; [|exact H].
    now apply (same_key_called k _ _ (proj1 L)).
  - left. split; [|reflexivity]. intros m I C. destruct (objects_fwd _ _ _ O I) as (m' & I' & L). apply (A m' I'). now apply (same_key_called k _ _ (proj1 L)).
  - right. destruct (objects_bwd _ _ _ O I) as [(_ & _ & N)|(m0 & I' & L)]; [exfalso; apply N; now exists k|].
    assert (called k m0) as C0 by now apply (same_key_called k _ _ (proj1 L)). exists m0. rewrite (E _ _ L C0). auto.
Qed.
Lemma called_dec k ms : (exists m, In m ms /\ called k m) \/ (forall m, In m ms -> ~ called k m).
Proof.
  induction ms as [|m l IH]; [right; intros ? []|]. destruct IH as [(m' & I & K)|N]; [left; exists m'; split; [now right|exact K]|].
  destruct (unescape (fst m)) as [n|] eqn:U.
  - destruct (string_dec (fold_name n) (fold_name k)) as [F|F].
    + left. exists m. split; [now left|]. now exists n.
    + right. intros m' [<-|I]; [|auto]. intros (n' & U' & F'). rewrite U in U'. injection U' as <-. auto.
  - right. intros m' [<-|I]; [|auto]. intros (n' & U' & _). congruence.
Qed.
Lemma at_plain X (R : json -> X -> Prop) ms ms'' k d x : objects ms ms'' -> clear (JObj ms'') ->
  stable R -> (forall x, R JNull x <-> x = d) -> (at_member ms k d R x <-> at_member ms'' k d R x).
Proof.
  intros O C S Z. unfold at_member. rewrite !Forall_forall.
  assert (forall m m', In m' ms'' -> related m m' -> (R (snd m) x <-> R (snd m') x)) as E.
  { intros m m' I (_ & [->|(_ & Q)]); [reflexivity|]. apply S; [exact Q|]. now apply (clear_member ms''). }
  split; intros [(A & ->)|(m & I & K & H)].
  - destruct (called_dec k ms'') as [(m'' & I & K)|N].
    + right. exists m''. split; [exact I|]. split; [exact K|]. destruct (objects_bwd _ _ _ O I) as [(-> & _)|(m & I' & (Q & _))]; [now apply Z|].
      exfalso. apply (A m I'). now apply (same_key_called k _ _ Q).
    + left. auto.
  - right. destruct (objects_fwd _ _ _ O I) as (m' & I' & L). exists m'. split; [exact I'|]. split; [now apply (same_key_called k _ _ (proj1 L))|].
    now apply (E m m').
  - left. split; [|reflexivity]. intros m I K. destruct (objects_fwd _ _ _ O I) as (m' & I' & L). apply (A m' I'). now apply (same_key_called k _ _ (proj1 L)).
  - destruct (called_dec k ms) as [(m0 & I0 & K0)|N].
    + destruct (objects_idle _ _ _ _ _ O C I0 K0 I K) as (m1 & I1 & L). right. exists m1. split; [exact I1|].
      split; [now apply (same_key_called k _ _ (proj1 L))|]. now apply (E m1 m).
    + left. split; [exact N|]. destruct (objects_bwd _ _ _ O I) as [(J & _)|(m0 & I' & L)]; [rewrite J in H; now apply Z|].
      exfalso. apply (N m0 I'). now apply (same_key_called k _ _ (proj1 L)).
Qed.

(** ** Plain values *)
Lemma restated_is_null j j' : restated j j' -> (j = JNull <-> j' = JNull).
Proof. intros H. inversion H; subst; split; intros E; congruence. Qed.
Ltac inv H := inversion H; subst; clear H.
Lemma stable_text : stable text_is.
Proof.
  intros j j' x S _. unfold text_is. inv S; try reflexivity; split; intros [(E & _)|(q & E & U)]; try discriminate E.
  - injection E as <-. right. exists r'. split; [reflexivity|congruence].
  - injection E as <-. right. exists r. split; [reflexivity|congruence].
Qed.
Lemma stable_flag : stable flag_is.
Proof. intros j j' x S _. unfold flag_is. inv S; try reflexivity; split; intros [(E & _)|E]; discriminate E. Qed.
Lemma stable_number : stable number_is.
Proof. intros j j' x S _. unfold number_is. inv S; try reflexivity; split; intros [(E & _)|(q & E & _)]; discriminate E. Qed.
Lemma stable_nullable X (R : json -> X -> Prop) : stable R -> stable (nullable R).
Proof. intros H j j' o S C. unfold nullable. pose proof (restated_is_null _ _ S) as N. destruct o as [x|]; [|exact N]. specialize (H j j' x S C). tauto. Qed.
Lemma stable_list X (R : json -> X -> Prop) : stable R -> stable (list_is R).
Proof.
  intros H j j' x S C. unfold list_is. inversion S as [| | | |l l' F|]; subst; try reflexivity; try (split; intros [(E & _)|(q & E & _)]; discriminate E).
  apply clear_arr in C.
  enough (Forall2 R l x <-> Forall2 R l' x) as E.
  { split; intros [(K & _)|(q & K & G)]; try discriminate K; injection K as <-; right; eexists; split; try reflexivity; now apply E. }
  clear S. revert x. induction F as [|a b l l' A F IH]; intros x; [reflexivity|]. inv C.
  split; intros G; inv G; constructor; try (apply (IH H3); assumption); apply (H a b); assumption.
Qed.
Lemma stable_object X (zero : X) (P : X -> list (string * json) -> Prop) :
  (forall x ms ms'', objects ms ms'' -> clear (JObj ms'') -> (P x ms <-> P x ms'')) ->
  stable (fun j x => object_is zero (P x) j x).
Proof.
  intros H j j' x S C. unfold object_is. inversion S as [| | | | |ms ms' nulls ms'' F N Q]; subst; try reflexivity; try (split; intros [(E & _)|(q & E & _)]; discriminate E).
  apply restated_objects in S. pose proof (objects_named _ _ S) as K. specialize (H x _ _ S C).
  split; intros [(E & _)|(q & E & A & B)]; try discriminate E; injection E as <-; right; eexists; (split; [reflexivity|]); split; tauto.
Qed.

(** ** The kinds of members *)
Section Members.
  Variables (ms ms'' : list (string * json)).
  Hypothesis O : objects ms ms''.
  Hypothesis C : clear (JObj ms'').
  Lemma null_text x : text_is JNull x <-> x = "".
  Proof. unfold text_is. split; [intros [(_ & E)|(r & E & _)]; [exact E|discriminate]|auto]. Qed.
  Lemma null_list X (R : json -> X -> Prop) x : list_is R JNull x <-> x = [].
  Proof. unfold list_is. split; [intros [(_ & E)|(r & E & _)]; [exact E|discriminate]|auto]. Qed.
  Lemma null_object X (zero : X) P x : object_is zero P JNull x <-> x = zero.
  Proof. unfold object_is. split; [intros [(_ & E)|(r & E & _)]; [exact E|discriminate]|auto]. Qed.
  Lemma null_nullable X (R : json -> X -> Prop) x : nullable R JNull x <-> x = None.
  Proof. unfold nullable. destruct x; [|tauto]. split; [intros [[] _]; reflexivity|discriminate]. Qed.
  Lemma text_member k x : text_at ms k x <-> text_at ms'' k x.
  Proof. apply at_plain; auto using stable_text, null_text. Qed.
  Lemma list_member X (R : json -> X -> Prop) k x : stable R -> (list_at ms k R x <-> list_at ms'' k R x).
  Proof. intros S. apply at_plain; auto using stable_list, null_list. Qed.
  Lemma texts_member k x : texts_at ms k x <-> texts_at ms'' k x.
  Proof. apply list_member, stable_text. Qed.
  Lemma flag_member k x : flag_at ms k x <-> flag_at ms'' k x.
  Proof. apply at_plain; auto using stable_flag. intros y. unfold flag_is. split; [intros [(_ & E)|E]; [exact E|discriminate]|auto]. Qed.
  Lemma number_member k x : number_at ms k x <-> number_at ms'' k x.
  Proof. apply at_plain; auto using stable_number. intros y. unfold number_is. split; [intros [(_ & E)|(t & E & _)]; [exact E|discriminate]|auto]. Qed.
  Lemma object_member X (zero : X) P k x : stable (fun j x => object_is zero (P x) j x) ->
    (at_member ms k zero (fun j x => object_is zero (P x) j x) x <-> at_member ms'' k zero (fun j x => object_is zero (P x) j x) x).
  Proof. intros S. apply at_plain; auto. intros y. apply null_object. Qed.
  Lemma nullable_member X (R : json -> X -> Prop) k x : stable R -> (at_member ms k None (nullable R) x <-> at_member ms'' k None (nullable R) x).
  Proof. intros S. apply at_plain; auto using stable_nullable, null_nullable. Qed.
End Members.

(** ** Parts of a document *)
Lemma and_cong A B P Q : (A <-> B) -> (P <-> Q) -> (A /\ P <-> B /\ Q).
Proof. tauto. Qed.
Ltac parsed := unfold id_at, list_at; apply at_parsed; [assumption|cbn; tauto].
Ltac member :=
  match goal with
  | |- ?A <-> ?A => reflexivity
  | |- text_at _ _ _ <-> _ => apply text_member; assumption
  | |- texts_at _ _ _ <-> _ => apply texts_member; assumption
  | |- flag_at _ _ _ <-> _ => apply flag_member; assumption
  | |- number_at _ _ _ <-> _ => apply number_member; assumption
  | _ => first [parsed | apply list_member; auto with stable | apply nullable_member; auto with stable]
  end.
Lemma ex_cong X (P Q : X -> Prop) : (forall x, P x <-> Q x) -> ((exists x, P x) <-> (exists x, Q x)).
Proof. intros H. split; intros (x & A); exists x; now apply H. Qed.
Ltac members :=
  lazymatch goal with
  | |- (?A <-> ?A) => reflexivity
  | |- (_ /\ _ <-> _ /\ _) => apply and_cong; [members|members]
  | |- ((exists _, _) <-> (exists _, _)) => apply ex_cong; intros ?; members
  | |- _ => try member
  end.
Create HintDb stable.
#[export] Hint Resolve stable_nullable stable_list stable_text stable_flag : stable.

Lemma stable_checksum : stable checksum_is.
Proof. apply stable_object. intros x ms ms'' O C. members. Qed.
#[export] Hint Resolve stable_checksum : stable.
Lemma stable_code : stable code_is.
Proof. apply stable_object. intros x ms ms'' O C. members. Qed.
Lemma stable_pointer : stable pointer_is.
Proof. apply stable_object. intros x ms ms'' O C. members. Qed.
#[export] Hint Resolve stable_code stable_pointer : stable.
Ltac part := apply at_plain; auto with stable; intros; apply null_object.
Lemma stable_range : stable range_is.
Proof. apply stable_object. intros x ms ms'' O C. apply and_cong; part. Qed.
Lemma stable_external_document : stable external_document_is.
Proof. apply stable_object. intros x ms ms'' O C. members. part. Qed.
Lemma stable_creation : stable creation_is.
Proof. apply stable_object. intros x ms ms'' O C. members. Qed.
Lemma stable_external_ref v : stable (external_ref_is v).
Proof.
  apply stable_object. intros x ms ms'' O C. members.
Qed.
Lemma stable_relationship : stable relationship_is.
Proof. apply stable_object. intros x ms ms'' O C. members. Qed.
Lemma stable_annotation : stable annotation_is.
Proof. apply stable_object. intros x ms ms'' O C. members. Qed.
Lemma stable_license : stable license_is.
Proof. apply stable_object. intros x ms ms'' O C. members. Qed.
Lemma stable_artifact : stable artifact_is.
Proof. apply stable_object. intros x ms ms'' O C. members. Qed.
#[export] Hint Resolve stable_range stable_external_document stable_creation stable_external_ref stable_relationship stable_annotation stable_license stable_artifact : stable.
Lemma stable_snippet : stable snippet_is.
Proof. apply stable_object. intros x ms ms'' O C. members. Qed.
Lemma stable_file v : stable (file_is v).
Proof. apply stable_object. intros x ms ms'' O C. destruct v; members. Qed.
#[export] Hint Resolve stable_snippet stable_file : stable.

Lemma package_members_restated v p ms ms'' : objects ms ms'' -> clear (JObj ms'') -> (package_members v ms p <-> package_members v ms'' p).
Proof.
  intros O C. unfold package_members. destruct v; members; part.
Qed.

Lemma stable_package v : stable (package_is v).
Proof.
  intros j j' [p files] S C. unfold package_is.
  inversion S as [| | | | |ms ms' nulls ms'' F N Q]; subst; try reflexivity; try (split; intros (q & E & _); discriminate E).
  apply restated_objects in S. pose proof (objects_named _ _ S) as K. pose proof (package_members_restated v p _ _ S C) as M.
  enough (forall A B, (A ms <-> B ms'') -> (exists ms0, JObj ms = JObj ms0 /\ A ms0) <-> (exists ms0, JObj ms'' = JObj ms0 /\ B ms0)) as E.
  { apply E. clear E. apply and_cong; [exact K|]. apply and_cong; [exact M|]. rename S into O. destruct v; members. }
  intros A B I. split; intros (q & E & H); injection E as <-; eexists; (split; [reflexivity|]); now apply I.
Qed.
#[export] Hint Resolve stable_package : stable.
Lemma stable_document v : stable (document_is v).
Proof.
  intros j j' d S C. unfold document_is.
  inversion S as [| | | | |ms ms' nulls ms'' F N Q]; subst; try reflexivity; try (split; intros (q & E & _); discriminate E).
  apply restated_objects in S. pose proof (objects_named _ _ S) as K.
  enough (forall A B, (A ms <-> B ms'') -> (exists ms0, JObj ms = JObj ms0 /\ A ms0) <-> (exists ms0, JObj ms'' = JObj ms0 /\ B ms0)) as E.
  { apply E. clear E. apply and_cong; [exact K|]. rename S into O. destruct v; members. }
  intros A B I. split; intros (q & E & H); injection E as <-; eexists; (split; [reflexivity|]); now apply I.
Qed.
Lemma stable_version : stable version_is.
Proof.
  intros j j' v S _. unfold version_is. split; intros (ms1 & m & r & -> & I & U & E & V).
  - inversion S as [| | | | |ms ms' nulls ms'' F N Q]; subst. apply restated_objects in S.
    destruct (objects_fwd _ _ _ S I) as (m' & I' & (a & a' & A & A' & D) & R).
    rewrite U in A. injection A as <-. destruct D as [<-|(_ & [] & _)]; [|reflexivity].
    rewrite E in R. destruct R as [R|(_ & R)].
    + exists ms'', m', r. auto.
    + inversion R as [| | |r1 r' W HR|  |]; subst. exists ms'', m', r'. repeat split; auto. congruence.
  - inversion S as [| | | | |ms ms' nulls ms'' F N Q]; subst. apply restated_objects in S.
    destruct (objects_bwd _ _ _ S I) as [(Z & _)|(m0 & I' & (a & a' & A & A' & D) & R)]; [congruence|].
    rewrite U in A'. injection A' as <-. destruct D as [->|(_ & _ & [])]; [|reflexivity].
    rewrite E in R. destruct R as [R|(_ & R)].
    + exists ms, m0, r. auto.
    + inversion R as [| | |r1 r' W HR|  |]; subst. exists ms, m0, r1. repeat split; auto. congruence.
Qed.
Theorem restated_read j j' v d : clear j -> clear j' -> restated j j' ->
  (read_value j = Ok (v, d) <-> read_value j' = Ok (v, d)).
Proof.
  intros C C' S. rewrite !read_exact by assumption. apply and_cong; [now apply stable_version|now apply stable_document].
Qed.

(** ** Texts *)
Lemma restated_keeps j : forall j', restated j j' -> nesting j' = nesting j /\ (all_fit j <-> all_fit j').
Proof.
  induction j as [|b|t|r|l IH|ms IH] using json_ind'; intros j' S; inversion S as [| | |r0 r' U|l0 l' F|ms0 ms' nulls ms'' F NL P]; subst; try (split; reflexivity).
  - split; [reflexivity|]. split; constructor.
  - assert (Forall2 (fun x y => nesting y = nesting x /\ (all_fit x <-> all_fit y)) l l') as K.
    { clear S. induction F as [|x y l l' X F IHF]; constructor; inversion IH; subst; auto. }
    clear IH F S. split.
    + cbn [nesting]. f_equal. induction K as [|x y l l' [X _] K IHK]; cbn [map fold_right]; [reflexivity|now rewrite X, IHK].
    + split; intros A; inversion A as [| | | |l0 G|]; subst; constructor; clear A.
      * refine (forall2_impl _ all_fit all_fit l l' _ G). clear -K. induction K as [|? ? ? ? [_ ?]]; constructor; tauto.
      * induction K as [|x y l l' [_ X] K IHK]; [constructor|]. inversion G; subst. constructor; [tauto|auto].
  - assert (Forall2 (fun x y => nesting (snd y) = nesting (snd x) /\ (all_fit (snd x) <-> all_fit (snd y))) ms ms') as K.
    { clear S P. induction F as [|x y l l' [_ X] F IHF]; constructor; inversion IH; subst; auto.
      destruct X as [->|(_ & X)]; [split; reflexivity|auto]. }
    clear IH F S. split.
    + cbn [nesting]. f_equal.
      assert (forall a b, Permutation a b -> fold_right N.max 0%N (map (fun m : string * json => nesting (snd m)) a) = fold_right N.max 0%N (map (fun m => nesting (snd m)) b)) as PM
        by (induction 1; cbn [map fold_right]; lia).
      rewrite <- (PM _ _ P). rewrite map_app, fold_right_app.
      assert (fold_right N.max 0%N (map (fun m => nesting (snd m)) nulls) = 0%N) as Z.
      { clear -NL. induction NL as [|m l (E & _) NL IH]; [reflexivity|]. cbn [map fold_right]. now rewrite IH, E. }
      rewrite Z. clear P. induction K as [|x y l l' [X _] K IHK]; cbn [map fold_right]; [reflexivity|now rewrite X, IHK].
    + split; intros A; inversion A as [| | | | |ms0 G]; subst; constructor; clear A.
      * apply (Permutation_Forall P). apply Forall_app. split.
        -- clear P. induction K as [|x y l l' [_ X] K IHK]; [constructor|]. inversion G; subst. constructor; [tauto|auto].
        -- eapply Forall_impl; [|exact NL]. intros m (-> & _). constructor.
      * apply (Permutation_Forall (Permutation_sym P)), Forall_app in G as [G _]. clear P.
        induction K as [|x y l l' [_ X] K IHK]; [constructor|]. inversion G; subst. constructor; [tauto|auto].
Qed.
Theorem restated_text j j' s s' v d : clear j -> clear j' -> restated j j' -> json_text j s -> json_text j' s' ->
  (json_read_into s = Ok (v, d) <-> json_read_into s' = Ok (v, d)).
Proof.
  intros C C' S T T'. destruct (restated_keeps j j' S) as [N F]. rewrite !read_into_iff. split; intros (k & K & A & B & R).
  - rewrite (json_text_unique _ _ _ K T) in *. exists j'. repeat split; [exact T'|now rewrite N|now apply F|]. now apply (restated_read j j').
  - rewrite (json_text_unique _ _ _ K T') in *. exists j. repeat split; [exact T|now rewrite <- N|now apply F|]. now apply (restated_read j j').
Qed.
Lemma read_into_no_panic s : json_read_into s <> Panic.
Proof. unfold json_read_into. destruct (parse_text s) as [j|]; [|discriminate]. destruct (floats_ok j); [|discriminate]. apply read_no_panic. Qed.
