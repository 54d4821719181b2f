(** * What the encoder writes: the parts of a document, packages, documents. *)
From Coq Require Import Permutation Sorted.
From Verif Require Import GoStr GoStrFacts Types TvUtil TvParser SpecTv SpecId SpecDoc Json JsonSpdx SpecJson JsonFacts JsonCodec JsonHooks SpecJsonWrite JsonReadFacts JsonWriteFacts DenoteGlobal.
Local Open Scope string_scope.

(** ** Members *)
Section Members.
  Context {A : Type} (a : A).
  Lemma fits_always X n (c : codec X) F get set : writes c F -> escape false n = n ->
    fits a (req n c get set) (always n (F (get a))).
  Proof.
    intros W E. split; [symmetry; exact E|]. split; [cbn; intuition discriminate|]. intros j. symmetry. apply W.
  Qed.
  Lemma fits_opt X n (c : codec X) (F : X -> json -> Prop) get set (L : Prop) : writes c F -> escape false n = n ->
    (is_empty c (get a) = true <-> L) -> fits a (opt n c get set) (Entry n L (F (get a))).
  Proof.
    intros W E I. split; [symmetry; exact E|]. split; [symmetry; exact I|]. intros j. symmetry. apply W.
  Qed.
  Lemma fits_text n get set : escape false n = n -> fits a (opt n c_string get set) (text_unless_empty n (get a)).
  Proof. intros E. apply (fits_opt _ _ c_string text_form); [apply writes_string|assumption|apply String.eqb_eq]. Qed.
  Lemma empty_list X (l : list X) : match l with [] => true | _ => false end = true <-> l = [].
  Proof. destruct l; split; congruence. Qed.
  Lemma fits_list X n (c : codec X) z F get set : writes c F -> escape false n = n ->
    fits a (opt n (c_slice c z) get set) (list_unless_empty n F (get a)).
  Proof. intros W E. apply (fits_opt _ _ (c_slice c z) (list_form F)); [now apply writes_slice|assumption|apply empty_list]. Qed.
  Lemma fits_texts n get set : escape false n = n -> fits a (opt n c_strings get set) (texts_unless_empty n (get a)).
  Proof. apply fits_list, writes_string. Qed.
  Lemma fits_ptrs X n (c : codec X) z F get set : writes c F -> escape false n = n ->
    fits a (opt n (c_ptrs c z) get set) (list_unless_empty n (null_form F) (get a)).
  Proof. intros W E. apply fits_list; [now apply writes_ptr|assumption]. Qed.
  Lemma fits_ptr X n (c : codec X) z F get set : writes c F -> escape false n = n ->
    fits a (opt n (c_ptr c z) get set) (unless_nil n F (get a)).
  Proof.
    intros W E. apply (fits_opt _ _ (c_ptr c z) (null_form F)); [now apply writes_ptr|assumption|].
    cbn. destruct (get a); split; congruence.
  Qed.
  Lemma fits_number n get set : escape false n = n -> fits a (opt n c_int get set) (number_unless_zero n (get a)).
  Proof.
    intros E. apply (fits_opt _ _ c_int number_form); [apply writes_int|assumption|].
    cbn [is_empty c_int]. rewrite Z.eqb_eq. split; congruence.
  Qed.
  Lemma fits_flag n get set : escape false n = n ->
    fits a (opt n c_bool get set) (Entry n (get a = false) (flag_form (get a))).
  Proof. intros E. apply (fits_opt _ _ c_bool flag_form); [apply writes_bool|assumption|]. cbn. destruct (get a); cbn; split; congruence. Qed.
End Members.
Lemma writes_strings : writes c_strings (list_form text_form).
Proof. apply writes_slice, writes_string. Qed.
Lemma writes_ext X (c : codec X) F G : writes c F -> (forall x j, F x j <-> G x j) -> writes c G.
Proof. intros W E x j. rewrite (W x j). apply E. Qed.

Create HintDb writes.
Global Hint Resolve writes_string writes_strings writes_bool writes_int writes_slice writes_ptr writes_ptrs : writes.
Ltac member_fits :=
  lazymatch goal with |- fits ?a (_ ?n _ _ _) _ =>
    first
      [ apply (fits_text a n); reflexivity
      | apply (fits_texts a n); reflexivity
      | apply (fits_number a n); reflexivity
      | apply (fits_flag a n); reflexivity
      | refine (fits_list a _ n _ _ _ _ _ _ _); [solve [eauto with writes]|reflexivity]
      | refine (fits_ptrs a _ n _ _ _ _ _ _ _); [solve [eauto with writes]|reflexivity]
      | refine (fits_ptr a _ n _ _ _ _ _ _ _); [solve [eauto with writes]|reflexivity]
      | refine (fits_always a _ n _ _ _ _ _ _); [solve [eauto with writes]|reflexivity] ]
  end.
Ltac struct_fits := apply writes_struct; intros a; repeat (constructor; [member_fits|]); constructor.

(** ** Identifiers and actors *)
Lemma prefixed_iff p id s : with_prefix p id = s <-> prefixed p id s.
Proof.
  unfold with_prefix, prefixed. pose proof (has_prefix_spec p id) as H.
  destruct (has_prefix p id).
  - assert (exists r, id = p ++ r) as K by (now apply H). split; [intros <-; now left|]. intros [(_ & ->)|(N & _)]; [reflexivity|contradiction].
  - assert (~ exists r, id = p ++ r) as K by (intros K; apply H in K; discriminate).
    split; [intros <-; now right|]. intros [(N & _)|(_ & ->)]; [contradiction|reflexivity].
Qed.
Lemma ok_iff A (x y : A) : Ok x = Ok y <-> x = y.
Proof. split; congruence. Qed.
Lemma writes_element_id : writes c_element_id (id_form "SPDXRef-").
Proof. apply writes_text. intros x s. rewrite ok_iff. apply prefixed_iff. Qed.
Lemma writes_document_id : writes c_document_id (id_form "DocumentRef-").
Proof. apply writes_text. intros x s. rewrite ok_iff. apply prefixed_iff. Qed.
Lemma nonempty_iff s : nonempty s = true <-> s <> "".
Proof. destruct s; cbn; split; congruence. Qed.
Lemma nonempty_no s : nonempty s = false <-> s = "".
Proof. destruct s; cbn; split; congruence. Qed.
Lemma writes_reference : writes c_doc_element_id reference_form.
Proof.
  eapply writes_ext; [apply (writes_text _ marshal_doc_element_id _ (fun d s =>
     (de_ElementRefID d <> "" /\ de_DocumentRefID d <> "" /\
      exists a b, prefixed "DocumentRef-" (de_DocumentRefID d) a /\
        prefixed "SPDXRef-" (de_ElementRefID d) b /\ s = a ++ ":" ++ b)
     \/ (de_ElementRefID d <> "" /\ de_DocumentRefID d = "" /\ prefixed "SPDXRef-" (de_ElementRefID d) s)
     \/ (de_ElementRefID d = "" /\ de_SpecialID d <> "" /\ s = de_SpecialID d)))|].
  - intros d s. unfold marshal_doc_element_id.
    destruct (nonempty (de_DocumentRefID d)) eqn:D, (nonempty (de_ElementRefID d)) eqn:E; cbn [andb];
      repeat match goal with
      | H : nonempty _ = true |- _ => apply nonempty_iff in H
      | H : nonempty _ = false |- _ => apply nonempty_no in H
      end.
    + rewrite ok_iff. split.
      * intros <-. left. split; [assumption|]. split; [assumption|]. eexists _, _.
        split; [now apply prefixed_iff|]. split; [now apply prefixed_iff|reflexivity].
      * intros [(_ & _ & a & b & Ha & Hb & ->)|[(_ & K & _)|(K & _)]]; try contradiction.
        apply prefixed_iff in Ha, Hb. change document_ref with "DocumentRef-". change spdx_ref with "SPDXRef-". now rewrite Ha, Hb.
    + destruct (nonempty (de_SpecialID d)) eqn:P.
      * apply nonempty_iff in P. rewrite ok_iff. split; [intros <-; right; right; auto|].
        intros [(K & _)|[(K & _)|(_ & _ & ->)]]; congruence.
      * apply nonempty_no in P. split; [discriminate|]. intros [(K & _)|[(K & _)|(_ & K & _)]]; congruence.
    + rewrite ok_iff. split.
      * intros <-. right. left. split; [assumption|]. split; [assumption|]. now apply prefixed_iff.
      * intros [(_ & K & _)|[(_ & _ & K)|(K & _)]]; try congruence. now apply prefixed_iff.
    + destruct (nonempty (de_SpecialID d)) eqn:P.
      * apply nonempty_iff in P. rewrite ok_iff. split; [intros <-; right; right; auto|].
        intros [(K & _)|[(K & _)|(_ & _ & ->)]]; congruence.
      * apply nonempty_no in P. split; [discriminate|]. intros [(K & _)|[(K & _)|(_ & K & _)]]; congruence.
  - intros d j. unfold reference_form. split; intros (s & H & K); exists s; split; assumption.
Qed.
Lemma marshal_actor_iff t n s : marshal_actor t n = Ok s <-> n <> "" /\ s = t ++ ": " ++ n.
Proof.
  unfold marshal_actor. destruct (nonempty n) eqn:E.
  - apply nonempty_iff in E. rewrite ok_iff. split; [intros <-; auto|intros (_ & ->); reflexivity].
  - apply nonempty_no in E. split; [discriminate|tauto].
Qed.
Lemma writes_actor X (m : X -> res string) u t n : (forall x, m x = marshal_actor (t x) (n x)) ->
  writes (c_text m u) (fun x => actor_form (t x) (n x)).
Proof.
  intros H. eapply writes_ext; [apply (writes_text _ m u (fun x s => n x <> "" /\ s = t x ++ ": " ++ n x))|].
  - intros x s. rewrite H. apply marshal_actor_iff.
  - intros x j. unfold actor_form. split.
    + intros (s & (N & ->) & K). auto.
    + intros (N & K). eauto.
Qed.
Lemma writes_creator : writes c_creator (fun c => actor_form (cr_CreatorType c) (cr_Creator c)).
Proof. now apply writes_actor. Qed.
Lemma writes_annotator : writes c_annotator (fun c => actor_form (an_AnnotatorType c) (an_Annotator c)).
Proof. now apply writes_actor. Qed.
Lemma writes_agent X (m : X -> res string) u t n : (forall x, m x = marshal_agent (t x) (n x)) ->
  writes (c_text m u) (fun x => agent_form (t x) (n x)).
Proof.
  intros H. eapply writes_ext; [apply (writes_text _ m u (fun x s =>
    (n x = "NOASSERTION" /\ s = n x) \/
    (n x <> "NOASSERTION" /\ t x <> "" /\ n x <> "" /\ s = t x ++ ": " ++ n x)))|].
  - intros x s. rewrite H. unfold marshal_agent. destruct (String.eqb_spec (n x) "NOASSERTION") as [E|E].
    + rewrite ok_iff. split; [intros <-; now left|]. intros [(_ & ->)|(K & _)]; [reflexivity|contradiction].
    + destruct (nonempty (t x)) eqn:T, (nonempty (n x)) eqn:N; cbn [andb];
        repeat match goal with
        | H : nonempty _ = true |- _ => apply nonempty_iff in H
        | H : nonempty _ = false |- _ => apply nonempty_no in H
        end; try (split; [discriminate|]; intros [(K & _)|(_ & K1 & K2 & _)]; congruence).
      rewrite ok_iff. split; [intros <-; right; auto|]. intros [(K & _)|(_ & _ & _ & ->)]; [contradiction|reflexivity].
  - intros x j. unfold agent_form. split.
    + intros (s & [(E & ->)|(N & T & M & ->)] & K); [left|right]; auto.
    + intros [(E & K)|(N & T & M & K)]; eexists; (split; [|exact K]); [left|right]; auto.
Qed.
Lemma writes_supplier : writes c_supplier (fun s => agent_form (su_SupplierType s) (su_Supplier s)).
Proof. now apply writes_agent. Qed.
Lemma writes_originator : writes c_originator (fun s => agent_form (or_OriginatorType s) (or_Originator s)).
Proof. now apply writes_agent. Qed.
Global Hint Resolve writes_element_id writes_document_id writes_reference writes_creator writes_annotator
  writes_supplier writes_originator : writes.

(** ** Structures *)
Lemma writes_checksum : writes c_checksum checksum_form. Proof. struct_fits. Qed.
Lemma writes_code : writes c_verification_code code_form. Proof. struct_fits. Qed.
Lemma writes_pointer : writes c_range_pointer pointer_form. Proof. struct_fits. Qed.
Global Hint Resolve writes_checksum writes_code writes_pointer : writes.
Lemma writes_range : writes c_range range_form. Proof. struct_fits. Qed.
Lemma writes_external_document : writes c_external_document_ref external_document_form. Proof. struct_fits. Qed.
Lemma writes_creation : writes c_creation_info creation_form. Proof. struct_fits. Qed.
Lemma writes_relationship : writes c_relationship relationship_form. Proof. struct_fits. Qed.
Lemma writes_annotation : writes c_annotation annotation_form.
Proof. struct_fits. Qed.
Lemma writes_license : writes c_other_license license_form. Proof. struct_fits. Qed.
Lemma writes_artifact : writes c_artifact artifact_form. Proof. struct_fits. Qed.
Global Hint Resolve writes_range writes_external_document writes_creation writes_relationship writes_annotation
  writes_license writes_artifact : writes.
Lemma writes_snippet v : writes (c_snippet v) (snippet_form v). Proof. destruct v; struct_fits. Qed.
Lemma writes_file v : writes (c_file v) (file_form v). Proof. destruct v; struct_fits. Qed.
Global Hint Resolve writes_snippet writes_file : writes.

(** ** External references *)
Lemma object_enc A (a : A) fs es : Forall2 (fits a) fs es -> forall j, enc (c_struct fs) a = Ok j <-> object_form es j.
Proof.
  intros H j. cbn [enc c_struct]. rewrite bindR_ok_iff. unfold object_form. split.
  - intros (ms & E & K). injection K as <-. exists ms. split; [reflexivity|]. now apply (enc_object A a fs).
  - intros (ms & -> & O). exists ms. split; [|reflexivity]. now apply (enc_object A a fs _ H).
Qed.
Lemma exchanged_iff a b s : forall t, t = replace_byte a b s <-> exchanged a b s t.
Proof.
  unfold exchanged. induction s as [|x s IH]; intros t; cbn [replace_byte].
  - split.
    + intros ->. split; [reflexivity|]. intros [|i] c; discriminate.
    + intros (L & _). now destruct t.
  - split.
    + intros ->. destruct (IH (replace_byte a b s)) as ((L & G) & _); [reflexivity|].
      split; [cbn [String.length]; now f_equal|]. intros [|i] c; cbn [get].
      * intros E. injection E as <-. reflexivity.
      * apply G.
    + intros (L & G). destruct t as [|y t]; [discriminate|]. cbn in L. injection L as L.
      pose proof (G 0 x eq_refl) as E. cbn [get] in E. injection E as ->. f_equal.
      apply IH. split; [assumption|]. intros i c Ei. exact (G (S i) c Ei).
Qed.
Lemma fits_category v r s : (forall t, t = s <-> category_form v (er_Category r) t) ->
  Forall2 (fits (set_er_Category s r)) external_ref_fields
  [always "referenceCategory" (fun j => exists s, category_form v (er_Category r) s /\ text_form s j);
   always "referenceType" (text_form (er_RefType r));
   always "referenceLocator" (text_form (er_Locator r));
   text_unless_empty "comment" (er_Comment r)].
Proof.
  intros H. constructor; [|constructor; [|constructor; [|constructor; [|constructor]]]].
  - split; [reflexivity|]. split; [cbn; intuition discriminate|]. intros j. cbn [e_form always]. cbn [f_codec f_get req er_Category set_er_Category].
    destruct r as [c1 c2 c3 c4]; cbn [set_er_Category er_Category] in *. rewrite (writes_string s j). split.
    + intros (t & C & K). apply H in C. now subst.
    + intros K. exists s. split; [now apply H|assumption].
  - exact (fits_always (set_er_Category s r) _ _ c_string text_form er_RefType _ writes_string eq_refl).
  - exact (fits_always (set_er_Category s r) _ _ c_string text_form er_Locator _ writes_string eq_refl).
  - exact (fits_text (set_er_Category s r) "comment" er_Comment _ eq_refl).
Qed.
Lemma writes_external_ref v : writes (c_external_ref v) (external_ref_form v).
Proof.
  intros r j. destruct v.
  - cbn [c_external_ref]. pose proof (object_enc _ _ _ _ (fits_category V21 r (er_Category r) ltac:(cbn; reflexivity)) j) as H.
    rewrite <- H. destruct r. reflexivity.
  - cbn [c_external_ref enc].
    apply (object_enc _ _ _ _ (fits_category V22 r _ (exchanged_iff _ _ _)) j).
  - cbn [c_external_ref enc].
    apply (object_enc _ _ _ _ (fits_category V23 r _ (exchanged_iff _ _ _)) j).
Qed.
Global Hint Resolve writes_external_ref : writes.

(** ** Encoded values: literals can be decoded, member names are distinct and
    need no escapes *)
Definition plain_name (n : string) : Prop := unescape n = Some n /\ escape false n = n.
Fixpoint neat (j : json) : Prop :=
  match j with
  | JStr r => exists s, unescape r = Some s
  | JArr l => fold_right and True (map neat l)
  | JObj ms =>
      Forall plain_name (map fst ms) /\ NoDup (map fst ms) /\
      fold_right and True (map (fun m => neat (snd m)) ms)
  | _ => True
  end.
Lemma neat_arr l : neat (JArr l) <-> Forall neat l.
Proof. cbn [neat]. apply fold_and. Qed.
Lemma neat_obj ms : neat (JObj ms) <->
  Forall plain_name (map fst ms) /\ NoDup (map fst ms) /\ Forall (fun m => neat (snd m)) ms.
Proof. cbn [neat]. now rewrite fold_and. Qed.
Lemma unescape_some h s : exists t, unescape (escape h s) = Some t.
Proof.
  destruct (spelled_total h s) as (r & R). rewrite <- (spelled_escape h s r R).
  induction R as [|a e s r I _ (t & IH)|a x s r C X R (t & IH)|a s r L N A R (t & IH)|w s r W N _ (t & IH)|s r _ (t & IH)|s r _ (t & IH)|a s r L W _ (t & IH)].
  - eexists. reflexivity.
  - rewrite <- (escape_byte_short h a e I), unescape_byte by (eapply short_code; eassumption). rewrite IH. eexists. reflexivity.
  - assert (code a < 128)%N as L.
    { destruct C as [(L & _)|(_ & A)]; [lia|]. unfold angle in A. cbn in A. intuition lia. }
    change ("\u00" ++ x ++ r) with (("\u00" ++ x) ++ r). rewrite <- (escape_byte_hex h a x C X), unescape_byte by assumption. rewrite IH. eexists. reflexivity.
  - change (String a r) with (String a "" ++ r). rewrite <- (escape_byte_as_is h a L N A), unescape_byte by lia. rewrite IH. eexists. reflexivity.
  - inversion W as [a b u E E1 E2|a b c u E E1 E2|a b c d u E E1 E2]; subst w; cbn [append].
    + rewrite unescape_two, IH by assumption. eexists. reflexivity.
    + rewrite unescape_three, IH by assumption. eexists. reflexivity.
    + rewrite unescape_four, IH by assumption. eexists. reflexivity.
  - exists (utf8 8232 ++ t). transitivity (put (utf8 8232) (unescape r)); [reflexivity|]. now rewrite IH.
  - exists (utf8 8233 ++ t). transitivity (put (utf8 8233) (unescape r)); [reflexivity|]. now rewrite IH.
  - exists (rune_error ++ t). transitivity (put rune_error (unescape r)); [reflexivity|]. now rewrite IH.
Qed.
Definition neatly {X} (c : codec X) : Prop := forall x j, enc c x = Ok j -> neat j.
Lemma neatly_string : neatly c_string.
Proof. intros x j E. cbn in E. injection E as <-. cbn. apply unescape_some. Qed.
Lemma neatly_bool : neatly c_bool.
Proof. intros x j E. cbn in E. injection E as <-. exact I. Qed.
Lemma neatly_int : neatly c_int.
Proof. intros x j E. cbn in E. injection E as <-. exact I. Qed.
Lemma neatly_text X (m : X -> res string) u : neatly (c_text m u).
Proof. intros x j E. cbn in E. apply bindR_ok in E as (s & _ & E). injection E as <-. cbn. apply unescape_some. Qed.
Lemma neatly_slice X (c : codec X) z : neatly c -> neatly (c_slice c z).
Proof.
  intros H l j E. cbn [enc c_slice] in E. destruct l as [|x l]; [injection E as <-; exact I|].
  apply bindR_ok in E as (js & E & K). injection K as <-. apply neat_arr. apply mapR_forall2 in E.
  induction E; constructor; eauto.
Qed.
Lemma neatly_ptr X (c : codec X) z : neatly c -> neatly (c_ptr c z).
Proof. intros H [x|] j E; cbn in E; [eauto|injection E as <-; exact I]. Qed.
Lemma neatly_ptrs X (c : codec X) z : neatly c -> neatly (c_ptrs c z).
Proof. intros H l j E. cbn [enc c_ptrs] in E. eapply neatly_slice; [apply neatly_ptr|]; eassumption. Qed.
Definition plain_nameb (n : string) : bool :=
  match unescape n with Some s => String.eqb s n | None => false end && String.eqb (escape false n) n.
Lemma plain_nameb_ok n : plain_nameb n = true -> plain_name n.
Proof.
  unfold plain_nameb, plain_name. intros H. apply andb_prop in H as (H & K). apply String.eqb_eq in K.
  destruct (unescape n) as [s|]; [|discriminate]. apply String.eqb_eq in H. now subst.
Qed.
Lemma enc_names A (fs : list (field A)) a ms : enc_fields fs a = Ok ms ->
  forall n, In n (map fst ms) -> In n (map (fun f => escape false (f_name f)) fs).
Proof.
  revert ms. induction fs as [|f fs IH]; intros ms E n; cbn [enc_fields] in E.
  - injection E as <-. intros [].
  - apply bindR_ok in E as (o & _ & E). apply bindR_ok in E as (r & E & K). injection K as <-.
    destruct o; cbn; intros I; [destruct I as [<-|I]; [now left|]|]; right; eauto.
Qed.
Lemma neatly_struct A (fs : list (field A)) :
  (forallb plain_nameb (map f_name fs) && nodupb (map f_name fs))%bool = true ->
  fold_right and True (map (fun f => neatly (f_codec f)) fs) -> neatly (c_struct fs).
Proof.
  intros N H a j E. cbn [enc c_struct] in E. apply bindR_ok in E as (ms & E & K). injection K as <-.
  apply andb_prop in N as (P & N). apply nodupb_ok in N. rewrite forallb_forall, <- Forall_forall in P. rewrite fold_and in H.
  apply neat_obj.
  assert (map (fun f => escape false (f_name f)) fs = map f_name fs) as Efs.
  { clear - P. induction fs as [|f r IH]; cbn; [reflexivity|]. cbn in P. inversion P as [|? ? P1 P2]; subst. apply plain_nameb_ok in P1 as (_ & P1).
    rewrite P1, IH by assumption. reflexivity. }
  split; [|split].
  - apply Forall_forall. intros n I. apply (enc_names _ _ _ _ E) in I. rewrite Efs in I. apply plain_nameb_ok.
    exact (proj1 (Forall_forall _ _) P n I).
  - clear H P. revert ms E. induction fs as [|f fs IH]; intros ms E; cbn [enc_fields] in E.
    + injection E as <-. constructor.
    + cbn in Efs. injection Efs as Ef Efs. inversion N as [|? ? N1 N2]; subst.
      apply bindR_ok in E as (o & _ & E). apply bindR_ok in E as (r & E & K). injection K as <-.
      destruct o; [|eauto]. cbn. constructor; [|eauto]. intros I. apply (enc_names _ _ _ _ E) in I. rewrite Efs in I. congruence.
  - clear N P Efs. revert ms E. induction H as [|f fs Hf _ IH]; intros ms E; cbn [enc_fields] in E.
    + injection E as <-. constructor.
    + apply bindR_ok in E as (o & Eo & E). apply bindR_ok in E as (r & E & K). injection K as <-.
      unfold f_enc in Eo. destruct (f_omit f && _)%bool; [injection Eo as <-; eauto|].
      apply bindR_ok in Eo as (j & Ej & Eo). injection Eo as <-. constructor; [cbn; eauto|eauto].
Qed.
Lemma neatly_strings : neatly c_strings.
Proof. apply neatly_slice, neatly_string. Qed.
Create HintDb neatly.
Global Hint Resolve neatly_string neatly_bool neatly_int neatly_text neatly_slice neatly_ptr neatly_ptrs neatly_strings : neatly.
Ltac neat_fields := apply neatly_struct; [vm_compute; reflexivity|];
  cbn [map fold_right app]; cbv [req opt opt_in_23]; cbn [f_codec];
  repeat split; repeat first [exact I | solve [auto with neatly] | apply neatly_text | apply neatly_strings | apply neatly_ptrs | apply neatly_slice | apply neatly_ptr].
Lemma neatly_checksum : neatly c_checksum. Proof. neat_fields. Qed.
Lemma neatly_code : neatly c_verification_code. Proof. neat_fields. Qed.
Lemma neatly_annotation : neatly c_annotation. Proof. neat_fields. Qed.
Lemma neatly_artifact : neatly c_artifact. Proof. neat_fields. Qed.
Global Hint Resolve neatly_checksum neatly_code neatly_annotation neatly_artifact : neatly.
Lemma neatly_plain_ref : neatly (c_struct external_ref_fields). Proof. neat_fields. Qed.
Lemma neatly_external_ref v : neatly (c_external_ref v).
Proof. destruct v; [exact neatly_plain_ref|..]; intros x j E; exact (neatly_plain_ref _ _ E). Qed.
Lemma neatly_file v : neatly (c_file v). Proof. destruct v; neat_fields. Qed.
Lemma neatly_package_code v : neatly (c_package_code v).
Proof. destruct v; [..|apply neatly_ptr, neatly_code]; intros x j E; exact (neatly_code _ _ E). Qed.
Global Hint Resolve neatly_external_ref neatly_file neatly_package_code : neatly.
Lemma neatly_package_22 : neatly (c_struct (package_fields V22)).
Proof. cbv [package_fields opt_in_23 app]. neat_fields. Qed.

(** ** Sorting *)
Lemma by_name_trans a b c : by_name a b -> by_name b c -> by_name a c.
Proof. unfold by_name. apply str_ltb_trans. Qed.
Lemma by_name_irrefl a : ~ by_name a a.
Proof. unfold by_name. rewrite str_ltb_irrefl. discriminate. Qed.
Lemma sorted_unique l : forall l', StronglySorted by_name l -> StronglySorted by_name l' -> Permutation l l' -> l = l'.
Proof.
  induction l as [|a l IH]; intros l' H H' P.
  - apply Permutation_nil in P. now subst.
  - destruct l' as [|b l']; [apply Permutation_sym, Permutation_nil in P; discriminate|].
    inversion H as [|? ? Hl Ha]; inversion H' as [|? ? Hl' Hb]; subst.
    assert (a = b) as ->.
    { assert (In b (a :: l)) as Ib by (eapply Permutation_in; [apply Permutation_sym; exact P|now left]).
      assert (In a (b :: l')) as Ia by (eapply Permutation_in; [exact P|now left]).
      destruct Ib as [->|Ib]; [reflexivity|]. destruct Ia as [->|Ia]; [reflexivity|]. exfalso.
      apply (by_name_irrefl a). eapply by_name_trans.
      - exact (proj1 (Forall_forall _ _) Ha b Ib).
      - exact (proj1 (Forall_forall _ _) Hb a Ia). }
    f_equal. apply IH; try assumption. now apply Permutation_cons_inv in P.
Qed.
Lemma put_sorted_in V k (x : V) l y : In y (put_sorted k x l) -> y = (k, x) \/ In y l.
Proof.
  induction l as [|(k', x') l IH]; cbn.
  - intros [<-|[]]. now left.
  - destruct (String.eqb k k'); [intros [<-|I]; [now left|right; now right]|].
    destruct (str_ltb k k'); [intros [<-|I]; [now left|now right]|].
    intros [<-|I]; [right; now left|]. destruct (IH I) as [->|J]; [now left|right; now right].
Qed.
Lemma put_sorted_sorted k x l : ~ In k (map fst l) -> StronglySorted by_name l -> StronglySorted by_name (put_sorted k x l).
Proof.
  induction l as [|(k', x') l IH]; cbn; intros N S; [repeat constructor|].
  inversion S as [|? ? S' F]; subst. destruct (String.eqb_spec k k') as [->|E]; [tauto|].
  destruct (str_ltb k k') eqn:L.
  - constructor; [assumption|]. constructor; [exact L|]. eapply Forall_impl; [|exact F]. intros y. now apply by_name_trans.
  - constructor; [apply IH; [tauto|assumption]|]. apply Forall_forall. intros y I. apply put_sorted_in in I as [->|I].
    + unfold by_name. cbn. destruct (str_ltb_total k k') as [K|[K|K]]; congruence.
    + exact (proj1 (Forall_forall _ _) F y I).
Qed.
Lemma fold_put_sorted (l : list (string * json)) : forall acc, NoDup (map fst (acc ++ l)%list) -> StronglySorted by_name acc ->
  StronglySorted by_name (fold_left (fun acc m => put_sorted (fst m) (snd m) acc) l acc).
Proof.
  induction l as [|(k, x) r IH]; cbn [fold_left]; intros acc N S; [assumption|].
  cbn [fst snd]. rewrite map_app in N.
  assert (~ In k (map fst acc)) as Nk.
  { intros K. apply NoDup_remove_2 in N. apply N, in_or_app. auto. }
  apply IH; [|now apply put_sorted_sorted].
  eapply Permutation_NoDup; [|exact N]. rewrite map_app. apply Permutation_sym.
  eapply Permutation_trans; [apply Permutation_app_tail, Permutation_map, put_sorted_perm, Nk|].
  cbn. apply Permutation_middle.
Qed.
Lemma through_obj ms : Forall plain_name (map fst ms) ->
  through_any (JObj ms) = JObj (fold_left (fun acc m => put_sorted (fst m) (snd m) acc)
                                  (map (fun m => (fst m, through_any (snd m))) ms) []).
Proof.
  intros P. cbn [through_any].
  assert (map (fun m => (requote (fst m), through_any (snd m))) ms = map (fun m => (fst m, through_any (snd m))) ms) as ->.
  { induction ms as [|m r IH]; cbn; [reflexivity|]. cbn in P. inversion P as [|? ? (P1 & _) P2]; subst. rewrite IH by assumption.
    unfold requote. now rewrite P1. }
  f_equal.
  assert (forall l acc : list (string * json), Forall plain_name (map fst acc) -> Forall plain_name (map fst l) ->
    Forall plain_name (map fst (fold_left (fun acc m => put_sorted (fst m) (snd m) acc) l acc))) as G.
  { clear. intros l. induction l as [|(k, x) l IH]; intros acc Pa Pl; cbn [fold_left]; [assumption|].
    cbn in Pl. inversion Pl; subst. apply IH; [|assumption]. apply Forall_forall. intros n I. apply in_map_iff in I as (y & <- & I).
    apply put_sorted_in in I as [->|I]; [assumption|]. rewrite Forall_forall in Pa. apply Pa. now apply in_map. }
  match goal with |- map _ ?l = _ => assert (Forall plain_name (map fst l)) as F end.
  { apply G; [constructor|]. rewrite map_map. exact P. }
  match goal with |- map _ ?l = _ => induction l as [|(k, x) r IH]; cbn; [reflexivity|] end.
  cbn in F. inversion F as [|? ? (_ & F1) F2]; subst. rewrite IH by assumption. now rewrite F1.
Qed.
Theorem sorted_form_iff j : neat j -> forall j', sorted_form j j' <-> j' = through_any j.
Proof.
  induction j as [| | | |l IH|ms IH] using json_ind'; intros N j'.
  - split; [now inversion 1|intros ->; constructor].
  - split; [now inversion 1|intros ->; constructor].
  - split; [now inversion 1|intros ->; constructor].
  - destruct N as (s & E). cbn [through_any]. unfold requote. rewrite E. split.
    + inversion 1 as [| | |? s' r' U R| |]; subst. apply spelled_iff in R. congruence.
    + intros ->. eapply sorted_str; [exact E|now apply spelled_iff].
  - apply neat_arr in N. cbn [through_any]. split.
    + inversion 1 as [| | | |? l' F|]; subst. f_equal. clear H. revert l' F.
      induction IH as [|x l Hx _ IHl]; intros l' F; inversion F; subst; [reflexivity|].
      inversion N; subst. cbn. f_equal; [now apply Hx|auto].
    + intros ->. constructor. induction IH as [|x l Hx _ IHl]; cbn; constructor; inversion N; subst; [now apply Hx|auto].
  - apply neat_obj in N as (P & N & V). rewrite through_obj by assumption.
    set (l := map (fun m => (fst m, through_any (snd m))) ms).
    assert (map fst l = map fst ms) as El by (unfold l; now rewrite map_map).
    assert (forall ms', Forall2 (fun m m' => fst m' = fst m /\ sorted_form (snd m) (snd m')) ms ms' <-> ms' = l) as F.
    { clear - IH V. unfold l. induction IH as [|m r Hm _ IHr]; intros ms'.
      - cbn. split; [now inversion 1|intros ->; constructor].
      - inversion V as [|? ? V1 V2]; subst. split.
        + inversion 1 as [|? (k, y) ? ? (E & S) F]; subst. cbn in E, S |- *. apply Hm in S; [|assumption].
          apply IHr in F; [|assumption]. now subst.
        + intros ->. cbn. constructor; [cbn; split; [reflexivity|now apply Hm]|now apply IHr]. }
    assert (Permutation l (fold_left (fun acc m => put_sorted (fst m) (snd m) acc) l [])) as Q.
    { apply Permutation_sym. apply (fold_put_perm _ l []). cbn. now rewrite El. }
    assert (StronglySorted by_name (fold_left (fun acc m => put_sorted (fst m) (snd m) acc) l [])) as S.
    { apply fold_put_sorted; [cbn; now rewrite El|constructor]. }
    split.
    + inversion 1 as [| | | | |? ms' ms'' G R T]; subst. apply F in G. subst ms'. f_equal.
      apply sorted_unique; try assumption. eapply Permutation_trans; [apply Permutation_sym; exact R|exact Q].
    + intros ->. eapply sorted_obj; [now apply F|exact Q|exact S].
Qed.

(** ** Packages *)
Lemma object_app a : forall b ms, object (a ++ b) ms <-> exists m1 m2, ms = (m1 ++ m2)%list /\ object a m1 /\ object b m2.
Proof.
  induction a as [|e a IH]; intros b ms; cbn [app].
  - split; [intros H; exists [], ms; repeat split; [constructor|assumption]|].
    intros (m1 & m2 & -> & H1 & H2). inversion H1; subst. exact H2.
  - split.
    + inversion 1 as [|? ? ? L H'|? ? ms' j L Fj H']; subst; apply IH in H' as (m1 & m2 & -> & H1 & H2).
      * exists m1, m2. repeat split; [now apply object_left_out|assumption].
      * exists ((e_name e, j) :: m1), m2. repeat split; [now apply object_member|assumption].
    + intros (m1 & m2 & -> & H1 & H2). inversion H1 as [|? ? ? L H'|? ? ms' j L Fj H']; subst.
      * apply object_left_out; [assumption|]. apply IH. eauto.
      * cbn. apply object_member; try assumption. apply IH. eauto.
Qed.
Lemma code_exists c : exists j, code_form c j.
Proof.
  assert (forall s, exists j, text_form s j) as T.
  { intros s. eexists. apply (writes_string s). reflexivity. }
  assert (forall l, exists js, Forall2 text_form l js) as M.
  { induction l as [|x l (js & E)]; [exists []; constructor|]. destruct (T x) as (j & H). exists (j :: js). now constructor. }
  destruct (T (vc_Value c)) as (j & J), (M (vc_ExcludedFiles c)) as (js & F).
  destruct (vc_ExcludedFiles c) as [|x l] eqn:E.
  - exists (JObj [("packageVerificationCodeValue", j)]). eexists. split; [reflexivity|].
    apply object_member; [tauto|exact J|]. rewrite E. apply object_left_out; [reflexivity|constructor].
  - exists (JObj [("packageVerificationCodeValue", j); ("packageVerificationCodeExcludedFiles", JArr js)]). eexists. split; [reflexivity|].
    apply object_member; [tauto|exact J|]. rewrite E. apply object_member; [discriminate| |constructor].
    right. split; [discriminate|]. eauto.
Qed.
Definition before_code (v : version) (p : JPackage) : list entry :=
  [always "name" (text_form (p_PackageName p));
    always "SPDXID" (id_form "SPDXRef-" (p_SPDXIdentifier p));
    text_unless_empty "versionInfo" (p_Version p);
    text_unless_empty "packageFileName" (p_FileName p);
    unless_nil "supplier" (fun s => agent_form (su_SupplierType s) (su_Supplier s)) (p_Supplier p);
    unless_nil "originator" (fun o => agent_form (or_OriginatorType o) (or_Originator o)) (p_Originator p);
    always "downloadLocation" (text_form (p_DownloadLocation p));
    match v with
    | V21 => Entry "filesAnalyzed" (p_FilesAnalyzed p = false) (flag_form (p_FilesAnalyzed p))
    | _ => always "filesAnalyzed" (flag_form (p_FilesAnalyzed p))
    end].
Lemma package_split v p : exists after, forall code, package_entries v p code = (before_code v p ++ code ++ after)%list.
Proof. eexists. intros code. reflexivity. Qed.
Lemma writes_code_old v : v <> V23 -> writes (c_package_code v) (fun o => code_form (code_value o)).
Proof. intros N o j. destruct v; [..|congruence]; cbn [enc c_package_code]; rewrite (writes_code _ j); now destruct o. Qed.
Lemma fits_code_old v (p : JPackage) : v <> V23 -> fits p
  (opt "packageVerificationCode" (c_package_code v) p_VerificationCode set_p_VerificationCode)
  (always "packageVerificationCode" (code_form (code_value (p_VerificationCode p)))).
Proof.
  intros N. apply (fits_opt p _ _ (c_package_code v) (fun o => code_form (code_value o))); [now apply writes_code_old|reflexivity|].
  destruct v; [..|congruence]; cbn; split; [discriminate|contradiction|discriminate|contradiction].
Qed.
Lemma package_plain v p j : v <> V23 -> enc (c_struct (package_fields v)) p = Ok j <->
  object_form (package_entries v p [always "packageVerificationCode" (code_form (code_value (p_VerificationCode p)))]) j.
Proof.
  intros N. apply object_enc. destruct v; [..|congruence];
    repeat (constructor; [first [member_fits|now apply fits_code_old]|]); constructor.
Qed.
Lemma package_plain_23 p j : enc (c_struct (package_fields V23)) p = Ok j <->
  object_form (package_entries V23 p [unless_nil "packageVerificationCode" code_form (p_VerificationCode p)]) j.
Proof.
  apply object_enc. repeat (constructor; [first [member_fits|refine (fits_ptr p _ _ _ _ _ _ _ _ _); [apply writes_code|reflexivity]]|]); constructor.
Qed.

Lemma zero_code_iff c : zero_code c = true <-> c = MkVC "" [].
Proof.
  unfold zero_code. destruct c as [s l]. cbn [vc_Value vc_ExcludedFiles]. rewrite andb_true_iff, String.eqb_eq, empty_list.
  split; [intros (-> & ->); reflexivity|intros E; injection E as -> ->; auto].
Qed.
Lemma marshal_22 p j : marshal_package_22 p = Ok j <->
  exists j0, enc (c_struct (package_fields V22)) p = Ok j0 /\
    ((~ empty_code (p_VerificationCode p) /\ j = j0) \/
     (empty_code (p_VerificationCode p) /\ j = delete_member "packageVerificationCode" (through_any j0))).
Proof.
  unfold marshal_package_22. rewrite bindR_ok_iff.
  assert (forall j0, (match p_VerificationCode p with
     | Some c => if zero_code c then Ok (delete_member "packageVerificationCode" (through_any j0)) else Ok j0
     | None => Ok (delete_member "packageVerificationCode" (through_any j0)) end = Ok j) <->
     ((~ empty_code (p_VerificationCode p) /\ j = j0) \/
     (empty_code (p_VerificationCode p) /\ j = delete_member "packageVerificationCode" (through_any j0)))) as H.
  { intros j0. unfold empty_code. destruct (p_VerificationCode p) as [c|].
    - pose proof (zero_code_iff c) as Z. destruct (zero_code c).
      + assert (c = MkVC "" []) as -> by (now apply Z). rewrite ok_iff. split; [intros <-; right; auto|].
        intros [(N & _)|(_ & ->)]; [exfalso; auto|reflexivity].
      + rewrite ok_iff. split.
        * intros <-. left. split; [|reflexivity]. intros [K|K]; [discriminate|]. injection K as K. apply Z in K. discriminate.
        * intros [(_ & ->)|([K|K] & _)]; [reflexivity|discriminate|]. injection K as K. apply Z in K. discriminate.
    - rewrite ok_iff. split; [intros <-; right; auto|]. intros [(N & _)|(_ & ->)]; [exfalso; auto|reflexivity]. }
  split; intros (j0 & E & K); exists j0; (split; [exact E|]); now apply H.
Qed.
(** Deleting one member of an object, before or after sorting. *)
Lemma filter_forall2 A B (R : A -> B -> Prop) f g l l' : (forall a b, R a b -> f a = g b) -> Forall2 R l l' ->
  Forall2 R (filter f l) (filter g l').
Proof. intros H. induction 1 as [|a b l l' r _ IH]; cbn; [constructor|]. rewrite (H a b r). destruct (g b); [now constructor|assumption]. Qed.
Lemma filter_perm A f (l l' : list A) : Permutation l l' -> Permutation (filter f l) (filter f l').
Proof.
  induction 1 as [|x l l' _ IH|x y l|l l' l'' _ IH _ IH']; cbn.
  - constructor.
  - destruct (f x); [now constructor|assumption].
  - destruct (f x), (f y); try apply Permutation_refl. apply perm_swap.
  - eapply Permutation_trans; eassumption.
Qed.
Lemma filter_sorted A (R : A -> A -> Prop) f l : StronglySorted R l -> StronglySorted R (filter f l).
Proof.
  induction 1 as [|a l _ IH F]; cbn; [constructor|]. destruct (f a); [|assumption]. constructor; [assumption|].
  apply Forall_forall. intros x I. apply filter_In in I as (I & _). exact (proj1 (Forall_forall _ _) F x I).
Qed.
Lemma delete_sorted k m1 jk m2 : neat (JObj (m1 ++ (k, jk) :: m2)%list) ->
  neat (JObj (m1 ++ m2)%list) /\
  delete_member k (through_any (JObj (m1 ++ (k, jk) :: m2)%list)) = through_any (JObj (m1 ++ m2)%list).
Proof.
  intros N. pose proof N as N0. apply neat_obj in N as (P & D & V). rewrite map_app in P, D. cbn [map fst] in P, D.
  assert (neat (JObj (m1 ++ m2)%list)) as N'.
  { apply neat_obj. rewrite map_app. split; [|split].
    - apply Forall_app in P as (P1 & P2). inversion P2; subst. apply Forall_app. auto.
    - eapply NoDup_remove_1. exact D.
    - apply Forall_app in V as (V1 & V2). inversion V2; subst. apply Forall_app. auto. }
  split; [exact N'|].
  pose proof (proj2 (sorted_form_iff _ N0 _) eq_refl) as S0.
  apply (sorted_form_iff _ N'). revert S0. generalize (through_any (JObj (m1 ++ (k, jk) :: m2)%list)). intros t S0.
  inversion S0 as [| | | | |? ms' ms'' F Q S]; subst. clear S0. cbn [delete_member].
  set (keep := fun m : string * json => negb (String.eqb (requote (fst m)) k)).
  assert (forall n, plain_name n -> requote n = n) as Rq by (intros n (U & _); unfold requote; now rewrite U).
  assert (Forall plain_name (map fst (m1 ++ (k, jk) :: m2)%list)) as P' by (now rewrite map_app).
  eapply (sorted_obj _ (filter keep ms')).
  - assert (filter keep (m1 ++ (k, jk) :: m2)%list = (m1 ++ m2)%list) as E.
    { assert (forall l, Forall plain_name (map fst l) -> ~ In k (map fst l) -> filter keep l = l) as Id.
      { induction l as [|m r IH]; cbn; [reflexivity|]. intros Pl Nl. inversion Pl; subst. unfold keep at 1.
        rewrite Rq by assumption. destruct (String.eqb_spec (fst m) k) as [E|E]; [exfalso; auto|]. cbn. now rewrite IH by auto. }
      rewrite filter_app. cbn [filter]. unfold keep at 2. cbn [fst].
      apply Forall_app in P as (P1 & P2). inversion P2; subst. rewrite Rq, String.eqb_refl by assumption. cbn [negb].
      pose proof (NoDup_remove_2 _ _ _ D) as Nk. rewrite in_app_iff in Nk. now rewrite !Id by tauto. }
    rewrite <- E. apply filter_forall2; [|exact F]. intros a b (Ef & _). unfold keep. now rewrite Ef.
  - apply filter_perm. exact Q.
  - apply filter_sorted. exact S.
Qed.
Lemma object_one n F es ms : object (always n F :: es) ms <-> exists j r, ms = (n, j) :: r /\ F j /\ object es r.
Proof.
  split.
  - inversion 1 as [|? ? ? L|? ? r j _ Fj O]; subst; [destruct L|]. exists j, r. auto.
  - intros (j & r & -> & Fj & O). apply object_member; [tauto|assumption|assumption].
Qed.
Lemma writes_package_22 p j : marshal_package_22 p = Ok j <-> package_form V22 p j.
Proof.
  rewrite marshal_22. cbn [package_form]. destruct (package_split V22 p) as (after & Sp).
  set (ce := always "packageVerificationCode" (code_form (code_value (p_VerificationCode p)))).
  assert (V22 <> V23) as N23 by discriminate. split.
  - intros (j0 & E & [(N & ->)|(Y & ->)]); [left|right]; (split; [assumption|]).
    + now apply package_plain in E.
    + pose proof (neatly_package_22 _ _ E) as Nt. apply package_plain in E; [|assumption]. fold ce in E.
      destruct E as (ms & -> & O). rewrite Sp in O. apply object_app in O as (m1 & m2 & -> & O1 & O2). cbn [app] in O2.
      apply object_one in O2 as (jk & r & -> & _ & O2).
      destruct (delete_sorted _ _ _ _ Nt) as (Nt' & ->). exists (JObj (m1 ++ r)%list). split.
      * eexists. split; [reflexivity|]. rewrite Sp. apply object_app. exists m1, r. auto.
      * now apply sorted_form_iff.
  - intros [(N & O)|(Y & j0 & (ms & -> & O) & S)].
    + exists j. split; [now apply package_plain|now left].
    + rewrite Sp in O. apply object_app in O as (m1 & m2 & -> & O1 & O2). cbn [app] in O2.
      destruct (code_exists (code_value (p_VerificationCode p))) as (jk & K).
      assert (enc (c_struct (package_fields V22)) p = Ok (JObj (m1 ++ ("packageVerificationCode", jk) :: m2)%list)) as E.
      { apply package_plain; [assumption|]. eexists. split; [reflexivity|]. rewrite Sp. apply object_app.
        eexists m1, _. split; [reflexivity|]. split; [assumption|]. cbn [app]. apply object_one. eauto. }
      eexists. split; [exact E|]. right. split; [assumption|].
      destruct (delete_sorted _ _ _ _ (neatly_package_22 _ _ E)) as (Nt' & ->). now apply sorted_form_iff.
Qed.
Lemma writes_package v : writes (c_package v) (fun p => package_form v (fst p)).
Proof.
  intros (p, files) j. destruct v; cbn [enc c_package fst].
  - now apply package_plain.
  - apply writes_package_22.
  - apply package_plain_23.
Qed.
Global Hint Resolve writes_package : writes.

(** ** Documents *)
Lemma list_form_map X Y (f : X -> Y) F l j : list_form F (map f l) j <-> list_form (fun x => F (f x)) l j.
Proof.
  unfold list_form. assert (forall js, Forall2 F (map f l) js <-> Forall2 (fun x => F (f x)) l js) as H.
  { induction l as [|x l IH]; intros js; cbn; split; inversion 1; subst; constructor; auto; now apply IH. }
  assert (map f l = [] <-> l = []) as H0 by (destruct l; cbn; split; congruence).
  rewrite H0. split; (intros [K|(N & js & E & K)]; [now left|right; split; [assumption|]; exists js; split; [assumption|now apply H]]).
Qed.
Theorem writes_document v d j : marshal_document v false d = Ok j <-> document_form v d j.
Proof.
  unfold marshal_document. rewrite bindR_ok_iff.
  set (a := with_packages _ _ d).
  assert (forall j, enc (c_document_struct v) a = Ok j <-> document_form v d j) as H.
  { intros j'. apply object_enc.
    do 8 (constructor; [member_fits|]).
    constructor.
    { split; [reflexivity|]. split.
      - cbn. destruct (d_Packages d); cbn; split; congruence.
      - intros j0. cbn [e_form list_unless_empty f_codec f_get opt].
        rewrite (writes_slice _ _ None _ (writes_ptr _ _ zero_jpackage _ (writes_package v)) _ j0).
        cbn [a with_packages d_Packages]. rewrite list_form_map. unfold list_form.
        assert (forall js, Forall2 (null_form (package_form v)) (d_Packages d) js <->
          Forall2 (fun x => null_form (fun p : jpackage => package_form v (fst p)) (match x with Some q => Some (q, []) | None => None end)) (d_Packages d) js) as G.
        { intros js. apply Forall2_iff. intros [p|] b; reflexivity. }
        split; (intros [K|(N & js & E & K)]; [now left|right; split; [assumption|]; exists js; split; [assumption|now apply G]]). }
    repeat (constructor; [member_fits|]); constructor. }
  split.
  - intros (j0 & E & K). injection K as <-. now apply H.
  - intros K. exists j. split; [now apply H|reflexivity].
Qed.
Theorem writes_document_safe v d j : marshal_document v true d = Ok j <->
  exists j0, document_form v d j0 /\ safe_form j0 j.
Proof.
  unfold marshal_document. rewrite bindR_ok_iff. split.
  - intros (j0 & E & K). injection K as <-. exists j0. split; [|now apply safe_form_iff].
    apply writes_document. unfold marshal_document. now rewrite E.
  - intros (j0 & F & K). apply writes_document in F. unfold marshal_document in F. apply bindR_ok in F as (j1 & E & F).
    injection F as ->. exists j0. split; [exact E|]. apply safe_form_iff in K. now subst.
Qed.
