(** The readers of flat nodes equal their specifications. *)
From Verif Require Import GoStr GoStrFacts Types TvUtil TvParser RdfConst Rdf RdfReader SpecTv SpecId SpecDoc SpecRdf SpecRdfDoc
  TvReaderFacts TvUtilFacts TvParserFacts RdfFacts RdfLicenseFacts RdfHelperFacts.

(** ** last_read *)
Lemma last_read_nil {A B} (R : A -> B -> Prop) d : last_read R d [] d.
Proof. split; [constructor|auto]. Qed.
Lemma last_read_snoc {A B} (R : A -> B -> Prop) d l y x z : last_read R d l y -> R x z -> last_read R d (l ++ [x]) z.
Proof. intros [F _] H. split; [apply Forall_app; eauto|]. right. eauto. Qed.
Lemma last_read_fun {A B} (R : A -> B -> Prop) d l y y' : (forall x z z', R x z -> R x z' -> z = z') ->
  last_read R d l y -> last_read R d l y' -> y = y'.
Proof.
  intros U [_ [[-> ->]|(l1 & x & -> & H)]] [_ [[E ->]|(l2 & x' & E & H')]].
  - reflexivity.
  - destruct l2; discriminate.
  - destruct l1; discriminate.
  - apply app_inj_tail in E as [_ <-]. eauto.
Qed.
Lemma Forall2_fun {A B} (R : A -> B -> Prop) l m m' : (forall x z z', R x z -> R x z' -> z = z') ->
  Forall2 R l m -> Forall2 R l m' -> m = m'.
Proof.
  intros U F. revert m'. induction F as [|x y l m H F IH]; intros m' F'; inversion F'; subst; [reflexivity|].
  f_equal; eauto.
Qed.
Lemma Forall2_left {A B} (R : A -> B -> Prop) l m : Forall2 R l m -> Forall (fun x => exists z, R x z) l.
Proof. induction 1; constructor; eauto. Qed.
Lemma Forall2_snoc {A B} (R : A -> B -> Prop) l m x y : Forall2 R l m -> R x y -> Forall2 R (l ++ [x]) (m ++ [y]).
Proof. intros F H. apply Forall2_app; auto. Qed.

(** ** statements, one by one *)
Lemma objects_forall p P ts : Forall P (objects p ts) -> Forall (fun t => t_pred t = p -> P (t_obj t)) ts.
Proof.
  intros F. apply Forall_forall. intros t I E. rewrite Forall_forall in F. apply F. apply in_objects. eauto.
Qed.
Lemma texts_forall p P ts : Forall P (texts p ts) -> Forall (fun t => t_pred t = p -> P (n_id (t_obj t))) ts.
Proof.
  intros F. apply Forall_forall. intros t I E. rewrite Forall_forall in F. apply F. apply in_texts. eauto.
Qed.
Lemma only_snoc ps ts t : only ps ts -> In (t_pred t) ps -> only ps (ts ++ [t]).
Proof. intros. apply only_app; split; [assumption|]. repeat constructor; assumption. Qed.
Lemma only_nil ps : only ps [].
Proof. constructor. Qed.
Global Hint Resolve last_read_nil only_nil last_read_snoc Forall2_snoc : rdf.

Ltac record_start := constructor; try reflexivity; first [apply last_read_nil | apply only_nil | constructor].
(** solves the fields of a specification record after one more triple *)
Ltac record_step E :=
  constructor; simpl; one_more E;
  try solve [eauto with rdf | apply only_snoc; [assumption|in_vocabulary E] | congruence].

(** the case of a switch for a known predicate *)
Ltac known_pred E :=
  rewrite <- E; cbn [switch app];
  repeat match goal with
  | |- context [String.eqb ?a ?b] =>
      let v := eval vm_compute in (String.eqb a b) in
      match v with true => idtac | false => idtac end;
      change (String.eqb a b) with v; cbv iota
  end.

(** ** Functionality of the value terms *)
Lemma algorithm_fun x a b : algorithm_term x a -> algorithm_term x b -> a = b.
Proof. rewrite <- !algorithm_spec. congruence. Qed.
Lemma annotation_type_fun x a b : annotation_type_term x a -> annotation_type_term x b -> a = b.
Proof. rewrite <- !annotation_type_spec. congruence. Qed.
Lemma category_fun x a b : category_term x a -> category_term x b -> a = b.
Proof. unfold category_term. intros [[H ->]|[[H ->]|[H ->]]] [[H' ->]|[[H' ->]|[H' ->]]]; try reflexivity; subst; discriminate. Qed.
Lemma file_type_fun x a b : file_type_term x a -> file_type_term x b -> a = b.
Proof. rewrite <- !file_type_spec. congruence. Qed.
Lemma actor3_kind x k v : (let* (k, x) := extract_subs_sep x ":" in if mem k ["Person"; "Organization"; "Tool"] then Ok (k, x) else Err "") = Ok (k, v) <-> actor3_term x k v.
Proof.
  unfold actor3_term. rewrite <- kind_name_spec. destruct (extract_subs_sep x ":") as [[k' v']|e|]; cbn [bindR].
  - destruct (mem k' _) eqn:M.
    + apply mem_In in M. split; [intros H; injection H as <- <-; auto|]. intros [H _]. injection H as <- <-. reflexivity.
    + apply mem_false in M. split; [discriminate|]. intros [H I]. injection H as <- <-. contradiction.
  - split; [discriminate|]. intros [H _]; discriminate.
  - split; [discriminate|]. intros [H _]; discriminate.
Qed.
Lemma actor3_fun x k v k' v' : actor3_term x k v -> actor3_term x k' v' -> k = k' /\ v = v'.
Proof. intros [H _] [H' _]. exact (kind_name_fun _ _ _ _ _ _ H H'). Qed.

(** ** Checksums *)
Lemma checksum_sound ts c : for_each checksum_step ts zero_Checksum = Ok c -> checksum_says ts c.
Proof.
  revert c. apply (for_each_inv checksum_says); [record_start|].
  intros done t s s' [H1 H2 H3] H. unfold checksum_step in H. pred_cases.
  - injection H as <-. record_step E.
  - injection H as <-. record_step E.
  - apply bind_ok in H as (a & A & H). injection H as <-. apply algorithm_spec in A. record_step E.
  - discriminate.
Qed.
Lemma checksum_fun ts c c' : checksum_says ts c -> checksum_says ts c' -> c = c'.
Proof.
  intros [_ V A] [_ V' A']. destruct c, c'. simpl in *. f_equal; [|congruence].
  exact (last_read_fun _ _ _ _ _ algorithm_fun A A').
Qed.
Lemma checksum_spec ts c : for_each checksum_step ts zero_Checksum = Ok c <-> checksum_says ts c.
Proof.
  split; [apply checksum_sound|]. intros S. destruct S as [O V A].
  assert (X : exists c', for_each checksum_step ts zero_Checksum = Ok c').
  { apply (for_each_total _ _ _ _) with (2 := Forall_and O (texts_forall _ _ _ (proj1 A))).
    intros t s [I R]. unfold checksum_step. destruct I as [E|[E|[E|[]]]]; known_pred E; eauto.
    destruct (R (eq_sym E)) as (z & Z). apply algorithm_spec in Z. rewrite Z. simpl. eauto. }
  destruct X as (c' & X). rewrite X. f_equal. apply (checksum_fun ts); [now apply checksum_sound|]. now constructor.
Qed.
Lemma checksum_node_spec v g n c : element_checksum v g n = Ok c <-> checksum_node v g n c.
Proof.
  unfold element_checksum, checksum_node, checksum_from_node. rewrite triples_of_node, <- checksum_spec, algs_algorithms.
  destruct (for_each _ _ _) as [c'|e|]; cbn [bindR].
  - destruct (mem _ _) eqn:M.
    + apply mem_In in M. split; [intros H; injection H as <-; auto|]. intros [H _]. exact H.
    + apply mem_false in M. split; [discriminate|]. intros [H I]. injection H as <-. contradiction.
  - split; [discriminate|]. intros [H _]; discriminate.
  - split; [discriminate|]. intros [H _]; discriminate.
Qed.
Lemma checksum_node_fun v g n c c' : checksum_node v g n c -> checksum_node v g n c' -> c = c'.
Proof. intros [H _] [H' _]. exact (checksum_fun _ _ _ H H'). Qed.

(** ** Annotations *)
Lemma actor3_bind {B} x (f : string -> string -> res B) e y :
  (let* (k, n) := extract_subs_sep x ":" in if mem k ["Person"; "Organization"; "Tool"] then f k n else Err e) = Ok y ->
  exists k n, actor3_term x k n /\ f k n = Ok y.
Proof.
  intros H. apply bind_ok in H as ([k n] & K & H). apply kind_name_spec in K. destruct (mem k _) eqn:M; [|discriminate].
  apply mem_In in M. exists k, n. split; [split; assumption|exact H].
Qed.
Lemma actor3_read {B} x k n (f : string -> string -> res B) e : actor3_term x k n ->
  (let* (k, n) := extract_subs_sep x ":" in if mem k ["Person"; "Organization"; "Tool"] then f k n else Err e) = f k n.
Proof.
  intros [K I]. apply kind_name_spec in K. rewrite K. cbn [bindR]. apply mem_In in I. change actor3 with ["Person"; "Organization"; "Tool"] in I.
  now rewrite I.
Qed.

Lemma annotation_sound ts a : for_each annotation_step ts zero_Annotation = Ok a -> annotation_says ts a.
Proof.
  revert a. apply (for_each_inv annotation_says); [record_start|].
  intros done t s s' [H1 H2 H3 H4 H5 H6] H. unfold annotation_step in H. cbv zeta in H. pred_cases.
  - apply actor3_bind in H as (k & n & A & H). injection H as <-. record_step E.
  - injection H as <-. record_step E.
  - injection H as <-. record_step E.
  - apply bind_ok in H as (ty & A & H). injection H as <-. apply annotation_type_spec in A. record_step E.
  - injection H as <-. record_step E.
  - discriminate.
Qed.
Lemma annotator_fun x (y z : Annotator) : actor3_term x (an_AnnotatorType y) (an_Annotator y) ->
  actor3_term x (an_AnnotatorType z) (an_Annotator z) -> y = z.
Proof. intros H H'. destruct (actor3_fun _ _ _ _ _ H H'). destruct y, z. simpl in *. congruence. Qed.
Lemma annotation_fun ts a a' : annotation_says ts a -> annotation_says ts a' -> a = a'.
Proof.
  intros [_ A D C T I] [_ A' D' C' T' I']. destruct a, a'. simpl in *. f_equal; try congruence.
  - exact (last_read_fun _ _ _ _ _ annotator_fun A A').
  - exact (last_read_fun _ _ _ _ _ annotation_type_fun T T').
Qed.
Lemma annotation_spec ts a : for_each annotation_step ts zero_Annotation = Ok a <-> annotation_says ts a.
Proof.
  split; [apply annotation_sound|]. intros S. pose proof S as [O A _ _ T _].
  assert (X : exists c', for_each annotation_step ts zero_Annotation = Ok c').
  { apply (for_each_total _ _ _ _) with (2 := Forall_and O (Forall_and (texts_forall _ _ _ (proj1 A)) (texts_forall _ _ _ (proj1 T)))).
    intros t s (I & R & Q). unfold annotation_step. cbv zeta. destruct I as [E|[E|[E|[E|[E|[]]]]]]; known_pred E; eauto.
    - destruct (R (eq_sym E)) as (z & Z). rewrite (actor3_read _ _ _ _ _ Z). eauto.
    - destruct (Q (eq_sym E)) as (z & Z). apply annotation_type_spec in Z. rewrite Z. simpl. eauto. }
  destruct X as (c' & X). rewrite X. f_equal. apply (annotation_fun ts); [now apply annotation_sound|exact S].
Qed.
Lemma annotation_node_spec g n a : annotation_from_node g n = Ok a <-> annotation_says (of_node g n) a.
Proof. apply annotation_spec. Qed.

(** ** Creation information *)
Lemma creation_info_sound ts a : for_each creation_info_step ts zero_CreationInfo = Ok a -> creation_info_says ts a.
Proof.
  revert a. apply (for_each_inv creation_info_says); [record_start|].
  intros done t s s' [H1 H2 H3 H4 H5] H. unfold creation_info_step in H. cbv zeta in H. pred_cases.
  - injection H as <-. record_step E.
  - apply actor3_bind in H as (k & n & A & H). injection H as <-. record_step E.
  - injection H as <-. record_step E.
  - injection H as <-. record_step E.
  - injection H as <-. record_step E.
  - discriminate.
Qed.
Lemma creator_fun x (y z : Creator) : actor3_term x (cr_CreatorType y) (cr_Creator y) ->
  actor3_term x (cr_CreatorType z) (cr_Creator z) -> y = z.
Proof. intros H H'. destruct (actor3_fun _ _ _ _ _ H H'). destruct y, z. simpl in *. congruence. Qed.
Lemma creation_info_fun ts a a' : creation_info_says ts a -> creation_info_says ts a' -> a = a'.
Proof.
  intros [_ A B C D] [_ A' B' C' D']. destruct a, a'. simpl in *. f_equal; try congruence.
  exact (Forall2_fun _ _ _ _ creator_fun B B').
Qed.
Lemma creation_info_spec ts a : for_each creation_info_step ts zero_CreationInfo = Ok a <-> creation_info_says ts a.
Proof.
  split; [apply creation_info_sound|]. intros S. pose proof S as [O _ A _ _].
  assert (X : exists c', for_each creation_info_step ts zero_CreationInfo = Ok c').
  { apply (for_each_total _ _ _ _) with (2 := Forall_and O (texts_forall _ _ _ (Forall2_left _ _ _ A))).
    intros t s (I & R). unfold creation_info_step. cbv zeta. destruct I as [E|[E|[E|[E|[E|[]]]]]]; known_pred E; eauto.
    destruct (R (eq_sym E)) as (z & Z). rewrite (actor3_read _ _ _ _ _ Z). eauto. }
  destruct X as (c' & X). rewrite X. f_equal. apply (creation_info_fun ts); [now apply creation_info_sound|exact S].
Qed.

(** ** Reviews *)
Lemma review_sound ts a : for_each review_step ts zero_Review = Ok a -> review_says ts a.
Proof.
  revert a. apply (for_each_inv review_says); [record_start|].
  intros done t s s' [H1 H2 H3 H4] H. unfold review_step in H. cbv zeta in H. pred_cases.
  - injection H as <-. record_step E.
  - injection H as <-. record_step E.
  - injection H as <-. record_step E.
  - apply bind_ok in H as ([k n] & A & H). injection H as <-. apply kind_name_spec in A. record_step E.
  - discriminate.
Qed.
Lemma reviewer_fun x (y z : string * string) : kind_name ":" x (fst y) (snd y) -> kind_name ":" x (fst z) (snd z) -> y = z.
Proof. intros H H'. destruct (kind_name_fun _ _ _ _ _ _ H H'). destruct y, z. simpl in *. congruence. Qed.
Lemma review_fun ts a a' : review_says ts a -> review_says ts a' -> a = a'.
Proof.
  intros [_ A B C] [_ A' B' C']. pose proof (last_read_fun _ _ _ _ _ reviewer_fun C C') as E.
  destruct a, a'. simpl in *. injection E as -> ->. congruence.
Qed.
Lemma review_spec ts a : for_each review_step ts zero_Review = Ok a <-> review_says ts a.
Proof.
  split; [apply review_sound|]. intros S. pose proof S as [O _ _ A].
  assert (X : exists c', for_each review_step ts zero_Review = Ok c').
  { apply (for_each_total _ _ _ _) with (2 := Forall_and O (texts_forall _ _ _ (proj1 A))).
    intros t s (I & R). unfold review_step. cbv zeta. destruct I as [E|[E|[E|[E|[]]]]]; known_pred E; eauto.
    destruct (R (eq_sym E)) as ([k n] & Z). apply kind_name_spec in Z. simpl in Z. rewrite Z. simpl. eauto. }
  destruct X as (c' & X). rewrite X. f_equal. apply (review_fun ts); [now apply review_sound|exact S].
Qed.
Lemma review_node_spec g n a : review_from_node g n = Ok a <-> review_says (of_node g n) a.
Proof. apply review_spec. Qed.

(** ** Artifacts *)
Lemma artifact_sound g n a : artifact_from_node g n = Ok a -> artifact_says n (of_node g n) a.
Proof.
  unfold artifact_from_node. rewrite triples_of_node. generalize (of_node g n). intros ts. revert ts a.
  apply (for_each_inv (artifact_says n)).
  - constructor; try (destruct (n_type n); reflexivity). apply only_nil.
  - intros done t s s' [H1 H2 H3 H4] H. unfold artifact_step in H. cbv zeta in H. pred_cases.
    + injection H as <-. record_step E.
    + injection H as <-. record_step E.
    + injection H as <-. record_step E.
    + discriminate.
Qed.
Lemma artifact_fun n ts a a' : artifact_says n ts a -> artifact_says n ts a' -> a = a'.
Proof. intros [_ A B C] [_ A' B' C']. destruct a, a'. simpl in *. congruence. Qed.
Lemma artifact_spec g n a : artifact_from_node g n = Ok a <-> artifact_says n (of_node g n) a.
Proof.
  split; [apply artifact_sound|]. intros S. pose proof S as [O _ _ _].
  assert (X : exists c', artifact_from_node g n = Ok c').
  { apply (for_each_total _ _ _ _) with (2 := O).
    intros t s I. unfold artifact_step. cbv zeta. destruct I as [E|[E|[E|[]]]]; known_pred E; eauto. }
  destruct X as (c' & X). rewrite X. f_equal. apply (artifact_fun n (of_node g n)); [now apply artifact_sound|exact S].
Qed.

(** ** External references *)
Lemma category_switch x (f : string -> ExternalRef) e y :
  switch x [(SPDX_REFERENCE_CATEGORY_SECURITY, Ok (f "SECURITY"));
            (SPDX_REFERENCE_CATEGORY_PACKAGE_MANAGER, Ok (f "PACKAGE-MANAGER"));
            (SPDX_REFERENCE_CATEGORY_OTHER, Ok (f "OTHER"))] (Err e) = Ok y <->
  exists c, category_term x c /\ f c = y.
Proof.
  unfold category_term. cbn [switch].
  change SPDX_REFERENCE_CATEGORY_SECURITY with (spdx "referenceCategory_security").
  change SPDX_REFERENCE_CATEGORY_PACKAGE_MANAGER with (spdx "referenceCategory_packageManager").
  change SPDX_REFERENCE_CATEGORY_OTHER with (spdx "referenceCategory_other").
  destruct (String.eqb_spec x (spdx "referenceCategory_security")) as [->|N1].
  { split; [intros H; injection H as <-; eauto|]. intros (c & [[_ ->]|[[H _]|[H _]]] & <-); [reflexivity|discriminate|discriminate]. }
  destruct (String.eqb_spec x (spdx "referenceCategory_packageManager")) as [->|N2].
  { split; [intros H; injection H as <-; eauto 6|]. intros (c & [[H _]|[[_ ->]|[H _]]] & <-); [discriminate|reflexivity|discriminate]. }
  destruct (String.eqb_spec x (spdx "referenceCategory_other")) as [->|N3].
  { split; [intros H; injection H as <-; eauto 6|]. intros (c & [[H _]|[[H _]|[_ ->]]] & <-); [discriminate|discriminate|reflexivity]. }
  split; [discriminate|]. intros (c & [[H _]|[[H _]|[H _]]] & _); contradiction.
Qed.
Lemma external_ref_sound ts a : for_each external_ref_step ts zero_ExternalRef = Ok a -> external_ref_says ts a.
Proof.
  revert a. apply (for_each_inv external_ref_says); [record_start|].
  intros done t s s' [H1 H2 H3 H4 H5] H. unfold external_ref_step in H. cbv zeta in H. 
  cbn [switch] in H. destruct (String.eqb_spec (t_pred t) SPDX_REFERENCE_CATEGORY) as [E|_].
  { apply (category_switch _ (fun c => set_er_Category c s)) in H as (c & C & <-). record_step E. }
  repeat match type of H with
             | (if String.eqb (t_pred t) ?k then _ else _) = _ =>
                 let E := fresh "E" in
                 destruct (String.eqb_spec (t_pred t) k) as [E|_]
             end.
  - injection H as <-. record_step E.
  - injection H as <-. record_step E.
  - injection H as <-. record_step E.
  - injection H as <-. record_step E.
  - discriminate.
Qed.
Lemma external_ref_fun ts a a' : external_ref_says ts a -> external_ref_says ts a' -> a = a'.
Proof.
  intros [_ A B C D] [_ A' B' C' D']. pose proof (last_read_fun _ _ _ _ _ category_fun A A') as E.
  destruct a, a'. simpl in *. congruence.
Qed.
Lemma external_ref_spec ts a : for_each external_ref_step ts zero_ExternalRef = Ok a <-> external_ref_says ts a.
Proof.
  split; [apply external_ref_sound|]. intros S. pose proof S as [O A _ _ _].
  assert (X : exists c', for_each external_ref_step ts zero_ExternalRef = Ok c').
  { apply (for_each_total _ _ _ _) with (2 := Forall_and O (texts_forall _ _ _ (proj1 A))).
    intros t s (I & R). unfold external_ref_step. cbv zeta. destruct I as [E|[E|[E|[E|[E|[]]]]]].
    - rewrite <- E. destruct (R (eq_sym E)) as (z & Z). exists (set_er_Category z s).
      change (switch (n_id (t_obj t)) [(SPDX_REFERENCE_CATEGORY_SECURITY, Ok (set_er_Category "SECURITY" s));
            (SPDX_REFERENCE_CATEGORY_PACKAGE_MANAGER, Ok (set_er_Category "PACKAGE-MANAGER" s));
            (SPDX_REFERENCE_CATEGORY_OTHER, Ok (set_er_Category "OTHER" s))] (Err "unknown packageManager uri") = Ok (set_er_Category z s)).
      apply (category_switch _ (fun c => set_er_Category c s)). eauto.
    - known_pred E; eauto.
    - known_pred E; eauto.
    - known_pred E; eauto.
    - known_pred E; eauto. }
  destruct X as (c' & X). rewrite X. f_equal. apply (external_ref_fun ts); [now apply external_ref_sound|exact S].
Qed.
Lemma external_ref_node_spec g n a : external_ref_from_node g n = Ok a <-> external_ref_says (of_node g n) a.
Proof. apply external_ref_spec. Qed.

(** ** Verification codes; an existing code is extended *)
Lemma verification_more g n ts0 c0 c : verification_says ts0 c0 -> verification_from_node g n (Some c0) = Ok c ->
  verification_says (ts0 ++ of_node g n) c.
Proof.
  intros S. unfold verification_from_node. rewrite triples_of_node. generalize (of_node g n). intros ts. revert ts c.
  apply (for_each_inv (fun ts => verification_says (ts0 ++ ts))); [now rewrite app_nil_r|].
  intros done t s s' [H1 H2 H3] H. rewrite app_assoc. unfold verification_step in H. cbv zeta in H. pred_cases.
  - injection H as <-. record_step E.
  - injection H as <-. record_step E.
  - injection H as <-. record_step E.
  - discriminate.
Qed.
Lemma verification_zero : verification_says [] zero_VerificationCode.
Proof. record_start. Qed.
Lemma verification_fun ts a a' : verification_says ts a -> verification_says ts a' -> a = a'.
Proof. intros [_ A B] [_ A' B']. destruct a, a'. simpl in *. congruence. Qed.
Lemma verification_spec g n c : verification_from_node g n None = Ok c <-> verification_says (of_node g n) c.
Proof.
  split; [exact (verification_more g n [] zero_VerificationCode c verification_zero)|]. intros S. pose proof S as [O _ _].
  assert (X : exists c', verification_from_node g n None = Ok c').
  { apply (for_each_total _ _ _ _) with (2 := O).
    intros t s I. unfold verification_step. cbv zeta. destruct I as [E|[E|[E|[]]]]; known_pred E; eauto. }
  destruct X as (c' & X). rewrite X. f_equal. apply (verification_fun (of_node g n)); [|exact S].
  exact (verification_more g n [] zero_VerificationCode c' verification_zero X).
Qed.
Lemma verification_total g n old : only [spdx "packageVerificationCodeValue"; spdx "packageVerificationCodeExcludedFile"; rdf_type] (of_node g n) ->
  exists c, verification_from_node g n old = Ok c.
Proof.
  intros O. apply (for_each_total _ _ _ _) with (2 := O).
  intros t s I. unfold verification_step. cbv zeta. destruct I as [E|[E|[E|[]]]]; known_pred E; eauto.
Qed.

(** ** External document references *)
Lemma external_document_sound g ts a : for_each (external_document_step g) ts zero_ExternalDocumentRef = Ok a -> external_document_says g ts a.
Proof.
  revert a. apply (for_each_inv (external_document_says g)); [record_start|].
  intros done t s s' [H1 H2 H3 H4] H. unfold external_document_step in H. cbv zeta in H. pred_cases.
  - injection H as <-. record_step E.
  - injection H as <-. record_step E.
  - apply bind_ok in H as (c & C & H). injection H as <-. apply checksum_sound in C. rewrite triples_of_node in C. record_step E.
  - injection H as <-. record_step E.
  - discriminate.
Qed.
Lemma external_document_fun g ts a a' : external_document_says g ts a -> external_document_says g ts a' -> a = a'.
Proof.
  intros [_ A B C] [_ A' B' C']. pose proof (last_read_fun _ _ _ _ _ (fun x => checksum_fun (of_node g x)) C C') as E.
  destruct a, a'. simpl in *. congruence.
Qed.
Lemma external_document_spec g ts a : for_each (external_document_step g) ts zero_ExternalDocumentRef = Ok a <-> external_document_says g ts a.
Proof.
  split; [apply external_document_sound|]. intros S. pose proof S as [O _ _ A].
  assert (X : exists c', for_each (external_document_step g) ts zero_ExternalDocumentRef = Ok c').
  { apply (for_each_total _ _ _ _) with (2 := Forall_and O (objects_forall _ _ _ (proj1 A))).
    intros t s (I & R). unfold external_document_step. cbv zeta. destruct I as [E|[E|[E|[E|[]]]]]; known_pred E; eauto.
    destruct (R (eq_sym E)) as (z & Z). unfold checksum_from_node. rewrite triples_of_node.
    apply checksum_spec in Z. rewrite Z. simpl. eauto. }
  destruct X as (c' & X). rewrite X. f_equal. apply (external_document_fun g ts); [now apply external_document_sound|exact S].
Qed.
Lemma external_document_node_spec g n a : external_document_from_node g n = Ok a <-> external_document_says g (of_node g n) a.
Proof. apply external_document_spec. Qed.

(** ** Other licenses *)
Lemma other_license_spec g n l :
  (exists s x, extracted_from_node g n = Ok (s, x) /\ other_license s x = l) <-> other_license_says g (about g (n_id n)) l.
Proof.
  split.
  - intros (s & x & H & <-). apply extracted_sound in H as ([O V] & -> & ->). now constructor.
  - intros [O V A B C D E]. destruct (extracted_complete g n O V) as (s & x & H). exists s, x. split; [exact H|].
    apply extracted_sound in H as (_ & -> & ->). destruct l. unfold other_license. simpl in *. congruence.
Qed.
Lemma other_license_fun g ts l l' : other_license_says g ts l -> other_license_says g ts l' -> l = l'.
Proof. intros [_ _ A B C D E] [_ _ A' B' C' D' E']. destruct l, l'. simpl in *. congruence. Qed.
