(** Lemmas about the value helpers of the RDF reader: each equals its specification. *)
From Verif Require Import GoStr GoStrFacts Types TvUtil TvParser RdfConst Rdf RdfReader SpecTv SpecId SpecDoc SpecRdf
  TvReaderFacts TvUtilFacts RdfFacts.

Lemma prefix_piece uri p x : (has_prefix p (last_part uri) = true /\ x = trim_prefix p (last_part uri)) <-> last_piece uri (p ++ x).
Proof.
  rewrite <- last_part_spec. split.
  - intros [H ->]. now apply trim_prefix_some.
  - intros ->. split; [apply has_prefix_app|now rewrite trim_prefix_app].
Qed.

Lemma same_members l l' : forallb (fun x => mem x l') l = true -> forallb (fun x => mem x l) l' = true ->
  forall x, In x l <-> In x l'.
Proof.
  intros H H' x. rewrite !forallb_forall in *. split; intros I; apply mem_In; auto.
Qed.
Lemma relationship_terms_all x : In x all_relationship_types <-> In x relationship_terms.
Proof. apply same_members; reflexivity. Qed.
Lemma relationship_type_spec uri x : relationship_type_from_uri uri = Ok x <-> relationship_term uri x.
Proof.
  unfold relationship_type_from_uri, relationship_term. cbv zeta. split.
  - destruct (has_prefix _ _) eqn:P; [|discriminate]. cbn [negb]. destruct (mem _ _) eqn:M; [|discriminate].
    intros H. injection H as <-. apply mem_In in M. eexists. split; [|split; [reflexivity|now apply relationship_terms_all]].
    apply prefix_piece. split; [exact P|reflexivity].
  - intros (y & L & -> & I). apply prefix_piece in L as [P ->]. change PREFIX_RELATIONSHIP_TYPE with "relationshipType_".
    rewrite P. cbn [negb]. apply relationship_terms_all, mem_In in I.
    rewrite I. reflexivity.
Qed.

Lemma algorithm_spec uri a : algorithm_from_uri uri = Ok a <-> algorithm_term uri a.
Proof.
  unfold algorithm_from_uri, algorithm_term. cbv zeta. split.
  - destruct (has_prefix _ _) eqn:P; [|discriminate]. cbn [negb]. destruct (mem _ _) eqn:M; [|discriminate].
    intros H. injection H as <-. eexists. split; [apply prefix_piece; split; [exact P|reflexivity]|].
    apply mem_In in M. revert M. generalize (to_lower (trim_space (trim_prefix "checksumAlgorithm_" (last_part uri)))).
    intros l M. repeat (destruct M as [<-|M]; [split; [cbv; tauto|reflexivity]|]). destruct M.
  - intros (y & L & I & E). apply prefix_piece in L as [P ->]. rewrite P. cbn [negb]. rewrite E.
    repeat (destruct I as [<-|I]; [reflexivity|]). destruct I.
Qed.

Lemma file_type_spec uri x : file_type_from_uri uri = Ok x <-> file_type_term uri x.
Proof.
  unfold file_type_from_uri, file_type_term. cbv zeta. rewrite <- prefix_piece.
  destruct (has_prefix _ _); cbn [negb]; split.
  - intros H. injection H as <-. auto.
  - intros [_ ->]. reflexivity.
  - discriminate.
  - intros [H _]. discriminate.
Qed.

Lemma bool_spec x b : bool_from_string x = Ok b <-> bool_term x b.
Proof.
  unfold bool_from_string, bool_term. destruct (String.eqb_spec (to_lower x) "true") as [E|N1].
  - rewrite E. destruct b; split; try reflexivity; discriminate.
  - destruct (String.eqb_spec (to_lower x) "false") as [E|N2].
    + rewrite E. destruct b; split; try reflexivity; discriminate.
    + destruct b; split; try discriminate; intros; contradiction.
Qed.

Lemma special_value_spec f : (to_lower (trim_space f) =? "noassertion") || (to_lower (trim_space f) =? "none") = true <-> special_value f.
Proof.
  unfold special_value. rewrite orb_true_iff, !String.eqb_eq. simpl. intuition congruence.
Qed.
Lemma reference_spec uri d : reference_from_uri uri = Ok d <-> reference_term uri d.
Proof.
  unfold reference_from_uri, reference_term. cbv zeta. pose proof (special_value_spec (last_part uri)) as S.
  assert (L : last_piece uri (last_part uri)) by now apply last_part_spec.
  destruct (_ || _).
  - assert (V : special_value (last_part uri)) by now apply S. split.
    + intros H. injection H as <-. eauto 6.
    + intros (f & Lf & H). rewrite <- (last_piece_fun _ _ _ L Lf) in H. destruct H as [[_ ->]|[N _]]; [reflexivity|contradiction].
  - assert (V : ~ special_value (last_part uri)) by (intros V; apply S in V; discriminate).
    rewrite extract_doc_element_id_iff. split.
    + intros H. eauto 6.
    + intros (f & Lf & H). rewrite <- (last_piece_fun _ _ _ L Lf) in H. destruct H as [[N _]|[_ H]]; [contradiction|exact H].
Qed.
Lemma license_name_spec uri s : license_string_from_uri uri = s <-> license_name uri s.
Proof.
  unfold license_string_from_uri, license_name. cbv zeta. pose proof (special_value_spec (last_part uri)) as S.
  rewrite orb_comm in S.
  assert (L : last_piece uri (last_part uri)) by now apply last_part_spec.
  destruct (_ || _).
  - assert (V : special_value (last_part uri)) by now apply S. split.
    + intros <-. eauto 6.
    + intros (f & Lf & H). rewrite <- (last_piece_fun _ _ _ L Lf) in H. destruct H as [[_ ->]|[N _]]; [reflexivity|contradiction].
  - assert (V : ~ special_value (last_part uri)) by (intros V; apply S in V; discriminate). split.
    + intros <-. eauto 6.
    + intros (f & Lf & H). rewrite <- (last_piece_fun _ _ _ L Lf) in H. destruct H as [[N _]|[_ ->]]; [contradiction|reflexivity].
Qed.

Lemma kind_name_spec sep x k v : extract_subs_sep x sep = Ok (k, v) <-> kind_name sep x k v.
Proof.
  unfold extract_subs_sep, kind_name. destruct (cut sep x) as [[a b]|] eqn:C.
  - apply cut_first_cut in C as C'. split.
    + intros H. injection H as <- <-. eauto.
    + intros (a' & b' & C2 & -> & ->). apply cut_first_cut in C2. rewrite C in C2. now injection C2 as <- <-.
  - split; [discriminate|]. intros (a & b & C2 & _). apply cut_first_cut in C2. congruence.
Qed.
Lemma kind_name_fun sep x k v k' v' : kind_name sep x k v -> kind_name sep x k' v' -> k = k' /\ v = v'.
Proof. rewrite <- !kind_name_spec. intros H H'. rewrite H in H'. now injection H' as <- <-. Qed.

Lemma package_actor_spec x k v : package_actor x = Ok (k, v) <-> package_actor_term x k v.
Proof.
  unfold package_actor, package_actor_term. cbv zeta. destruct (String.eqb_spec (to_upper (trim_space x)) "NOASSERTION") as [E|N].
  - rewrite E. split.
    + intros H. injection H as <- <-. auto.
    + intros [(_ & -> & ->)|[N _]]; [reflexivity|contradiction].
  - pose proof (kind_name_spec ":" (trim_space x)) as K. destruct (extract_subs_sep _ _) as [[k' v']|e|] eqn:X; cbn [bindR].
    + destruct (K k' v') as [K1 _]. specialize (K1 eq_refl). destruct (mem k' _) eqn:M.
      * split; [|intros [[E _]|(_ & H & _)]; [contradiction|destruct (kind_name_fun _ _ _ _ _ _ H K1) as [-> ->]; reflexivity]].
        intros H. injection H as <- <-. right. apply mem_In in M. auto.
      * split; [discriminate|]. intros [[E _]|(_ & H & I)]; [contradiction|].
        destruct (kind_name_fun _ _ _ _ _ _ H K1) as [-> ->]. apply mem_In in I. change actor2 with ["Person"; "Organization"] in I. congruence.
    + split; [discriminate|]. intros [[E _]|(_ & H & _)]; [contradiction|]. apply K in H. discriminate.
    + split; [discriminate|]. intros [[E _]|(_ & H & _)]; [contradiction|]. apply K in H. discriminate.
Qed.

Lemma location_spec g x l : location_from_uri g x = Ok l <-> location_term g x l.
Proof.
  unfold location_from_uri, location_term. change SPDX_NOASSERTION_CAPS with (spdx "NOASSERTION").
  change SPDX_NOASSERTION_SMALL with (spdx "noassertion"). change SPDX_NONE_CAPS with (spdx "NONE").
  change SPDX_NONE_SMALL with (spdx "none"). cbn [In].
  destruct (String.eqb_spec x (spdx "NOASSERTION")) as [->|N1]; cbn [orb].
  { split; [intros H; injection H as <-; auto 6|]. intros [[_ ->]|[[[H|[H|[]]] _]|[N _]]]; [reflexivity|discriminate|discriminate|tauto]. }
  destruct (String.eqb_spec x (spdx "noassertion")) as [->|N2]; cbn [orb].
  { split; [intros H; injection H as <-; auto 6|]. intros [[_ ->]|[[[H|[H|[]]] _]|[N _]]]; [reflexivity|discriminate|discriminate|tauto]. }
  destruct (String.eqb_spec x (spdx "NONE")) as [->|N3]; cbn [orb].
  { split; [intros H; injection H as <-; auto 6|]. intros [[[H|[H|[]]] _]|[[_ ->]|[N _]]]; [discriminate|discriminate|reflexivity|tauto]. }
  destruct (String.eqb_spec x (spdx "none")) as [->|N4]; cbn [orb].
  { split; [intros H; injection H as <-; auto 6|]. intros [[[H|[H|[]]] _]|[[_ ->]|[N _]]]; [discriminate|discriminate|reflexivity|tauto]. }
  destruct (g_valid_uri g x); split.
  - intros H. injection H as <-. right. right. split; [|auto]. intros [H|[H|[H|[H|[]]]]]; congruence.
  - intros [[[H|[H|[]]] _]|[[[H|[H|[]]] _]|(_ & _ & ->)]]; congruence.
  - discriminate.
  - intros [[[H|[H|[]]] _]|[[[H|[H|[]]] _]|(_ & H & _)]]; congruence.
Qed.

Lemma annotation_type_spec x ty : annotation_type x = Ok ty <-> annotation_type_term x ty.
Proof.
  unfold annotation_type, annotation_type_term. change SPDX_ANNOTATION_TYPE_OTHER with (spdx "annotationType_other").
  change SPDX_ANNOTATION_TYPE_REVIEW with (spdx "annotationType_review").
  destruct (String.eqb_spec x (spdx "annotationType_other")) as [->|N1].
  { split; [intros H; injection H as <-; auto 6|]. intros [[_ ->]|[H _]]; [reflexivity|discriminate]. }
  destruct (String.eqb_spec x (spdx "annotationType_review")) as [->|N2].
  { split; [intros H; injection H as <-; auto 6|]. intros [[H _]|[_ ->]]; [discriminate|reflexivity]. }
  split; [discriminate|]. intros [[H _]|[H _]]; contradiction.
Qed.

Lemma element_spec uri id : extract_element_id (last_part uri) = Ok id <-> element_term uri id.
Proof. rewrite extract_element_id_iff. unfold element_term. now rewrite last_part_spec. Qed.
Lemma file_identifier_spec uri id : file_identifier uri = Ok id <-> element_term (trim_space uri) id.
Proof. apply element_spec. Qed.
Lemma element_term_fun uri id id' : element_term uri id -> element_term uri id' -> id = id'.
Proof. rewrite <- !element_spec. congruence. Qed.

(** ** Package purposes *)
Lemma cut_shorter sep s x y : sep <> "" -> cut sep s = Some (x, y) -> String.length y < String.length s.
Proof.
  intros N C. apply cut_some in C as ->. rewrite !app_length_s. destruct sep; [congruence|]. simpl. lia.
Qed.
Lemma remove_all_without sep s : sep <> "" -> without sep s (remove_all sep s).
Proof.
  intros N. unfold remove_all. assert (G : forall k s, String.length s <= k -> without sep s (remove_all_fuel k sep s)).
  { clear s. induction k as [|k IH]; intros s L.
    - destruct s; [|simpl in L; lia]. constructor. intros (x & y & H). symmetry in H.
      apply app_eq_nil_s in H as [_ H]. apply app_eq_nil_s in H as [H _]. congruence.
    - cbn [remove_all_fuel]. destruct (cut sep s) as [[x y]|] eqn:C.
      + apply cut_shorter in C as L'; [|exact N]. apply cut_first_cut in C. econstructor; [exact C|]. apply IH. lia.
      + constructor. now apply not_occurs. }
  apply G. lia.
Qed.
Lemma without_fun sep s r r' : without sep s r -> without sep s r' -> r = r'.
Proof.
  intros H. revert r'. induction H as [s N|s x y r C H IH]; intros r' H'.
  - inversion H' as [|? ? ? ? C]; subst; [reflexivity|]. apply cut_first_cut in C. apply not_occurs in N. congruence.
  - inversion H' as [? N|? x' y' r2 C' H2]; subst.
    + apply cut_first_cut in C. apply not_occurs in N. congruence.
    + apply cut_first_cut in C, C'. rewrite C in C'. injection C' as <- <-. f_equal. now apply IH.
Qed.
Lemma replace_byte_split a b s : replace_byte a b s = String.concat (String b "") (split_on a s).
Proof.
  induction s as [|x s IH]; [reflexivity|]. cbn [replace_byte split_on]. rewrite IH. destruct (Ascii.eqb x a).
  - destruct (split_on a s) eqn:E; [exfalso; revert E; apply split_on_nonnil|]. reflexivity.
  - destruct (split_on a s) as [|y [|z l]] eqn:E; [exfalso; revert E; apply split_on_nonnil| |]; reflexivity.
Qed.
Lemma purpose_spec p x : primary_purpose p = x <-> purpose_term p x.
Proof.
  unfold primary_purpose, purpose_term. cbv zeta. rewrite replace_byte_split.
  assert (W : without "packagePurpose_" p (remove_all "packagePurpose_" p)) by (apply remove_all_without; discriminate).
  set (r := remove_all _ _) in *. clearbody r.
  change ["APPLICATION"; "FRAMEWORK"; "LIBRARY"; "CONTAINER"; "OPERATING-SYSTEM"; "DEVICE"; "FIRMWARE"; "SOURCE"; "ARCHIVE"; "FILE"; "INSTALL"; "OTHER"] with purposes.
  destruct (mem _ purposes) eqn:M; split.
  - intros <-. apply mem_In in M. eauto.
  - intros (r' & W' & H). rewrite (without_fun _ _ _ _ W' W) in H. apply mem_In in M. destruct H as [[_ ->]|[N _]]; [reflexivity|contradiction].
  - intros <-. apply mem_false in M. eauto.
  - intros (r' & W' & H). rewrite (without_fun _ _ _ _ W' W) in H. apply mem_false in M. destruct H as [[N _]|[_ ->]]; [contradiction|reflexivity].
Qed.
(** a purpose given as a term of the vocabulary (a full URI) is lost *)
Lemma purpose_uri_lost y : primary_purpose (spdx y) = "".
Proof.
  apply purpose_spec. destruct (primary_purpose (spdx y)) eqn:E.
  - apply purpose_spec in E. exact E.
  - exfalso. assert (W : exists r, without "packagePurpose_" (spdx y) r /\ In (to_upper (String.concat "-" (split_on "_" r))) purposes).
    { apply purpose_spec in E as (r & W & [[I _]|[_ H]]); [eauto|discriminate]. }
    destruct W as (r & W & I). assert (H : exists r', r = String "h" r').
    { unfold spdx in W. inversion W as [|? x z r2 C]; subst; [now eexists|].
      destruct C as [C _]. destruct x as [|c x]; [discriminate|]. injection C as <- C. now eexists. }
    destruct H as (r' & ->). rewrite <- replace_byte_split in I. cbn [replace_byte] in I.
    change (Ascii.eqb "h" "_") with false in I. cbv iota in I.
    assert (U : exists u, to_upper (String "h" (replace_byte "_" "-" r')) = String "H" u).
    { cbn [to_upper]. destruct (replace_byte "_" "-" r'); now eexists. }
    destruct U as (u & U). rewrite U in I. repeat (destruct I as [I|I]; [discriminate I|]). destruct I.
Qed.
