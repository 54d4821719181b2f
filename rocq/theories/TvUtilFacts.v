(** Lemmas about identifiers and sub-values. *)
From Verif Require Import GoStr GoStrFacts Types TvUtil TvReader SpecTv SpecId TvReaderFacts.

Lemma not_occurs_byte c s : ~ occurs (String c "") s <-> has_byte c s = false.
Proof. rewrite not_occurs. apply cut_byte_none. Qed.
Lemma not_occurs_contains t s : ~ occurs t s <-> contains t s = false.
Proof. rewrite not_occurs, contains_false. tauto. Qed.

Lemma trim_prefix_some p s : has_prefix p s = true -> s = p ++ trim_prefix p s.
Proof.
  unfold has_prefix, trim_prefix. destruct (strip_prefix p s) eqn:E; [|discriminate].
  intros _. now apply strip_prefix_spec.
Qed.

(** ** Element identifiers *)
Lemma extract_element_id_iff s e :
  extract_element_id s = Ok e <-> s = "SPDXRef-" ++ e /\ id_ok e.
Proof.
  unfold extract_element_id, id_ok. rewrite not_occurs_byte. split.
  - destruct (has_prefix spdx_ref s) eqn:P; [|discriminate]. simpl negb. cbv iota.
    apply trim_prefix_some in P. set (x := trim_prefix spdx_ref s) in *. clearbody x. subst s.
    rewrite contains_byte, has_byte_app. destruct (has_byte ":" x) eqn:C.
    + rewrite orb_true_r. discriminate.
    + change (has_byte ":" spdx_ref || false) with false.
      destruct (String.eqb_spec x ""); intros H; inversion H; subst; auto.
  - intros [-> [H1 H2]]. change "SPDXRef-" with spdx_ref.
    rewrite has_prefix_app. cbn [negb]. rewrite contains_byte, has_byte_app, H2.
    change (has_byte ":" spdx_ref || false) with false. cbv iota.
    rewrite trim_prefix_app. now destruct (String.eqb_spec e "").
Qed.

Lemma extract_elt_iff dr s d :
  extract_elt dr s = Ok d <-> exists e, s = "SPDXRef-" ++ e /\ id_ok e /\ d = MkDEID dr e "".
Proof.
  pose proof (extract_element_id_iff s) as H. unfold extract_elt, extract_element_id in *.
  destruct (negb (has_prefix spdx_ref s)).
  { split; [discriminate|]. intros (e & H1 & H2 & _). pose proof (proj2 (H e) (conj H1 H2)); discriminate. }
  destruct (contains ":" s).
  { split; [discriminate|]. intros (e & H1 & H2 & _). pose proof (proj2 (H e) (conj H1 H2)); discriminate. }
  cbv zeta in *. destruct (trim_prefix spdx_ref s =? "").
  { split; [discriminate|]. intros (e & H1 & H2 & _). pose proof (proj2 (H e) (conj H1 H2)); discriminate. }
  split.
  - intros E. inversion E; subst. exists (trim_prefix spdx_ref s).
    destruct (proj1 (H _) eq_refl) as [H1 H2]. auto.
  - intros (e & H1 & H2 & ->). specialize (proj2 (H e) (conj H1 H2)). intros E. now inversion E.
Qed.

Lemma split_on_two c s x y : split_on c s = [x; y] <-> 
  s = x ++ String c y /\ has_byte c x = false /\ has_byte c y = false.
Proof.
  split.
  - intros H. pose proof (split_on_join c s) as J. rewrite H in J. unfold join in J. simpl in J.
    pose proof (split_on_no_byte c s) as B. rewrite H in B.
    split; [now rewrite <- J|]. split; apply B; simpl; auto.
  - intros (-> & H1 & H2). rewrite split_on_app, !split_on_none by assumption. reflexivity.
Qed.

Lemma extract_doc_element_id_iff s d :
  extract_doc_element_id s = Ok d <-> plain_ref d /\ ref_text d s.
Proof.
  unfold extract_doc_element_id, plain_ref, ref_text.
  destruct (has_prefix document_ref s) eqn:P.
  - split.
    + destruct (split_on ":" s) as [|x [|y [|z l]]] eqn:S; try discriminate.
      apply split_on_two in S as (-> & Bx & By).
      cbv zeta. destruct (String.eqb_spec (trim_prefix document_ref x) ""); [discriminate|].
      intros E. apply extract_elt_iff in E as (e & -> & He & ->). simpl.
      apply has_prefix_spec in P as [r P].
      assert (x = document_ref ++ trim_prefix document_ref x) as Hx.
      { destruct (strip_prefix document_ref x) as [u|] eqn:Ep.
        - unfold trim_prefix. rewrite Ep. now apply strip_prefix_spec.
        - exfalso. apply has_prefix_false in Ep.
          assert (has_prefix document_ref (x ++ String ":" ("SPDXRef-" ++ e)) = false); [|rewrite P, has_prefix_app in H; discriminate].
          apply has_prefix_false. apply strip_prefix_no_head; [reflexivity|]. now apply has_prefix_false. }
      set (dr := trim_prefix document_ref x) in *. clearbody dr. subst x.
      rewrite has_byte_app in Bx. apply orb_false_iff in Bx as [_ Bx].
      split.
      * repeat split; auto; try apply He. right. split; [assumption|]. now apply not_occurs_byte.
      * right. split; [assumption|]. rewrite ?app_assoc_s. reflexivity.
    + intros [(S & Hid & Hd) [[Hd0 ->]|[Hd0 ->]]]; [discriminate P|].
      destruct Hd as [Hd|Hd]; [contradiction|]. destruct d as [dr e sp]; cbn [de_DocumentRefID de_ElementRefID de_SpecialID] in *. subst sp.
      destruct Hd as [Hd1 Hd2]. destruct Hid as [He1 He2]. rewrite not_occurs_byte in *.
      assert (split_on ":" ("DocumentRef-" ++ dr ++ ":SPDXRef-" ++ e) = [document_ref ++ dr; "SPDXRef-" ++ e]) as E.
      { apply split_on_two. rewrite !has_byte_app, Hd2, He2. repeat split. }
      rewrite E. cbv zeta.
      rewrite trim_prefix_app. destruct (String.eqb_spec dr ""); [contradiction|].
      apply extract_elt_iff. exists e. repeat split; auto. now apply not_occurs_byte.
  - rewrite extract_elt_iff. split.
    + intros (e & -> & He & ->). simpl. repeat split; auto; apply He.
    + intros [(S & Hid & Hd) [[Hd0 ->]|[Hd0 ->]]].
      * exists (de_ElementRefID d). destruct d; simpl in *; subst; auto.
      * rewrite has_prefix_app in P. discriminate.
Qed.

Lemma render_plain_text d : plain_ref d -> ref_text d (render_doc_element_id d).
Proof.
  intros (S & _ & _). unfold ref_text, render_doc_element_id. rewrite S. simpl nonempty. cbv iota.
  destruct (nonempty (de_DocumentRefID d)) eqn:E.
  - right. split; [now apply nonempty_true|]. rewrite !app_assoc_s. reflexivity.
  - left. split; [now apply nonempty_false|reflexivity].
Qed.
Lemma ref_text_fun d s1 s2 : ref_text d s1 -> ref_text d s2 -> s1 = s2.
Proof. unfold ref_text. intros [[H1 ->]|[H1 ->]] [[H2 ->]|[H2 ->]]; congruence. Qed.
Lemma extract_render d : plain_ref d -> extract_doc_element_id (render_doc_element_id d) = Ok d.
Proof. intros H. apply extract_doc_element_id_iff. split; [exact H|now apply render_plain_text]. Qed.
Lemma extract_render_elt e : id_ok e -> extract_element_id (render_element_id e) = Ok e.
Proof. intros H. apply extract_element_id_iff. auto. Qed.
Lemma mem_In x l : mem x l = true <-> In x l.
Proof.
  unfold mem. rewrite existsb_exists. split.
  - intros (y & Hy & E). apply String.eqb_eq in E. now subst.
  - intros H. exists x. split; [assumption|apply String.eqb_refl].
Qed.
Lemma extract_special_iff permitted s d :
  extract_doc_element_special s permitted = Ok d <->
  (In s permitted /\ d = MkDEID "" "" s) \/
  (~ In s permitted /\ plain_ref d /\ ref_text d s).
Proof.
  unfold extract_doc_element_special. change (existsb (String.eqb s) permitted) with (mem s permitted).
  destruct (mem s permitted) eqn:E.
  - apply mem_In in E. split; [|intros [[_ ->]|[H _]]; [reflexivity|contradiction]].
    intros H. inversion H. auto.
  - assert (~ In s permitted) as N by (rewrite <- mem_In; congruence).
    rewrite extract_doc_element_id_iff. tauto.
Qed.
Lemma extract_render_special permitted d : (~ In "" permitted) -> special_ref permitted d ->
  extract_doc_element_special (render_doc_element_id d) permitted = Ok d.
Proof.
  intros Hn (H1 & H2 & H3). apply extract_special_iff. left.
  unfold render_doc_element_id. destruct d as [dr e sp]. simpl in *. subst.
  destruct (nonempty sp) eqn:E; [auto|]. apply nonempty_false in E. now subst.
Qed.
Lemma ref_text_head d s : ref_text d s -> has_prefix "SPDXRef-" s = true \/ has_prefix "DocumentRef-" s = true.
Proof. intros [[_ ->]|[_ ->]]; [left|right]; apply has_prefix_app. Qed.
Lemma extract_render_special_plain d : plain_ref d ->
  extract_doc_element_special (render_doc_element_id d) ["NONE"; "NOASSERTION"] = Ok d.
Proof.
  intros H. apply extract_special_iff. right. pose proof (render_plain_text d H) as T.
  split; [|auto]. apply ref_text_head in T. intros [E|[E|[]]]; rewrite <- E in T; destruct T as [T|T]; discriminate T.
Qed.

(** ** Sub-values "key: value" *)
Lemma extract_subs_app k x : ~ occurs ":" k -> trimmed k ->
  extract_subs (k ++ ": " ++ x) = Ok (k, trim_space x).
Proof.
  intros H T. apply not_occurs_byte in H. unfold extract_subs.
  change (": " ++ x) with (String ":" (String " " x)).
  rewrite cut_byte_app by assumption. rewrite trim_space_space, T. reflexivity.
Qed.
Lemma extract_subs_app0 k x : ~ occurs ":" k -> trimmed k ->
  extract_subs (k ++ ":" ++ x) = Ok (k, trim_space x).
Proof.
  intros H T. apply not_occurs_byte in H. unfold extract_subs.
  change (":" ++ x) with (String ":" x).
  rewrite cut_byte_app by assumption. rewrite T. reflexivity.
Qed.
Lemma extract_subs_iff s k x : extract_subs s = Ok (k, x) <->
  exists k0 x0, s = k0 ++ ":" ++ x0 /\ ~ occurs ":" k0 /\ k = trim_space k0 /\ x = trim_space x0.
Proof.
  unfold extract_subs. split.
  - destruct (cut ":" s) as [[k0 x0]|] eqn:E; [|discriminate].
    intros H. inversion H; subst. apply cut_byte_some in E as [-> B].
    exists k0, x0. rewrite not_occurs_byte. auto.
  - intros (k0 & x0 & -> & H & -> & ->). apply not_occurs_byte in H.
    change (":" ++ x0) with (String ":" x0). now rewrite cut_byte_app.
Qed.
Lemma extract_actor_app kinds k x : In k kinds -> ~ occurs ":" k -> trimmed k -> trimmed x ->
  extract_actor kinds (k ++ ": " ++ x) = Ok (k, x).
Proof.
  intros H1 H2 H3 H4. unfold extract_actor. rewrite extract_subs_app by assumption. simpl.
  rewrite H4. now rewrite (proj2 (mem_In _ _) H1).
Qed.
Lemma extract_actor_kind kinds s k x : extract_actor kinds s = Ok (k, x) -> In k kinds.
Proof.
  unfold extract_actor. destruct (extract_subs s) as [[k' x']| |]; simpl; try discriminate.
  destruct (mem k' kinds) eqn:E; [|discriminate]. intros H. inversion H; subst. now apply mem_In.
Qed.
Lemma extract_checksum_alg v s c : extract_checksum v s = Ok c -> In (ck_Algorithm c) (algs v).
Proof.
  unfold extract_checksum. destruct (extract_subs s) as [[k' x']| |]; simpl; try discriminate.
  destruct (mem k' (algs v)) eqn:E; [|discriminate]. intros H. inversion H; subst. now apply mem_In.
Qed.
Lemma algs_plain v k : In k (algs v) -> ~ occurs ":" k /\ trimmed k.
Proof.
  intros H. destruct v; simpl in H;
    repeat (destruct H as [<-|H]; [split; [apply not_occurs_byte; reflexivity|reflexivity]|]); contradiction.
Qed.
Lemma extract_checksum_app v k x : In k (algs v) -> trimmed x ->
  extract_checksum v (k ++ ": " ++ x) = Ok (MkChecksum k x).
Proof.
  intros H1 H4. destruct (algs_plain v k H1) as [H2 H3].
  unfold extract_checksum. rewrite extract_subs_app by assumption. simpl. rewrite H4.
  now rewrite (proj2 (mem_In _ _) H1).
Qed.

(** ** Words *)
Lemma fields_sp_app a b : fields_sp (a ++ " " ++ b) = (fields_sp a ++ fields_sp b)%list.
Proof.
  unfold fields_sp. change (" " ++ b) with (String " " b).
  rewrite split_on_app, map_app, filter_app. reflexivity.
Qed.
Lemma fields_sp_word a : word a -> fields_sp a = [a].
Proof.
  intros (H1 & H2 & H3). apply not_occurs_byte in H2. unfold fields_sp.
  rewrite split_on_none by assumption. simpl. rewrite H3.
  now rewrite (proj2 (nonempty_true a) H1).
Qed.
Lemma fields_sp_words s x : In x (fields_sp s) -> x <> "" /\ trimmed x.
Proof.
  unfold fields_sp. rewrite filter_In, in_map_iff. intros [(y & <- & _) H].
  split; [now apply nonempty_true|apply trim_space_trimmed].
Qed.

Lemma trimmed_app a c b : a <> "" -> ascii7 c = true -> trimmed a -> b <> "" -> trimmed b ->
  trimmed (a ++ String c b).
Proof.
  unfold trimmed. rewrite !trim_space_id. intros Ha Hc [A1 A2] Hb [B1 B2]. split.
  - now rewrite starts_space_app.
  - now rewrite ends_space_app.
Qed.
Lemma trimmed_app_end a c : a <> "" -> ascii7 c = true -> is_space1 c = false -> trimmed a -> trimmed (a ++ String c "").
Proof.
  unfold trimmed. rewrite !trim_space_id. intros Ha Hc Hs [A1 A2]. split.
  - now rewrite starts_space_app.
  - unfold ends_space. rewrite srev_app_distr. change (srev (String c "")) with (String c "").
    cbn [append]. destruct (srev a) as [|y [|z r]] eqn:E.
    + apply (proj1 (srev_nil a)) in E. contradiction.
    + cbn. rewrite Hs. destruct sp_ok_bwd as [S2 S3]. simpl.
      destruct (is_space2 y c) eqn:X; [|reflexivity]. apply (S2 c y) in X as [X _]. congruence.
    + cbn. rewrite Hs. destruct sp_ok_bwd as [S2 S3]. simpl.
      destruct (is_space2 y c) eqn:X; [apply (S2 c y) in X as [X _]; congruence|].
      destruct (is_space3 z y c) eqn:Y; [apply (S3 c y z) in Y as [Y _]; congruence|]. reflexivity.
Qed.

Lemma extract_external_ref_app c t l : word c -> word t -> word l ->
  extract_package_external_reference (c ++ " " ++ t ++ " " ++ l) = Ok (c, t, l).
Proof.
  intros Hc Ht Hl. unfold extract_package_external_reference.
  rewrite !fields_sp_app, !fields_sp_word by assumption. reflexivity.
Qed.

Lemma word_prefix p a : ~ occurs " " p -> trimmed p -> p <> "" -> word a -> trimmed (p ++ a) -> word (p ++ a).
Proof.
  intros H1 H2 H3 (A1 & A2 & A3) H4. repeat split; auto.
  - destruct p; [congruence|discriminate].
  - rewrite not_occurs_byte in *. now rewrite has_byte_app, H1, A2.
Qed.

Lemma extract_edr_app d u a c :
  word ("DocumentRef-" ++ d) -> d <> "" -> word u -> ~ occurs ":" a -> word (a ++ ":" ++ c) ->
  extract_external_document_reference ("DocumentRef-" ++ d ++ " " ++ u ++ " " ++ a ++ ":" ++ c)
  = Ok (MkEDR d u (MkChecksum a c)).
Proof.
  intros Hd Hn Hu Ha Hc. unfold extract_external_document_reference.
  replace ("DocumentRef-" ++ d ++ " " ++ u ++ " " ++ a ++ ":" ++ c)
    with (("DocumentRef-" ++ d) ++ " " ++ u ++ " " ++ (a ++ ":" ++ c)) by (rewrite ?app_assoc_s; reflexivity).
  rewrite !fields_sp_app, !fields_sp_word by assumption. cbn [app].
  apply not_occurs_byte in Ha. change (":" ++ c) with (String ":" c). rewrite cut_byte_app by assumption.
  cbn [bindR]. change "DocumentRef-" with document_ref. rewrite has_prefix_app. cbn [negb].
  rewrite trim_prefix_app. now destruct (String.eqb_spec d "").
Qed.

(** ** Verification codes *)
Lemma extract_code_plain c : ~ occurs "(excludes:" c -> extract_code_and_excludes c = MkVC c [].
Proof. intros H. apply not_occurs in H. unfold extract_code_and_excludes. now rewrite H. Qed.
Lemma cut_app_space c : cut "(excludes:" c = None -> cut "(excludes:" (c ++ " ") = None.
Proof.
  induction c as [|a c IH]; intros H; [reflexivity|].
  rewrite cut_unfold in H. cbn [append]. rewrite cut_unfold.
  destruct (strip_prefix "(excludes:" (String a c)) eqn:E; [discriminate|].
  destruct (cut "(excludes:" c) as [[? ?]|] eqn:E2; [discriminate|].
  change (String a (c ++ " ")) with (String a c ++ String " " "").
  rewrite strip_prefix_no_head; [|reflexivity|exact E]. now rewrite IH.
Qed.
Lemma trim_space_app_space c : trimmed c -> trim_space (c ++ " ") = c.
Proof.
  intros T. destruct c as [|a c]; [reflexivity|].
  unfold trimmed in T. apply trim_space_id in T as [T1 T2].
  unfold trim_space.
  assert (trim_left (String a c ++ " ") = String a c ++ " ") as ->.
  { apply trim_left_id. now rewrite starts_space_app. }
  unfold trim_right. rewrite srev_app_distr. change (srev " ") with " ". cbn [append].
  change (trim_gen (fun b a0 => is_space2 a0 b) (fun c0 b a0 => is_space3 a0 b c0) (String " " (srev (String a c))))
    with (trim_gen (fun b a0 => is_space2 a0 b) (fun c0 b a0 => is_space3 a0 b c0) (srev (String a c))).
  apply trim_right_id in T2. exact T2.
Qed.
Lemma extract_code_excl c f : ~ occurs "(excludes:" c -> trimmed c -> ~ occurs ")" f -> trimmed f ->
  extract_code_and_excludes (c ++ " (excludes: " ++ f ++ ")") = MkVC c [f].
Proof.
  intros H T Hf Tf. apply not_occurs in H. unfold extract_code_and_excludes.
  replace (c ++ " (excludes: " ++ f ++ ")") with ((c ++ " ") ++ "(excludes:" ++ (" " ++ f ++ ")"))
    by (rewrite ?app_assoc_s; reflexivity).
  rewrite cut_app_head; [|reflexivity|now apply cut_app_space].
  apply not_occurs_byte in Hf.
  replace (" " ++ f ++ ")") with ((" " ++ f) ++ String ")" "") by (rewrite ?app_assoc_s; reflexivity).
  rewrite cut_byte_app by exact Hf.
  rewrite trim_space_app_space by assumption. cbn [append]. rewrite trim_space_space, Tf. reflexivity.
Qed.

(** ** Ranges *)
Lemma show_Z_nonempty z : show_Z z <> "".
Proof. unfold show_Z. destruct (z <? 0)%Z; [discriminate|apply show_N_nonempty]. Qed.
Lemma trimmed_ascii s : (forall c, has_byte c s = true -> ascii7 c = true /\ is_space1 c = false) -> trimmed s.
Proof.
  intros H. unfold trimmed. rewrite trim_space_id.
  assert (forall sp2 sp3 t, sp_ok sp2 sp3 -> (forall c, has_byte c t = true -> ascii7 c = true /\ is_space1 c = false) ->
            starts_gen sp2 sp3 t = false) as G.
  { intros sp2 sp3 t [S2 S3] Ht. destruct t as [|x t]; [reflexivity|].
    assert (ascii7 x = true /\ is_space1 x = false) as [X1 X2].
    { apply Ht. simpl. now rewrite Ascii.eqb_refl. }
    destruct t as [|y [|z t]]; simpl; rewrite X2; simpl; auto.
    - destruct (sp2 x y) eqn:E; [apply S2 in E as [E _]; congruence|reflexivity].
    - destruct (sp2 x y) eqn:E; [apply S2 in E as [E _]; congruence|].
      destruct (sp3 x y z) eqn:E'; [apply S3 in E' as [E' _]; congruence|]. reflexivity. }
  split; [apply G; [apply sp_ok_fwd|exact H]|].
  unfold ends_space. apply G; [apply sp_ok_bwd|]. intros c. rewrite has_byte_srev. apply H.
Qed.
Lemma show_Z_trimmed z : trimmed (show_Z z).
Proof.
  apply trimmed_ascii. intros c Hc.
  destruct (((code c <? 48) || (57 <? code c))%N) eqn:E.
  - destruct (Ascii.eqb "-" c) eqn:D.
    + apply Ascii.eqb_eq in D. subst. split; reflexivity.
    + rewrite show_Z_byte in Hc by assumption. discriminate.
  - apply orb_false_iff in E as [E1 E2]. apply N.ltb_ge in E1, E2.
    split.
    + unfold ascii7. apply N.ltb_lt. lia.
    + unfold is_space1. rewrite ?orb_false_iff, ?andb_false_iff, ?N.eqb_neq, ?N.leb_gt. lia.
Qed.
Lemma extract_range_app a b : in_int a = true -> in_int b = true ->
  extract_range (show_Z a ++ ":" ++ show_Z b) = Ok (a, b).
Proof.
  intros Ha Hb. unfold extract_range. rewrite extract_subs_app0.
  - simpl. rewrite (show_Z_trimmed b). rewrite !atoi_show_Z by assumption. reflexivity.
  - apply not_occurs_byte. apply show_Z_byte; reflexivity.
  - apply show_Z_trimmed.
Qed.

(** ** Relationships *)
Definition rel_right (v : version) (d : DocElementID) : Prop :=
  plain_ref d \/ (v <> V21 /\ special_ref ["NONE"; "NOASSERTION"] d).

Lemma extract_relationship_app v a r b :
  plain_ref a -> rel_right v b -> word r ->
  word (render_doc_element_id a) -> word (render_doc_element_id b) ->
  extract_relationship v (render_doc_element_id a ++ " " ++ r ++ " " ++ render_doc_element_id b) = Ok (a, r, b).
Proof.
  intros Ha Hb Wr Wa Wb. unfold extract_relationship.
  rewrite !fields_sp_app, !fields_sp_word by assumption. cbn [app].
  destruct Wa as (_ & _ & ->). destruct Wb as (_ & _ & ->). destruct Wr as (_ & _ & ->).
  rewrite extract_render by assumption. cbn [bindR].
  destruct Hb as [Hb|[Hv Hb]].
  - destruct v; [rewrite extract_render by assumption|rewrite extract_render_special_plain by assumption..]; reflexivity.
  - rewrite extract_render_special; [|intros [E|[E|[]]]; discriminate|assumption].
    destruct v; [congruence|reflexivity|reflexivity].
Qed.
Lemma extract_relationship_wf v s a r b : extract_relationship v s = Ok (a, r, b) ->
  plain_ref a /\ rel_right v b /\ r <> "".
Proof.
  unfold extract_relationship. destruct (fields_sp s) as [|x [|y [|z [|w l]]]] eqn:F; try discriminate.
  destruct (extract_doc_element_id (trim_space x)) as [ida| |] eqn:Ea; simpl; try discriminate.
  apply extract_doc_element_id_iff in Ea as [Ea _].
  match goal with |- context [bindR ?e _] => destruct e as [idb| |] eqn:Eb end; simpl; try discriminate.
  intros H. inversion H; subst. split; [assumption|]. split.
  - destruct v.
    + apply extract_doc_element_id_iff in Eb as [Eb _]. now left.
    + apply extract_special_iff in Eb as [[Hi ->]|(_ & Eb & _)]; [right|now left].
      split; [discriminate|]. repeat split. exact Hi.
    + apply extract_special_iff in Eb as [[Hi ->]|(_ & Eb & _)]; [right|now left].
      split; [discriminate|]. repeat split. exact Hi.
  - destruct (fields_sp_words s y) as [H1 H2]; [rewrite F; simpl; auto|]. unfold trimmed in H2. now rewrite H2.
Qed.
