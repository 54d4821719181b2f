(** Printed chunks and the tokenizer. *)
From Verif Require Import GoStr GoStrFacts Sorting Types TvUtil TvReader TvParser TvWriter SpecTv SpecId SpecDoc
  SpecWrite TvReaderFacts TvUtilFacts.

(** ** The pairs behind a list of chunks *)
Fixpoint pairs_of (l : list chunk) : list (string * string) :=
  match l with
  | [] => []
  | Field t x :: r => (t, x) :: pairs_of r
  | TextField t x :: r => (t, x) :: pairs_of r
  | Raw _ :: r => pairs_of r
  end.
Lemma pairs_of_app a b : pairs_of (a ++ b) = (pairs_of a ++ pairs_of b)%list.
Proof. induction a as [|[t x|t x|s] a IH]; cbn [pairs_of app]; rewrite ?IH; reflexivity. Qed.
Lemma bytes_app a b : bytes (a ++ b) = bytes a ++ bytes b.
Proof. induction a as [|c a IH]; cbn [bytes app]; [reflexivity|]. now rewrite IH, app_assoc_s. Qed.

(** A raw text of blank and comment lines. *)
Definition raw_ok (s : string) : Prop :=
  exists b, s = b ++ LF /\ Forall (fun l => skippable (drop_cr l)) (split_on (byte 10) b).
Definition chunk_ok (c : chunk) : Prop :=
  match c with
  | Field t x => good_tag t /\ good_line_value x
  | TextField t x => good_tag t /\ good_text_value x
  | Raw s => raw_ok s
  end.

Lemma read_chunks l : forall ps, Forall chunk_ok l -> forallb fits (raw_lines (bytes l)) = true ->
  read_all (ready ps) (raw_lines (bytes l)) = Ok (ready (ps ++ pairs_of l)).
Proof.
  induction l as [|c l IH]; intros ps H F.
  - cbn. now rewrite app_nil_r.
  - inversion H as [|? ? Hc Hl]; subst. cbn [bytes] in *.
    destruct c as [t x|t x|s]; cbn [chunk_bytes pairs_of] in *.
    + destruct Hc as [Ht Hx].
      replace ((t ++ ": " ++ x ++ LF) ++ bytes l) with ((t ++ ": " ++ x) ++ LF ++ bytes l) in *
        by (rewrite !app_assoc_s; reflexivity).
      rewrite raw_lines_app in *. rewrite forallb_app in F. apply andb_true_iff in F as [F1 F2].
      pose proof Ht as (_ & _ & Tn & _). rewrite has_byte_lf in Tn.
      pose proof Hx as (Vn & _). rewrite has_byte_lf in Vn.
      rewrite read_all_app, read_plain_item; auto.
      * cbn [bindR]. rewrite IH by auto. now rewrite <- app_assoc.
      * rewrite split_on_none in F1 by (rewrite !has_byte_app, Tn, Vn; reflexivity).
        cbn [forallb] in F1. now rewrite andb_true_r in F1.
    + destruct Hc as [Ht Hx]. unfold textify in *.
      replace ((t ++ ": " ++ (if contains LF x then "<text>" ++ x ++ "</text>" else x) ++ LF) ++ bytes l)
        with ((t ++ ": " ++ (if contains LF x then "<text>" ++ x ++ "</text>" else x)) ++ LF ++ bytes l) in *
        by (rewrite !app_assoc_s; reflexivity).
      rewrite raw_lines_app in *. rewrite forallb_app in F. apply andb_true_iff in F as [F1 F2].
      rewrite read_all_app. pose proof (read_text_item ps t x Ht Hx F1) as E. unfold has_newline in E.
      rewrite E. cbn [bindR]. rewrite IH by auto. now rewrite <- app_assoc.
    + destruct Hc as (b & -> & Hb). rewrite app_assoc_s in *.
      rewrite raw_lines_app in *. rewrite forallb_app in F. apply andb_true_iff in F as [F1 F2].
      rewrite read_all_app, read_skipped by auto. cbn [bindR]. now rewrite IH.
Qed.
Lemma read_bytes l : Forall chunk_ok l -> Forall short (stream_lines (bytes l)) ->
  read_tag_values (bytes l) = Ok (pairs_of l).
Proof.
  intros H F. rewrite <- raw_lines_spec in F. apply forallb_fits in F.
  unfold read_tag_values. pose proof (read_chunks l [] H F) as E.
  change (ready []) with tvr_init in E. rewrite E. reflexivity.
Qed.

(** ** Composite values *)
Lemma strip_prefix_sep p a c b r : has_byte c p = false -> strip_prefix p (a ++ String c b) = Some r ->
  strip_prefix p a <> None.
Proof.
  revert a. induction p as [|x p IH]; intros a H E; [destruct a; discriminate|].
  cbn [has_byte] in H. apply orb_false_iff in H as [H1 H2].
  destruct a as [|y a]; cbn [append strip_prefix] in *.
  - rewrite H1 in E. discriminate.
  - destruct (Ascii.eqb x y); [eauto|discriminate].
Qed.
Lemma contains_sep p a c b : has_byte c p = false -> contains p a = false -> contains p b = false ->
  contains p (a ++ String c b) = false.
Proof.
  intros Hp Ha Hb. apply contains_false in Ha, Hb. apply contains_false.
  induction a as [|x a IH]; cbn [append].
  - rewrite cut_unfold. destruct (strip_prefix p (String c b)) eqn:E.
    + apply (strip_prefix_sep p "" c b) in E; [|exact Hp]. rewrite cut_unfold in Ha.
      destruct (strip_prefix p ""); [discriminate|congruence].
    + now rewrite Hb.
  - rewrite cut_unfold in Ha |- *.
    destruct (strip_prefix p (String x (a ++ String c b))) eqn:E.
    + apply (strip_prefix_sep p (String x a) c b) in E; [|exact Hp].
      destruct (strip_prefix p (String x a)); [discriminate|congruence].
    + destruct (strip_prefix p (String x a)); [discriminate|].
      destruct (cut p a) as [[? ?]|] eqn:E2; [discriminate|]. now rewrite IH.
Qed.

(** bytes that may stand between two parts of a one-line value *)
Definition sep_ok (c : ascii) : bool :=
  ascii7 c && negb (has_byte c "<text>") && negb (Ascii.eqb c (byte 10)).
Lemma line_sep a c b : sep_ok c = true -> name_ok a -> name_ok b -> name_ok (a ++ String c b).
Proof.
  unfold sep_ok. intros Hc (Na & A1 & A2 & A3) (Nb & B1 & B2 & B3).
  apply andb_true_iff in Hc as [Hc C3]. apply andb_true_iff in Hc as [C1 C2].
  apply negb_true_iff in C2, C3. split; [now destruct a|]. split; [|split].
  - rewrite has_byte_lf in *. rewrite has_byte_app, A1. cbn [has_byte]. rewrite B1, C3. reflexivity.
  - now apply trimmed_app.
  - now apply contains_sep.
Qed.
Lemma line_end a c : sep_ok c = true -> is_space1 c = false -> name_ok a -> name_ok (a ++ String c "").
Proof.
  unfold sep_ok. intros Hc Hs (Na & A1 & A2 & A3).
  apply andb_true_iff in Hc as [Hc C3]. apply andb_true_iff in Hc as [C1 C2].
  apply negb_true_iff in C2, C3. split; [now destruct a|]. split; [|split].
  - rewrite has_byte_lf in *. rewrite has_byte_app, A1. cbn [has_byte]. rewrite C3. reflexivity.
  - now apply trimmed_app_end.
  - now apply contains_sep.
Qed.
Lemma name_line x : name_ok x -> good_line_value x.
Proof. now intros [_ H]. Qed.
Lemma word_name x : word_ok x -> name_ok x.
Proof. intros [(N & _) H]. now split. Qed.
Lemma ident_name x : ident_ok x -> name_ok x.
Proof. intros [H _]. now apply word_name. Qed.
Lemma ident_id x : ident_ok x -> id_ok x.
Proof. intros [[(N & _) _] H]. now split. Qed.
Lemma ident_word x : ident_ok x -> word x.
Proof. now intros [[H _] _]. Qed.

Lemma name_const x : nonempty x && negb (contains LF x) && (trim_space x =? x) && negb (contains "<text>" x) = true ->
  name_ok x.
Proof.
  intros H. apply andb_true_iff in H as [H H4]. apply andb_true_iff in H as [H H3].
  apply andb_true_iff in H as [H1 H2]. apply nonempty_true in H1. apply negb_true_iff in H2, H4.
  apply String.eqb_eq in H3. repeat split; auto.
Qed.
Lemma name_in l k : forallb (fun x => nonempty x && negb (contains LF x) && (trim_space x =? x) && negb (contains "<text>" x)) l = true ->
  In k l -> name_ok k.
Proof. intros H Hin. rewrite forallb_forall in H. now apply name_const, H. Qed.

(** "kind: name" *)
Lemma name_kind k n : name_ok k -> name_ok n -> name_ok (k ++ ": " ++ n).
Proof.
  intros Hk Hn. change (k ++ ": " ++ n) with (k ++ (":" ++ " ") ++ n).
  rewrite app_assoc_s. change (":" ++ (" " ++ n)) with (String ":" "" ++ String " " n).
  rewrite <- app_assoc_s. apply line_sep; [reflexivity| |assumption].
  now apply line_end.
Qed.
Lemma name_element_id x : name_ok x -> name_ok (render_element_id x).
Proof. intros H. change (render_element_id x) with ("SPDXRef" ++ String "-" x). now apply line_sep; [|apply name_const|]. Qed.
Lemma name_doc_element_id d : ref_rep d -> name_ok (render_doc_element_id d).
Proof.
  intros (S & E & D). unfold render_doc_element_id. rewrite S. cbn [nonempty String.eqb negb].
  pose proof (name_element_id _ (ident_name _ E)) as He. unfold render_element_id in He.
  destruct D as [D|D].
  - rewrite D. exact He.
  - pose proof D as D'. apply ident_name in D' as Dn. destruct Dn as [N L].
    apply nonempty_true in N. rewrite N. unfold document_ref.
    replace (("DocumentRef-" ++ de_DocumentRefID d ++ ":") ++ spdx_ref ++ de_ElementRefID d)
      with (("DocumentRef" ++ String "-" (de_DocumentRefID d)) ++ String ":" (spdx_ref ++ de_ElementRefID d))
      by (rewrite !app_assoc_s; reflexivity).
    apply line_sep; [reflexivity| |exact He]. apply line_sep; [reflexivity|now apply name_const|now apply ident_name].
Qed.

(** ** Every section of a representable document prints good chunks *)
Ltac tag := repeat split; reflexivity.
Lemma ok_opt t x : good_tag t -> line_ok x -> Forall chunk_ok (opt t x).
Proof. intros Ht Hx. unfold opt. destruct (nonempty x); repeat constructor; auto; apply Ht || apply Hx. Qed.
Lemma ok_opt_text t x : good_tag t -> text_ok x -> Forall chunk_ok (opt_text t x).
Proof. intros Ht Hx. unfold opt_text. destruct (nonempty x); constructor; [split|constructor]; auto. Qed.
Lemma ok_each t l : good_tag t -> Forall line_ok l -> Forall chunk_ok (each t l).
Proof. intros Ht Hl. unfold each. induction Hl; cbn [map]; constructor; auto. now split. Qed.
Lemma ok_each_text t l : good_tag t -> Forall text_ok l -> Forall chunk_ok (each_text t l).
Proof. intros Ht Hl. unfold each_text. induction Hl; cbn [map]; constructor; auto. now split. Qed.
Lemma ok_lf : Forall chunk_ok [Raw LF].
Proof. constructor; [|constructor]. exists "". split; [reflexivity|]. repeat constructor. Qed.
Lemma ok_map {A} (f : A -> chunk) (P : A -> Prop) l : (forall x, P x -> chunk_ok (f x)) -> Forall P l -> Forall chunk_ok (map f l).
Proof. intros H. induction 1; cbn [map]; constructor; auto. Qed.
Lemma ok_flat_map {A} (f : A -> list chunk) (P : A -> Prop) l :
  (forall x, P x -> Forall chunk_ok (f x)) -> Forall P l -> Forall chunk_ok (flat_map f l).
Proof. intros H. induction 1; cbn [flat_map]; [constructor|]. apply Forall_app. auto. Qed.
Lemma ok_one t x : good_tag t -> name_ok x -> Forall chunk_ok [Field t x].
Proof. intros Ht [_ Hx]. constructor; [now split|constructor]. Qed.

Lemma name_actor3 k n : actor_rep actor3 k n -> name_ok (k ++ ": " ++ n).
Proof. intros [Hk Hn]. apply name_kind; [|assumption]. revert Hk. now apply name_in. Qed.
Lemma name_actor2 k n : actor_rep actor2 k n -> name_ok (k ++ ": " ++ n).
Proof. intros [Hk Hn]. apply name_kind; [|assumption]. revert Hk. now apply name_in. Qed.
Lemma name_checksum v c : checksum_rep v c -> name_ok (ck_Algorithm c ++ ": " ++ ck_Value c).
Proof. intros [Hk Hn]. apply name_kind; [|assumption]. revert Hk. destruct v; now apply name_in. Qed.

Lemma ok_creation_info c : creation_info_rep c -> Forall chunk_ok (render_creation_info c).
Proof.
  intros (H1 & H2 & H3 & H4). unfold render_creation_info.
  apply Forall_app; split; [apply ok_opt; [tag|assumption]|].
  apply Forall_app; split.
  { revert H2. apply ok_map. intros x Hx. split; [tag|]. now apply name_line, name_actor3. }
  apply Forall_app; split; [apply ok_opt; [tag|assumption]|].
  apply Forall_app; split; [apply ok_opt_text; [tag|assumption]|]. apply ok_lf.
Qed.
Lemma ok_annotation a : annotation_rep a -> Forall chunk_ok (render_annotation a).
Proof.
  intros (H1 & H2 & H3 & H4 & H5). unfold render_annotation.
  apply Forall_app; split.
  { destruct (_ && _); [|constructor]. apply ok_one; [tag|now apply name_actor3]. }
  apply Forall_app; split; [apply ok_opt; [tag|assumption]|].
  apply Forall_app; split; [apply ok_opt; [tag|assumption]|].
  apply Forall_app; split; [|apply ok_opt_text; [tag|assumption]].
  destruct H4 as [->|H4]; [constructor|]. cbv zeta.
  destruct (_ =? _); [constructor|]. apply ok_one; [tag|]. now apply name_doc_element_id.
Qed.
Lemma name_special v d : special_rep v d -> name_ok (render_doc_element_id d).
Proof.
  intros (_ & _ & _ & H). unfold render_doc_element_id.
  destruct H as [<-|[<-|[]]]; now apply name_const.
Qed.
Lemma ok_relationship v r : relationship_rep v r -> Forall chunk_ok (render_relationship r).
Proof.
  intros (H1 & H2 & H3 & H4). unfold render_relationship.
  apply Forall_app; split; [|apply ok_opt_text; [tag|assumption]]. cbv zeta.
  destruct (_ && _); [|constructor]. apply ok_one; [tag|].
  assert (name_ok (render_doc_element_id (r_RefB r))) as HB.
  { destruct H2 as [H2|H2]; [now apply name_doc_element_id|now apply (name_special v)]. }
  change (" " ++ r_Relationship r ++ " " ++ render_doc_element_id (r_RefB r))
    with (String " " (r_Relationship r ++ String " " (render_doc_element_id (r_RefB r)))).
  apply line_sep; [reflexivity|now apply name_doc_element_id|].
  apply line_sep; [reflexivity|now apply word_name|assumption].
Qed.
Lemma ok_review r : review_rep r -> Forall chunk_ok (render_review r).
Proof.
  intros (H1 & H2 & H3). unfold render_review.
  apply Forall_app; split.
  { destruct (_ && _); [|constructor]. apply ok_one; [tag|now apply name_actor3]. }
  apply Forall_app; split; [apply ok_opt; [tag|assumption]|].
  apply Forall_app; split; [apply ok_opt_text; [tag|assumption]|]. apply ok_lf.
Qed.
Lemma ok_license o : license_rep o -> Forall chunk_ok (render_other_license o).
Proof.
  intros ([_ H1] & H2 & H3 & H4 & H5). unfold render_other_license.
  apply Forall_app; split; [apply ok_opt; [tag|assumption]|].
  apply Forall_app; split; [apply ok_opt_text; [tag|assumption]|].
  apply Forall_app; split; [apply ok_opt; [tag|assumption]|].
  apply Forall_app; split; [apply ok_each; [tag|assumption]|].
  apply Forall_app; split; [apply ok_opt_text; [tag|assumption]|]. apply ok_lf.
Qed.
Lemma name_show_Z z : name_ok (show_Z z).
Proof.
  split; [apply show_Z_nonempty|]. split; [|split].
  - rewrite has_byte_lf. now apply show_Z_byte.
  - apply show_Z_trimmed.
  - apply contains_false, (cut_none_no_head "<" "text>"). now apply show_Z_byte.
Qed.
Lemma name_range a b : name_ok (show_Z a ++ ":" ++ show_Z b).
Proof. change (":" ++ show_Z b) with (String ":" (show_Z b)). apply line_sep; [reflexivity| |]; apply name_show_Z. Qed.
Lemma ok_range r : Forall chunk_ok (render_range r).
Proof.
  unfold render_range. cbv zeta. apply Forall_app; split.
  - destruct (_ && _); [|constructor]. apply ok_one; [tag|apply name_range].
  - destruct (_ && _); [|constructor]. apply ok_one; [tag|apply name_range].
Qed.
Lemma ok_attr v t l : good_tag t -> attributions_rep v l ->
  Forall chunk_ok (match v with V21 => [] | _ => each_text t l end).
Proof. intros Ht [H _]. destruct v; [constructor| |]; now apply ok_each_text. Qed.
Lemma ok_snippet v s : snippet_rep v s -> Forall chunk_ok (render_snippet v s).
Proof.
  intros (H1 & H2 & H3 & H4 & H5 & H6 & H7 & H8 & H9 & H10). unfold render_snippet.
  apply Forall_app; split.
  { destruct (nonempty _); [|constructor]. apply ok_one; [tag|]. now apply name_element_id, ident_name. }
  apply Forall_app; split.
  { cbv zeta. destruct (nonempty _); [|constructor]. apply ok_one; [tag|]. now apply name_element_id, ident_name. }
  apply Forall_app; split; [revert H3; apply ok_flat_map; intros; apply ok_range|].
  apply Forall_app; split; [apply ok_opt; [tag|assumption]|].
  apply Forall_app; split; [apply ok_each; [tag|assumption]|].
  do 3 (apply Forall_app; split; [apply ok_opt_text; [tag|assumption]|]).
  apply Forall_app; split; [apply ok_opt; [tag|assumption]|].
  apply Forall_app; split; [apply ok_attr; [tag|assumption]|]. apply ok_lf.
Qed.
Lemma ok_artifact a : artifact_rep a -> Forall chunk_ok (render_artifact a).
Proof.
  intros (H1 & H2 & H3). unfold render_artifact. constructor; [split; [tag|assumption]|].
  apply Forall_app; split; (apply ok_opt; [tag|assumption]).
Qed.
Lemma map_get_some {A} k (m : list (string * A)) x : map_get k m = Some x -> In (k, x) m.
Proof.
  induction m as [|[k' y] m IH]; cbn [map_get]; [discriminate|].
  destruct (String.eqb_spec k k') as [->|]; [intros E; inversion E; now left|right; auto].
Qed.
Lemma ok_snippets so v m : Forall (fun e => fst e = s_SPDXIdentifier (snd e) /\ snippet_rep v (snd e)) m ->
  Forall chunk_ok (render_snippets so v m).
Proof.
  intros H. unfold render_snippets. rewrite Forall_forall in H.
  induction (sort_by so (fun k => k) (map fst m)) as [|k l IH]; cbn [flat_map]; [constructor|].
  apply Forall_app; split; [|exact IH]. destruct (map_get k m) eqn:E; [|constructor].
  apply map_get_some in E. apply H in E as [_ E]. now apply ok_snippet.
Qed.
Lemma ok_file so v f : file_rep v f -> Forall chunk_ok (render_file so v f).
Proof.
  intros ((_ & H1) & H2 & H3 & H4 & H5 & H6 & H7 & H8 & H9 & H10 & H11 & H12 & H13 & H14 & _ & H15 & _).
  unfold render_file.
  apply Forall_app; split; [apply ok_opt; [tag|assumption]|].
  apply Forall_app; split.
  { destruct (nonempty _); [|constructor]. apply ok_one; [tag|]. now apply name_element_id, ident_name. }
  apply Forall_app; split; [apply ok_each; [tag|assumption]|].
  apply Forall_app; split.
  { revert H4. apply ok_map. intros x Hx. split; [tag|]. now apply name_line, (name_checksum v). }
  apply Forall_app; split; [apply ok_opt; [tag|assumption]|].
  apply Forall_app; split; [apply ok_each; [tag|assumption]|].
  do 2 (apply Forall_app; split; [apply ok_opt_text; [tag|assumption]|]).
  apply Forall_app; split; [revert H9; apply ok_flat_map; exact ok_artifact|].
  do 2 (apply Forall_app; split; [apply ok_opt_text; [tag|assumption]|]).
  apply Forall_app; split; [apply ok_each; [tag|assumption]|].
  apply Forall_app; split; [apply ok_attr; [tag|assumption]|].
  apply Forall_app; split; [apply ok_each; [tag|assumption]|].
  apply Forall_app; split; [apply ok_lf|]. now apply ok_snippets.
Qed.
Lemma ok_supplier s : opt_ok supplier_rep s -> Forall chunk_ok (render_supplier s).
Proof.
  destruct s as [x|]; [|constructor]. intros H. cbn [opt_ok render_supplier] in *.
  destruct (nonempty (su_Supplier x)) eqn:E; [|constructor].
  destruct H as [->|H]; [apply ok_one; [tag|now apply name_const]|].
  destruct (nonempty (su_SupplierType x)); (apply ok_one; [tag|]); [now apply name_actor2|apply H].
Qed.
Lemma ok_originator s : opt_ok originator_rep s -> Forall chunk_ok (render_originator s).
Proof.
  destruct s as [x|]; [|constructor]. intros H. cbn [opt_ok render_originator] in *.
  destruct (nonempty (or_Originator x)) eqn:E; [|constructor].
  destruct H as [->|H]; [apply ok_one; [tag|now apply name_const]|].
  destruct (nonempty (or_OriginatorType x)); (apply ok_one; [tag|]); [now apply name_actor2|apply H].
Qed.
Lemma name_code c f : name_ok c -> line_ok f -> name_ok (c ++ " (excludes: " ++ join ", " [f] ++ ")").
Proof.
  intros Hc Hf. unfold join. cbn [String.concat].
  change (c ++ " (excludes: " ++ f ++ ")") with (c ++ String " " ("(excludes: " ++ f ++ ")")).
  apply line_sep; [reflexivity|assumption|].
  destruct f as [|a f]; [now apply name_const|].
  change ("(excludes: " ++ String a f ++ ")") with ("(excludes:" ++ String " " (String a f ++ String ")" "")).
  apply line_sep; [reflexivity|now apply name_const|]. apply line_end; [reflexivity..|]. split; [discriminate|assumption].
Qed.
Lemma ok_code p : opt_ok code_rep (p_VerificationCode p) -> Forall chunk_ok (render_verification_code p).
Proof.
  unfold render_verification_code. destruct (p_VerificationCode p) as [c|]; [|constructor].
  intros (H1 & H2 & H3). destruct (_ && _); [|constructor].
  destruct H3 as [->|(f & -> & Hf & _)]; (apply ok_one; [tag|]); [assumption|now apply name_code].
Qed.
Lemma ok_external_ref e : external_ref_rep e -> Forall chunk_ok (render_external_ref e).
Proof.
  intros (H1 & H2 & H3 & H4). unfold render_external_ref. constructor; [|apply ok_opt_text; [tag|assumption]].
  split; [tag|]. apply name_line.
  change (" " ++ er_RefType e ++ " " ++ er_Locator e) with (String " " (er_RefType e ++ String " " (er_Locator e))).
  apply line_sep; [reflexivity|now apply word_name|].
  apply line_sep; [reflexivity|now apply word_name|now apply word_name].
Qed.
Lemma ok_package_fields v p : package_rep v p -> Forall chunk_ok (render_package_fields v p).
Proof.
  intros (_ & (_ & H1) & H2 & H3 & H4 & H5 & H6 & H7 & H8 & H9 & H10 & H11 & H12 & H13 & H14 & H15 & H16 & H17 & H18
          & H19 & H20 & H21 & H22 & (H23 & _) & (H24 & _) & (H25 & _) & (H26 & _) & _).
  unfold render_package_fields.
  apply Forall_app; split; [apply ok_opt; [tag|assumption]|].
  apply Forall_app; split.
  { destruct (nonempty _); [|constructor]. apply ok_one; [tag|]. now apply name_element_id, ident_name. }
  do 2 (apply Forall_app; split; [apply ok_opt; [tag|assumption]|]).
  apply Forall_app; split; [now apply ok_supplier|].
  apply Forall_app; split; [now apply ok_originator|].
  apply Forall_app; split; [apply ok_opt; [tag|assumption]|].
  apply Forall_app; split.
  { destruct v; [constructor..|]. repeat (apply Forall_app; split); (apply ok_opt; [tag|assumption]). }
  apply Forall_app; split.
  { unfold render_files_analyzed. destruct (p_FilesAnalyzed p); [destruct (p_IsFilesAnalyzedTagPresent p)|];
      try constructor; try constructor; (apply ok_one; [tag|now apply name_const]) || tag. }
  apply Forall_app; split; [now apply ok_code|].
  apply Forall_app; split.
  { revert H10. apply ok_map. intros x Hx. split; [tag|]. now apply name_line, (name_checksum v). }
  apply Forall_app; split; [apply ok_opt; [tag|assumption]|].
  apply Forall_app; split; [apply ok_opt_text; [tag|assumption]|].
  apply Forall_app; split; [apply ok_opt; [tag|assumption]|].
  apply Forall_app; split; [destruct (p_FilesAnalyzed p); [apply ok_each; [tag|assumption]|constructor]|].
  apply Forall_app; split; [apply ok_opt; [tag|assumption]|].
  do 5 (apply Forall_app; split; [apply ok_opt_text; [tag|assumption]|]).
  apply Forall_app; split; [revert H21; apply ok_flat_map; exact ok_external_ref|].
  apply Forall_app; split; [apply ok_attr; [tag|assumption]|]. apply ok_lf.
Qed.
Lemma sorted_Forall {A} so (key : A -> string) (P : A -> Prop) l : Forall P l -> Forall P (sort_by so key l).
Proof. apply Permutation_Forall. symmetry. apply sort_by_perm. Qed.
Lemma ok_package so v p : package_rep v p -> Forall chunk_ok (render_package so v p).
Proof.
  intros H. unfold render_package. apply Forall_app; split; [now apply ok_package_fields|].
  apply ok_flat_map with (P := file_rep v); [intros; now apply ok_file|]. apply sorted_Forall. apply H.
Qed.
Lemma ok_edr e : edr_rep e -> Forall chunk_ok (render_edr e).
Proof.
  intros (H1 & H2 & H3 & H4). unfold render_edr. apply ok_one; [tag|].
  set (a := ck_Algorithm _) in *. set (c := ck_Value _) in *.
  replace ("DocumentRef-" ++ edr_DocumentRefID e ++ " " ++ edr_URI e ++ " " ++ a ++ ":" ++ c)
    with (("DocumentRef" ++ String "-" (edr_DocumentRefID e)) ++ String " " (edr_URI e ++ String " " (a ++ String ":" c)))
    by (rewrite !app_assoc_s; reflexivity).
  apply line_sep; [reflexivity| |].
  - apply line_sep; [reflexivity|now apply name_const|now apply word_name].
  - apply line_sep; [reflexivity|now apply word_name|].
    apply line_sep; [reflexivity|now apply ident_name|now apply word_name].
Qed.
Lemma raw_header x : line_ok x -> raw_ok ("##### " ++ x ++ LF ++ LF).
Proof.
  intros (L & T & _). exists ("##### " ++ x ++ LF). split; [rewrite !app_assoc_s; reflexivity|].
  rewrite has_byte_lf in L.
  replace ("##### " ++ x ++ LF) with (("##### " ++ x) ++ String (byte 10) "") by (rewrite !app_assoc_s; reflexivity).
  rewrite split_on_app, split_on_none by (rewrite has_byte_app, L; reflexivity).
  cbn [split_on app]. constructor; [|constructor; [|constructor]].
  - right. destruct x as [|a x]; [exists "#### "; reflexivity|].
    rewrite drop_cr_app by discriminate. exists ("#### " ++ drop_cr (String a x)). reflexivity.
  - left. reflexivity.
Qed.
Lemma ok_section {A} title (l : list A) body : line_ok title -> Forall chunk_ok body -> Forall chunk_ok (section title l body).
Proof.
  intros Ht Hb. unfold section. destruct l; [constructor|]. constructor; [|assumption]. now apply raw_header.
Qed.
Ltac line := apply name_line, name_const; reflexivity.
Lemma line_prefix p x : name_ok (p ++ String " " "x") -> name_ok p -> line_ok x -> x <> "" -> line_ok (p ++ String " " x).
Proof. intros _ Hp Hx N. apply name_line. apply line_sep; [reflexivity|assumption|now split]. Qed.
Lemma ok_document so v d ci : representable v d -> d_CreationInfo d = Some ci ->
  Forall chunk_ok (render_header so d ++ render_creation_info ci ++ render_sections so v d).
Proof.
  intros (H1 & H2 & H3 & H4 & H5 & H6 & H7 & (ci' & Hc & H8 & _) & H9 & H10 & H11 & H12 & H13 & H14 & _) E.
  rewrite E in Hc. inversion Hc; subst ci'.
  apply Forall_app; split; [|apply Forall_app; split; [now apply ok_creation_info|]].
  - unfold render_header.
    apply Forall_app; split; [apply ok_opt; [tag|rewrite H1; destruct v; line]|].
    apply Forall_app; split; [apply ok_opt; [tag|assumption]|].
    apply Forall_app; split.
    { destruct H3 as [->|H3]; [constructor|]. destruct (nonempty _); [|constructor].
      apply ok_one; [tag|]. now apply name_element_id, ident_name. }
    do 2 (apply Forall_app; split; [apply ok_opt; [tag|assumption]|]).
    apply Forall_app; split; [apply ok_flat_map with (P := edr_rep); [exact ok_edr|now apply sorted_Forall]|].
    apply ok_opt_text; [tag|assumption].
  - unfold render_sections.
    apply Forall_app; split.
    { apply ok_section; [line|]. apply ok_flat_map with (P := file_rep v); [intros; now apply ok_file|now apply sorted_Forall]. }
    apply Forall_app; split.
    { apply ok_flat_map with (P := package_rep v); [|now apply sorted_Forall].
      intros p Hp. constructor; [|now apply ok_package].
      cbn [chunk_ok]. change ("##### Package: " ++ p_PackageName p ++ LF ++ LF)
        with ("##### " ++ ("Package: " ++ p_PackageName p) ++ LF ++ LF).
      apply raw_header. apply name_line. change ("Package: " ++ p_PackageName p) with ("Package" ++ ": " ++ p_PackageName p).
      apply name_kind; [now apply name_const|apply Hp]. }
    apply Forall_app; split.
    { apply ok_section; [line|]. revert H11. apply ok_flat_map. exact ok_license. }
    apply Forall_app; split.
    { apply ok_section; [line|]. apply Forall_app; split; [|apply ok_lf]. revert H12. apply ok_flat_map. apply ok_relationship. }
    apply Forall_app; split.
    { apply ok_section; [line|]. revert H13. apply ok_flat_map. intros a Ha. apply Forall_app; split; [now apply ok_annotation|apply ok_lf]. }
    apply ok_section; [line|]. revert H14. apply ok_flat_map. exact ok_review.
Qed.
