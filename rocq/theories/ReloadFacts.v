(** Documents read from clean input can be written and read again. *)
From Verif Require Import GoStr GoStrFacts Sorting Types TvReader TvUtil TvParser TvWriter SpecTv SpecId SpecDoc SpecRead SpecWrite SpecReload SpecFormats
  TvReaderFacts TvUtilFacts TvParserFacts TvWriterFacts TvCanon TvRoundTrip TagPart DenoteBase.
Local Open Scope string_scope.

(** ** Strings *)
Lemma part_line a s b : line_ok (a ++ s ++ b) -> trimmed s -> line_ok s.
Proof.
  intros (H1 & _ & H2) T. apply contains_app_false in H1 as [_ H1]. apply contains_app_false in H1 as [H1 _].
  apply contains_app_false in H2 as [_ H2]. apply contains_app_false in H2 as [H2 _]. split; [exact H1|]. split; [exact T|exact H2].
Qed.
Lemma trim_part s : exists a b, s = a ++ trim_space s ++ b.
Proof.
  destruct (trim_left_suffix s) as (p & E). destruct (trim_right_prefix (trim_left s)) as (q & E'). exists p, q. unfold trim_space. now rewrite <- E'.
Qed.
Lemma trim_line a s b : line_ok (a ++ s ++ b) -> line_ok (trim_space s).
Proof.
  intros H. destruct (trim_part s) as (p & q & E). apply (part_line (a ++ p) _ (q ++ b)); [|apply trim_space_trimmed].
  rewrite E in H at 1. now rewrite !app_assoc_s in *.
Qed.
Lemma join_part sep l x : In x l -> exists a b, join sep l = a ++ x ++ b.
Proof.
  induction l as [|y l IH]; [intros []|]. intros [->|H].
  - destruct l as [|z l]; [exists "", ""; cbn; now rewrite app_nil_r_s|]. now exists "", (sep ++ join sep (z :: l)).
  - destruct (IH H) as (a & b & E). destruct l as [|z l]; [destruct H|]. exists (y ++ sep ++ a), b.
    change (join sep (y :: z :: l)) with (y ++ sep ++ join sep (z :: l)). now rewrite E, !app_assoc_s.
Qed.
Lemma words_line x w : line_ok x -> In w (words x) -> word_ok w.
Proof.
  unfold words. intros L H. apply filter_In in H as [H N]. apply in_map_iff in H as (y & <- & H).
  destruct (join_part " " _ _ H) as (a & b & E). rewrite split_on_join in E. split.
  - split; [now apply nonempty_true in N|]. split; [|apply trim_space_trimmed]. apply not_occurs_byte. apply split_on_no_byte in H.
    destruct (trim_part y) as (p & q & Ey). rewrite Ey, !has_byte_app, !orb_false_iff in H. apply H.
  - rewrite E in L. exact (trim_line _ _ _ L).
Qed.
Lemma kind_line x k n : line_ok x -> kind_name x k n -> line_ok n.
Proof. intros L (a & b & -> & _ & _ & ->). apply (trim_line (a ++ ":") b ""). now rewrite app_nil_r_s, app_assoc_s. Qed.

Lemma atoi_in_int s z : atoi s = Ok z -> in_int z = true.
Proof.
  unfold atoi. destruct (match s with String a s' => _ | "" => _ end) as [neg body]. destruct (read_N body) as [n|]; [|discriminate].
  destruct (in_int _) eqn:E; [|discriminate]. now intros [= <-].
Qed.

(** ** Pairs *)
Lemma segs_Forall (P : string * string -> Prop) t l : Forall P l ->
  Forall P (head_of t l) /\ Forall (fun s => P (t, fst s) /\ Forall P (snd s)) (parts_of t l).
Proof.
  unfold head_of, parts_of. induction 1 as [|[k x] l H _ [IH1 IH2]]; cbn [segs]; [split; constructor|].
  destruct (segs t l) as [h ss]. cbn [fst snd] in *. destruct (String.eqb k t) eqn:E; cbn [fst snd].
  - apply String.eqb_eq in E. subst k. split; constructor; auto.
  - split; [now constructor|exact IH2].
Qed.
Lemma values_Forall (P : string * string -> Prop) t l : Forall P l -> Forall (fun x => P (t, x)) (values t l).
Proof.
  unfold values. induction 1 as [|[k x] l H _ IH]; cbn [filter fst]; [constructor|]. destruct (String.eqb k t) eqn:E; [|exact IH].
  apply String.eqb_eq in E. subst k. now constructor.
Qed.
Lemma last_Forall (P : string -> Prop) l d : P d -> Forall P l -> P (last l d).
Proof. intros D F. induction F as [|x l H F IH]; [exact D|]. destruct l; [exact H|exact IH]. Qed.
Lemma last_in (P : string -> Prop) l d : Forall P l -> l <> [] -> P (last l d).
Proof. intros F N. destruct F as [|x l H F]; [congruence|]. clear N. revert x H. induction F as [|y l Hy F IH]; intros x H; [exact H|]. exact (IH y Hy). Qed.
Lemma Forall2_right {A B} (R : A -> B -> Prop) (P : A -> Prop) (Q : B -> Prop) l m : Forall2 R l m -> Forall P l -> (forall a b, P a -> R a b -> Q b) -> Forall Q m.
Proof. intros H F I. induction H as [|a b l m Hab H IH]; [constructor|]. inversion F; subst. constructor; eauto. Qed.

Section Clean.
  Variable v : version.
  Notation cl := (Forall (clean v)).
  Lemma clean_line t l : existsb (String.eqb t) text_tags = false -> cl l -> Forall line_ok (values t l).
  Proof. intros E F. eapply Forall_impl; [|exact (values_Forall _ t _ F)]. intros x C. apply cl_value in C. cbn [fst snd] in C. now rewrite E in C. Qed.
  Lemma clean_text t l : existsb (String.eqb t) text_tags = true -> cl l -> Forall text_ok (values t l).
  Proof. intros E F. eapply Forall_impl; [|exact (values_Forall _ t _ F)]. intros x C. apply cl_value in C. cbn [fst snd] in C. now rewrite E in C. Qed.
  Lemma last_line t l : existsb (String.eqb t) text_tags = false -> cl l -> line_ok (last_value t l).
  Proof. intros E F. unfold last_value. apply (last_Forall line_ok); [now repeat split|now apply clean_line]. Qed.
  Lemma last_text t l : existsb (String.eqb t) text_tags = true -> cl l -> text_ok (last_value t l).
  Proof. intros E F. unfold last_value. apply (last_Forall text_ok); [now repeat split|now apply clean_text]. Qed.
  Lemma one_line_of t x : clean v (t, x) -> existsb (String.eqb t) text_tags = false -> line_ok x.
  Proof. intros C E. apply cl_value in C. cbn [fst snd] in C. now rewrite E in C. Qed.

  Lemma ref_part d x : line_ok x -> ref_clean x -> plain_ref d -> ref_text d x -> ref_rep d.
  Proof.
    intros L C P R. destruct (C d P R) as [W1 W2]. destruct P as (P1 & (P2 & P3) & P4).
    assert (K : line_ok (de_ElementRefID d) /\ (de_DocumentRefID d = "" \/ line_ok (de_DocumentRefID d))).
    { destruct R as [[R1 ->]|[R1 ->]].
      - split; [|now left]. apply (part_line "SPDXRef-" _ ""); [now rewrite app_nil_r_s|apply W1].
      - split.
        + apply (part_line ("DocumentRef-" ++ de_DocumentRefID d ++ ":SPDXRef-") _ ""); [|apply W1]. now rewrite app_nil_r_s, !app_assoc_s.
        + destruct W2 as [W2|W2]; [now left|right]. apply (part_line "DocumentRef-" _ (":SPDXRef-" ++ de_ElementRefID d)); [exact L|apply W2]. }
    destruct K as [K1 K2]. split; [exact P1|]. split; [split; [now split|exact P3]|].
    destruct (string_dec (de_DocumentRefID d) "") as [E|E]; [now left|right].
    destruct W2 as [W2|W2]; [contradiction|]. destruct K2 as [K2|K2]; [contradiction|]. destruct P4 as [P4|[_ P4]]; [contradiction|]. split; [now split|exact P4].
  Qed.
  Lemma id_part id x : line_ok x -> ref_clean x -> id_ok id -> x = "SPDXRef-" ++ id -> ident_ok id.
  Proof.
    intros L C I E. assert (R : ref_rep (MkDEID "" id "")).
    { apply (ref_part _ x L C); [split; [reflexivity|split; [exact I|now left]]|left; now split]. }
    apply R.
  Qed.
  Lemma relationship_clean (seg : string * pairs) r : clean v ("Relationship", fst seg) -> cl (snd seg) -> relationship_den v seg r -> relationship_rep v r.
  Proof.
    intros C F [(wa & wb & W & PA & RA & RB) E]. assert (L := one_line_of _ _ C eq_refl). assert (R : Forall ref_clean (words (fst seg))) by exact (cl_rels _ _ C eq_refl).
    assert (Wd : forall w, In w (words (fst seg)) -> word_ok w) by (intros w; now apply words_line). rewrite W in R, Wd.
    inversion R as [|? ? R1 R']; subst. inversion R' as [|? ? R2 R'']; subst. inversion R'' as [|? ? R3 _]; subst.
    split; [|split; [|split]].
    - apply (ref_part _ wa); auto. apply Wd. now left.
    - destruct RB as [[PB RB]|(NV & S & RB)]; [left; apply (ref_part _ wb); auto; apply Wd; cbn; tauto|right].
      split; [exact NV|]. rewrite RB. split; [reflexivity|]. split; [reflexivity|]. cbn. destruct S as [-> | ->]; auto.
    - apply Wd. cbn. tauto.
    - rewrite E. now apply last_text.
  Qed.
  Lemma actor_clean t x k n kinds : In t ["Creator"; "Annotator"; "Reviewer"] -> clean v (t, x) -> actor_text kinds x k n -> actor_rep kinds k n.
  Proof.
    intros T C [K I]. split; [exact I|]. split.
    - apply (cl_kinds _ _ C) with (k := k); [cbn in T |- *; tauto|exact K].
    - refine (kind_line _ _ _ (one_line_of t x C _) K). cbn in T. destruct T as [<- |[<- |[<- |[]]]]; reflexivity.
  Qed.
  Lemma annotation_clean (seg : string * pairs) a : clean v ("Annotator", fst seg) -> cl (snd seg) -> annotation_den seg a -> annotation_rep a.
  Proof.
    intros C F (A & E1 & E2 & E3 & S). split; [eapply actor_clean; [|exact C|exact A]; cbn; tauto|]. rewrite E1, E2, E3.
    split; [now apply last_line|]. split; [now apply last_line|]. split; [|now apply last_text].
    destruct (values "SPDXREF" (snd seg)) as [|y l] eqn:V; [now left|right]. destruct S as [P R].
    assert (X : Forall (fun x => clean v ("SPDXREF", x)) (y :: l)) by (rewrite <- V; now apply values_Forall).
    assert (Y := last_in _ _ "" X ltac:(discriminate)). cbn beta in Y. apply (ref_part _ (last (y :: l) "")); auto; [exact (one_line_of _ _ Y eq_refl)|].
    apply (cl_ids _ _ Y). cbn. tauto.
  Qed.
  Lemma review_clean (seg : string * pairs) r : clean v ("Reviewer", fst seg) -> cl (snd seg) -> review_den seg r -> review_rep r.
  Proof.
    intros C F (A & E1 & E2). split; [eapply actor_clean; [|exact C|exact A]; cbn; tauto|]. rewrite E1, E2. split; [now apply last_line|now apply last_text].
  Qed.
  Lemma license_clean (seg : string * pairs) o : clean v ("LicenseID", fst seg) -> cl (snd seg) -> license_den seg o -> license_rep o.
  Proof.
    intros C F (E1 & E2 & E3 & E4 & E5). unfold license_rep. rewrite E1, E2, E3, E4, E5.
    split; [split; [apply (cl_names _ _ C); cbn; tauto|exact (one_line_of _ _ C eq_refl)]|].
    split; [now apply last_text|]. split; [now apply last_line|]. split; [now apply clean_line|now apply last_text].
  Qed.
  Lemma edr_clean_rep x e : clean v ("ExternalDocumentRef", x) -> edr_text x e -> edr_rep e.
  Proof.
    intros C T. destruct (cl_edrs _ _ C eq_refl e T) as (W1 & W2 & W3 & W4). assert (L := one_line_of _ _ C eq_refl).
    assert (Wd : forall w, In w (words x) -> word_ok w) by (intros w; now apply words_line). destruct T as [_ [T|[T _]]]; rewrite T in Wd.
    - assert (A1 := Wd _ (or_introl eq_refl)). assert (A2 := Wd _ (or_intror (or_introl eq_refl))).
      assert (A3 := Wd _ (or_intror (or_intror (or_introl eq_refl)))). assert (A4 := Wd _ (or_intror (or_intror (or_intror (or_introl eq_refl))))).
      split; [split; [exact W1|]|]. { apply (part_line "DocumentRef-" _ ""); [rewrite app_nil_r_s; apply A1|apply W1]. }
      split; [exact A2|]. split; [|exact A4]. split; [split; [exact W2|]|exact W3]. apply (part_line "" _ ":"); [apply A3|apply W2].
    - assert (A1 := Wd _ (or_introl eq_refl)). assert (A2 := Wd _ (or_intror (or_introl eq_refl))).
      assert (A3 := Wd _ (or_intror (or_intror (or_introl eq_refl)))).
      split; [split; [exact W1|]|]. { apply (part_line "DocumentRef-" _ ""); [rewrite app_nil_r_s; apply A1|apply W1]. }
      split; [exact A2|]. split; [split; [split; [exact W2|]|exact W3]|split; [exact W4|]].
      + apply (part_line "" _ (":" ++ ck_Value (edr_Checksum e))); [apply A3|apply W2].
      + apply (part_line (ck_Algorithm (edr_Checksum e) ++ ":") _ ""); [|apply W4]. rewrite app_nil_r_s, app_assoc_s. apply A3.
  Qed.
  Lemma creation_clean l ci : cl l -> creation_info_den l (Some ci) -> creation_info_rep ci.
  Proof.
    intros F (_ & E1 & E2 & E3 & E4). unfold creation_info_rep. rewrite E1, E3, E4. split; [now apply last_line|]. split; [|split; [now apply last_line|now apply last_text]].
    eapply (Forall2_right _ (fun x => clean v ("Creator", x))); [exact E2|now apply values_Forall|]. intros x c C A. eapply actor_clean; [|exact C|exact A]. cbn. tauto.
  Qed.
  Lemma checksum_clean t x c : In t ["PackageChecksum"; "FileChecksum"] -> clean v (t, x) -> checksum_text v x c -> checksum_rep v c.
  Proof.
    intros T C [K A]. split; [exact A|]. split.
    - apply (cl_kinds _ _ C) with (k := ck_Algorithm c); [cbn in T |- *; tauto|exact K].
    - refine (kind_line _ _ _ (one_line_of t x C _) K). cbn in T. destruct T as [<- |[<- |[]]]; reflexivity.
  Qed.
  Lemma id_of t l id : In t ["SPDXID"; "SnippetSPDXID"] -> cl l -> id_text_of (values t l) id -> id_ok id -> ident_ok id.
  Proof.
    intros T F E I. unfold id_text_of in E. assert (X := values_Forall _ t _ F). destruct (values t l) as [|y m]; [subst; now destruct I|].
    assert (Y := last_in _ _ "" X ltac:(discriminate)). cbn beta in Y. apply (id_part _ _) with (4 := E); auto.
    - apply (one_line_of t); [exact Y|]. cbn in T. destruct T as [<- |[<- |[]]]; reflexivity.
    - apply (cl_ids _ _ Y). cbn in T |- *. tauto.
  Qed.
  Lemma range_clean p r : range_den p r -> Forall range_rep (tag_range r).
  Proof.
    intros (a & b & (x & y & _ & A & B) & E). assert (IA : in_int a = true) by now apply atoi_in_int in A. assert (IB : in_int b = true) by now apply atoi_in_int in B.
    unfold tag_range. destruct (String.eqb (fst p) "SnippetByteRange"); subst r; cbn [sr_StartPointer sr_EndPointer rp_Offset rp_LineNumber];
      destruct (Z.eqb_spec a 0), (Z.eqb_spec b 0); cbn; repeat constructor; exists a, b; (split; [now split|]; split; [now split|]); [now left|now right].
  Qed.
  Lemma from_22_text t l : existsb (String.eqb t) text_tags = true -> cl l ->
    attributions_rep v (from_22 v (match v with V21 => [] | _ => values t l end)).
  Proof. intros E F. assert (T := clean_text _ _ E F). split; [|now intros ->]. destruct v; cbn; [apply Forall_nil|exact T..]. Qed.
  Lemma snippet_clean (seg : string * pairs) s : clean v ("SnippetSPDXID", fst seg) -> cl (snd seg) -> snippet_den v seg s -> snippet_ok s -> s_FromFile s <> "" ->
    snippet_rep v (tag_snippet v s).
  Proof.
    intros C F D [I1 I2] N. destruct D as [D1 D2 D3 D4 D5 D6 D7 D8 D9 D10]. unfold snippet_rep, tag_snippet.
    cbn [s_SPDXIdentifier s_FromFile s_Ranges s_LicenseConcluded s_LicenseInfoInSnippet s_LicenseComments s_CopyrightText s_Comment s_Name s_AttributionTexts set_s_Ranges set_s_AttributionTexts].
    rewrite D4, D5, D6, D7, D8, D9, D10. split.
    { apply (id_part _ (fst seg)); auto; [exact (one_line_of _ _ C eq_refl)|]. apply (cl_ids _ _ C). cbn. tauto. }
    split.
    { destruct (values "SnippetFromFileSPDXID" (snd seg)) as [|y l] eqn:V; [contradiction|]. destruct D2 as (d & P & R & E). rewrite E.
      assert (X : Forall (fun x => clean v ("SnippetFromFileSPDXID", x)) (y :: l)) by (rewrite <- V; now apply values_Forall).
      assert (Y := last_in _ _ "" X ltac:(discriminate)). cbn beta in Y. enough (Z : ref_rep d) by apply Z.
      apply (ref_part _ (last (y :: l) "")); auto; [exact (one_line_of _ _ Y eq_refl)|]. apply (cl_ids _ _ Y). cbn. tauto. }
    split.
    { clear -D3. revert D3. generalize (range_pairs (snd seg)). intros ps D3. induction D3 as [|p r ps rs R D3 IH]; [constructor|].
      cbn [flat_map]. apply Forall_app. split; [exact (range_clean _ _ R)|exact IH]. }
    split; [now apply last_line|]. split; [now apply clean_line|]. split; [now apply last_text|]. split; [now apply last_text|]. split; [now apply last_text|].
    split; [now apply last_line|now apply from_22_text].
  Qed.
  Lemma artifact_clean (seg : string * pairs) a : clean v ("ArtifactOfProjectName", fst seg) -> cl (snd seg) -> artifact_den seg a -> artifact_rep a.
  Proof. intros C F (E1 & E2 & E3). unfold artifact_rep. rewrite E1, E2, E3. split; [exact (one_line_of _ _ C eq_refl)|]. split; now apply last_line. Qed.
  Lemma tag_snippet_id s : s_SPDXIdentifier (tag_snippet v s) = s_SPDXIdentifier s.
  Proof. reflexivity. Qed.
  Lemma file_clean (seg : string * pairs) f : clean v ("FileName", fst seg) -> cl (snd seg) -> file_den v seg f -> file_ok v f ->
    Forall (fun e => s_FromFile (snd e) <> "") (f_Snippets f) -> file_rep v (tag_file v f).
  Proof.
    intros C F [D S] (I & _ & Nd & So & An) P. destruct D as [D1 D2 D3 D4 D5 D6 D7 D8 D9 D10 D11 D12 D13 D14 D15]. unfold file_rep, tag_file.
    cbn [f_FileName f_SPDXIdentifier f_FileTypes f_Checksums f_LicenseConcluded f_LicenseInfoInFiles f_LicenseComments f_CopyrightText f_Artifacts f_Comment f_Notice
      f_Contributors f_AttributionTexts f_Dependencies f_Snippets f_Annotations set_f_Annotations set_f_AttributionTexts set_f_Snippets].
    rewrite D1, D3, D5, D6, D7, D8, D10, D11, D12, D13, D14.
    split; [split; [apply (cl_names _ _ C); cbn; tauto|exact (one_line_of _ _ C eq_refl)]|].
    split; [eapply id_of; [|exact F|exact D2|exact I]; cbn; tauto|]. split; [now apply clean_line|].
    split. { eapply Forall2_right; [exact D4|exact (values_Forall _ _ _ F)|]. intros x c Cx K. eapply checksum_clean; [|exact Cx|exact K]. cbn. tauto. }
    split; [now apply last_line|]. split; [now apply clean_line|]. split; [now apply last_text|]. split; [now apply last_text|].
    split. { eapply Forall2_right; [exact D9|exact (proj2 (segs_Forall _ _ _ F))|]. intros sg a [C1 C2] A. exact (artifact_clean _ _ C1 C2 A). }
    split; [now apply last_text|]. split; [now apply last_text|]. split; [now apply clean_line|]. split; [now apply from_22_text|]. split; [now apply clean_line|].
    split. { rewrite map_map. cbn [fst]. exact Nd. }
    split; [|reflexivity].
    assert (G := proj2 (segs_Forall _ "SnippetSPDXID" _ F)). clear -S So P G.
    revert S G. generalize (parts_of "SnippetSPDXID" (snd seg)). intros ps S. revert So P. induction S as [|sg e ps es [E K] S IH]; intros So P G; [constructor|].
    inversion So as [|? ? [Q1 Q2] So']; subst. inversion P as [|? ? P1 P2]; subst. inversion G as [|? ? [G1 G2] G3]; subst.
    constructor; [|now apply IH]. cbn [fst snd]. rewrite tag_snippet_id. split; [exact E|]. exact (snippet_clean _ _ G1 G2 K Q2 P1).
  Qed.
  Lemma external_ref_clean (seg : string * pairs) e : clean v ("ExternalRef", fst seg) -> cl (snd seg) -> external_ref_den seg e -> external_ref_rep e.
  Proof.
    intros C F [W E]. assert (Wd : forall w, In w (words (fst seg)) -> word_ok w) by (intros w; apply words_line; exact (one_line_of _ _ C eq_refl)). rewrite W in Wd.
    split; [apply Wd; cbn; tauto|]. split; [apply Wd; cbn; tauto|]. split; [apply Wd; cbn; tauto|]. rewrite E. now apply last_text.
  Qed.
  Lemma opt_clean {A} t (R : string -> A -> Prop) (Q : option A -> Prop) l x : cl l -> opt_text_of R (values t l) x -> Q None ->
    (forall y a, clean v (t, y) -> R y a -> Q (Some a)) -> Q x.
  Proof.
    intros F O N H. unfold opt_text_of in O. assert (X := values_Forall _ t _ F). destruct (values t l) as [|y m]; [now subst|].
    destruct O as (a & -> & O). exact (H _ _ (last_in _ _ "" X ltac:(discriminate)) O).
  Qed.
  Lemma supplier_clean l x : cl l -> opt_text_of supplier_text (values "PackageSupplier" l) x -> opt_ok supplier_rep (tag_supplier x).
  Proof.
    intros F O. refine (opt_clean _ _ (fun x => opt_ok supplier_rep (tag_supplier x)) _ _ F O I _). intros y [n k] C S. unfold supplier_text in S.
    destruct (String.eqb y "NOASSERTION") eqn:E; [apply String.eqb_eq in E; subst y; rewrite S; now left|]. destruct S as [K S]. cbn [su_Supplier su_SupplierType] in *.
    assert (L := kind_line _ _ _ (one_line_of _ _ C eq_refl) K). destruct n as [|a n]; [exact I|]. right. split; [exact S|]. split; [discriminate|exact L].
  Qed.
  Lemma originator_clean l x : cl l -> opt_text_of originator_text (values "PackageOriginator" l) x -> opt_ok originator_rep (tag_originator x).
  Proof.
    intros F O. refine (opt_clean _ _ (fun x => opt_ok originator_rep (tag_originator x)) _ _ F O I _). intros y [n k] C S. unfold originator_text in S.
    destruct (String.eqb y "NOASSERTION") eqn:E; [apply String.eqb_eq in E; subst y; rewrite S; now left|]. destruct S as [K S]. cbn [or_Originator or_OriginatorType] in *.
    assert (L := kind_line _ _ _ (one_line_of _ _ C eq_refl) K). destruct n as [|a n]; [exact I|]. right. split; [exact S|]. split; [discriminate|exact L].
  Qed.
  Lemma code_clean l x : cl l -> opt_text_of code_text (values "PackageVerificationCode" l) x -> opt_ok code_rep (tag_code x).
  Proof.
    intros F O. refine (opt_clean _ _ (fun x => opt_ok code_rep (tag_code x)) _ _ F O I _). intros y c C S. assert (L := one_line_of _ _ C eq_refl).
    destruct S as [[No ->]|(a & b & n & [E M] & B & ->)].
    - destruct y as [|z y]; [exact I|]. cbn. split; [split; [discriminate|exact L]|]. split; [exact No|now left].
    - assert (La : line_ok (trim_space a)) by (apply (trim_line "" a ("(excludes:" ++ b)); change (line_ok (a ++ "(excludes:" ++ b)); now rewrite <- E).
      assert (Bn : exists r, b = n ++ r) by (destruct B as [(r & B & _)|[_ ->]]; [eauto|exists ""; now rewrite app_nil_r_s]). destruct Bn as (r & Bn).
      assert (Ln : line_ok (trim_space n)) by (apply (trim_line (a ++ "(excludes:") n r); rewrite <- Bn, app_assoc_s; now rewrite <- E).
      assert (Na : ~ occurs "(excludes:" (trim_space a)).
      { intros (p & q & Ea). destruct (trim_part a) as (p' & q' & Ea'). rewrite Ea in Ea'. specialize (M (p' ++ p) (q ++ q' ++ "(excludes:" ++ b)).
        assert (X : y = (p' ++ p) ++ "(excludes:" ++ q ++ q' ++ "(excludes:" ++ b) by (rewrite E, Ea' at 1; now rewrite !app_assoc_s).
        apply M in X. rewrite Ea' in X. rewrite !app_length_s in X. cbn in X. lia. }
      assert (Nn : ~ occurs ")" (trim_space n)).
      { apply not_occurs_byte. destruct (trim_part n) as (p & q & En). enough (X : has_byte ")" n = false) by (rewrite En, !has_byte_app, !orb_false_iff in X; apply X).
        destruct B as [(r' & B1 & B2)|[B ->]]; [|now apply not_occurs_byte in B].
        destruct (has_byte ")" n) eqn:H; [|reflexivity]. exfalso. rewrite <- contains_byte in H. apply contains_true in H as (p' & q' & H). specialize (B2 p' (q' ++ ")" ++ r')).
        assert (X : b = p' ++ ")" ++ q' ++ ")" ++ r') by (rewrite B1, H; rewrite !app_assoc_s; reflexivity). apply B2 in X. rewrite H, app_length_s in X. cbn in X. lia. }
      destruct (trim_space a) as [|z s]; [exact I|]. cbn. split; [split; [discriminate|exact La]|]. split; [exact Na|]. right. exists (trim_space n). now split.
  Qed.
  Lemma v23_line t l : existsb (String.eqb t) text_tags = false -> cl l -> only_v23 v (from_23 v (v23_value v t l)).
  Proof. intros E F. assert (T := last_line _ _ E F). split; [|destruct v; easy]. destruct v; cbn; [now repeat split..|exact T]. Qed.
  Lemma package_clean (seg : string * pairs) p : fst seg <> "" -> clean v ("PackageName", fst seg) -> cl (snd seg) -> package_den v seg p -> package_ok v p ->
    Forall (fun f => Forall (fun e => s_FromFile (snd e) <> "") (f_Snippets f)) (p_Files p) -> package_rep v (tag_package v p).
  Proof.
    intros Ne C F [D Fs] (I & _ & _ & _ & Fo & _ & _ & Fa) P.
    assert (FR : Forall (file_rep v) (map (tag_file v) (p_Files p))).
    { assert (G := proj2 (segs_Forall _ "FileName" _ F)). clear -Fs Fo P G. revert Fs G. generalize (parts_of "FileName" (snd seg)). intros ps S.
      revert Fo P. induction S as [|sg f ps fs K S IH]; intros So P G; [constructor|].
      inversion So as [|? ? Q2 So']; subst. inversion P as [|? ? P1 P2]; subst. inversion G as [|? ? [G1 G2] G3]; subst.
      cbn [map]. constructor; [|now apply IH]. exact (file_clean _ _ G1 G2 K Q2 P1). }
    destruct D as [D1 D2 D3 D4 D5 D6 D7 D8 D9 D10 D11 D12 D13 D14 D15 D16 D17 D18 D19 D20 D21 D22 D23 D24 D25 D26 D27 D28 D29].
    assert (Id : ident_ok (p_SPDXIdentifier p)) by (eapply (id_of "SPDXID"); [cbn; tauto|exact (proj1 (segs_Forall _ "FileName" _ F))|exact D3|exact I]).
    assert (Ck : Forall (checksum_rep v) (p_Checksums p)).
    { eapply Forall2_right; [exact D12|exact (values_Forall _ _ _ F)|]. intros x c Cx K. eapply checksum_clean; [|exact Cx|exact K]. cbn. tauto. }
    assert (Er : Forall external_ref_rep (p_ExternalReferences p)).
    { eapply Forall2_right; [exact D23|exact (proj2 (segs_Forall _ _ _ F))|]. intros sg e [C1 C2] E. exact (external_ref_clean _ _ C1 C2 E). }
    assert (Su := supplier_clean _ _ F D6). assert (Or := originator_clean _ _ F D7). assert (Co := code_clean _ _ F D11).
    assert (Nm : name_ok (p_PackageName p)) by (rewrite D2; split; [exact Ne|exact (one_line_of _ _ C eq_refl)]).
    assert (At : attributions_rep v (from_22 v (p_AttributionTexts p))) by (rewrite D24; now apply from_22_text).
    assert (V1 : only_v23 v (from_23 v (p_PrimaryPackagePurpose p))) by (rewrite D25; now apply v23_line).
    assert (V2 : only_v23 v (from_23 v (p_ReleaseDate p))) by (rewrite D26; now apply v23_line).
    assert (V3 : only_v23 v (from_23 v (p_BuiltDate p))) by (rewrite D27; now apply v23_line).
    assert (V4 : only_v23 v (from_23 v (p_ValidUntilDate p))) by (rewrite D28; now apply v23_line).
    assert (L1 : line_ok (p_Version p) /\ line_ok (p_FileName p) /\ line_ok (p_DownloadLocation p) /\ line_ok (p_HomePage p) /\ text_ok (p_SourceInfo p) /\
      line_ok (p_LicenseConcluded p) /\ Forall line_ok (p_LicenseInfoFromFiles p) /\ line_ok (p_LicenseDeclared p) /\ text_ok (p_LicenseComments p) /\
      text_ok (p_CopyrightText p) /\ text_ok (p_Summary p) /\ text_ok (p_Description p) /\ text_ok (p_Comment p)).
    { rewrite D4, D5, D8, D13, D14, D15, D16, D17, D18, D19, D20, D21, D22.
      repeat match goal with |- _ /\ _ => apply conj end; first [now apply last_line|now apply last_text|now apply clean_line]. }
    destruct L1 as (L1 & L2 & L3 & L4 & L5 & L6 & L7 & L8 & L9 & L10 & L11 & L12 & L13).
    clear -Fa FR Id Ck Er Su Or Co Nm At V1 V2 V3 V4 L1 L2 L3 L4 L5 L6 L7 L8 L9 L10 L11 L12 L13.
    destruct p as [q1 q2 q3 q4 q5 q6 q7 q8 q9 q10 q11 q12 q13 q14 q15 q16 q17 q18 q19 q20 q21 q22 q23 q24 q25 q26 q27 q28 q29 q30].
    cbn [p_IsUnpackaged p_PackageName p_SPDXIdentifier p_Version p_FileName p_Supplier p_Originator p_DownloadLocation p_FilesAnalyzed p_IsFilesAnalyzedTagPresent
      p_VerificationCode p_Checksums p_HomePage p_SourceInfo p_LicenseConcluded p_LicenseInfoFromFiles p_LicenseDeclared p_LicenseComments p_CopyrightText p_Summary
      p_Description p_Comment p_ExternalReferences p_AttributionTexts p_PrimaryPackagePurpose p_ReleaseDate p_BuiltDate p_ValidUntilDate p_Files p_Annotations] in *.
    unfold package_rep, tag_package.
    cbn [p_IsUnpackaged p_PackageName p_SPDXIdentifier p_Version p_FileName p_Supplier p_Originator p_DownloadLocation p_FilesAnalyzed p_IsFilesAnalyzedTagPresent
      p_VerificationCode p_Checksums p_HomePage p_SourceInfo p_LicenseConcluded p_LicenseInfoFromFiles p_LicenseDeclared p_LicenseComments p_CopyrightText p_Summary
      p_Description p_Comment p_ExternalReferences p_AttributionTexts p_PrimaryPackagePurpose p_ReleaseDate p_BuiltDate p_ValidUntilDate p_Files p_Annotations].
    destruct q9; cbn [set_p_IsUnpackaged set_p_Annotations set_p_AttributionTexts set_p_Supplier set_p_Originator set_p_PrimaryPackagePurpose set_p_ReleaseDate set_p_BuiltDate set_p_ValidUntilDate
        set_p_Files set_p_VerificationCode set_p_LicenseInfoFromFiles set_p_IsFilesAnalyzedTagPresent
        p_IsUnpackaged p_PackageName p_SPDXIdentifier p_Version p_FileName p_Supplier p_Originator p_DownloadLocation p_FilesAnalyzed p_IsFilesAnalyzedTagPresent
        p_VerificationCode p_Checksums p_HomePage p_SourceInfo p_LicenseConcluded p_LicenseInfoFromFiles p_LicenseDeclared p_LicenseComments p_CopyrightText p_Summary
        p_Description p_Comment p_ExternalReferences p_AttributionTexts p_PrimaryPackagePurpose p_ReleaseDate p_BuiltDate p_ValidUntilDate p_Files p_Annotations];
      repeat match goal with |- _ /\ _ => apply conj end; first [assumption|reflexivity|discriminate|apply Forall_nil|exact Logic.I|now intros _].
  Qed.
End Clean.

Lemma document_clean v l d : regular l -> Forall (clean v) l -> values "SPDXVersion" l <> [] -> document_den v l d -> well_formed v d -> created d -> snippets_placed d ->
  representable v (tag_part v d).
Proof.
  intros [R1 R2] F V (G & Id & Ps & Fs) (W1 & W2 & W3 & _ & _ & _ & _ & _ & W9) (ci & Ci & Cn) [P1 P2].
  destruct (segs_Forall _ "PackageName" _ F) as [Fh Fp]. destruct (segs_Forall _ "FileName" _ Fh) as [Fhh Ff].
  assert (QP : Forall (package_rep v) (map (tag_package v) (d_Packages d))).
  { clear -R1 Ps Fp W2 P2. revert R1 Fp. revert Ps. generalize (parts_of "PackageName" l). intros ps S.
    revert W2 P2. induction S as [|sg p ps fs K S IH]; intros So P R G; [constructor|].
    inversion So as [|? ? Q2 So']; subst. inversion P as [|? ? Q3 P2]; subst. inversion G as [|? ? [G1 G2] G3]; subst. inversion R as [|? ? (N & _) R']; subst.
    cbn [map]. constructor; [|now apply IH]. exact (package_clean v _ _ N G1 G2 K Q2 Q3). }
  assert (QF : Forall (file_rep v) (map (tag_file v) (d_Files d))).
  { clear -Fs Ff W3 P1. revert Ff. revert Fs. generalize (parts_of "FileName" (head_of "PackageName" l)). intros ps S.
    revert W3 P1. induction S as [|sg p ps fs K S IH]; intros So P G; [constructor|].
    inversion So as [|? ? Q2 So']; subst. inversion P as [|? ? Q3 P2]; subst. inversion G as [|? ? [G1 G2] G3]; subst.
    cbn [map]. constructor; [|now apply IH]. exact (file_clean v _ _ G1 G2 K Q2 Q3). }
  destruct G as [G1 G2 G3 G4 G5 G6 G7 G8 G9 G10 G11 G12].
  assert (B1 : d_SPDXVersion d = version_string v).
  { rewrite G1. refine (last_in (fun x => x = version_string v) _ "" _ V). eapply Forall_impl; [|exact (values_Forall _ "SPDXVersion" _ F)].
    intros x C. exact (cl_version _ _ C eq_refl). }
  assert (B2 : d_SPDXIdentifier d = "" \/ ident_ok (d_SPDXIdentifier d)).
  { destruct W1 as [W1|W1]; [now left|right]. eapply (id_of v "SPDXID"); [cbn; tauto|exact Fhh|exact Id|exact W1]. }
  assert (B3 : Forall edr_rep (d_ExternalDocumentReferences d)).
  { eapply Forall2_right; [exact G6|exact (values_Forall _ _ _ F)|]. intros x e C E. exact (edr_clean_rep v _ _ C E). }
  assert (B4 : creation_info_rep ci) by (rewrite Ci in G7; exact (creation_clean v _ _ F G7)).
  assert (B5 : Forall license_rep (d_OtherLicenses d)) by (eapply Forall2_right; [exact G8|exact (proj2 (segs_Forall _ _ _ F))|]; intros sg e [C1 C2] E; exact (license_clean v _ _ C1 C2 E)).
  assert (B6 : Forall (relationship_rep v) (d_Relationships d)) by (eapply Forall2_right; [exact G9|exact (proj2 (segs_Forall _ _ _ F))|]; intros sg e [C1 C2] E; exact (relationship_clean v _ _ C1 C2 E)).
  assert (B7 : Forall annotation_rep (d_Annotations d)) by (eapply Forall2_right; [exact G10|exact (proj2 (segs_Forall _ _ _ F))|]; intros sg e [C1 C2] E; exact (annotation_clean v _ _ C1 C2 E)).
  assert (B8 : Forall review_rep (d_Reviews d)) by (eapply Forall2_right; [exact G11|exact (proj2 (segs_Forall _ _ _ F))|]; intros sg e [C1 C2] E; exact (review_clean v _ _ C1 C2 E)).
  assert (L1 : line_ok (d_DataLicense d)) by (rewrite G2; now apply (last_line v)). assert (L2 : line_ok (d_DocumentName d)) by (rewrite G3; now apply (last_line v)).
  assert (L3 : line_ok (d_DocumentNamespace d)) by (rewrite G4; now apply (last_line v)). assert (L4 : text_ok (d_DocumentComment d)) by (rewrite G5; now apply (last_text v)).
  assert (B9 : ci <> zero_CreationInfo \/ has_elements (tag_part v d)).
  { destruct Cn as [Cn|Cn]; [now left|right]. unfold has_elements, tag_part in *. cbn. destruct Cn as [Cn|[Cn|Cn]]; [left|right; left|now right; right].
    - now destruct (d_Files d).
    - now destruct (d_Packages d). }
  unfold representable. split; [exact B1|]. split; [exact L1|]. split; [exact B2|]. split; [exact L2|]. split; [exact L3|]. split; [exact B3|]. split; [exact L4|].
  split; [exists ci; split; [exact Ci|split; [exact B4|exact B9]]|]. split; [exact QP|]. split; [exact QF|]. split; [exact B5|]. split; [exact B6|].
  split; [exact B7|]. split; [exact B8|reflexivity].
Qed.

(** ** Saving again *)
Lemma files_distinct_perm l m : Permutation l m -> files_distinct l -> files_distinct m.
Proof. intros P [N F]. split; [exact (Permutation_NoDup (Permutation_map _ P) N)|exact (Permutation_Forall P F)]. Qed.
Lemma distinct_reordered d e : document_reordered d e -> distinct_ids d -> distinct_ids e.
Proof.
  intros (refs & fs & k & ps & P1 & P2 & P3 & F & ->) (N1 & N2 & N3 & N4).
  split; [exact (Permutation_NoDup (Permutation_map _ P1) N1)|]. split; [exact (files_distinct_perm _ _ P2 N2)|].
  assert (N3' := Permutation_NoDup (Permutation_map _ P3) N3). assert (N4' := Permutation_Forall P3 N4). cbn. split.
  - enough (E : map p_SPDXIdentifier ps = map p_SPDXIdentifier k) by now rewrite E.
    clear -F. induction F as [|p q k ps (x & _ & ->) F IH]; [reflexivity|]. cbn [map]. now rewrite IH.
  - clear -F N4'. induction F as [|p q k ps (x & P & ->) F IH]; constructor; inversion N4'; subst; [exact (files_distinct_perm _ _ P H1)|now apply IH].
Qed.
Lemma distinct_part v d : distinct_ids d -> distinct_ids (tag_part v d).
Proof.
  assert (FD : forall l, files_distinct l -> files_distinct (map (tag_file v) l)).
  { intros l [N F]. split; [rewrite map_map; exact N|]. apply Forall_map. eapply Forall_impl; [|exact F]. intros f D. unfold file_distinct in *. cbn. now rewrite map_map. }
  intros (N1 & N2 & N3 & N4). split; [exact N1|]. split; [exact (FD _ N2)|]. split.
  - cbn. rewrite map_map. erewrite map_ext; [exact N3|]. intros p. apply package_id_kept.
  - cbn. apply Forall_map. eapply Forall_impl; [|exact N4]. intros p D. rewrite package_files_kept. now apply FD.
Qed.
Lemma reload_part so v d : representable v (tag_part v d) -> exists t d' e, render_document so v d = Ok (t, d') /\ document_same (tag_part v d) e /\
  (Forall short (stream_lines t) -> read_into t = Ok (v, Some e)) /\ (distinct_ids d -> forall so', exists e', render_document so' v e = Ok (t, e')).
Proof.
  intros R. pose proof (part_keyed v d R) as K. pose proof (arranged_reordered so v d) as A.
  destruct (round_trip insertion_sorter v (arranged so v d) (rep_reordered _ _ _ A R)) as (t & d1 & e & W & _ & M & S & Rd).
  assert (W' : (exists d', render_document so v d = Ok (t, d')) /\ d1 = arranged so v d).
  { unfold render_document in W |- *. rewrite chunks_ins in W by exact K. destruct (render_document_chunks so v d) as [l|?|]; cbn [bindR] in W |- *; try discriminate W.
    rewrite arranged_sorted in W. injection W as <- <-. eauto. }
  destruct W' as [(d' & W') ->]. exists t, d', e. split; [exact W'|]. split; [exact (maps_same _ _ _ A M)|]. split; [exact Rd|].
  intros D so'. apply (write_canonical insertion_sorter so' v (arranged so v d) e t (arranged so v d)); [|exact S|exact W].
  apply (distinct_reordered (tag_part v d)); [exact A|now apply distinct_part].
Qed.

(** ** Nothing left out *)
Lemma tag_ranges_kept (l : pairs) rs : Forall2 range_den (range_pairs l) rs -> Forall (fun r =>
    let a := sr_StartPointer r in let b := sr_EndPointer r in
    (rp_Offset a <> 0%Z /\ rp_Offset b <> 0%Z) \/ (rp_LineNumber a <> 0%Z /\ rp_LineNumber b <> 0%Z)) rs -> flat_map tag_range rs = rs.
Proof.
  intros H K. induction H as [|p r ps rs (a & b & _ & E) H IH]; [reflexivity|]. inversion K as [|? ? K1 K2]; subst. cbn [flat_map]. rewrite IH by exact K2.
  change (r :: rs) with ([r] ++ rs)%list. f_equal. unfold tag_range.
  destruct (String.eqb (fst p) "SnippetByteRange"); subst r; cbn in K1 |- *; destruct K1 as [[X Y]|[X Y]]; try congruence; apply Z.eqb_neq in X, Y; now rewrite X, Y.
Qed.
Lemma tag_snippet_whole v (seg : string * pairs) s : snippet_den v seg s -> Forall (fun r =>
    let a := sr_StartPointer r in let b := sr_EndPointer r in
    (rp_Offset a <> 0%Z /\ rp_Offset b <> 0%Z) \/ (rp_LineNumber a <> 0%Z /\ rp_LineNumber b <> 0%Z)) (s_Ranges s) -> tag_snippet v s = s.
Proof.
  intros D K. unfold tag_snippet. rewrite (tag_ranges_kept _ _ (sn_ranges _ _ _ D) K).
  assert (E : from_22 v (s_AttributionTexts s) = s_AttributionTexts s) by (rewrite (sn_attr _ _ _ D); now destruct v).
  rewrite E. now destruct s.
Qed.
Lemma tag_file_whole v (seg : string * pairs) f : file_den v seg f -> ranges_kept f -> tag_file v f = f.
Proof.
  intros [D S] K. unfold tag_file.
  assert (E : from_22 v (f_AttributionTexts f) = f_AttributionTexts f) by (rewrite (fi_attr _ _ _ D); now destruct v). rewrite E.
  assert (M : map (fun e => (fst e, tag_snippet v (snd e))) (f_Snippets f) = f_Snippets f).
  { unfold ranges_kept in K. revert S K. generalize (parts_of "SnippetSPDXID" (snd seg)) (f_Snippets f). intros ps es S.
    induction S as [|sg e ps es [_ Hd] S IH]; intros K; [reflexivity|]. inversion K as [|? ? K1 K2]; subst. cbn [map]. rewrite IH by exact K2.
    rewrite (tag_snippet_whole _ _ _ Hd K1). now destruct e. }
  rewrite M. assert (A := fi_anns _ _ _ D). destruct f. cbn in A |- *. now rewrite A.
Qed.
Lemma files_whole v (ps : list (string * pairs)) fs : Forall2 (file_den v) ps fs -> Forall ranges_kept fs -> map (tag_file v) fs = fs.
Proof.
  intros S. induction S as [|sg f ps fs D S IH]; intros K; [reflexivity|]. inversion K as [|? ? K1 K2]; subst. cbn [map]. rewrite IH by exact K2.
  now rewrite (tag_file_whole _ _ _ D K1).
Qed.
Lemma tag_package_whole v (seg : string * pairs) p : package_den v seg p -> package_ok v p -> package_kept p -> tag_package v p = p.
Proof.
  intros [D S] (_ & _ & _ & _ & _ & U & An & Fa) (K1 & K2 & K3 & K4 & K5). assert (F := files_whole _ _ _ S K5).
  assert (At : from_22 v (p_AttributionTexts p) = p_AttributionTexts p) by (rewrite (pk_attr _ _ _ D); now destruct v).
  assert (X1 : from_23 v (p_PrimaryPackagePurpose p) = p_PrimaryPackagePurpose p) by (rewrite (pk_purpose _ _ _ D); now destruct v).
  assert (X2 : from_23 v (p_ReleaseDate p) = p_ReleaseDate p) by (rewrite (pk_release _ _ _ D); now destruct v).
  assert (X3 : from_23 v (p_BuiltDate p) = p_BuiltDate p) by (rewrite (pk_built _ _ _ D); now destruct v).
  assert (X4 : from_23 v (p_ValidUntilDate p) = p_ValidUntilDate p) by (rewrite (pk_valid _ _ _ D); now destruct v).
  assert (Su : tag_supplier (p_Supplier p) = p_Supplier p) by (destruct (p_Supplier p) as [[[|a n] k]|]; cbn in K3 |- *; congruence).
  assert (Or : tag_originator (p_Originator p) = p_Originator p) by (destruct (p_Originator p) as [[[|a n] k]|]; cbn in K4 |- *; congruence).
  assert (Co : tag_code (p_VerificationCode p) = p_VerificationCode p).
  { assert (C := pk_code _ _ _ D). unfold opt_text_of in C. destruct (values "PackageVerificationCode" (snd seg)) as [|y l]; [now rewrite C|].
    destruct C as (c & C & T). rewrite C in *. cbn [opt_ok] in K2. destruct c as [x ex]. cbn [vc_Value] in K2. destruct x as [|a x]; [congruence|].
    destruct T as [[_ T]|(u & w & n & _ & _ & T)]; injection T as _ ->; reflexivity. }
  unfold tag_package. rewrite At, X1, X2, X3, X4, Su, Or, Co, F. destruct (p_FilesAnalyzed p) eqn:A.
  - clear -U An. destruct p as [q1 q2 q3 q4 q5 q6 q7 q8 q9 q10 q11 q12 q13 q14 q15 q16 q17 q18 q19 q20 q21 q22 q23 q24 q25 q26 q27 q28 q29 q30].
    cbn [p_IsUnpackaged p_Annotations] in U, An. subst. reflexivity.
  - specialize (Fa eq_refl). destruct (K1 eq_refl) as [Y1 Y2]. clear -U An Fa Y1 Y2.
    destruct p as [q1 q2 q3 q4 q5 q6 q7 q8 q9 q10 q11 q12 q13 q14 q15 q16 q17 q18 q19 q20 q21 q22 q23 q24 q25 q26 q27 q28 q29 q30].
    cbn [p_IsUnpackaged p_Annotations p_IsFilesAnalyzedTagPresent p_VerificationCode p_LicenseInfoFromFiles] in *. subst. reflexivity.
Qed.
Lemma tag_part_whole v l d : document_den v l d -> well_formed v d -> whole d -> tag_part v d = d.
Proof.
  intros (G & _ & Ps & Fs) (_ & W & _) [K1 K2]. unfold tag_part. rewrite (files_whole _ _ _ Fs K1).
  assert (E : map (tag_package v) (d_Packages d) = d_Packages d).
  { revert Ps W K2. generalize (parts_of "PackageName" l) (d_Packages d). intros ps pk S. induction S as [|sg p ps pk D S IH]; intros W K; [reflexivity|].
    inversion W as [|? ? W1 W2]; subst. inversion K as [|? ? Ka Kb]; subst. cbn [map]. rewrite IH by assumption. now rewrite (tag_package_whole _ _ _ D W1 Ka). }
  rewrite E. assert (Sn := g_snippets _ _ _ G). clear -Sn. destruct d. cbn in Sn |- *. now rewrite Sn.
Qed.
