(** Reading back what was printed for arbitrary values (property C29). *)
From Verif Require Import GoStr GoStrFacts Sorting Types TvUtil TvReader TvParser TvWriter SpecTv SpecId SpecDoc
  SpecWrite SpecInject TvReaderFacts TvUtilFacts TvWriterFacts.

Lemma drop_cr_cons a b x : drop_cr (String a (String b x)) = String a (drop_cr (String b x)).
Proof. exact (drop_cr_app (String a "") (String b x) ltac:(discriminate)). Qed.
Lemma crlf_app x y : has_byte (byte 10) x = false -> crlf_to_lf (x ++ LF ++ y) = drop_cr x ++ LF ++ crlf_to_lf y.
Proof.
  induction x as [|a x IH]; intros H.
  - change (drop_cr "") with "". cbn [append]. unfold LF. cbn [append]. destruct y as [|b y]; [reflexivity|].
    cbn [crlf_to_lf]. reflexivity.
  - cbn [has_byte] in H. apply orb_false_iff in H as [Ha H]. specialize (IH H).
    destruct x as [|b x].
    + cbn [append] in *. unfold LF in *. cbn [append] in *. cbn [crlf_to_lf].
      destruct (Ascii.eqb_spec a CR) as [->|N]; cbn [andb].
      * rewrite Ascii.eqb_refl. cbn [crlf_to_lf] in IH. exact IH.
      * assert (drop_cr (String a "") = String a "") as ->.
        { destruct (drop_cr_cases (String a "")) as [E|E]; [exact E|].
          destruct (drop_cr (String a "")) as [|c [|]]; inversion E. congruence. }
        cbn [append]. f_equal. exact IH.
    + change (String a (String b x) ++ LF ++ y) with (String a (String b (x ++ LF ++ y))).
      rewrite drop_cr_cons. cbn [crlf_to_lf]. cbn [has_byte] in H. apply orb_false_iff in H as [Hb H].
      assert (Ascii.eqb b (byte 10) = false) as -> by (rewrite Ascii.eqb_sym; exact Hb).
      rewrite andb_false_r. cbn [append]. f_equal. exact IH.
Qed.
Lemma crlf_no_lf x : has_byte (byte 10) x = false -> crlf_to_lf x = x.
Proof.
  induction x as [|a x IH]; intros H; [reflexivity|]. cbn [has_byte] in H. apply orb_false_iff in H as [Ha H].
  specialize (IH H). cbn [crlf_to_lf]. destruct x as [|b x]; [reflexivity|].
  cbn [has_byte] in H. apply orb_false_iff in H as [Hb H].
  assert (Ascii.eqb b (byte 10) = false) as -> by (rewrite Ascii.eqb_sym; exact Hb).
  rewrite andb_false_r. now f_equal.
Qed.
Lemma contains_drop p x : contains p x = false -> contains p (drop_cr x) = false.
Proof.
  intros H. destruct (drop_cr_cases x) as [->|E]; [assumption|]. rewrite E in H. now apply contains_app_false in H as [H _].
Qed.

Lemma ready_line ps t v : good_tag t -> contains "<text>" v = false ->
  read_ready (ready ps) (drop_cr (t ++ ": " ++ v)) = Ok (ready (ps ++ [(t, trim_space (drop_cr v))])).
Proof.
  intros Ht V3.
  assert (drop_cr (t ++ ": " ++ v) = t ++ ": " ++ drop_cr v) as ->.
  { rewrite drop_cr_app by discriminate. f_equal. destruct v as [|a v]; [reflexivity|].
    rewrite drop_cr_app by discriminate. reflexivity. }
  apply contains_drop in V3. set (w := drop_cr v) in *.
  change (": " ++ w) with (":" ++ (String " " w)).
  destruct (good_tag_line t (String " " w) Ht) as (E1 & E2 & E3 & E4).
  unfold read_ready. rewrite E1, E2, E3, E4.
  apply contains_false in V3.
  assert (cut "<text>" (String " " w) = None) as ->.
  { rewrite cut_unfold. cbn [strip_prefix]. change (Ascii.eqb "<" " ") with false. cbv iota. now rewrite V3. }
  rewrite trim_space_space. destruct Ht as (-> & _). reflexivity.
Qed.
Lemma mid_text w : forall ps tag acc,
  contains "</text>" w = false ->
  forallb fits (split_on (byte 10) (w ++ "</text>")) = true ->
  read_all (MkTvr true ps tag acc) (split_on (byte 10) (w ++ "</text>")) = Ok (ready (ps ++ [(tag, acc ++ crlf_to_lf w)])).
Proof.
  remember (String.length w) as n eqn:Hn. revert w Hn.
  induction n as [n IH] using lt_wf_ind. intros w Hn ps tag acc Hc Hf.
  destruct (cut LF w) as [[x y]|] eqn:E.
  - apply cut_byte_some in E as [-> Hx].
    assert (L : String.length y < n) by (subst n; rewrite app_length_s; simpl; lia).
    rewrite app_assoc_s in *. change (String (byte 10) y ++ "</text>") with (String (byte 10) (y ++ "</text>")) in *.
    rewrite split_on_app, split_on_none in * by exact Hx.
    simpl in Hf. apply andb_true_iff in Hf as [F1 F2].
    cbn [app read_all]. rewrite F1.
    unfold read_next_line, read_midtext. cbn [tv_midtext tv_list tv_tag tv_value].
    apply contains_app_false in Hc as [Hc1 Hc2]. apply contains_drop in Hc1.
    rewrite (proj1 (contains_false _ _) Hc1). cbn [bindR].
    change (String (byte 10) y) with (LF ++ y) in *. rewrite crlf_app by exact Hx.
    rewrite (IH (String.length y)); auto.
    + unfold LF. rewrite !app_assoc_s. reflexivity.
    + now apply contains_app_false in Hc2 as [_ ->].
  - apply cut_byte_none in E. rewrite crlf_no_lf by exact E.
    assert (N : has_byte (byte 10) (w ++ "</text>") = false) by (rewrite has_byte_app, E; reflexivity).
    rewrite split_on_none in * by exact N.
    simpl in Hf. rewrite andb_true_r in Hf. cbn [read_all]. rewrite Hf.
    rewrite drop_cr_app by discriminate. change (drop_cr "</text>") with "</text>".
    unfold read_next_line, read_midtext. cbn [tv_midtext tv_list tv_tag tv_value].
    change "</text>" with ("</text>" ++ "") at 2.
    rewrite cut_app_head; [reflexivity|reflexivity|]. now apply contains_false.
Qed.

Definition text_seen (v : string) : string := if has_newline v then crlf_to_lf v else trim_space (drop_cr v).
Lemma text_line ps t v : good_tag t -> (if has_newline v then contains "</text>" v = false else contains "<text>" v = false) ->
  forallb fits (split_on (byte 10) (t ++ ": " ++ (if has_newline v then "<text>" ++ v ++ "</text>" else v))) = true ->
  read_all (ready ps) (split_on (byte 10) (t ++ ": " ++ (if has_newline v then "<text>" ++ v ++ "</text>" else v)))
  = Ok (ready (ps ++ [(t, text_seen v)])).
Proof.
  intros Ht V1 Hf. unfold text_seen, has_newline in *.
  pose proof Ht as (_ & _ & Tn & _). rewrite has_byte_lf in Tn.
  destruct (contains LF v) eqn:C.
  - apply contains_true in C as (x0 & y0 & C).
    destruct (cut LF v) as [[x y]|] eqn:E.
    2:{ apply cut_byte_none in E. rewrite C, !has_byte_app in E. unfold LF in E. simpl in E.
        rewrite orb_true_r in E. discriminate. }
    clear x0 y0 C. apply cut_byte_some in E as [-> Hx].
    assert (R : t ++ ": " ++ "<text>" ++ (x ++ String (byte 10) y) ++ "</text>"
              = (t ++ ": <text>" ++ x) ++ String (byte 10) (y ++ "</text>")).
    { rewrite !app_assoc_s. simpl. rewrite ?app_assoc_s. reflexivity. }
    rewrite R in *. clear R. rewrite split_on_app in *.
    rewrite (split_on_none _ (t ++ ": <text>" ++ x)) in *
      by (rewrite !has_byte_app, Tn, Hx; reflexivity).
    cbn [app forallb] in Hf. apply andb_true_iff in Hf as [F1 F2].
    cbn [app read_all]. rewrite F1.
    assert (D : drop_cr (t ++ ": <text>" ++ x) = t ++ ": <text>" ++ drop_cr x).
    { rewrite drop_cr_app by discriminate. f_equal. destruct x as [|a x]; [reflexivity|].
      rewrite drop_cr_app by discriminate. reflexivity. }
    rewrite D. change (": <text>" ++ drop_cr x) with (":" ++ (" " ++ "<text>" ++ drop_cr x)).
    destruct (good_tag_line t (" " ++ "<text>" ++ drop_cr x) Ht) as (E1 & E2 & E3 & E4).
    unfold read_next_line, read_ready, ready at 1. cbn [tv_midtext]. rewrite E1, E2, E3, E4.
    rewrite (cut_app_head "<" "text>" " " (drop_cr x)) by reflexivity.
    apply contains_app_false in V1 as [V1 V1']. apply contains_drop in V1.
    rewrite (proj1 (contains_false _ _) V1). cbn [bindR].
    change (String (byte 10) y) with (LF ++ y) in *. rewrite crlf_app by exact Hx.
    rewrite mid_text.
    + destruct Ht as (-> & _). unfold ready. simpl. rewrite app_assoc_s. reflexivity.
    + now apply contains_app_false in V1' as [_ ->].
    + exact F2.
  - pose proof C as C'. rewrite has_byte_lf in C'.
    rewrite split_on_none in * by (rewrite !has_byte_app, Tn, C'; reflexivity).
    cbn [forallb] in Hf. rewrite andb_true_r in Hf. cbn [read_all]. rewrite Hf.
    unfold read_next_line. cbn [tv_midtext ready].
    change (MkTvr false ps "" "") with (ready ps).
    rewrite ready_line; [reflexivity|exact Ht|exact V1].
Qed.

(** ** Lists of chunks *)
Definition neat (c : chunk) : Prop :=
  match c with
  | Field t _ => good_tag t
  | TextField t _ => good_tag t
  | Raw s => raw_ok s
  end.
Lemma read_harmless l : forall ps, Forall neat l -> Forall harmless l -> forallb fits (raw_lines (bytes l)) = true ->
  read_all (ready ps) (raw_lines (bytes l)) = Ok (ready (ps ++ flat_map seen l)).
Proof.
  induction l as [|c l IH]; intros ps N H F.
  - cbn. now rewrite app_nil_r.
  - inversion H as [|? ? Hc Hl]; subst. inversion N as [|? ? Nc Nl]; subst. cbn [bytes flat_map] in *.
    destruct c as [t x|t x|s]; cbn [chunk_bytes seen neat harmless] in *.
    + destruct Hc as [X1 X2]. pose proof Nc as (_ & _ & Tn & _). rewrite has_byte_lf in Tn.
      assert (contains LF x = false) as Vn by (apply not_occurs_contains in X1; exact X1).
      apply not_occurs_contains in X2. rewrite has_byte_lf in Vn.
      replace ((t ++ ": " ++ x ++ LF) ++ bytes l) with ((t ++ ": " ++ x) ++ LF ++ bytes l) in *
        by (rewrite !app_assoc_s; reflexivity).
      rewrite raw_lines_app in *. rewrite forallb_app in F. apply andb_true_iff in F as [F1 F2].
      rewrite read_all_app.
      rewrite split_on_none in * by (rewrite !has_byte_app, Tn, Vn; reflexivity).
      cbn [forallb] in F1. rewrite andb_true_r in F1. cbn [read_all]. rewrite F1.
      unfold read_next_line. cbn [tv_midtext ready]. change (MkTvr false ps "" "") with (ready ps).
      rewrite ready_line by assumption. cbn [bindR]. rewrite IH by auto. now rewrite <- app_assoc.
    + unfold textify in *.
      replace ((t ++ ": " ++ (if contains LF x then "<text>" ++ x ++ "</text>" else x) ++ LF) ++ bytes l)
        with ((t ++ ": " ++ (if contains LF x then "<text>" ++ x ++ "</text>" else x)) ++ LF ++ bytes l) in *
        by (rewrite !app_assoc_s; reflexivity).
      rewrite raw_lines_app in *. rewrite forallb_app in F. apply andb_true_iff in F as [F1 F2].
      rewrite read_all_app.
      assert (if has_newline x then contains "</text>" x = false else contains "<text>" x = false) as Hx.
      { destruct (has_newline x); now apply not_occurs_contains. }
      pose proof (text_line ps t x Nc Hx F1) as E. unfold has_newline in E.
      rewrite E. cbn [bindR]. rewrite IH by auto. now rewrite <- app_assoc.
    + destruct Nc as (b & -> & Hb). rewrite app_assoc_s in *.
      rewrite raw_lines_app in *. rewrite forallb_app in F. apply andb_true_iff in F as [F1 F2].
      rewrite read_all_app, read_skipped by auto. cbn [bindR]. now rewrite IH.
Qed.

(** ** Every printed tag is neat *)
Lemma neat_one t x : good_tag t -> Forall neat [Field t x].
Proof. intros H. now repeat constructor; apply H. Qed.
Lemma neat_opt t x : good_tag t -> Forall neat (opt t x).
Proof. intros H. unfold opt. destruct (nonempty x); [now apply neat_one|constructor]. Qed.
Lemma neat_opt_text t x : good_tag t -> Forall neat (opt_text t x).
Proof. intros H. unfold opt_text. destruct (nonempty x); [|constructor]. constructor; [exact H|constructor]. Qed.
Lemma neat_map {A} (f : A -> chunk) l : (forall x, neat (f x)) -> Forall neat (map f l).
Proof. intros H. induction l; cbn [map]; constructor; auto. Qed.
Lemma neat_flat_map {A} (f : A -> list chunk) l : (forall x, Forall neat (f x)) -> Forall neat (flat_map f l).
Proof. intros H. induction l; cbn [flat_map]; [constructor|]. apply Forall_app. auto. Qed.
Lemma neat_each t l : good_tag t -> Forall neat (each t l).
Proof. intros H. apply neat_map. intros x. exact H. Qed.
Lemma neat_each_text t l : good_tag t -> Forall neat (each_text t l).
Proof. intros H. apply neat_map. intros x. exact H. Qed.
Lemma neat_lf : Forall neat [Raw LF].
Proof. constructor; [|constructor]. exists "". split; [reflexivity|]. repeat constructor. Qed.
Ltac neat :=
  repeat first
    [ apply Forall_nil | apply neat_lf
    | apply Forall_app; split
    | apply neat_opt; tag | apply neat_opt_text; tag | apply neat_each; tag | apply neat_each_text; tag
    | apply neat_one; tag
    | apply neat_flat_map; intros ?x | apply neat_map; intros ?x; cbn [neat]; tag
    | apply Forall_cons; [cbn [neat]; tag|]
    | match goal with |- Forall _ (match ?x with _ => _ end) => destruct x end ].
Lemma neat_creation_info c : Forall neat (render_creation_info c).
Proof. unfold render_creation_info. neat. Qed.
Lemma neat_annotation a : Forall neat (render_annotation a).
Proof. unfold render_annotation. neat. Qed.
Lemma neat_relationship r : Forall neat (render_relationship r).
Proof. unfold render_relationship. neat. Qed.
Lemma neat_review r : Forall neat (render_review r).
Proof. unfold render_review. neat. Qed.
Lemma neat_license o : Forall neat (render_other_license o).
Proof. unfold render_other_license. neat. Qed.
Lemma neat_snippet v s : Forall neat (render_snippet v s).
Proof. unfold render_snippet, render_range. neat. Qed.
Lemma neat_file so v f : Forall neat (render_file so v f).
Proof. unfold render_file, render_artifact, render_snippets. neat; apply neat_snippet. Qed.
Lemma neat_package so v p : Forall neat (render_package so v p).
Proof.
  unfold render_package, render_package_fields, render_supplier, render_originator, render_files_analyzed,
    render_verification_code, render_external_ref. neat; apply neat_file.
Qed.
Lemma raw_header_lf x : has_byte (byte 10) x = false -> raw_ok ("##### " ++ x ++ LF ++ LF).
Proof.
  intros L. exists ("##### " ++ x ++ LF). split; [rewrite !app_assoc_s; reflexivity|].
  replace ("##### " ++ x ++ LF) with (("##### " ++ x) ++ String (byte 10) "") by (rewrite !app_assoc_s; reflexivity).
  rewrite split_on_app, split_on_none by (rewrite has_byte_app, L; reflexivity).
  cbn [split_on app]. constructor; [|constructor; [|constructor]].
  - right. destruct x as [|a x]; [exists "#### "; reflexivity|].
    rewrite drop_cr_app by discriminate. exists ("#### " ++ drop_cr (String a x)). reflexivity.
  - left. reflexivity.
Qed.
Lemma neat_section {A} t (l : list A) body : has_byte (byte 10) t = false -> Forall neat body -> Forall neat (section t l body).
Proof. intros Ht Hb. unfold section. destruct l; [constructor|]. constructor; [|assumption]. now apply raw_header_lf. Qed.

Lemma neat_packages so v l : Forall harmless (flat_map (fun p => Raw ("##### Package: " ++ p_PackageName p ++ LF ++ LF) :: render_package so v p) l) ->
  Forall neat (flat_map (fun p => Raw ("##### Package: " ++ p_PackageName p ++ LF ++ LF) :: render_package so v p) l).
Proof.
  induction l as [|p l IH]; cbn [flat_map]; intros H; [constructor|].
  apply Forall_app in H as [Hp Hl]. inversion Hp as [|? ? _ Hq]; subst. apply Forall_app. split; [|auto].
  constructor; [|apply neat_package]. cbn [neat].
  change ("##### Package: " ++ p_PackageName p ++ LF ++ LF) with ("##### " ++ ("Package: " ++ p_PackageName p) ++ LF ++ LF).
  apply raw_header_lf. rewrite has_byte_app. cbn [orb has_byte]. change (has_byte (byte 10) "Package: ") with false. cbn [orb].
  unfold render_package, render_package_fields in Hq. apply Forall_app in Hq as [Hq _]. apply Forall_app in Hq as [Hq _].
  unfold opt in Hq. destruct (nonempty (p_PackageName p)) eqn:E; [|apply nonempty_false in E; now rewrite E].
  apply Forall_inv in Hq. destruct Hq as [Hn _]. apply not_occurs_contains in Hn. now rewrite has_byte_lf in Hn.
Qed.
Lemma neat_document so v d l : render_document_chunks so v d = Ok l -> Forall harmless l -> Forall neat l.
Proof.
  unfold render_document_chunks. destruct (d_CreationInfo d) as [ci|]; [|discriminate]. intros E. injection E as <-.
  intros H. apply Forall_app in H as [_ H]. apply Forall_app in H as [_ H]. unfold render_sections in H.
  apply Forall_app in H as [_ H]. apply Forall_app in H as [H _].
  apply Forall_app; split; [unfold render_header, render_edr; neat|].
  apply Forall_app; split; [apply neat_creation_info|]. unfold render_sections.
  apply Forall_app; split; [apply neat_section; [reflexivity|apply neat_flat_map; apply neat_file]|].
  apply Forall_app; split; [now apply neat_packages|].
  apply Forall_app; split; [apply neat_section; [reflexivity|apply neat_flat_map; apply neat_license]|].
  apply Forall_app; split; [apply neat_section; [reflexivity|apply Forall_app; split; [apply neat_flat_map; apply neat_relationship|apply neat_lf]]|].
  apply Forall_app; split; [apply neat_section; [reflexivity|apply neat_flat_map; intros a; apply Forall_app; split; [apply neat_annotation|apply neat_lf]]|].
  apply neat_section; [reflexivity|apply neat_flat_map; apply neat_review].
Qed.
Lemma no_injection so v d l : render_document_chunks so v d = Ok l -> Forall harmless l ->
  Forall short (stream_lines (bytes l)) -> read_tag_values (bytes l) = Ok (flat_map seen l).
Proof.
  intros E H F. pose proof (neat_document so v d l E H) as N.
  rewrite <- raw_lines_spec in F. apply forallb_fits in F.
  unfold read_tag_values. pose proof (read_harmless l [] N H F) as R.
  change (ready []) with tvr_init in R. rewrite R. reflexivity.
Qed.
Lemma no_injection_text so v d t d' l : render_document so v d = Ok (t, d') ->
  render_document_chunks so v d = Ok l -> Forall harmless l -> Forall short (stream_lines t) ->
  read_tag_values t = Ok (flat_map seen l).
Proof.
  unfold render_document. intros W E H F. rewrite E in W. cbn [bindR] in W. injection W as <- <-.
  exact (no_injection so v d l E H F).
Qed.
