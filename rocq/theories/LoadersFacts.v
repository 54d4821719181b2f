(** Lemmas about the programs that load a document and print a portion of it. *)
From Verif Require Import GoStr GoStrFacts Sorting Types TvUtil TvReader TvParser TvState SpdxLib Convert ConvertGo Json JsonSpdx JsonText Formats Stream Yaml Rdf RdfReader RdfRead Transfer
  SpecConvert SpecUpgrade SpecTools SpecFormats Loaders SpecLoaders ConvertDoc ConvertGoFacts JsonTextRead JsonReadFacts YamlFacts TransferFacts RdfReadFacts PropsTools SpecDoc SpecId ConvertRecord TvParserFacts.
Local Open Scope string_scope.

Local Transparent T_Document.
Lemma attribute_get v name g s : In name ["SPDXVersion"; "DataLicense"; "DocumentName"; "DocumentNamespace"] ->
  get (T_Document v) g [Fld name] = Some (VStr s) -> attribute name g = s.
Proof.
  intros I G. unfold attribute. unfold T_Document in G.
  destruct g; destruct v; cbn [In] in I; destruct I as [<- |[<- |[<- |[<- |[]]]]]; cbn in G; try discriminate G;
    match type of G with context [match ?a with Some _ => _ | None => _ end] => destruct a; [|discriminate G] end; cbn in G; now injection G as ->.
Qed.
Lemma attribute_path v name : In name ["SPDXVersion"; "DataLicense"; "DocumentName"; "DocumentNamespace"] -> path_of (T_Document v) [Fld name] = true.
Proof. intros [<- |[<- |[<- |[<- |[]]]]]; destruct v; reflexivity. Qed.
Lemma document_attributes v (d : JDocument) :
  get (T_Document v) (go_jdocument v d) [Fld "SPDXVersion"] = Some (VStr (d_SPDXVersion d)) /\
  get (T_Document v) (go_jdocument v d) [Fld "DataLicense"] = Some (VStr (d_DataLicense d)) /\
  get (T_Document v) (go_jdocument v d) [Fld "DocumentName"] = Some (VStr (d_DocumentName d)) /\
  get (T_Document v) (go_jdocument v d) [Fld "DocumentNamespace"] = Some (VStr (d_DocumentNamespace d)).
Proof. destruct v; repeat split; reflexivity. Qed.
Local Opaque T_Document.
Definition version_after (v : version) (d : JDocument) : string := match v with V23 => d_SPDXVersion d | _ => "SPDX-2.3" end.
Lemma attributes_converted dz v (d : JDocument) : typed (T_Document v) (go_jdocument v d) ->
  exists g, convert_document dz v V23 (go_jdocument v d) = Ok g /\
    show_attributes g = attribute_lines (d_DocumentName d) (d_DataLicense d) (d_DocumentNamespace d) (version_after v d).
Proof.
  intros T. destruct (convert_ok dz v V23 _ T) as (g & C & _). exists g. split; [exact C|]. destruct (document_attributes v d) as (D1 & D2 & D3 & D4).
  assert (K : forall name s, In name ["DataLicense"; "DocumentName"; "DocumentNamespace"] -> get (T_Document v) (go_jdocument v d) [Fld name] = Some (VStr s) -> attribute name g = s).
  { intros name s I G. assert (J : In name ["SPDXVersion"; "DataLicense"; "DocumentName"; "DocumentNamespace"]) by now right. apply (attribute_get V23 _ _ _ J). rewrite <- G. apply (convert_get dz v V23 _ _ _ T C); [now apply attribute_path..|].
    intros E. injection E as ->. cbn in I. intuition discriminate. }
  unfold show_attributes. rewrite (K _ _ (or_introl eq_refl) D2), (K _ _ (or_intror (or_introl eq_refl)) D3), (K _ _ (or_intror (or_intror (or_introl eq_refl))) D4).
  replace (attribute "SPDXVersion" g) with (version_after v d); [reflexivity|]. symmetry. apply (attribute_get V23); [now left|].
  destruct v; [exact (convert_version dz V21 V23 _ _ T C ltac:(discriminate))|exact (convert_version dz V22 V23 _ _ T C ltac:(discriminate))|].
  injection C as <-. exact D1.
Qed.

(** ** Where the documents come from *)
Lemma unmarshal_typed v j d : unmarshal_document v j = Ok d -> typed (T_Document v) (go_jdocument v d).
Proof. intros U. apply typed_jdocument. now apply unmarshal_bare in U as [B _]. Qed.
Lemma json_typed c v d : json_read_into c = Ok (v, d) -> typed (T_Document v) (go_jdocument v d).
Proof.
  unfold json_read_into. destruct (parse_text c) as [j|]; [|discriminate]. destruct (floats_ok j); [|discriminate]. intros R. apply read_value_split in R as [_ U]. now apply unmarshal_typed in U.
Qed.
Lemma yaml_typed to_json c v d : yaml_read_into to_json c = Ok (v, d) -> typed (T_Document v) (go_jdocument v d).
Proof.
  unfold yaml_read_into. intros R. apply bindR_ok_iff in R as (t & _ & R). destruct (parse_text t) as [j|]; [|discriminate R]. destruct (floats_ok j); [|discriminate R].
  apply bindR_ok_iff in R as (w & _ & R). apply bindR_ok_iff in R as (t' & _ & R). destruct (parse_text t') as [j'|]; [|discriminate R].
  apply bindR_ok_iff in R as (e & U & R). injection R as <- <-. now apply unmarshal_typed in U.
Qed.

(** ** The list of files *)
Lemma files_shown n : forall i fs, (i + N.of_nat n = 51)%N -> n <> 0 -> show_files i (map (fun f => Some (jfile f)) fs) = MkShown (numbered i (firstn n fs)) false.
Proof.
  induction n as [|n IH]; intros i fs E N; [congruence|]. destruct fs as [|f fs]; [reflexivity|]. cbn [map show_files firstn numbered]. destruct n as [|n].
  - replace (50 <? i + 1)%N with true by (symmetry; apply N.ltb_lt; lia). cbn [firstn numbered]. unfold file_lines. rewrite !app_assoc_s, app_nil_r_s. reflexivity.
  - replace (50 <? i + 1)%N with false by (symmetry; apply N.ltb_ge; lia). rewrite IH by (discriminate || lia). unfold and_then, file_lines. cbn [broke printed]. rewrite !app_assoc_s. reflexivity.
Qed.
Lemma ids_of d srt : described_ids srt (jdoc d) = get_described_package_ids srt d.
Proof.
  assert (A : forall {X} (l : list X), all_there (map Some l) = Some l) by (intros X l; induction l as [|x l IH]; cbn [map all_there]; [reflexivity|now rewrite IH]).
  unfold described_ids, get_described_package_ids. cbn [jdoc d_Packages d_Relationships]. destruct (d_Packages d) as [|p [|q l]]; cbn [map]; [reflexivity..|].
  destruct (d_Relationships d) as [|r rs]; cbn [map]; [reflexivity|]. change (Some r :: map Some rs) with (map Some (r :: rs)). now rewrite A.
Qed.
Lemma package_shown d p ids : (existsb (String.eqb (p_SPDXIdentifier p)) ids = true <-> describes d p) ->
  exists t, show_package ids (Some (jpkg p)) = MkShown t false /\ shown_as d p t.
Proof.
  intros D. unfold show_package. cbn [jpkg p_SPDXIdentifier p_FilesAnalyzed p_PackageName p_Files].
  destruct (existsb (String.eqb (p_SPDXIdentifier p)) ids) eqn:E; cbn [negb].
  2:{ eexists. split; [reflexivity|]. apply not_described. intros X. apply D in X. discriminate. }
  assert (X : describes d p) by now apply D. destruct (p_FilesAnalyzed p) eqn:A; cbn [negb].
  2:{ eexists. split; [reflexivity|]. pose proof (not_analyzed d p X A) as Y. unfold title in Y. rewrite !app_assoc_s in Y. exact Y. }
  destruct (p_Files p) as [|f fs] eqn:F; cbn [map].
  - eexists. split; [reflexivity|]. pose proof (without_files d p X A F) as Y. unfold title in Y. rewrite !app_assoc_s in Y. exact Y.
  - change (Some (jfile f) :: map (fun f => Some (jfile f)) fs) with (map (fun f => Some (jfile f)) (f :: fs)). rewrite (files_shown 50) by (discriminate || reflexivity).
    eexists. split; [unfold and_then; cbn [broke printed]; reflexivity|]. assert (N : p_Files p <> []) by (rewrite F; discriminate).
    pose proof (with_files d p X A N) as Y. unfold title in Y. rewrite F in Y. rewrite !app_assoc_s in *. exact Y.
Qed.
Lemma packages_shown d ids ps : (forall p, In p ps -> (existsb (String.eqb (p_SPDXIdentifier p)) ids = true <-> describes d p)) ->
  exists parts, show_packages ids (map (fun p => Some (jpkg p)) ps) = MkShown (String.concat "" parts) false /\ Forall2 (shown_as d) ps parts.
Proof.
  induction ps as [|p ps IH]; intros H; [exists []; split; [reflexivity|constructor]|].
  destruct (package_shown d p ids (H p (or_introl eq_refl))) as (t & E & S). destruct IH as (parts & E' & F); [intros q I; apply H; now right|].
  exists (t :: parts). split; [|constructor; auto]. cbn [map show_packages]. rewrite E, E'. unfold and_then. cbn [broke printed]. f_equal.
  destruct parts; cbn [String.concat]; [now rewrite app_nil_r_s|reflexivity].
Qed.
Lemma described_by srt d ids : get_described_package_ids srt d = Ok ids -> ids <> [] /\ forall p, In p (d_Packages d) -> (existsb (String.eqb (p_SPDXIdentifier p)) ids = true <-> describes d p).
Proof.
  intros E. pose proof (C21_described srt d) as H. unfold describes. destruct (d_Packages d) as [|p [|q l]] eqn:P.
  - destruct H as (m & H). congruence.
  - rewrite E in H. injection H as ->. split; [discriminate|]. intros r [<- |[]]. cbn. rewrite String.eqb_refl. split; [intros _; now left|reflexivity].
  - destruct H as (H & _ & _). destruct (H ids E) as (N & _ & I). split; [exact N|]. intros r _. rewrite existsb_exists. split.
    + intros (x & J & K). apply String.eqb_eq in K. subst x. right. split; [cbn; lia|]. now apply I.
    + intros [X|[_ X]]; [discriminate X|]. exists (p_SPDXIdentifier r). split; [now apply I|apply String.eqb_refl].
Qed.
Lemma described_when srt d : (describes_something d -> exists ids, get_described_package_ids srt d = Ok ids) /\ (~ describes_something d -> exists m, get_described_package_ids srt d = Err m).
Proof.
  pose proof (C21_described srt d) as H. unfold describes_something. destruct (d_Packages d) as [|p [|q l]]; cbn [List.length].
  - split; [intros [X|[X _]]; [discriminate|lia]|auto].
  - split; [eauto|]. intros X. destruct X. now left.
  - destruct H as (_ & H1 & H2). split; [intros [X|[_ X]]; [discriminate|now apply H1]|]. intros X. apply H2. intros id I. apply X. right. split; [lia|eauto].
Qed.

(** ** Documents read from tag-value text have no nil packages, package files or relationships *)
Definition package_path (i : nat) := [Fld "Packages"; Idx i; Fld "PackageSPDXIdentifier"].
Definition file_path i j := [Fld "Packages"; Idx i; Fld "Files"; Idx j; Fld "FileSPDXIdentifier"].
Definition relationship_path i := [Fld "Relationships"; Idx i; Fld "Relationship"].
Definition full (v : version) (g : gval) (p : list step) : Prop := forall z, get (T_Document v) g p = Some z -> is_zero z = false.
Definition named (v : version) (g : gval) : Prop :=
  (forall i, full v g (package_path i)) /\ (forall i j, full v g (file_path i j)) /\ (forall i, full v g (relationship_path i)).
Lemma every_at {A B} (f : A -> option B) l y i b : every f l = Some y -> nth_error y i = Some b -> exists a, nth_error l i = Some a /\ f a = Some b.
Proof.
  revert y i. induction l as [|x l IH]; cbn [every]; intros y i E N; [injection E as <-; now destruct i|].
  destruct (f x) as [c|] eqn:F; [|discriminate E]. cbn [obind] in E. destruct (every f l) as [r|]; [|discriminate E]. injection E as <-.
  destruct i as [|i]; cbn [nth_error] in N |- *; [injection N as <-; eauto|now apply IH with r].
Qed.
Lemma list_at {A} (f : gval -> option A) v y i b : of_list f v = Some y -> nth_error y i = Some b -> exists l a, v = VSlice l /\ nth_error l i = Some a /\ f a = Some b.
Proof.
  destruct v; cbn [of_list]; intros E N; try discriminate E; [injection E as <-; now destruct i|].
  destruct (every_at f _ _ _ _ E N) as (a & X & Y). eauto.
Qed.
Ltac next_part E := match type of E with obind ?a _ = _ => let Q := fresh "Q" in destruct a as [?|] eqn:Q; cbn [obind] in E; [|discriminate E] end.
Local Transparent T_Document.
Lemma named_paths v i j : path_of (T_Document v) (package_path i) = true /\ path_of (T_Document v) (file_path i j) = true /\ path_of (T_Document v) (relationship_path i) = true.
Proof. destruct v; repeat split; reflexivity. Qed.
Lemma package_full w p i : typed (T_Package V23) w -> mapped w -> of_package w = Some p -> nth_error (p_Files p) i = Some None ->
  get (T_Package V23) w [Fld "Files"; Idx i; Fld "FileSPDXIdentifier"] = Some (VStr "").
Proof.
  intros T M O N. unfold T_Package in T. cbn [app] in T. apply agree_struct in T as (fs & -> & A); [|exact M]. clear M. take_fields. unfold of_package in O.
  repeat next_part O. injection O as <-. cbn [p_Files] in N.
  match goal with Q : of_list (of_ptr of_file) _ = Some _ |- _ => destruct (list_at _ _ _ _ _ Q N) as (e & a & -> & L & F) end.
  destruct a; try discriminate F; [|cbn [of_ptr] in F; now destruct (of_file _)]. cbn. rewrite L. reflexivity.
Qed.
Lemma named_whole g d : typed (T_Document V23) g -> mapped g -> named V23 g -> of_document g = Some d ->
  ~ In None (d_Packages d) /\ (forall p, In (Some p) (d_Packages d) -> ~ In None (p_Files p)) /\ ~ In None (d_Relationships d).
Proof.
  intros T M (NP & NF & NR) O. unfold T_Document in T. apply agree_struct in T as (fs & -> & A); [|exact M]. clear M. take_fields. unfold of_document in O.
  repeat next_part O. injection O as <-. cbn [d_Packages d_Relationships].
  assert (Z : is_zero (VStr "") = true) by reflexivity. split; [|split].
  - intros I. apply In_nth_error in I as (i & N). destruct (list_at _ _ _ _ _ Q1 N) as (e & a & -> & L & F).
    destruct a; try discriminate F; [|cbn [of_ptr] in F; now destruct (of_package _)]. specialize (NP i). unfold full in NP. cbn in NP. rewrite L in NP. cbn in NP.
    specialize (NP _ eq_refl). discriminate NP.
  - intros p I J. apply In_nth_error in I as (i & N). apply In_nth_error in J as (j & K). destruct (list_at _ _ _ _ _ Q1 N) as (e & a & -> & L & F).
    destruct a as [ | | | |w| | | ]; try discriminate F. cbn [of_ptr] in F. destruct (of_package w) as [q|] eqn:W; [|discriminate F]. injection F as ->.
    inversion T7 as [| | | | | | |? ? TT| |]; subst. inversion M7 as [| | | | |? MM| |]; subst. rewrite Forall_forall in TT, MM. apply nth_error_In in L as LI.
    pose proof (TT _ LI) as TW. pose proof (MM _ LI) as MW. inversion TW as [| | | | | |? ? TW'| | |]; subst. inversion MW as [| | | |? MW'| | |]; subst.
    pose proof (package_full w p j TW' MW' W K) as G. specialize (NF i j). unfold full, file_path in NF.
    cbn in NF. rewrite L in NF. cbn in G. cbn in NF. specialize (NF _ G). discriminate NF.
  - intros I. apply In_nth_error in I as (i & N). destruct (list_at _ _ _ _ _ Q4 N) as (e & a & -> & L & F).
    destruct a; try discriminate F; [|cbn [of_ptr] in F; now destruct (of_relationship _)]. specialize (NR i). unfold full in NR. cbn in NR. rewrite L in NR. cbn in NR.
    specialize (NR _ eq_refl). discriminate NR.
Qed.
Lemma get_ptrs {A} (f : A -> gval) t l i r z : get (TSlice t) (go_list (fun x => VPtr (f x)) l) (Idx i :: r) = Some z ->
  exists x, In x l /\ get t (VPtr (f x)) r = Some z.
Proof.
  destruct l as [|x0 l]; [discriminate|]. intros G. cbn in G.
  change (VPtr (f x0) :: map (fun x => VPtr (f x)) l) with (map (fun x => VPtr (f x)) (x0 :: l)) in G. rewrite nth_error_map in G.
  destruct (nth_error (x0 :: l) i) as [x|] eqn:N; [|discriminate G]. cbn [option_map] in G. exists x. split; [eapply nth_error_In; eauto|exact G].
Qed.
Lemma well_formed_named v d : well_formed v d -> named v (go_document v d).
Proof.
  intros W. destruct W as (_ & P & _ & R & _). rewrite Forall_forall in P, R.
  assert (E : forall s, s <> "" -> is_zero (VStr s) = false) by (intros [|c s] H; [congruence|reflexivity]).
  assert (K : forall s, id_ok s -> s <> "") by (intros s H ->; now destruct H).
  split; [|split].
  - intros i z G. unfold package_path in G.
    assert (G' : get (TSlice (TPtr (T_Package v))) (go_list (fun p => VPtr (go_package v p)) (d_Packages d)) [Idx i; Fld "PackageSPDXIdentifier"] = Some z) by (destruct v; exact G).
    apply get_ptrs in G' as (p & I & G'). destruct (P p I) as (J & _).
    assert (X : get (TPtr (T_Package v)) (VPtr (go_package v p)) [Fld "PackageSPDXIdentifier"] = Some (VStr (p_SPDXIdentifier p))) by (destruct v; reflexivity).
    rewrite X in G'. injection G' as <-. auto.
  - intros i j z G. unfold file_path in G.
    assert (G' : get (TSlice (TPtr (T_Package v))) (go_list (fun p => VPtr (go_package v p)) (d_Packages d)) [Idx i; Fld "Files"; Idx j; Fld "FileSPDXIdentifier"] = Some z) by (destruct v; exact G).
    apply get_ptrs in G' as (p & I & G'). destruct (P p I) as (_ & _ & _ & _ & F & _). rewrite Forall_forall in F.
    assert (G'' : get (TSlice (TPtr (T_File v))) (go_list (fun f => VPtr (ConvertGo.go_file v f)) (p_Files p)) [Idx j; Fld "FileSPDXIdentifier"] = Some z) by (destruct v; exact G').
    apply get_ptrs in G'' as (f & I' & G''). destruct (F f I') as (J & _).
    assert (X : get (TPtr (T_File v)) (VPtr (ConvertGo.go_file v f)) [Fld "FileSPDXIdentifier"] = Some (VStr (f_SPDXIdentifier f))) by (destruct v; reflexivity).
    rewrite X in G''. injection G'' as <-. auto.
  - intros i z G. unfold relationship_path in G.
    assert (G' : get (TSlice (TPtr T_Relationship)) (go_list (fun r => VPtr (go_relationship r)) (d_Relationships d)) [Idx i; Fld "Relationship"] = Some z) by (destruct v; exact G).
    apply get_ptrs in G' as (r & I & G'). destruct (R r I) as (_ & _ & J).
    assert (X : get (TPtr T_Relationship) (VPtr (go_relationship r)) [Fld "Relationship"] = Some (VStr (r_Relationship r))) by reflexivity.
    rewrite X in G'. injection G' as <-. auto.
Qed.
Local Opaque T_Document.
Lemma tag_from dz s g : tagvalue_read_from dz V23 s = Ok g -> exists v d, well_formed v d /\ convert_document dz v V23 (go_document v d) = Ok g.
Proof.
  unfold tagvalue_read_from. intros H. apply bindR_ok_iff in H as (ps & _ & H). apply bindR_ok_iff in H as ([v [d|]] & P & H); [|discriminate H].
  exists v, d. split; [|exact H]. destruct ps as [|x l]; [discriminate P|]. set (ps := x :: l) in *. assert (N : ps <> []) by discriminate.
  assert (X : forall w, (let* d := parse_tag_values w ps in Ok (w, d)) = Ok (v, Some d) -> well_formed v d).
  { intros w E. apply bindR_ok_iff in E as (o & Q & E). injection E as <- ->. pose proof (parse_tag_values_ok w ps N) as W. now rewrite Q in W. }
  cbv zeta in P. destruct (String.eqb _ _) in P; [now apply X in P|]. destruct (String.eqb _ _) in P; [now apply X in P|]. destruct (String.eqb _ _) in P; [now apply X in P|]. discriminate P.
Qed.
Lemma tag_whole dz s g d : tagvalue_read_from dz V23 s = Ok g -> of_document g = Some d ->
  ~ In None (d_Packages d) /\ (forall p, In (Some p) (d_Packages d) -> ~ In None (p_Files p)) /\ ~ In None (d_Relationships d).
Proof.
  intros R O. destruct (tag_from _ _ _ R) as (v & e & W & C). pose proof (typed_document v e (well_formed_keys v e W)) as T.
  destruct (convert_ok dz v V23 _ T) as (g' & C' & T'). rewrite C in C'. injection C' as <-.
  assert (M : mapped (go_document v e)) by (rewrite <- go_jdocument_plain; apply mapped_document).
  destruct (well_formed_named v e W) as (NP & NF & NR). apply (named_whole g d T' (convert_mapped dz _ _ _ _ M C)); [|exact O].
  split; [|split].
  - intros i z G. rewrite (convert_get dz v V23 _ _ _ T C) in G; [eapply NP; eauto|apply (named_paths v i 0)|apply (named_paths V23 i 0)|discriminate].
  - intros i j z G. rewrite (convert_get dz v V23 _ _ _ T C) in G; [eapply NF; eauto|apply (named_paths v i j)|apply (named_paths V23 i j)|discriminate].
  - intros i z G. rewrite (convert_get dz v V23 _ _ _ T C) in G; [eapply NR; eauto|apply (named_paths v i 0)|apply (named_paths V23 i 0)|discriminate].
Qed.
