(** * Property C44: loading, saving and loading again. *)
From Verif Require Import GoStr GoStrFacts Sorting Types TvReader TvUtil TvParser TvWriter SpecTv SpecId SpecDoc SpecRead SpecWrite SpecReload SpecFormats
  TvReaderFacts TvUtilFacts TvParserFacts TvWriterFacts DenoteBase DenoteRead ReloadFacts PropsTvParser PropsTvContent.
Local Open Scope string_scope.

(** A text whose values are clean and whose document says something about its
    creation can be saved again.  What is loaded from that is the part of the
    document that the writer prints, up to order; and it is saved as the same
    bytes from then on. *)
Theorem C44_reload : forall so text l v d, tokens (map drop_cr (stream_lines text)) l -> regular l -> Forall (clean v) l ->
  read_into text = Ok (v, Some d) -> created d -> snippets_placed d ->
  exists t d' e, render_document so v d = Ok (t, d') /\ document_same (tag_part v d) e /\
    (Forall short (stream_lines t) -> read_into t = Ok (v, Some e)) /\
    (distinct_ids d -> forall so', exists e', render_document so' v e = Ok (t, e')).
Proof.
  intros so text l v d T R C H K S. apply reload_part.
  assert (N : values "SPDXVersion" l <> []).
  { apply dispatch_inv in H as (a & b & P & _ & _). apply read_tag_values_iff in P as [P Sh].
    assert (E : read_tag_values text = Ok l) by (apply read_tag_values_iff; auto).
    assert (E' : read_tag_values text = Ok (a ++ ("SPDXVersion", version_string v) :: b)%list) by (apply read_tag_values_iff; auto).
    rewrite E in E'. injection E' as ->. unfold values. rewrite filter_app, map_app. cbn. intros X. now apply app_eq_nil in X as [_ X]. }
  eapply document_clean; eauto; [eapply C38_read_text; eauto|eapply C07_well_formed; eauto].
Qed.
Print Assumptions C44_reload.

(** If the document has nothing the writer leaves out, it is the same document. *)
Theorem C44_reload_same : forall so text l v d, tokens (map drop_cr (stream_lines text)) l -> regular l -> Forall (clean v) l ->
  read_into text = Ok (v, Some d) -> created d -> snippets_placed d -> whole d ->
  exists t d' e, render_document so v d = Ok (t, d') /\ document_same d e /\
    (Forall short (stream_lines t) -> read_into t = Ok (v, Some e)).
Proof.
  intros so text l v d T R C H K S W. destruct (C44_reload so text l v d T R C H K S) as (t & d' & e & A & B & D & _).
  exists t, d', e. split; [exact A|]. split; [|exact D].
  rewrite (tag_part_whole v l d) in B; [exact B|eapply C38_read_text; eauto|eapply C07_well_formed; eauto|exact W].
Qed.
Print Assumptions C44_reload_same.

(** ** Witness *)
Definition C44_pairs : pairs :=
  [("SPDXVersion", "SPDX-2.3"); ("SPDXID", "SPDXRef-DOCUMENT"); ("DocumentName", "d"); ("DocumentComment", "two" ++ LF ++ "lines");
   ("ExternalDocumentRef", "DocumentRef-x http://x SHA1: aa"); ("Creator", "Tool: x"); ("Created", "now");
   ("FileName", "./loose"); ("SPDXID", "SPDXRef-l"); ("FileChecksum", "SHA1: aa");
   ("ArtifactOfProjectName", "ap"); ("ArtifactOfProjectURI", "u");
   ("SnippetSPDXID", "SPDXRef-s1"); ("SnippetFromFileSPDXID", "SPDXRef-l"); ("SnippetByteRange", "1:2"); ("SnippetLineRange", "3:4");
   ("PackageName", "q"); ("SPDXID", "SPDXRef-q"); ("PackageVerificationCode", "cc (excludes: ./f)"); ("PackageSupplier", "Person: me");
   ("ExternalRef", "SECURITY cpe23Type x"); ("ExternalRefComment", "why");
   ("FileName", "./f"); ("SPDXID", "SPDXRef-f"); ("LicenseConcluded", "MIT");
   ("LicenseID", "LicenseRef-1"); ("ExtractedText", "text");
   ("Relationship", "SPDXRef-f COPY_OF SPDXRef-l"); ("Annotator", "Person: me"); ("SPDXREF", "SPDXRef-f"); ("Reviewer", "Tool: t")].
Definition C44_text : string := print_pairs C44_pairs.
Lemma element_clean id : word id -> ref_clean ("SPDXRef-" ++ id).
Proof. intros W d (_ & _ & _) [[E H]|[_ H]]; [|discriminate H]. injection H as H. rewrite <- H, E. split; [exact W|now left]. Qed.
Lemma word_clean x : (forall r, x <> "SPDXRef-" ++ r) -> (forall r, x <> "DocumentRef-" ++ r) -> ref_clean x.
Proof. intros A B d _ [[_ H]|[_ H]]; [now apply A in H|now apply B in H]. Qed.
Ltac a_word := split; [discriminate|split; [now apply not_occurs_byte|reflexivity]].
Ltac clean_pair :=
  constructor; cbn [fst snd];
  [ vm_compute; repeat split
  | first [intros H; discriminate H|reflexivity]
  | first [intros _; discriminate|intros H; cbn in H; exfalso; intuition discriminate]
  | first [intros _ k n H; apply kind_name_iff in H; vm_compute in H; injection H as _ <-; discriminate|intros H; cbn in H; exfalso; intuition discriminate]
  | first [intros _; apply (element_clean _); a_word|intros H; cbn in H; exfalso; intuition discriminate]
  | first [intros H; discriminate H|intros _]
  | first [intros H; discriminate H|intros _] ].
Example C44_witness :
  tokens (map drop_cr (stream_lines (C44_text))) C44_pairs /\ regular C44_pairs /\ Forall (clean V23) C44_pairs /\
  exists d, read_into (C44_text) = Ok (V23, Some d) /\ created d /\ snippets_placed d /\ whole d /\ distinct_ids d.
Proof.
  split; [apply (proj1 (read_tag_values_iff (C44_text) C44_pairs)); vm_compute; reflexivity|]. split.
  { split; repeat (apply Forall_cons || apply Forall_nil); unfold package_regular, file_regular; cbn;
      repeat split; try discriminate; auto;
      repeat (apply Forall_cons || apply Forall_nil || apply NoDup_cons || apply NoDup_nil || split);
      cbn; intuition (discriminate || auto). }
  split.
  { repeat (apply Forall_cons; [clean_pair|]). all: try apply Forall_nil.
    - intros e E. apply edr_text_iff in E. vm_compute in E. injection E as <-. cbn. split; [a_word|]. split; [a_word|]. split; [now apply not_occurs_byte|a_word].
    - change (words "SPDXRef-f COPY_OF SPDXRef-l") with ["SPDXRef-f"; "COPY_OF"; "SPDXRef-l"].
      constructor; [apply (element_clean "f"); a_word|]. constructor; [apply word_clean; discriminate|]. constructor; [apply (element_clean "l"); a_word|constructor]. }
  eexists. split; [vm_compute; reflexivity|]. split; [eexists; split; [reflexivity|left; discriminate]|]. split.
  { split; repeat constructor; discriminate. }
  split.
  { split; [unfold ranges_kept; repeat (apply Forall_nil || apply Forall_cons); cbn; first [left; split; discriminate|right; split; discriminate]|]. constructor; [|constructor].
    split; [discriminate|]. split; [discriminate|]. split; [discriminate|]. split; [exact I|]. repeat constructor. }
  split; [repeat constructor; intros []|]. split; [split; repeat constructor; cbn; tauto|]. split; [repeat constructor; cbn; tauto|].
  repeat constructor; cbn; tauto.
Qed.

(** ** Without the conditions *)
(** A text may say nothing about the creation of the document: then the document
    is loaded but cannot be saved. *)
Theorem C44_save_refuted : ~ forall so text v d, read_into text = Ok (v, Some d) -> exists t d', render_document so v d = Ok (t, d').
Proof.
  intros H. destruct (read_into ("SPDXVersion: SPDX-2.3" ++ LF)) as [[v [d|]]| |] eqn:E; try (vm_compute in E; discriminate E).
  destruct (H insertion_sorter _ _ _ E) as (t & d' & W). vm_compute in E. injection E as <- <-. vm_compute in W. discriminate W.
Qed.
Print Assumptions C44_save_refuted.
(** A snippet without its file is loaded, and saved as a text that cannot be loaded. *)
Theorem C44_load_refuted : ~ forall so text v d t d', read_into text = Ok (v, Some d) -> created d -> render_document so v d = Ok (t, d') ->
  exists w e, read_into t = Ok (w, Some e).
Proof.
  intros H. set (text := print_pairs [("SPDXVersion", "SPDX-2.3"); ("Creator", "Tool: x"); ("FileName", "f"); ("SPDXID", "SPDXRef-f"); ("SnippetSPDXID", "SPDXRef-s")]).
  destruct (read_into text) as [[v [d|]]| |] eqn:E; try (vm_compute in E; discriminate E). vm_compute in E. injection E as <- <-.
  match type of H with _ => specialize (H insertion_sorter text V23) end.
  edestruct H as (w & e & R); [vm_compute; reflexivity|eexists; split; [reflexivity|left; discriminate]|vm_compute; reflexivity|].
  vm_compute in R. discriminate R.
Qed.
Print Assumptions C44_load_refuted.
(** White space inside a text block on one line is lost. *)
Theorem C44_clean_refuted : ~ forall so text v d t d' w e, read_into text = Ok (v, Some d) -> created d -> snippets_placed d -> whole d ->
  render_document so v d = Ok (t, d') -> read_into t = Ok (w, Some e) -> document_same d e.
Proof.
  intros H. set (text := "SPDXVersion: SPDX-2.3" ++ LF ++ "Creator: Tool: x" ++ LF ++ "DocumentComment: <text> a </text>" ++ LF).
  edestruct (H insertion_sorter text V23) as (r & f & p & _ & _ & _ & E);
    [vm_compute; reflexivity|eexists; split; [reflexivity|left; discriminate]|split; constructor|split; constructor|vm_compute; reflexivity|vm_compute; reflexivity|].
  apply (f_equal d_DocumentComment) in E. discriminate E.
Qed.
Print Assumptions C44_clean_refuted.
