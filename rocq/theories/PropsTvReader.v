(** * Properties C03, C04, C05: the tag-value tokenizer. *)
From Verif Require Import GoStr TvReader SpecTv TvReaderFacts.

(** C03: printing pairs and reading them back. *)
Theorem C03_print_read : forall l : list (string * string),
  Forall (fun p => good_tag (fst p) /\ good_text_value (snd p)) l ->
  Forall short (stream_lines (print_pairs l)) ->
  read_tag_values (print_pairs l) = Ok l.
Proof. exact print_read. Qed.
Print Assumptions C03_print_read.

Example C03_witness :
  let l := [("SPDXVersion", "SPDX-2.3"); ("Comment", "a" ++ LF ++ "# not a comment" ++ LF ++ "Tag: x"); ("Empty", "")] in
  Forall (fun p => good_tag (fst p) /\ good_text_value (snd p)) l /\
  Forall short (stream_lines (print_pairs l)).
Proof. split; repeat constructor. Qed.

(** C04: comment and blank lines outside text blocks are inert. *)
Theorem C04_comment_or_blank_line : forall a line b ps,
  complete_lines a -> read_tag_values a = Ok ps ->
  one_line line -> skippable (drop_cr line) -> short line ->
  read_tag_values (a ++ line ++ LF ++ b) = read_tag_values (a ++ b).
Proof. exact insert_skippable. Qed.
Print Assumptions C04_comment_or_blank_line.

Example C04_witness :
  complete_lines ("A: b" ++ LF) /\ read_tag_values ("A: b" ++ LF) = Ok [("A", "b")] /\
  one_line "  # C: d" /\ skippable (drop_cr "  # C: d") /\ short "  # C: d".
Proof. repeat split. - right. now exists "A: b". - right. now exists " C: d". Qed.

(** C04: inside a block every line is kept, comment-looking or not. *)
Theorem C04_text_block_verbatim : forall t v, good_tag t ->
  contains "</text>" v = false -> contains (String CR LF) v = false ->
  Forall short (stream_lines (t ++ ": <text>" ++ v ++ "</text>" ++ LF)) ->
  read_tag_values (t ++ ": <text>" ++ v ++ "</text>" ++ LF) = Ok [(t, v)].
Proof. exact read_text_block. Qed.
Print Assumptions C04_text_block_verbatim.

Example C04_text_witness :
  let v := "x" ++ LF ++ "# kept" ++ LF ++ LF ++ "  B: c  " in
  good_tag "T" /\ contains "</text>" v = false /\ contains (String CR LF) v = false /\
  Forall short (stream_lines ("T" ++ ": <text>" ++ v ++ "</text>" ++ LF)).
Proof. repeat split. repeat constructor. Qed.

(** Reading is a homomorphism on complete lines: nothing read earlier is changed
    or forgotten by what follows. *)
Theorem C04_concatenation : forall a b ps,
  complete_lines a -> read_tag_values a = Ok ps ->
  read_tag_values (a ++ b) =
  match read_tag_values b with Ok qs => Ok (ps ++ qs)%list | Err e => Err e | Panic => Panic end.
Proof. exact read_complete_app. Qed.
Print Assumptions C04_concatenation.

(** C05: the reader accepts exactly the texts of the grammar [tokens], with the
    pairs the grammar assigns, and lines below the scanner limit. *)
Theorem C05_accepts_exactly : forall s ps,
  read_tag_values s = Ok ps <->
  tokens (map drop_cr (stream_lines s)) ps /\ Forall short (stream_lines s).
Proof. exact read_tag_values_iff. Qed.
Print Assumptions C05_accepts_exactly.

Theorem C05_malformed_rejected : forall s,
  (forall ps, ~ tokens (map drop_cr (stream_lines s)) ps) ->
  exists e, read_tag_values s = Err e.
Proof. exact read_rejects. Qed.
Print Assumptions C05_malformed_rejected.

Theorem C05_no_colon : forall a line b ps,
  complete_lines a -> read_tag_values a = Ok ps -> one_line line ->
  ~ skippable (drop_cr line) -> ~ occurs ":" line ->
  exists e, read_tag_values (a ++ line ++ LF ++ b) = Err e.
Proof. exact reject_no_colon. Qed.
Print Assumptions C05_no_colon.

Example C05_no_colon_witness : ~ skippable (drop_cr "no colon") /\ ~ occurs ":" "no colon".
Proof.
  split.
  - intros [H|[r H]]; vm_compute in H; discriminate.
  - rewrite occurs_contains. vm_compute. discriminate.
Qed.

Theorem C05_unterminated_block : forall a line b ps tag rest before after,
  complete_lines a -> read_tag_values a = Ok ps -> one_line line ->
  item (drop_cr line) tag rest -> first_cut "<text>" rest before after ->
  ~ occurs "</text>" after -> ~ occurs "</text>" b ->
  exists e, read_tag_values (a ++ line ++ LF ++ b) = Err e.
Proof. exact reject_unterminated. Qed.
Print Assumptions C05_unterminated_block.

Example C05_unterminated_witness :
  item (drop_cr "C: <text>x") "C" " <text>x" /\ first_cut "<text>" " <text>x" " " "x" /\
  ~ occurs "</text>" "x" /\ ~ occurs "</text>" ("D: e" ++ LF).
Proof.
  repeat split; try (rewrite occurs_contains; vm_compute; discriminate).
  - intros [H|[r H]]; vm_compute in H; discriminate.
  - exists "C". split; [apply cut_first_cut; reflexivity|reflexivity].
  - intros x' y' H. apply (cut_minimal "<text>" " <text>x" " " "x" x' y'); [reflexivity|exact H].
Qed.

Theorem C05_long_line : forall s line,
  In line (stream_lines s) -> ~ short line -> exists e, read_tag_values s = Err e.
Proof. exact read_rejects_long. Qed.
Print Assumptions C05_long_line.

(** Reading never fails otherwise than by an error value. *)
Theorem C05_no_panic : forall s, read_tag_values s <> Panic.
Proof. exact read_tag_values_never_panics. Qed.
Print Assumptions C05_no_panic.
