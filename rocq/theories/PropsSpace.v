(** * Properties C03, C04: which white space the tag-value reader disregards. *)
From Coq Require Import Lia.
From Verif Require Import GoStr GoStrFacts TvReader SpecTv TvReaderFacts SpecSpace SpaceFacts.

(** Trimming removes the Unicode white space at the two ends, all of it and nothing else. *)
Theorem C03_trimmed : forall s t, trim_space s = t <-> stripped s t.
Proof. exact trim_space_iff. Qed.
Print Assumptions C03_trimmed.

(** A line is disregarded just if it is white space, or white space and then a number sign. *)
Theorem C04_disregarded : forall line,
  skippable line <-> blanks line \/ exists p r, blanks p /\ line = p ++ "#" ++ r.
Proof.
  intros line. unfold skippable. rewrite trim_left_empty. split; intros [H|H]; auto; right.
  - destruct H as (r & H). destruct (trim_left_taken line) as (p & P & E). exists p, r. split; [exact P|]. now rewrite <- H.
  - destruct H as (p & r & P & ->). exists r. rewrite trim_left_blanks by exact P.
    apply trim_left_id. destruct r as [|a [|b r]]; reflexivity.
Qed.
Print Assumptions C04_disregarded.

Lemma blank_byte c w : blank w -> In c [":"; "<"; ">"]%char -> has_byte c w = false.
Proof.
  intros (n & H & ->) C. unfold white_space in H. cbn [In] in H, C.
  destruct C as [<-|[<-|[<-|[]]]]; repeat (destruct H as [<-|H]; [reflexivity|]); destruct H.
Qed.
Lemma blanks_byte c p : In c [":"; "<"; ">"]%char -> blanks p -> has_byte c p = false.
Proof. intros C. induction 1 as [|w r B _ IH]; [reflexivity|]. rewrite has_byte_app, IH, (blank_byte c w B C). reflexivity. Qed.

Lemma occurs_after c sub p u : has_byte c p = false -> occurs (String c sub) (p ++ u) -> occurs (String c sub) u.
Proof.
  induction p as [|a p IH]; intros H O; [exact O|]. cbn [has_byte] in H. apply orb_false_iff in H as [Ha Hp].
  apply IH; [exact Hp|]. destruct O as (x & y & E). destruct x as [|b x]; cbn [append] in E; injection E as E1 E2.
  - subst a. rewrite Ascii.eqb_refl in Ha. discriminate.
  - exists x, y. exact E2.
Qed.
Lemma occurs_srev s t : occurs s t -> occurs (srev s) (srev t).
Proof. intros (x & y & ->). exists (srev y), (srev x). now rewrite !srev_app_distr, app_assoc_s. Qed.
Lemma text_mark_between p v q : blanks p -> blanks q -> ~ occurs "<text>" v -> ~ occurs "<text>" (p ++ v ++ q).
Proof.
  intros P Q N O. apply occurs_after in O; [|apply blanks_byte; [cbn; tauto|exact P]].
  apply occurs_srev in O. rewrite srev_app_distr in O. change (srev "<text>") with (String ">" "txet<") in O.
  apply occurs_after in O; [|rewrite has_byte_srev; apply blanks_byte; [cbn; tauto|exact Q]].
  apply N. apply occurs_srev in O. now rewrite srev_involutive in O.
Qed.

Lemma blank_cr : blank (String CR "").
Proof. exists 13%N. split; [unfold white_space; cbn [In]; tauto|reflexivity]. Qed.

Lemma trim_drop_cr s : trim_space (drop_cr s) = trim_space s.
Proof.
  destruct (drop_cr_cases s) as [->|E]; [reflexivity|]. generalize dependent (drop_cr s). intros d E. subst s. symmetry. apply trim_space_iff.
  destruct (proj1 (trim_space_iff _ _) (eq_refl (trim_space d))) as (p & q & E2 & P & Q & A & B).
  exists p, (q ++ String CR ""). split; [rewrite E2 at 1; now rewrite !app_assoc_s|].
  repeat split; auto. apply blanks_app; [exact Q|apply blanks_one, blank_cr].
Qed.

(** White space before and after a tag and before and after its value has no effect, whatever
    white space it is. *)
Theorem C03_padded : forall p tag q p' v q', blanks p -> blanks q -> blanks p' -> blanks q' ->
  good_tag tag -> tag <> "" -> stripped v v -> ~ occurs "<text>" v ->
  let line := p ++ tag ++ q ++ ":" ++ p' ++ v ++ q' in
  one_line line -> short line -> read_tag_values (line ++ LF) = Ok [(tag, v)].
Proof.
  intros p tag q p' v q' P Q P' Q' (T1 & T2 & T3 & T4) T5 V NT line L S.
  apply read_tag_values_iff. rewrite <- raw_lines_spec.
  destruct (raw_lines_line line "" L) as (r & E & R). rewrite app_nil_r_s in E. subst r. rewrite E. cbn [map].
  split; [|constructor; [exact S|constructor]].
  change (contains (String ":" "") tag = false) in T2. rewrite contains_byte in T2.
  assert (D : drop_cr line = p ++ tag ++ q ++ ":" ++ drop_cr (p' ++ v ++ q')).
  { unfold line. destruct (p' ++ v ++ q') as [|a z] eqn:Z.
    - replace (p ++ tag ++ q ++ ":" ++ "") with ((p ++ tag ++ q) ++ ":") by now rewrite !app_assoc_s.
      rewrite drop_cr_app by discriminate. change (drop_cr ":") with ":". change (drop_cr "") with "". now rewrite !app_assoc_s.
    - replace (p ++ tag ++ q ++ ":" ++ String a z) with ((p ++ tag ++ q ++ ":") ++ String a z) by now rewrite !app_assoc_s.
      rewrite drop_cr_app by discriminate. now rewrite !app_assoc_s. }
  rewrite D.
  assert (TS : starts_space tag = false).
  { pose proof T1 as T. apply trim_space_iff in T as (_ & _ & _ & _ & _ & A & _). apply not_true_is_false.
    rewrite starts_blank. intros (w & r & W & X). exact (A w r W X). }
  set (rest := drop_cr (p' ++ v ++ q')).
  assert (TL : trim_left (p ++ tag ++ q ++ ":" ++ rest) = (tag ++ q) ++ ":" ++ rest).
  { rewrite trim_left_blanks by exact P. rewrite app_assoc_s. apply trim_left_id.
    unfold starts_space. destruct q as [|a0 q0] eqn:EQ.
    - cbn [append]. rewrite starts_gen_app; [exact TS|apply sp_ok_fwd|exact T5|reflexivity].
    - rewrite <- EQ in *. change (":" ++ rest) with (String ":" rest). rewrite <- app_assoc_s.
      rewrite starts_gen_app; [apply starts_space_before; auto|apply sp_ok_fwd| |reflexivity].
      destruct tag; [congruence|discriminate]. }
  replace v with (trim_space rest) at 1.
  - apply tk_plain; [| |constructor].
    + split.
      * intros [K|(r & K)]; rewrite TL in K; destruct tag as [|a tag]; try congruence; try discriminate K.
        cbn [append] in K. injection K as K _. subst a. unfold has_prefix in T4. cbn in T4. discriminate T4.
      * exists (tag ++ q). rewrite TL. split.
        -- apply cut_first_cut. apply (cut_byte_app ":" (tag ++ q) rest). rewrite has_byte_app, T2.
           apply (blanks_byte ":"); [cbn; tauto|exact Q].
        -- symmetry. apply trim_space_iff. apply trim_space_iff in T1. destruct T1 as (_ & _ & _ & _ & _ & A & B).
           exists "", q. repeat split; auto. constructor.
    + intros O. apply (text_mark_between p' v q' P' Q' NT). unfold rest in O. clear D TL.
      destruct (drop_cr_cases (p' ++ v ++ q')) as [X|X]; [now rewrite X in O|]. 
      clearbody rest. clear - O X NT P' Q'.
      assert (Y : occurs "<text>" (drop_cr (p' ++ v ++ q') ++ String CR "")); [|rewrite X; exact Y].
      destruct O as (x & y & O). exists x, (y ++ String CR ""). rewrite O. now rewrite !app_assoc_s.
  - unfold rest. rewrite trim_drop_cr. apply trim_space_iff. destruct V as (_ & _ & _ & _ & _ & A & B). exists p', q'. repeat split; auto.
Qed.
Print Assumptions C03_padded.

(** an ideographic space, a no-break space and a tab around a tag and its value *)
Example C03_padded_witness :
  let nbsp := utf8_form 160 in let wide := utf8_form 12288 in let tab := utf8_form 9 in
  blanks (wide ++ tab) /\ blanks nbsp /\ good_tag "PackageName" /\ stripped "a  b" "a  b" /\ ~ occurs "<text>" "a  b" /\
  one_line (wide ++ tab ++ "PackageName" ++ nbsp ++ ":" ++ "a  b" ++ wide) /\
  read_tag_values (wide ++ tab ++ "PackageName" ++ nbsp ++ ":" ++ "a  b" ++ wide ++ LF) = Ok [("PackageName", "a  b")].
Proof.
  cbv zeta. assert (B : forall n, In n white_space -> blank (utf8_form n)) by (intros n H; exists n; auto).
  repeat split.
  - constructor; [apply B; cbn; tauto|apply blanks_one, B; cbn; tauto].
  - apply blanks_one, B; cbn; tauto.
  - apply trim_space_iff. reflexivity.
  - rewrite occurs_contains. vm_compute. discriminate.
Qed.
