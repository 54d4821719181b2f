(** * Properties C45 and C46: readers that deliver piece by piece, writers that refuse. *)
From Verif Require Import GoStr GoStrFacts Sorting Types TvReader TvUtil TvParser TvWriter Convert ConvertGo Json JsonSpdx JsonText Formats Stream
  SpecTv SpecStream SpecJsonText JsonTextCodec StreamFacts TruncFacts.
Local Open Scope string_scope.

(** ** C45 *)
(** JSON: the result depends on the bytes alone, not on the pieces they arrive in
    nor on how the buffer grows. *)
Theorem C45_json : forall room dz to s, (forall n, (512 <= room n)%N) -> ends s = Eof ->
  json_read_from room dz to s = json_read dz to (content s).
Proof. intros room dz to s R E. rewrite json_stream, E; [reflexivity|]. intros n. specialize (R n). lia. Qed.
Print Assumptions C45_json.

(** Tag-value: likewise, for a reader that does not return nothing more than 100
    times in a row, unless the text ends in a line of exactly 65536 bytes. *)
Theorem C45_tag : forall dz to s, lively s -> ends s = Eof -> no_full_last_line (content s) ->
  tagvalue_read_from dz to s = tagvalue_read dz to (content s).
Proof. exact tag_stream. Qed.
Print Assumptions C45_tag.

(** A reader that fails makes Read fail, whatever has arrived before: a document
    that could not be read to its end is never returned. *)
Theorem C45_json_broken : forall room dz to s, (forall n, (512 <= room n)%N) -> ends s = Broken ->
  exists m, json_read_from room dz to s = Err m.
Proof. intros room dz to s R E. rewrite json_stream, E; [eauto|]. intros n. specialize (R n). lia. Qed.
Theorem C45_tag_broken : forall dz to s, ends s = Broken -> exists m, tagvalue_read_from dz to s = Err m.
Proof. intros dz to s E. apply tag_stream_fails. now left. Qed.
Theorem C45_tag_stuck : forall dz to s, ~ lively s -> exists m, tagvalue_read_from dz to s = Err m.
Proof. intros dz to s E. apply tag_stream_fails. now right. Qed.
Print Assumptions C45_json_broken.
Print Assumptions C45_tag_broken.
Print Assumptions C45_tag_stuck.

(** The exception of C45_tag is a real one: two readers deliver the same bytes,
    and only one of them can be read. *)
Definition C45_head : string := "SPDXVersion: SPDX-2.3" ++ LF ++ "SPDXID: SPDXRef-DOCUMENT" ++ LF.
Definition C45_line : string := N.iter 65535 (String (byte 120)) "" .
Definition C45_at_once : stream := Give C45_head (Stop ("#" ++ C45_line) Eof).
Definition C45_later : stream := Give C45_head (Give ("#" ++ C45_line) (Stop "" Eof)).
Theorem C45_tag_refuted : content C45_at_once = content C45_later /\ lively C45_at_once /\ lively C45_later /\
  ends C45_at_once = Eof /\ ends C45_later = Eof /\
  (exists x, tagvalue_read_from true V23 C45_at_once = Ok x) /\ (exists m, tagvalue_read_from true V23 C45_later = Err m).
Proof.
  split; [unfold C45_at_once, C45_later; cbn [content]; now rewrite app_nil_r_s|]. split; [exact I|]. split; [exact I|]. split; [reflexivity|]. split; [reflexivity|]. split.
  - assert (match tagvalue_read_from true V23 C45_at_once with Ok _ => True | _ => False end) as H by (vm_compute; exact I).
    destruct (tagvalue_read_from true V23 C45_at_once) as [x| |]; [now exists x|contradiction|contradiction].
  - assert (match tagvalue_read_from true V23 C45_later with Err _ => True | _ => False end) as H by (vm_compute; exact I).
    destruct (tagvalue_read_from true V23 C45_later) as [x|m|]; [contradiction|now exists m|contradiction].
Qed.
Print Assumptions C45_tag_refuted.

(** Witness: a document cut in the middle of a line, of a CR LF and with empty reads. *)
Definition C45_pieces : stream :=
  Give "SPDXVers" (Give "" (Give ("ion: SPDX-2.3" ++ String CR "") (Give (LF ++ "SPDX") (Stop "ID: SPDXRef-DOCUMENT" Eof)))).
Example C45_witness : lively C45_pieces /\ ends C45_pieces = Eof /\ no_full_last_line (content C45_pieces) /\
  exists x, tagvalue_read_from true V23 C45_pieces = Ok x.
Proof.
  split; [exact I|]. split; [reflexivity|]. split.
  - intros before line [H|H] _ L.
    + rewrite <- H in L. revert L. vm_compute. discriminate.
    + apply (f_equal String.length) in H. rewrite !app_length_s in H.
      assert (String.length (content C45_pieces) < 100) by (apply Nat.ltb_lt; reflexivity). lia.
  - assert (match tagvalue_read_from true V23 C45_pieces with Ok _ => True | _ => False end) as H by (vm_compute; exact I).
    destruct (tagvalue_read_from true V23 C45_pieces) as [x| |]; [now exists x|contradiction|contradiction].
Qed.
Definition C45_json_pieces : stream :=
  Give "{""spdxVer" (Give "" (Give "sion"":""SPDX-2.3""" (Stop "}" Eof))).
Example C45_json_witness : ends C45_json_pieces = Eof /\ exists x, json_read_from (fun _ => 512%N) true V22 C45_json_pieces = Ok x.
Proof.
  split; [reflexivity|].
  assert (match json_read_from (fun _ => 512%N) true V22 C45_json_pieces with Ok _ => True | _ => False end) as H by (vm_compute; exact I).
  destruct (json_read_from (fun _ => 512%N) true V22 C45_json_pieces) as [x| |]; [now exists x|contradiction|contradiction].
Qed.

(** ** C46 *)
(** JSON: if Write returns no error the whole text has arrived. *)
Theorem C46_json : forall k v h ind d t, json_write_to k v h ind d = (Ok tt, t) -> json_write v h ind d = Ok t.
Proof.
  intros k v h ind d t. unfold json_write_to. destruct (json_write v h ind d); [|discriminate|discriminate].
  destruct (k 0); [|discriminate]. intros H. now injection H as ->.
Qed.
Print Assumptions C46_json.

(** And if it returns an error what has arrived cannot be mistaken for another
    document: either it cannot be loaded, or all of it but the final newline is there. *)
Theorem C46_json_refused : forall k v h ind d m t u, blank ind -> json_write_to k v h ind d = (Err m, t) -> json_write v h ind d = Ok u ->
  (exists n, t = take n u) /\ forall x, json_read_into t = Ok x -> t = u \/ t ++ LF = u.
Proof.
  intros k v h ind d m t u B. unfold json_write_to. intros H W. rewrite W in H.
  destruct (k 0) as [|n]; [discriminate|]. injection H as _ <-. split; [now exists n|]. intros x X.
  assert (take n u ++ drop n u = u) as E by apply take_drop. rewrite <- E in W.
  destruct (saved_prefix _ _ _ _ _ _ _ B W X) as [Q|Q]; rewrite Q in E; [left|now right].
  now rewrite app_nil_r_s in E.
Qed.
Print Assumptions C46_json_refused.

(** Tag-value: what arrives is the text, if no call of Write is refused. *)
Theorem C46_tag : forall k so v d t d', (forall i, k i = Accept) -> render_document so v d = Ok (t, d') ->
  tagvalue_write_to k so v d = (Ok tt, t).
Proof.
  intros k so v d t d' K H. unfold tagvalue_write_to. unfold render_document in H.
  destruct (render_document_chunks so v d) as [l|m|]; [|discriminate|discriminate]. cbn in H. injection H as <- _.
  now rewrite deliver_all, bytes_concat.
Qed.
Print Assumptions C46_tag.

(** But Write returns no error whatever happens to its calls of the writer. *)
Theorem C46_tag_silent : forall k so v d, d_CreationInfo d <> None -> fst (tagvalue_write_to k so v d) = Ok tt.
Proof.
  intros k so v d H. unfold tagvalue_write_to, render_document_chunks. destruct (d_CreationInfo d); [reflexivity|congruence].
Qed.
Print Assumptions C46_tag_silent.

(** So C46_json does not hold of tag-value: with a full disk nothing arrives and
    nothing is reported; and when one call of Write fails what arrives can be
    loaded, as a document that lacks the relationship it was to print. *)
Definition C46_document : Document :=
  MkDoc "SPDX-2.3" "CC0-1.0" "DOCUMENT" "d" "https://x" [] "" (Some (MkCI "" [MkCreator "me" "Person"] "now" "")) [] [] []
    [MkRln (MkDEID "" "a" "") (MkDEID "" "b" "") "CONTAINS" ""; MkRln (MkDEID "" "a" "") (MkDEID "" "c" "") "DEPENDS_ON" ""] [] [] [].
Definition full : sink := fun _ => Refuse 0.
Definition once (i : nat) : sink := fun n => if Nat.eqb n i then Refuse 0 else Accept.
Theorem C46_tag_refuted :
  tagvalue_write_to full insertion_sorter V23 C46_document = (Ok tt, "") /\
  exists t d, tagvalue_write_to (once 10) insertion_sorter V23 C46_document = (Ok tt, t) /\ read_into t = Ok (V23, Some d) /\
    d_Relationships d = [MkRln (MkDEID "" "a" "") (MkDEID "" "b" "") "CONTAINS" ""].
Proof.
  split; [vm_compute; reflexivity|].
  eexists. eexists. split; [vm_compute; reflexivity|]. split; vm_compute; reflexivity.
Qed.
Print Assumptions C46_tag_refuted.

Example C46_witness : exists t, tagvalue_write_to (fun _ => Accept) insertion_sorter V23 C46_document = (Ok tt, t) /\ t <> "" /\
  read_into t = Ok (V23, Some C46_document).
Proof. eexists. split; [vm_compute; reflexivity|]. split; [discriminate|]. vm_compute. reflexivity. Qed.
Example C46_json_witness : exists t u m, json_write_to (fun _ => Refuse 30) V23 true "" (jdoc C46_document) = (Err m, t) /\
  json_write V23 true "" (jdoc C46_document) = Ok u /\ t <> "" /\ t <> u.
Proof. do 3 eexists. split; [vm_compute; reflexivity|]. split; [vm_compute; reflexivity|]. split; discriminate. Qed.
