(** * Property C52: writing one document from several goroutines *)
From Verif Require Import GoStr GoStrFacts Sorting Types TvUtil TvState TvWriter Concurrent SpecConcurrent ConcurrentFacts ConcurrentSeq.
Local Open Scope string_scope.

(** One call on its own, executed one memory access at a time, is the writer of
    TvWriter.v: it writes the same text and leaves the same document. *)
Theorem C52_alone : forall v d ci, d_CreationInfo d = Some ci ->
  exists m' text, run (write_prog v d (sort_slice d) ci) (mem_of d) = (m', text) /\
    render_document insertion_sorter v d = Ok (bytes text, doc_in d m').
Proof.
  intros v d ci C. destruct (write_alone v d ci C) as (m' & o & R & W & D). exists m', o. split; [exact R|].
  unfold render_document. rewrite W. cbn. now rewrite D.
Qed.
Print Assumptions C52_alone.

(** If the slices are sorted, any number of calls (for any of the three versions)
    and of other goroutines that only read the document can run in any order:
    the document does not change, what a call has written at any time is the
    beginning of the text it writes on its own, and a call that gets enough turns
    ends, with all of that text written.  This holds for every way of sorting that
    leaves sorted slices alone. *)
Theorem C52_sorted : forall d ci sorting ps s ts m,
  d_CreationInfo d = Some ci -> document_sorted d -> leaves_sorted (key d) sorting ->
  Forall (fun p => (exists v, p = write_prog v d sorting ci) \/ reads_only p (mem_of d)) ps ->
  schedule s (map start ps) (mem_of d) = (ts, m) ->
  doc_in d m = d /\ length ts = length ps /\
  forall i v, nth_error ps i = Some (write_prog v d sorting ci) ->
  exists text rest written todo, render_document_chunks insertion_sorter v d = Ok text /\
    nth_error ts i = Some (todo, written) /\ text = (written ++ rest)%list /\
    (steps (write_prog v d sorting ci) (mem_of d) <= turns s i -> todo = Halt /\ rest = []).
Proof.
  intros d ci sorting ps s ts m C O L F R.
  assert (Forall (fun t => reads_only (fst t) (mem_of d)) (map start ps)) as H.
  { apply Forall_map. eapply Forall_impl; [|exact F]. cbn. intros p [(v & ->)|K]; [|assumption]. now apply (write_reads v d sorting L O ci). }
  destruct (schedule_reads s _ _ H) as [M S]. pose proof (schedule_length s (map start ps) (mem_of d)) as N. rewrite R in M, S, N. cbn [fst snd] in *. subst m.
  split; [apply doc_in_start|]. split; [now rewrite N, map_length|]. intros i v E.
  destruct (S i (start (write_prog v d sorting ci))) as ((todo & written) & E' & [D1 D2] & D3).
  { now rewrite nth_error_map, E. }
  cbn [fst snd start] in *. destruct (write_reads v d sorting L O ci C) as [_ W].
  exists (snd (run (write_prog v d sorting ci) (mem_of d))), (snd (run todo (mem_of d))), written, todo. split; [exact W|]. split; [exact E'|]. split; [now symmetry|].
  intros T. assert (todo = Halt) as -> by (apply (done_halt todo (mem_of d)); lia). now split.
Qed.
Print Assumptions C52_sorted.

(** The insertion sort that sort.Slice uses for up to 12 elements is such a way of
    sorting, and what a call on its own leaves is sorted: after one call, calls in
    parallel are safe. *)
Theorem C52_after_one : forall v d ci m text, d_CreationInfo d = Some ci ->
  run (write_prog v d (sort_slice d) ci) (mem_of d) = (m, text) ->
  d_CreationInfo (doc_in d m) = Some ci /\ document_sorted (doc_in d m) /\ leaves_sorted (key (doc_in d m)) (sort_slice (doc_in d m)).
Proof.
  intros v d ci m text C R. destruct (write_alone v d ci C) as (m' & o & R' & _ & D). rewrite R in R'. injection R' as <- <-. rewrite D.
  split; [exact C|]. split; [apply sorted_document_sorted|apply sort_slice_sorted].
Qed.
Print Assumptions C52_after_one.

(** A call writes to the document exactly if one of the slices is not sorted. *)
Theorem C52_writes : forall v d ci, d_CreationInfo d = Some ci ->
  (reads_only (write_prog v d (sort_slice d) ci) (mem_of d) <-> document_sorted d).
Proof.
  intros v d ci C. split; intros H.
  - destruct (write_alone v d ci C) as (m' & o & R & _ & D). apply reads_run in H. rewrite R in H. cbn in H. subst m'.
    rewrite doc_in_start in D. rewrite D. apply sorted_document_sorted.
  - apply write_reads; [apply sort_slice_sorted|assumption|assumption].
Qed.
Print Assumptions C52_writes.

(** Two calls on a document whose slices are not sorted can lose an element, both
    from the document and from what is written, without any error. *)
Definition w_file (id : string) : File := set_f_FileName ("./" ++ id) (set_f_SPDXIdentifier id zero_FileOf).
Definition w_ci : CreationInfo := MkCI "" [MkCreator "me" "Person"] "2026-01-01T00:00:00Z" "".
Definition w_doc (ids : list string) : Document := set_d_CreationInfo (Some w_ci) (set_d_Files (map w_file ids) zero_DocumentOf).
Theorem C52_unsorted_refuted : exists (d : Document) ci s m text text',
  d_CreationInfo d = Some ci /\ map f_SPDXIdentifier (d_Files d) = ["b"; "a"] /\
  schedule s (map start [write_prog V23 d (sort_slice d) ci; write_prog V23 d (sort_slice d) ci]) (mem_of d) = ([(Halt, text); (Halt, text')], m) /\
  map f_SPDXIdentifier (d_Files (doc_in d m)) = ["a"; "a"] /\
  render_document_chunks insertion_sorter V23 d = Ok text' /\
  In (Field "SPDXID" "SPDXRef-b") text' /\ ~ In (Field "SPDXID" "SPDXRef-b") text.
Proof.
  exists (w_doc ["b"; "a"]), w_ci, (repeat 0 5 ++ repeat 1 13 ++ repeat 0 8)%list. do 3 eexists.
  split; [reflexivity|]. split; [reflexivity|]. split; [reflexivity|]. split; [reflexivity|]. split; [reflexivity|].
  split; [cbn; tauto|]. cbn. intuition discriminate.
Qed.
Print Assumptions C52_unsorted_refuted.

Definition w_sorted : Document := set_d_Packages [set_p_Files [w_file "a"; w_file "c"] (set_p_SPDXIdentifier "P" (set_p_PackageName "p" zero_PackageOf))] (w_doc ["a"; "b"]).
Example C52_witness : d_CreationInfo w_sorted = Some w_ci /\ document_sorted w_sorted /\ leaves_sorted (key w_sorted) (sort_slice w_sorted) /\
  steps (write_prog V22 w_sorted (sort_slice w_sorted) w_ci) (mem_of w_sorted) <= turns (concat (repeat [1; 0] 30)) 0 /\
  ~ document_sorted (w_doc ["b"; "a"]).
Proof.
  split; [reflexivity|]. split; [|split; [apply sort_slice_sorted|split; [vm_compute; lia|]]].
  - unfold document_sorted, ordered. cbn. repeat constructor.
  - intros (_ & H & _). inversion H as [|? ? _ F]; subst. inversion F; subst. discriminate.
Qed.
