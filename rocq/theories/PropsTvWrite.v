(** * Properties C01, C11, C12, C29: the tag-value writer and the round trip. *)
From Verif Require Import GoStr Sorting Types TvState TvReader TvUtil TvParser TvWriter SpecTv SpecId SpecDoc SpecWrite SpecInject
  TvUtilFacts TvCanon TvRoundTrip TvInject.

(** C01: a representable document can be written, whatever sorting algorithm is
    used; unless a printed line exceeds the scanner's limit, reading the text
    gives, in the same version, a document [e] that differs from the caller's
    document [d'] (sorted in place by the writer) only in the iteration order of
    the snippet maps, and from the original document only in orders. *)
Theorem C01_round_trip : forall so v d, representable v d ->
  exists t d' e, render_document so v d = Ok (t, d') /\
    document_reordered d d' /\ document_maps d' e /\ document_same d e /\
    (Forall short (stream_lines t) -> read_into t = Ok (v, Some e)).
Proof. exact round_trip. Qed.
Print Assumptions C01_round_trip.

(** C01, fixed point: writing what was read gives the same bytes, if identifiers are distinct. *)
Theorem C01_write_read_write : forall so so' v d t d' w e, representable v d -> distinct_ids d ->
  render_document so v d = Ok (t, d') -> Forall short (stream_lines t) -> read_into t = Ok (w, Some e) ->
  w = v /\ exists e', render_document so' w e = Ok (t, e').
Proof. exact write_read_write. Qed.
Print Assumptions C01_write_read_write.

(** C11: the bytes do not depend on the order of lists and maps nor on the sorting algorithm. *)
Theorem C11_canonical : forall so so' v d e t d', distinct_ids d -> document_same d e ->
  render_document so v d = Ok (t, d') -> exists e', render_document so' v e = Ok (t, e').
Proof. exact write_canonical. Qed.
Print Assumptions C11_canonical.

(** C11: writing again changes neither the bytes nor the document. *)
Theorem C11_idempotent : forall so so' v d t d', distinct_ids d ->
  render_document so v d = Ok (t, d') -> render_document so' v d' = Ok (t, d').
Proof. exact write_twice. Qed.
Print Assumptions C11_idempotent.

(** C12: the caller's document is only reordered. *)
Theorem C12_only_reorders : forall so v d t d', render_document so v d = Ok (t, d') -> document_reordered d d'.
Proof. exact write_reorders. Qed.
Print Assumptions C12_only_reorders.

(** C12: writing fails exactly when there is no creation information, and never panics. *)
Theorem C12_failure : forall so v d,
  ((exists e, render_document so v d = Err e) <-> d_CreationInfo d = None) /\
  (d_CreationInfo d <> None -> exists t d', render_document so v d = Ok (t, d')).
Proof. intros so v d. split; [exact (write_fails so v d)|exact (write_total so v d)]. Qed.
Print Assumptions C12_failure.

(** C29: if the printed values are harmless, the reader sees exactly the printed
    items, in order. *)
Theorem C29_no_injection : forall so v d t d' l, render_document so v d = Ok (t, d') ->
  render_document_chunks so v d = Ok l -> Forall harmless l -> Forall short (stream_lines t) ->
  read_tag_values t = Ok (flat_map seen l).
Proof. exact no_injection_text. Qed.
Print Assumptions C29_no_injection.

(** ** Witnesses *)
Definition w_snippet (k : string) : Snippet :=
  MkSnippet k "f1" [MkRange (MkRP 10 0 "") (MkRP 20 0 ""); MkRange (MkRP 0 3 "") (MkRP 0 5 "")]
    "MIT" ["MIT"; "Apache-2.0"] "" ("two" ++ LF ++ "lines") "" "sn" ["attr"].
Definition w_file (n : string) : File :=
  MkFile (n ++ ".c") n ["SOURCE"] [MkChecksum "SHA1" "abc"] "MIT" ["MIT"] ("comment: a" ++ LF ++ "b") "NOASSERTION"
    [MkArtifact "art" "" "http://x"; MkArtifact "b" "http://h" ""] "" "notice" ["alice"] [] ["dep"]
    [("s2", w_snippet "s2"); ("s1", w_snippet "s1")] [].
Definition w_package (n : string) (fs : list File) : Package :=
  MkPackage false ("pkg " ++ n) n "1.0" "p.tar" (Some (MkSupplier "NOASSERTION" "")) (Some (MkOriginator "Org" "Organization"))
    "NONE" true true (Some (MkVC "d6a7" ["a.spdx"])) [MkChecksum "SHA256" "00"] "" "" "MIT" ["MIT"] "MIT" "" "c" "" "" ""
    [MkER "PACKAGE-MANAGER" "purl" "pkg:x/y@1" "rc"] ["t"] "LIBRARY" "" "" "2030-01-01" fs [].
Definition w_document : Document :=
  MkDoc "SPDX-2.3" "CC0-1.0" "DOCUMENT" "doc" "http://ns"
    [MkEDR "r2" "http://b" (MkChecksum "SHA1" "22"); MkEDR "r1" "http://a" (MkChecksum "SHA1" "11")] ""
    (Some (MkCI "3.9" [MkCreator "t" "Tool"; MkCreator "p q" "Person"] "2020-01-01T00:00:00Z" ""))
    [w_package "p2" [w_file "f3"; w_file "f2"]; w_package "p1" []] [w_file "f1"]
    [MkOL "LicenseRef-1" ("text" ++ LF ++ LF ++ "end ") "" ["http://x"] ""]
    [MkRln (MkDEID "" "DOCUMENT" "") (MkDEID "" "p1" "") "DESCRIBES" "";
     MkRln (MkDEID "r1" "x" "") (MkDEID "" "" "NOASSERTION") "CONTAINS" "cm"]
    [MkAnn (MkAnnotator "ann" "Person") "2020-01-01T00:00:00Z" "REVIEW" (MkDEID "" "p1" "") "note"] []
    [MkRev "rev" "Person" "2020-01-01T00:00:00Z" "ok"].

Ltac decide_rep :=
  lazymatch goal with
  | |- True => exact I
  | |- range_rep (MkRange (MkRP 0 _ _) _) => do 2 eexists; split; [|split; [|right; reflexivity]]; decide_rep
  | |- range_rep _ => do 2 eexists; split; [|split; [|left; reflexivity]]; decide_rep
  | |- _ /\ _ => split; decide_rep
  | |- ~ occurs _ _ => apply not_occurs_contains; vm_compute; reflexivity
  | |- Forall _ ?l => let l' := eval hnf in l in change l with l'; 
                      first [apply Forall_nil | apply Forall_cons; decide_rep]
  | |- _ <> _ => discriminate
  | |- _ = _ -> _ => intros ?; first [discriminate | decide_rep]
  | |- _ <> _ -> _ => intros ?; first [congruence | decide_rep]
  | |- _ = _ => vm_compute; reflexivity
  | |- In _ _ => cbn; tauto
  | |- _ \/ _ => first [solve [left; decide_rep] | right; decide_rep]
  | |- exists _, _ => eexists; split; [reflexivity|decide_rep]
  | |- NoDup _ => repeat constructor; cbn; intuition discriminate
  | |- _ => progress hnf; decide_rep
  end.
Example C01_witness : representable V23 w_document /\ distinct_ids w_document.
Proof. split; decide_rep. Qed.
Definition shortb (s : string) : bool := (N.of_nat (String.length s) <? 65536)%N.
Lemma shortb_all l : forallb shortb l = true -> Forall short l.
Proof.
  intros H. rewrite forallb_forall in H. apply Forall_forall. intros x Hx. specialize (H x Hx).
  now apply N.ltb_lt in H.
Qed.
Example C01_witness_text : exists t d' e, render_document insertion_sorter V23 w_document = Ok (t, d') /\
  Forall short (stream_lines t) /\ read_into t = Ok (V23, Some e) /\
  map p_SPDXIdentifier (d_Packages e) = ["p1"; "p2"] /\
  map (fun p => map f_SPDXIdentifier (p_Files p)) (d_Packages e) = [[]; ["f2"; "f3"]] /\
  map (fun f => map fst (f_Snippets f)) (d_Files e) = [["s1"; "s2"]].
Proof.
  eexists _, _, _. split; [vm_compute; reflexivity|]. split; [apply shortb_all; vm_compute; reflexivity|].
  split; [vm_compute; reflexivity|]. repeat split.
Qed.

(** the same content in another order *)
Definition w_document2 : Document :=
  MkDoc "SPDX-2.3" "CC0-1.0" "DOCUMENT" "doc" "http://ns"
    [MkEDR "r1" "http://a" (MkChecksum "SHA1" "11"); MkEDR "r2" "http://b" (MkChecksum "SHA1" "22")] ""
    (d_CreationInfo w_document)
    [w_package "p1" []; w_package "p2" [w_file "f2"; w_file "f3"]] [set_f_Snippets (rev (f_Snippets (w_file "f1"))) (w_file "f1")]
    (d_OtherLicenses w_document) (d_Relationships w_document) (d_Annotations w_document) [] (d_Reviews w_document).
Example C11_witness : document_same w_document w_document2 /\ w_document <> w_document2.
Proof.
  split; [|discriminate].
  exists (rev (d_ExternalDocumentReferences w_document)), (d_Files w_document2), (d_Packages w_document2).
  split; [apply Permutation_rev|]. split; [|split; [|reflexivity]].
  - exists (d_Files w_document). split; [reflexivity|]. constructor; [|constructor].
    exists (rev (f_Snippets (w_file "f1"))). split; [apply Permutation_rev|reflexivity].
  - exists (rev (d_Packages w_document)). split; [apply Permutation_rev|].
    constructor; [|constructor; [|constructor]].
    + exists []. split; [|reflexivity]. exists []. split; constructor.
    + exists [w_file "f2"; w_file "f3"]. split; [|reflexivity]. exists [w_file "f2"; w_file "f3"].
      split; [apply perm_swap|]. constructor; [|constructor; [|constructor]];
      (exists (f_Snippets (w_file "f2")); split; [reflexivity|reflexivity]).
Qed.
Example C12_witness : exists t d', render_document insertion_sorter V22 w_document = Ok (t, d') /\ d' <> w_document.
Proof. eexists _, _. split; [vm_compute; reflexivity|discriminate]. Qed.
Example C29_witness : exists l, render_document_chunks insertion_sorter V23 w_document = Ok l /\ Forall harmless l /\
  length (flat_map seen l) = 168.
Proof.
  eexists. split; [vm_compute; reflexivity|]. split; [|vm_compute; reflexivity].
  repeat first [apply Forall_nil | apply Forall_cons;
    [cbn [harmless]; first [exact I | split; apply not_occurs_contains; vm_compute; reflexivity
      | (let b := fresh in match goal with |- if ?c then _ else _ => set (b := c); vm_compute in b; subst b end);
        cbv iota; apply not_occurs_contains; vm_compute; reflexivity]|]].
Qed.

(** ** Statements that do not hold *)

(** C29 without the restriction on values: a newline in the document name adds a package. *)
Theorem C29_any_value_refuted :
  ~ (forall so v d t d' l ps, render_document so v d = Ok (t, d') -> render_document_chunks so v d = Ok l ->
     Forall short (stream_lines t) -> read_tag_values t = Ok ps -> map fst ps = map fst (flat_map seen l)).
Proof.
  intros H.
  set (d := set_d_DocumentName ("x" ++ LF ++ "PackageName: evil") (set_d_Packages [] (set_d_Files [] w_document))).
  destruct (render_document insertion_sorter V23 d) as [[t d']| |] eqn:E1; [|vm_compute in E1; discriminate..].
  destruct (render_document_chunks insertion_sorter V23 d) as [l| |] eqn:E2; [|vm_compute in E2; discriminate..].
  destruct (read_tag_values t) as [ps| |] eqn:E3; [|vm_compute in E1; injection E1 as <- <-; vm_compute in E3; discriminate..].
  specialize (H insertion_sorter V23 d t d' l ps E1 E2).
  vm_compute in E1, E2. injection E1 as <- <-. injection E2 as <-. vm_compute in E3. injection E3 as <-.
  specialize (H ltac:(apply shortb_all; vm_compute; reflexivity) eq_refl). vm_compute in H. discriminate.
Qed.
Print Assumptions C29_any_value_refuted.

(** C11 without distinct identifiers: the bytes depend on the order of the packages. *)
Theorem C11_equal_ids_refuted :
  ~ (forall so v d e t d', document_same d e -> render_document so v d = Ok (t, d') ->
     exists e', render_document so v e = Ok (t, e')).
Proof.
  intros H.
  set (d0 := set_d_Files [] (set_d_Packages [] w_document)).
  set (a := w_package "p" []). set (b := set_p_Version "2.0" a).
  assert (document_same (set_d_Packages [a; b] d0) (set_d_Packages [b; a] d0)) as S.
  { exists (d_ExternalDocumentReferences d0), [], [b; a]. split; [reflexivity|]. split; [exists []; split; constructor|].
    split; [|reflexivity]. exists [b; a]. split; [apply perm_swap|].
    constructor; [|constructor; [|constructor]]; (exists []; split; [exists []; split; constructor|reflexivity]). }
  destruct (render_document insertion_sorter V23 (set_d_Packages [a; b] d0)) as [[t d']| |] eqn:E;
    [|vm_compute in E; discriminate..].
  destruct (H insertion_sorter V23 _ _ t d' S E) as (e' & E').
  vm_compute in E, E'. injection E as <- _. injection E' as E' _. discriminate.
Qed.
Print Assumptions C11_equal_ids_refuted.

(** C01 without trimmed values: white space around a one-line value is lost. *)
Theorem C01_untrimmed_refuted :
  exists d t d' e, render_document insertion_sorter V23 d = Ok (t, d') /\ read_into t = Ok (V23, Some e) /\
    d_DocumentName d = " doc" /\ d_DocumentName e = "doc".
Proof.
  exists (set_d_DocumentName " doc" w_document). eexists _, _, _. split; [vm_compute; reflexivity|].
  split; [vm_compute; reflexivity|]. split; reflexivity.
Qed.
Print Assumptions C01_untrimmed_refuted.
(** C01 for snippets of the document: they are not written. *)
Theorem C01_document_snippets_refuted :
  exists d t d' e, render_document insertion_sorter V23 d = Ok (t, d') /\ read_into t = Ok (V23, Some e) /\
    length (d_Snippets d) = 1 /\ d_Snippets e = [].
Proof.
  exists (set_d_Snippets [w_snippet "s"] w_document). eexists _, _, _. split; [vm_compute; reflexivity|].
  split; [vm_compute; reflexivity|]. split; reflexivity.
Qed.
Print Assumptions C01_document_snippets_refuted.
