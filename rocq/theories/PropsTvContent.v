(** * Property C38: the tag-value reader returns the document the text describes. *)
From Verif Require Import GoStr Types TvReader TvUtil TvParser SpecTv SpecId SpecDoc SpecRead TvReaderFacts TvParserFacts
  DenoteGlobal DenoteDeref DenoteUnique.

(** C38, on pairs: an accepted list of pairs in which no element is described
    twice is read as the document that [SpecRead] says it describes: packages,
    the files of each package, the files outside packages, the snippets of each
    file, and every field of each of them, in input order. *)
Theorem C38_read : forall v l d, regular l -> parse_tag_values v l = Ok (Some d) -> document_den v l d.
Proof. exact parse_document. Qed.
Print Assumptions C38_read.

(** C38, on text: the same for the bytes the pairs are written in. *)
Theorem C38_read_text : forall content l v d,
  tokens (map drop_cr (stream_lines content)) l -> regular l ->
  read_into content = Ok (v, Some d) ->
  document_den v l d.
Proof.
  intros content l v d T R H. apply dispatch_inv in H as (a & b & P & _ & H).
  set (m := (a ++ _ :: b)%list) in *. clearbody m. apply read_tag_values_iff in P as [P S].
  assert (E : read_tag_values content = Ok l) by (apply read_tag_values_iff; auto).
  assert (E' : read_tag_values content = Ok m) by (apply read_tag_values_iff; auto).
  rewrite E in E'. injection E' as <-. now apply parse_document.
Qed.
Print Assumptions C38_read_text.

(** The description leaves nothing open. *)
Theorem C38_unambiguous : forall v l d d', document_den v l d -> document_den v l d' -> d = d'.
Proof. exact document_unique. Qed.
Print Assumptions C38_unambiguous.

(** A document with a file outside packages, two packages, files and snippets. *)
Definition C38_pairs : pairs :=
  [("SPDXVersion", "SPDX-2.3"); ("SPDXID", "SPDXRef-DOCUMENT"); ("Creator", "Tool: x");
   ("FileName", "./loose"); ("SPDXID", "SPDXRef-l"); ("FileChecksum", "SHA1: aa");
   ("ArtifactOfProjectName", "ap"); ("ArtifactOfProjectURI", "u");
   ("SnippetSPDXID", "SPDXRef-s1"); ("SnippetByteRange", "1:2"); ("SnippetLineRange", "3:4");
   ("SnippetSPDXID", "SPDXRef-s2"); ("SnippetFromFileSPDXID", "SPDXRef-l");
   ("PackageName", "p"); ("SPDXID", "SPDXRef-p"); ("FilesAnalyzed", "false"); ("PackageSupplier", "Person: me");
   ("ExternalRef", "SECURITY cpe23Type x"); ("ExternalRefComment", "why");
   ("PackageName", "q"); ("SPDXID", "SPDXRef-q"); ("PackageVerificationCode", "cc (excludes: ./f)");
   ("FileName", "./f"); ("SPDXID", "SPDXRef-f"); ("LicenseConcluded", "MIT");
   ("FileName", "./g"); ("SPDXID", "SPDXRef-g"); ("Relationship", "SPDXRef-g COPY_OF SPDXRef-f")].
Example C38_witness : regular C38_pairs /\ exists d, parse_tag_values V23 C38_pairs = Ok (Some d) /\
  map (fun f => (f_FileName f, map fst (f_Snippets f))) (d_Files d) = [("./loose", ["s1"; "s2"])] /\
  map (fun p => (p_PackageName p, p_FilesAnalyzed p, map (@f_SPDXIdentifier _ _) (p_Files p))) (d_Packages d) =
    [("p", false, []); ("q", true, ["f"; "g"])].
Proof.
  split.
  - split; repeat (apply Forall_cons || apply Forall_nil); unfold package_regular, file_regular; cbn;
      repeat split; try discriminate; auto;
      repeat (apply Forall_cons || apply Forall_nil || apply NoDup_cons || apply NoDup_nil || split);
      cbn; intuition (discriminate || auto).
  - eexists. split; [vm_compute; reflexivity|]. split; reflexivity.
Qed.
Example C38_witness_text :
  tokens (map drop_cr (stream_lines (print_pairs C38_pairs))) C38_pairs /\
  exists d, read_into (print_pairs C38_pairs) = Ok (V23, Some d).
Proof.
  split; [|eexists; vm_compute; reflexivity].
  apply (proj1 (read_tag_values_iff (print_pairs C38_pairs) C38_pairs)). vm_compute. reflexivity.
Qed.

(** Outside regular inputs the reading is not followed: an identifier given
    twice lists its element twice, *)
Theorem C38_two_identifiers_refuted :
  let l := [("SPDXVersion", "SPDX-2.3"); ("Creator", "Tool: x"); ("PackageName", "p");
            ("SPDXID", "SPDXRef-a"); ("SPDXID", "SPDXRef-b")] in
  exists d, parse_tag_values V23 l = Ok (Some d) /\
    length (parts_of "PackageName" l) = 1 /\ map (@p_SPDXIdentifier _ _) (d_Packages d) = ["b"; "b"].
Proof. eexists. split; [vm_compute; reflexivity|]. split; reflexivity. Qed.
Print Assumptions C38_two_identifiers_refuted.
(** a package with an empty name is merged with the package after it, *)
Theorem C38_empty_name_refuted :
  let l := [("SPDXVersion", "SPDX-2.3"); ("Creator", "Tool: x"); ("PackageName", ""); ("PackageVersion", "1");
            ("PackageName", "q"); ("SPDXID", "SPDXRef-q")] in
  exists d, parse_tag_values V23 l = Ok (Some d) /\
    length (parts_of "PackageName" l) = 2 /\
    map (fun p => (p_PackageName p, p_Version p)) (d_Packages d) = [("q", "1")].
Proof. eexists. split; [vm_compute; reflexivity|]. split; reflexivity. Qed.
Print Assumptions C38_empty_name_refuted.
(** and of two snippets of a file with the same identifier only the second is kept. *)
Theorem C38_same_snippet_refuted :
  let l := [("SPDXVersion", "SPDX-2.3"); ("Creator", "Tool: x"); ("FileName", "f"); ("SPDXID", "SPDXRef-f");
            ("SnippetSPDXID", "SPDXRef-s"); ("SnippetName", "one");
            ("SnippetSPDXID", "SPDXRef-s"); ("SnippetName", "two")] in
  exists d, parse_tag_values V23 l = Ok (Some d) /\
    map (fun f => map (fun e => s_Name (snd e)) (f_Snippets f)) (d_Files d) = [["two"]].
Proof. eexists. split; [vm_compute; reflexivity|]. reflexivity. Qed.
Print Assumptions C38_same_snippet_refuted.
