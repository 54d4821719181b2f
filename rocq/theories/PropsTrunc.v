(** * Property C47: texts whose end is missing. *)
From Verif Require Import GoStr GoStrFacts Sorting Types TvReader TvUtil TvParser TvWriter Convert ConvertGo Json JsonSpdx JsonText Formats
  SpecTv SpecId SpecDoc SpecRead SpecTrunc SpecJsonText TvReaderFacts TvParserFacts DenoteRead TruncFacts TruncTag PropsTvParser PropsTvContent.
Local Open Scope string_scope.

(** JSON: of a text and a beginning of it both can be loaded only if what is
    missing is white space; then they are the same document. *)
Theorem C47_json : forall p q x y, json_read_into p = Ok x -> json_read_into (p ++ q) = Ok y -> blank q /\ x = y.
Proof. exact json_prefix. Qed.
Print Assumptions C47_json.
Theorem C47_json_read : forall dz to p q x y, json_read dz to p = Ok x -> json_read dz to (p ++ q) = Ok y -> blank q /\ x = y.
Proof.
  intros dz to p q x y X Y. destruct (json_read_prefix _ _ _ _ X) as (a & A). destruct (json_read_prefix _ _ _ _ Y) as (b & B).
  destruct (json_prefix _ _ _ _ A B) as [E ->]. split; [exact E|]. unfold json_read in X, Y. rewrite A in X. rewrite B in Y. congruence.
Qed.
Print Assumptions C47_json_read.

(** A saved document of which a byte is missing, other than the final newline,
    cannot be loaded. *)
Theorem C47_json_saved : forall v h ind d p q dz to x, blank ind -> json_write v h ind d = Ok (p ++ q) -> json_read dz to p = Ok x -> q = "" \/ q = LF.
Proof.
  intros v h ind d p q dz to x B W X. destruct (json_read_prefix _ _ _ _ X) as (a & A). eapply saved_prefix; eassumption.
Qed.
Print Assumptions C47_json_saved.

(** Tag-value: if a beginning of a text can be loaded it gives the first elements
    of the document, unchanged except for the last one of each kind; and of the
    last package the first files, of the last file the first snippets. *)
Theorem C47_tag : forall p q v l' l d' d,
  tokens (map drop_cr (stream_lines p)) l' -> regular l' -> tokens (map drop_cr (stream_lines (p ++ q))) l -> regular l ->
  read_into p = Ok (v, Some d') -> read_into (p ++ q) = Ok (v, Some d) -> document_cut d' d.
Proof.
  intros p q v l' l d' d T' R' T R H' H.
  eapply document_den_cut; [|eapply C38_read_text; [exact T'|exact R'|exact H']|eapply C38_read_text; [exact T|exact R|exact H]].
  apply (tokens_cut p q).
  - apply dispatch_inv in H' as (a & b & P & _ & _). apply read_tag_values_iff in P as [_ S]. now apply read_tag_values_iff.
  - apply dispatch_inv in H as (a & b & P & _ & _). apply read_tag_values_iff in P as [_ S]. now apply read_tag_values_iff.
Qed.
Print Assumptions C47_tag.

(** But nothing tells that the end is missing.  A saved document cut between two
    lines loads as a smaller document, and cut inside a line it loads as a
    document that says something else: here the relationship to "core-test" becomes
    one to "core". *)
Definition C47_document : Document :=
  MkDoc "SPDX-2.3" "CC0-1.0" "DOCUMENT" "d" "https://x" [] "" (Some (MkCI "" [MkCreator "me" "Person"] "now" "")) [] [] []
    [MkRln (MkDEID "" "app" "") (MkDEID "" "lib" "") "CONTAINS" ""; MkRln (MkDEID "" "app" "") (MkDEID "" "core-test" "") "DEPENDS_ON" ""] [] [] [].
Theorem C47_tag_refuted :
  (exists p q d' e, q <> "" /\ render_document insertion_sorter V23 C47_document = Ok (p ++ q, d') /\ read_into p = Ok (V23, Some e) /\
    d_Relationships e = firstn 1 (d_Relationships C47_document)) /\
  (exists p q d' e r, render_document insertion_sorter V23 C47_document = Ok (p ++ q, d') /\ read_into p = Ok (V23, Some e) /\
    In r (d_Relationships e) /\ ~ In r (d_Relationships C47_document)).
Proof.
  set (t := match render_document insertion_sorter V23 C47_document with Ok (t, _) => t | _ => "" end).
  set (p1 := match cut "Relationship: SPDXRef-app DEPENDS" t with Some (a, _) => a | None => "" end).
  set (p2 := match cut "-test" t with Some (a, _) => a | None => "" end).
  vm_compute in p1, p2. split.
  - exists p1, ("Relationship: SPDXRef-app DEPENDS_ON SPDXRef-core-test" ++ LF ++ LF), C47_document. eexists.
    split; [discriminate|]. split; [vm_compute; reflexivity|]. split; [vm_compute; reflexivity|]. reflexivity.
  - exists p2, ("-test" ++ LF ++ LF), C47_document. eexists. exists (MkRln (MkDEID "" "app" "") (MkDEID "" "core" "") "DEPENDS_ON" "").
    split; [vm_compute; reflexivity|]. split; [vm_compute; reflexivity|]. split; [right; left; reflexivity|].
    intros [E|[E|[]]]; discriminate.
Qed.
Print Assumptions C47_tag_refuted.

(** ** Witnesses *)
Definition C47_begin : string :=
  "SPDXVersion: SPDX-2.3" ++ LF ++ "Creator: Tool: x" ++ LF ++ "PackageName: p" ++ LF ++ "SPDXID: SPDXRef-p" ++ LF
  ++ "FileName: ./f" ++ LF ++ "SPDXID: SPDXRef-f" ++ LF ++ "FileName: ./g" ++ LF ++ "SPDXID: SPDXRef-long".
Definition C47_end : string := "er" ++ LF ++ "FileName: ./h" ++ LF ++ "SPDXID: SPDXRef-h" ++ LF ++ "PackageName: q" ++ LF ++ "SPDXID: SPDXRef-q" ++ LF.
Definition C47_shape (d : Document) := map (fun p => (p_PackageName p, map (fun f => (f_FileName f, f_SPDXIdentifier f)) (p_Files p))) (d_Packages d).
Example C47_witness : exists l' l d' d,
  tokens (map drop_cr (stream_lines C47_begin)) l' /\ regular l' /\ tokens (map drop_cr (stream_lines (C47_begin ++ C47_end))) l /\ regular l /\
  read_into C47_begin = Ok (V23, Some d') /\ read_into (C47_begin ++ C47_end) = Ok (V23, Some d) /\
  C47_shape d' = [("p", [("./f", "f"); ("./g", "long")])] /\
  C47_shape d = [("p", [("./f", "f"); ("./g", "longer"); ("./h", "h")]); ("q", [])].
Proof.
  do 4 eexists. split; [apply (proj1 (read_tag_values_iff C47_begin _)); vm_compute; reflexivity|]. split.
  { split; repeat (apply Forall_cons || apply Forall_nil); unfold package_regular, file_regular; cbn;
      repeat split; try discriminate; auto;
      repeat (apply Forall_cons || apply Forall_nil || apply NoDup_cons || apply NoDup_nil || split);
      cbn; intuition (discriminate || auto). }
  split; [apply (proj1 (read_tag_values_iff (C47_begin ++ C47_end) _)); vm_compute; reflexivity|]. split.
  { split; repeat (apply Forall_cons || apply Forall_nil); unfold package_regular, file_regular; cbn;
      repeat split; try discriminate; auto;
      repeat (apply Forall_cons || apply Forall_nil || apply NoDup_cons || apply NoDup_nil || split);
      cbn; intuition (discriminate || auto). }
  split; [vm_compute; reflexivity|]. split; [vm_compute; reflexivity|]. split; reflexivity.
Qed.
Example C47_json_witness : exists p q x, json_write V23 true " " (jdoc C47_document) = Ok (p ++ q) /\ q <> "" /\ json_read_into p = Ok x.
Proof.
  set (t := match json_write V23 true " " (jdoc C47_document) with Ok t => t | _ => "" end).
  set (p := srev (match srev t with String _ r => r | "" => "" end)). vm_compute in p.
  exists p, LF. eexists. split; [vm_compute; reflexivity|]. split; [discriminate|]. vm_compute. reflexivity.
Qed.
