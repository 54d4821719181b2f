(** * Properties of reading JSON that somebody else wrote (C36) *)
From Verif Require Import GoStr GoStrFacts Types TvUtil TvParser SpecTv SpecId SpecDoc Json JsonSpdx SpecJson SpecJsonRead JsonReadFacts JsonReadStruct JsonReadDoc.
Local Open Scope string_scope.

(** ** C36: the document read is the one the JSON value describes *)

(** For a value without ambiguous members, a document is returned exactly when
    the value describes it: member by member, for every object of every
    version.  A null in a list of packages, files, licences and so on is a nil entry of [d]. *)
Theorem C36_read : forall j v d, clear j ->
  (read_value j = Ok (v, d) <-> version_is j v /\ document_is v j d).
Proof. exact read_exact. Qed.
Print Assumptions C36_read.

(** So a value describes at most one document. *)
Theorem C36_unambiguous : forall j v d v' d', clear j ->
  version_is j v -> document_is v j d -> version_is j v' -> document_is v' j d' -> v = v' /\ d = d'.
Proof.
  intros j v d v' d' C V D V' D'.
  pose proof (proj2 (C36_read j v d C) (conj V D)). pose proof (proj2 (C36_read j v' d' C) (conj V' D')).
  split; congruence.
Qed.
Print Assumptions C36_unambiguous.

(** Reading never panics. *)
Theorem C36_no_panic : forall j, read_value j <> Panic.
Proof. exact read_no_panic. Qed.
Print Assumptions C36_no_panic.

Definition w_read : json :=
  JObj [("SPDXID", JStr "SPDXRef-DOCUMENT"); ("spdxVersion", JStr "SPDX-2.3"); ("x-other", JArr [JNum "1e9"]);
        ("Name", JStr "ab\n"); ("dataLicense", JNull);
        ("creationInfo", JObj [("creators", JArr [JStr "Tool: t-1:2"; JStr "Person:me"]); ("created", JStr "2020")]);
        ("documentDescribes", JArr [JStr "SPDXRef-p"]);
        ("packages", JArr [JNull;
           JObj [("name", JStr "p"); ("SPDXID", JStr "SPDXRef-p"); ("FilesAnalyzed", JBool false);
                 ("hasFiles", JArr [JStr "SPDXRef-f"]); ("supplier", JStr "NOASSERTION");
                 ("externalRefs", JArr [JNull; JObj [("referenceCategory", JStr "PACKAGE_MANAGER")]]);
                 ("checksums", JArr [JObj [("algorithm", JStr "SHA1"); ("checksumValue", JStr "00")]])]]);
        ("files", JArr [JObj [("SPDXID", JStr "SPDXRef-f"); ("fileName", JStr "./f"); ("fileTypes", JArr [JStr "SOURCE"])]]);
        ("relationships", JArr [JObj [("spdxElementId", JStr "SPDXRef-f"); ("relatedSpdxElement", JStr "SPDXRef-p");
           ("relationshipType", JStr "CONTAINED_BY")]])].
Example C36_witness : clear w_read /\
  match read_value w_read with
  | Ok (v, d) =>
      v = V23 /\ d_DocumentName d = "ab" ++ LF /\
      d_Relationships d = map Some [MkRln (MkDEID "" "f" "") (MkDEID "" "p" "") "CONTAINED_BY" "";
                                    MkRln (MkDEID "" "DOCUMENT" "") (MkDEID "" "p" "") "DESCRIBES" ""] /\
      map (option_map p_FilesAnalyzed) (d_Packages d) = [None; Some false] /\
      map (option_map (fun p => map (option_map er_Category) (p_ExternalReferences p))) (d_Packages d) = [None; Some [None; Some "PACKAGE-MANAGER"]]
  | _ => False
  end.
Proof.
  split.
  - vm_compute. repeat (split; [|exact I] || split || constructor || (intros K; repeat destruct K as [K|K]; try discriminate K; try contradiction)).
  - vm_compute. repeat split.
Qed.
