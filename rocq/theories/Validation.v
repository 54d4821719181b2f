(** * The model on the sample documents and the tests of /repo

    These examples are not among the claims.  They compare the model with what the
    tests of the code say about it: the sample documents of /repo/examples and the
    fixtures and inline documents of the tests, read and written by the model.  The
    tests of the tag-value writers are in WriterTests.v. *)
From Coq Require Import ZArith.
From Verif Require Import GoStr Types TvUtil Sorting TvState TvParser Json JsonSpdx JsonText TvWriter.
From Verif Require Import Samples SampleDocs JsonTests.
Local Open Scope string_scope.

(** The tests compare the relationships as sorted slices (json_test.go 486-490). *)
Definition rel_key (r : option Relationship) : string :=
  match r with
  | Some r => render_doc_element_id (r_RefA r) ++ " " ++ r_Relationship r ++ " "
              ++ render_doc_element_id (r_RefB r) ++ " " ++ r_Comment r
  | None => ""
  end.
Definition by_rel (d : JDocument) : JDocument :=
  set_d_Relationships (isort rel_key (d_Relationships d)) d.
Definition reads_as (text : string) (v : version) (d : Document) : Prop :=
  (let* r := json_read_into text in Ok (fst r, by_rel (snd r))) = Ok (v, by_rel (jdoc d)).

(** spdx/v2/v2_3/json/json_test.go 26-60, spdx/v2/v2_2/json/json_test.go 23-41 *)
Example json_example_23 : reads_as json_23 V23 example_23.
Proof. vm_compute. reflexivity. Qed.
Example json_example_22 : reads_as json_22 V22 example_22.
Proof. vm_compute. reflexivity. Qed.

(** json_test.go 62-89: written and read again, with FilesAnalyzed always present *)
Definition present (d : Document) : Document :=
  set_d_Packages (map (set_p_IsFilesAnalyzedTagPresent true) (d_Packages d)) d.
Example json_rewritten_23 :
  (let* t := json_write V23 true "" (jdoc (present example_23)) in json_read_into t)
  = Ok (V23, jdoc (present example_23)).
Proof. vm_compute. reflexivity. Qed.
Example json_rewritten_22 :
  (let* t := json_write V22 true "" (jdoc (present example_22)) in json_read_into t)
  = Ok (V22, jdoc (present example_22)).
Proof. vm_compute. reflexivity. Qed.

(** json_test.go 91-108: two relationships, neither nil *)
Definition relationships_read (text : string) : res (list bool) :=
  let* r := json_read_into text in
  Ok (map (fun o => match o with Some _ => true | None => false end) (d_Relationships (snd r))).
Example null_relationships :
  relationships_read null_relationships_22 = Ok [true; true]
  /\ relationships_read null_relationships_23 = Ok [true; true].
Proof. split; vm_compute; reflexivity. Qed.

(** json_test.go 110-484 *)
Example shorthand_22 : reads_as text_ShorthandFields_22 V22 want_ShorthandFields_22.
Proof. vm_compute. reflexivity. Qed.
Example shorthand_23 : reads_as text_ShorthandFields_23 V23 want_ShorthandFields_23.
Proof. vm_compute. reflexivity. Qed.
Example no_duplicates_22 : reads_as text_ShorthandFieldsNoDuplicates_22 V22 want_ShorthandFieldsNoDuplicates_22.
Proof. vm_compute. reflexivity. Qed.
Example no_duplicates_23 : reads_as text_ShorthandFieldsNoDuplicates_23 V23 want_ShorthandFieldsNoDuplicates_23.
Proof. vm_compute. reflexivity. Qed.
Example enums_22 : json_read_into text_JsonEnums_22 = Ok (V22, jdoc want_JsonEnums_22).
Proof. vm_compute. reflexivity. Qed.
Example enums_23 : json_read_into text_JsonEnums_23 = Ok (V23, jdoc want_JsonEnums_23).
Proof. vm_compute. reflexivity. Qed.

(** json/reader_test.go 10-61: these documents are read *)
Definition reads (text : string) : bool := match json_read true V23 text with Ok _ => true | _ => false end.
Example fixtures : map reads [fixture_23; null_package_22; null_package_23] = [true; true; true].
Proof. vm_compute. reflexivity. Qed.

(** json/writer_test.go 13-90 *)
Definition small (name : string) : JDocument :=
  jdoc (set_d_SPDXVersion "2.3" (set_d_DocumentName name zero_DocumentOf)).
Example json_texts :
  json_write V23 true "" (small "test_doc")
  = Ok ("{""spdxVersion"":""2.3"",""dataLicense"":"""",""SPDXID"":""SPDXRef-"",""name"":""test_doc"",""documentNamespace"":"""",""creationInfo"":null}" ++ LF)
  /\ json_write V23 true " " (small "test_doc")
  = Ok ("{
 ""spdxVersion"": ""2.3"",
 ""dataLicense"": """",
 ""SPDXID"": ""SPDXRef-"",
 ""name"": ""test_doc"",
 ""documentNamespace"": """",
 ""creationInfo"": null
}
")
  /\ json_write V23 true "" (small "test_doc_>")
  = Ok ("{""spdxVersion"":""2.3"",""dataLicense"":"""",""SPDXID"":""SPDXRef-"",""name"":""test_doc_" ++ String bslash "u003e"",""documentNamespace"":"""",""creationInfo"":null}" ++ LF)
  /\ json_write V23 false "" (small "test_doc_>")
  = Ok ("{""spdxVersion"":""2.3"",""dataLicense"":"""",""SPDXID"":""SPDXRef-"",""name"":""test_doc_>"",""documentNamespace"":"""",""creationInfo"":null}" ++ LF).
Proof. repeat split; vm_compute; reflexivity. Qed.

(** spdx/v2/v2_3/tagvalue/tagvalue_test.go 22-60 and 85-90: the sample document is the
    example, sorted as the writer leaves it, up to the fields the test ignores *)
Definition ignoring (d : Document) : Document :=
  set_d_Snippets [] (set_d_Files (map (set_f_Annotations []) (d_Files d))
    (set_d_Packages (map (fun p => set_p_IsFilesAnalyzedTagPresent false
       (set_p_Annotations [] (set_p_Files (map (set_f_Annotations []) (p_Files p)) p))) (d_Packages d)) d)).
Definition tv_reads (text : string) : res (version * option Document) :=
  let* r := read_into text in Ok (fst r, option_map ignoring (snd r)).
Example tv_example_23 :
  tv_reads tv_23 = Ok (V23, Some (ignoring (sorted_document insertion_sorter example_23))).
Proof. vm_compute. reflexivity. Qed.

(** tagvalue_test.go 62-83 *)
Example tv_rewritten_23 :
  (let* r := render_document insertion_sorter V23 example_23 in
   let* a := tv_reads (fst r) in Ok (a, snd r))
  = Ok (V23, Some (ignoring (sorted_document insertion_sorter example_23)), sorted_document insertion_sorter example_23).
Proof. vm_compute. reflexivity. Qed.

(** The text written is the sample document, but for the lines of FilesAnalyzed: the
    sample was written with the tag present in one package only. *)
Definition but_files_analyzed (t : string) : list string :=
  filter (fun l => negb (String.eqb l "FilesAnalyzed: true")) (split_on (ch 10) t).
Example tv_text_23 :
  (let* r := render_document insertion_sorter V23 example_23 in Ok (but_files_analyzed (fst r)))
  = Ok (but_files_analyzed tv_23).
Proof. vm_compute. reflexivity. Qed.

(** examples/sample-docs/tv: the two small documents are read; the sample document of
    SPDX 2.2 is not, because it has a snippet in the section of a package without files
    of its own before it (parse_package.go, "received unknown tag ... in Package section"). *)
Example tv_samples :
  (match read_into hello with Ok (_, Some _) => true | _ => false end) = true
  /\ (match read_into hello_modified with Ok (_, Some _) => true | _ => false end) = true
  /\ read_into tv_22 = Err "received unknown tag in Package section".
Proof. repeat split; vm_compute; reflexivity. Qed.
