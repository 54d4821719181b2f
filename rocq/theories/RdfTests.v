(** * Tests of the RDF readers (generated by tools/gen_rdf_tests.py).

    Each example is one test of /repo/spdx/v2/v2_{2,3}/rdf/reader: the graphs it reads,
    the calls it makes, and the conditions under which it fails, each of which must be
    [Some false].  The examples check that the model does what the tests of the code say
    the code does; they are not among the claims.  The triples are made from the RDF/XML
    of the test, in the order of the document; gordf, which the tests use for it, is no
    part of /repo. *)
From Verif Require Import GoStr Types TvUtil Rdf RdfConst RdfReader.
From Coq Require Import ZArith.
Local Open Scope string_scope.
Definition obind {A B} (o : option A) (f : A -> option B) : option B := match o with Some x => f x | None => None end.
Definition olift {A B C} (f : A -> B -> C) (a : option A) (b : option B) : option C := obind a (fun x => option_map (f x) b).
Definition failed {A} (r : res A) : option bool := match r with Ok _ => Some false | Err _ => Some true | Panic => None end.
Definition value {A} (r : res A) : option A := match r with Ok x => Some x | _ => None end.
Definition is_false (o : option bool) : bool := match o with Some b => negb b | None => false end.
(** setReviewFromNode, as [document_step] uses it *)
Definition set_review (g : graph) (n : node) (s : rstate) : res rstate :=
  let* r := review_from_node g n in Ok (on_doc (fun d => set_d_Reviews (d_Reviews d ++ [r])%list d) s).
(** of url.ParseRequestURI: what the tests need *)
Definition test_uri (u : string) : bool := contains "://" u.

(** /repo/spdx/v2/v2_2/rdf/reader/license_utils_test.go 10 *)
Example v22_Test_getLicenseStringFromURI : forallb is_false (
  [(option_map negb (olift String.eqb (Some (license_string_from_uri ("http://spdx.org/rdf/terms#NONE"))) (Some ("NONE"))));
   (option_map negb (olift String.eqb (Some (license_string_from_uri ("http://spdx.org/rdf/terms#noassertion"))) (Some ("NOASSERTION"))));
   (option_map negb (olift String.eqb (Some (license_string_from_uri ("http://spdx.org/rdf/terms#LicenseRef-1"))) (Some ("LicenseRef-1"))))]) = true.
Proof. vm_compute. reflexivity. Qed.
(** /repo/spdx/v2/v2_2/rdf/reader/license_utils_test.go 36 *)
Example v22_Test_rdfParser2_2_getChecksumFromNode : forallb is_false (
  let g1 := MkGraph [(MkTriple (MkNode (NOther "BLANK") ("N1")) ("http://www.w3.org/1999/02/22-rdf-syntax-ns#type") (MkNode NIri ("http://spdx.org/rdf/terms#Checksum")));
    (MkTriple (MkNode (NOther "BLANK") ("N1")) ("http://spdx.org/rdf/terms#checksumValue") (MkNode (NOther "LITERAL") ("2fd4e1c67a2d28fced849ee1bb76e7391b93eb12")));
    (MkTriple (MkNode (NOther "BLANK") ("N1")) ("http://spdx.org/rdf/terms#algorithm") (MkNode (NOther "RESOURCELITERAL") ("http://spdx.org/rdf/terms#checksumAlgorithm_sha999")))] [(MkNode (NOther "BLANK") ("N1"))] test_uri in
  let r2 := checksum_from_node g1 (MkNode (NOther "BLANK") ("N1")) in
  let g3 := MkGraph [(MkTriple (MkNode (NOther "BLANK") ("N1")) ("http://www.w3.org/1999/02/22-rdf-syntax-ns#type") (MkNode NIri ("http://spdx.org/rdf/terms#Checksum")));
    (MkTriple (MkNode (NOther "BLANK") ("N1")) ("http://spdx.org/rdf/terms#checksumValue") (MkNode (NOther "LITERAL") ("2fd4e1c67a2d28fced849ee1bb76e7391b93eb12")));
    (MkTriple (MkNode (NOther "BLANK") ("N1")) ("http://spdx.org/rdf/terms#algorithm") (MkNode (NOther "RESOURCELITERAL") ("http://spdx.org/rdf/terms#checksumAlgorithm_sha1")));
    (MkTriple (MkNode (NOther "BLANK") ("N1")) ("http://spdx.org/rdf/terms#invalidPredicate") (MkNode (NOther "LITERAL") ("")))] [(MkNode (NOther "BLANK") ("N1"))] test_uri in
  let r4 := checksum_from_node g3 (MkNode (NOther "BLANK") ("N1")) in
  let g5 := MkGraph [(MkTriple (MkNode (NOther "BLANK") ("N1")) ("http://www.w3.org/1999/02/22-rdf-syntax-ns#type") (MkNode NIri ("http://spdx.org/rdf/terms#Checksum")));
    (MkTriple (MkNode (NOther "BLANK") ("N1")) ("http://spdx.org/rdf/terms#checksumValue") (MkNode (NOther "LITERAL") ("2fd4e1c67a2d28fced849ee1bb76e7391b93eb12")));
    (MkTriple (MkNode (NOther "BLANK") ("N1")) ("http://spdx.org/rdf/terms#algorithm") (MkNode (NOther "RESOURCELITERAL") ("http://spdx.org/rdf/terms#checksumAlgorithm_sha1")))] [(MkNode (NOther "BLANK") ("N1"))] test_uri in
  let r6 := checksum_from_node g5 (MkNode (NOther "BLANK") ("N1")) in
  [(olift Bool.eqb (failed r2) (Some false));
   (olift Bool.eqb (failed r4) (Some false));
   (option_map negb (olift Bool.eqb (failed r6) (Some false)));
   (option_map negb (olift String.eqb (option_map ck_Algorithm (value r6)) (Some ("SHA1"))));
   (option_map negb (olift String.eqb (option_map ck_Value (value r6)) (Some ("2fd4e1c67a2d28fced849ee1bb76e7391b93eb12"))))]) = true.
Proof. vm_compute. reflexivity. Qed.
(** /repo/spdx/v2/v2_2/rdf/reader/license_utils_test.go 87 *)
Example v22_Test_rdfParser2_2_getAlgorithmFromURI : forallb is_false (
  let r1 := algorithm_from_uri ("http://spdx.org/rdf/terms#sha1") in
  let r2 := algorithm_from_uri ("http://spdx.org/rdf/terms#checksumAlgorithm_sha999") in
  let r3 := algorithm_from_uri ("http://spdx.org/rdf/terms#checksumAlgorithm_sha256") in
  [(olift Bool.eqb (failed r1) (Some false));
   (olift Bool.eqb (failed r2) (Some false));
   (option_map negb (olift Bool.eqb (failed r3) (Some false)));
   (option_map negb (olift String.eqb (value r3) (Some ("SHA256"))))]) = true.
Proof. vm_compute. reflexivity. Qed.
(** /repo/spdx/v2/v2_2/rdf/reader/license_utils_test.go 134 *)
Example v22_TestConjunctiveLicenseSet_ToLicenseString : forallb is_false (
  [(option_map negb (olift String.eqb (Some (license_string (LConjunctive []))) (Some (""))));
   (option_map negb (olift String.eqb (Some (license_string (LConjunctive [(LSpecial ("NOASSERTION"))]))) (Some ("NOASSERTION"))));
   (option_map negb (olift String.eqb (Some (license_string (LConjunctive [(LSpecial ("NOASSERTION")); (LSpecial ("NONE"))]))) (Some ("NOASSERTION AND NONE"))));
   (option_map negb (olift String.eqb (Some (license_string (LConjunctive [(LSpecial ("NOASSERTION")); (LConjunctive [(LSpecial ("LicenseRef-1")); (LSpecial ("NONE"))])]))) (Some ("NOASSERTION AND LicenseRef-1 AND NONE"))))]) = true.
Proof. vm_compute. reflexivity. Qed.
(** /repo/spdx/v2/v2_2/rdf/reader/license_utils_test.go 192 *)
Example v22_TestDisjunctiveLicenseSet_ToLicenseString : forallb is_false (
  [(option_map negb (olift String.eqb (Some (license_string (LDisjunctive []))) (Some (""))));
   (option_map negb (olift String.eqb (Some (license_string (LDisjunctive [(LSpecial ("NOASSERTION"))]))) (Some ("NOASSERTION"))));
   (option_map negb (olift String.eqb (Some (license_string (LDisjunctive [(LSpecial ("NOASSERTION")); (LSpecial ("NONE"))]))) (Some ("NOASSERTION OR NONE"))));
   (option_map negb (olift String.eqb (Some (license_string (LDisjunctive [(LSpecial ("NOASSERTION")); (LDisjunctive [(LSpecial ("LicenseRef-1")); (LSpecial ("NONE"))])]))) (Some ("NOASSERTION OR LicenseRef-1 OR NONE"))))]) = true.
Proof. vm_compute. reflexivity. Qed.
(** /repo/spdx/v2/v2_2/rdf/reader/license_utils_test.go 250 *)
Example v22_TestExtractedLicensingInfo_ToLicenseString : forallb is_false (
  [(option_map negb (olift String.eqb (Some (license_string (LExtracted (MkSimple ("") ("license") ("") [] ("")) ""))) (Some ("license"))))]) = true.
Proof. vm_compute. reflexivity. Qed.
(** /repo/spdx/v2/v2_2/rdf/reader/license_utils_test.go 265 *)
Example v22_TestOrLaterOperator_ToLicenseString : forallb is_false (
  [(option_map negb (olift String.eqb (Some (license_string (LOrLater (MkSimple ("") ("license") ("") [] (""))))) (Some ("license"))))]) = true.
Proof. vm_compute. reflexivity. Qed.
(** /repo/spdx/v2/v2_2/rdf/reader/license_utils_test.go 279 *)
Example v22_TestLicense_ToLicenseString : forallb is_false (
  [(option_map negb (olift String.eqb (Some (license_string (LLicense (MkSimple ("") ("license") ("") [] ("")) zero_license_info))) (Some ("license"))))]) = true.
Proof. vm_compute. reflexivity. Qed.
(** /repo/spdx/v2/v2_2/rdf/reader/license_utils_test.go 323 *)
Example v22_TestSpecialLicense_ToLicenseString : forallb is_false (
  [(option_map negb (olift String.eqb (Some (license_string (LSpecial ("license")))) (Some ("license"))))]) = true.
Proof. vm_compute. reflexivity. Qed.
(** /repo/spdx/v2/v2_2/rdf/reader/license_utils_test.go 335 *)
Example v22_TestSimpleLicensingInfo_ToLicenseString : forallb is_false (
  [(option_map negb (olift String.eqb (Some (license_string (LSimple (MkSimple ("") ("license") ("") [] (""))))) (Some ("license"))))]) = true.
Proof. vm_compute. reflexivity. Qed.
(** /repo/spdx/v2/v2_2/rdf/reader/parse_annotation_test.go 43 *)
Example v22_Test_setAnnotationType : forallb is_false (
  let r1 := annotation_type ("") in
  let r2 := annotation_type ("http://spdx.org/rdf/terms#annotationType_unknown") in
  let r3 := annotation_type ("http://spdx.org/rdf/terms#annotationType_other") in
  let r4 := annotation_type ("http://spdx.org/rdf/terms#annotationType_review") in
  [(olift Bool.eqb (failed r1) (Some false));
   (olift Bool.eqb (failed r2) (Some false));
   (option_map negb (olift Bool.eqb (failed r3) (Some false)));
   (option_map negb (olift String.eqb (option_map (fun x => x) (value r3)) (Some ("OTHER"))));
   (option_map negb (olift Bool.eqb (failed r4) (Some false)));
   (option_map negb (olift String.eqb (option_map (fun x => x) (value r4)) (Some ("REVIEW"))))]) = true.
Proof. vm_compute. reflexivity. Qed.
(** /repo/spdx/v2/v2_2/rdf/reader/parse_annotation_test.go 98 *)
Example v22_Test_rdfParser2_2_parseAnnotationFromNode : forallb is_false (
  let g1 := MkGraph [(MkTriple (MkNode (NOther "BLANK") ("N1")) ("http://www.w3.org/1999/02/22-rdf-syntax-ns#type") (MkNode NIri ("http://spdx.org/rdf/terms#Annotation")));
    (MkTriple (MkNode (NOther "BLANK") ("N1")) ("http://spdx.org/rdf/terms#annotationDate") (MkNode (NOther "LITERAL") ("2010-01-29T18:30:22Z")));
    (MkTriple (MkNode (NOther "BLANK") ("N1")) ("http://www.w3.org/2000/01/rdf-schema#comment") (MkNode (NOther "LITERAL") ("Document level annotation")));
    (MkTriple (MkNode (NOther "BLANK") ("N1")) ("http://spdx.org/rdf/terms#annotator") (MkNode (NOther "LITERAL") ("Company: some company")));
    (MkTriple (MkNode (NOther "BLANK") ("N1")) ("http://spdx.org/rdf/terms#annotationType") (MkNode (NOther "RESOURCELITERAL") ("http://spdx.org/rdf/terms#annotationType_other")))] [(MkNode (NOther "BLANK") ("N1"))] test_uri in
  let r2 := parse_annotation g1 (MkNode (NOther "BLANK") ("N1")) init_state in
  let s3 := match r2 with Ok x => x | _ => init_state end in
  let g4 := MkGraph [(MkTriple (MkNode (NOther "BLANK") ("N1")) ("http://www.w3.org/1999/02/22-rdf-syntax-ns#type") (MkNode NIri ("http://spdx.org/rdf/terms#Annotation")));
    (MkTriple (MkNode (NOther "BLANK") ("N1")) ("http://spdx.org/rdf/terms#annotationDate") (MkNode (NOther "LITERAL") ("2010-01-29T18:30:22Z")));
    (MkTriple (MkNode (NOther "BLANK") ("N1")) ("http://www.w3.org/2000/01/rdf-schema#comment") (MkNode (NOther "LITERAL") ("Document level annotation")));
    (MkTriple (MkNode (NOther "BLANK") ("N1")) ("http://spdx.org/rdf/terms#annotator") (MkNode (NOther "LITERAL") ("Person: Jane Doe")));
    (MkTriple (MkNode (NOther "BLANK") ("N1")) ("http://spdx.org/rdf/terms#annotationType") (MkNode (NOther "RESOURCELITERAL") ("http://spdx.org/rdf/terms#annotationType_unknown")))] [(MkNode (NOther "BLANK") ("N1"))] test_uri in
  let r5 := parse_annotation g4 (MkNode (NOther "BLANK") ("N1")) init_state in
  let s6 := match r5 with Ok x => x | _ => init_state end in
  let g7 := MkGraph [(MkTriple (MkNode (NOther "BLANK") ("N1")) ("http://www.w3.org/1999/02/22-rdf-syntax-ns#type") (MkNode NIri ("http://spdx.org/rdf/terms#Annotation")));
    (MkTriple (MkNode (NOther "BLANK") ("N1")) ("http://spdx.org/rdf/terms#annotationDate") (MkNode (NOther "LITERAL") ("2010-01-29T18:30:22Z")));
    (MkTriple (MkNode (NOther "BLANK") ("N1")) ("http://www.w3.org/2000/01/rdf-schema#comment") (MkNode (NOther "LITERAL") ("Document level annotation")));
    (MkTriple (MkNode (NOther "BLANK") ("N1")) ("http://spdx.org/rdf/terms#annotator") (MkNode (NOther "LITERAL") ("Person: Jane Doe")));
    (MkTriple (MkNode (NOther "BLANK") ("N1")) ("http://spdx.org/rdf/terms#annotationType") (MkNode (NOther "RESOURCELITERAL") ("http://spdx.org/rdf/terms#annotationType_unknown")));
    (MkTriple (MkNode (NOther "BLANK") ("N1")) ("http://spdx.org/rdf/terms#unknownPredicate") (MkNode (NOther "LITERAL") ("")))] [(MkNode (NOther "BLANK") ("N1"))] test_uri in
  let r8 := parse_annotation g7 (MkNode (NOther "BLANK") ("N1")) init_state in
  let s9 := match r8 with Ok x => x | _ => init_state end in
  let g10 := MkGraph [(MkTriple (MkNode (NOther "BLANK") ("N1")) ("http://www.w3.org/1999/02/22-rdf-syntax-ns#type") (MkNode NIri ("http://spdx.org/rdf/terms#Annotation")));
    (MkTriple (MkNode (NOther "BLANK") ("N1")) ("http://spdx.org/rdf/terms#annotationDate") (MkNode (NOther "LITERAL") ("2010-01-29T18:30:22Z")));
    (MkTriple (MkNode (NOther "BLANK") ("N1")) ("http://www.w3.org/2000/01/rdf-schema#comment") (MkNode (NOther "LITERAL") ("Document level annotation")));
    (MkTriple (MkNode (NOther "BLANK") ("N1")) ("http://spdx.org/rdf/terms#annotator") (MkNode (NOther "LITERAL") ("Person: Jane Doe")));
    (MkTriple (MkNode (NOther "BLANK") ("N1")) ("http://spdx.org/rdf/terms#annotationType") (MkNode (NOther "RESOURCELITERAL") ("http://spdx.org/rdf/terms#annotationType_other")))] [(MkNode (NOther "BLANK") ("N1"))] test_uri in
  let r11 := parse_annotation g10 (MkNode (NOther "BLANK") ("N1")) init_state in
  let s12 := match r11 with Ok x => x | _ => init_state end in
  [(olift Bool.eqb (failed r2) (Some false));
   (olift Bool.eqb (failed r5) (Some false));
   (olift Bool.eqb (failed r8) (Some false));
   (option_map negb (olift Bool.eqb (failed r11) (Some false)));
   (option_map negb (olift Nat.eqb (option_map (@List.length _) (option_map (fun x => d_Annotations x) (Some (rs_doc s12)))) (Some 1)));
   (option_map negb (olift String.eqb (option_map (fun x => a_Comment x) (obind (option_map (fun x => d_Annotations x) (Some (rs_doc s12))) (fun l => nth_error l 0))) (Some ("Document level annotation"))));
   (option_map negb (olift String.eqb (option_map (fun x => a_Date x) (obind (option_map (fun x => d_Annotations x) (Some (rs_doc s12))) (fun l => nth_error l 0))) (Some ("2010-01-29T18:30:22Z"))));
   (option_map negb (olift String.eqb (option_map (fun x => a_Type x) (obind (option_map (fun x => d_Annotations x) (Some (rs_doc s12))) (fun l => nth_error l 0))) (Some ("OTHER"))))]) = true.
Proof. vm_compute. reflexivity. Qed.
(** /repo/spdx/v2/v2_2/rdf/reader/parse_creation_info_test.go 42 *)
Example v22_Test_rdfParser2_2_parseCreationInfoFromNode : forallb is_false (
  let g1 := MkGraph [(MkTriple (MkNode (NOther "BLANK") ("N1")) ("http://www.w3.org/1999/02/22-rdf-syntax-ns#type") (MkNode NIri ("http://spdx.org/rdf/terms#CreationInfo")));
    (MkTriple (MkNode (NOther "BLANK") ("N1")) ("http://spdx.org/rdf/terms#licenseListVersion") (MkNode (NOther "LITERAL") ("2.6")));
    (MkTriple (MkNode (NOther "BLANK") ("N1")) ("http://spdx.org/rdf/terms#creator") (MkNode (NOther "LITERAL") ("Person Unknown")));
    (MkTriple (MkNode (NOther "BLANK") ("N1")) ("http://spdx.org/rdf/terms#created") (MkNode (NOther "LITERAL") ("2018-08-24T19:55:34Z")))] [(MkNode (NOther "BLANK") ("N1"))] test_uri in
  let r2 := for_each creation_info_step ( triples_of g1 (MkNode (NOther "BLANK") ("N1")) ) zero_CreationInfo in
  let g3 := MkGraph [(MkTriple (MkNode (NOther "BLANK") ("N1")) ("http://www.w3.org/1999/02/22-rdf-syntax-ns#type") (MkNode NIri ("http://spdx.org/rdf/terms#CreationInfo")));
    (MkTriple (MkNode (NOther "BLANK") ("N1")) ("http://spdx.org/rdf/terms#licenseListVersion") (MkNode (NOther "LITERAL") ("2.6")));
    (MkTriple (MkNode (NOther "BLANK") ("N1")) ("http://spdx.org/rdf/terms#creator") (MkNode (NOther "LITERAL") ("Person: fossy (y)")));
    (MkTriple (MkNode (NOther "BLANK") ("N1")) ("http://spdx.org/rdf/terms#creator") (MkNode (NOther "LITERAL") ("Organization: ")));
    (MkTriple (MkNode (NOther "BLANK") ("N1")) ("http://spdx.org/rdf/terms#creator") (MkNode (NOther "LITERAL") ("Tool: spdx2")));
    (MkTriple (MkNode (NOther "BLANK") ("N1")) ("http://spdx.org/rdf/terms#created") (MkNode (NOther "LITERAL") ("2018-08-24T19:55:34Z")));
    (MkTriple (MkNode (NOther "BLANK") ("N1")) ("http://spdx.org/rdf/terms#unknownPredicate") (MkNode (NOther "LITERAL") ("")))] [(MkNode (NOther "BLANK") ("N1"))] test_uri in
  let r4 := for_each creation_info_step ( triples_of g3 (MkNode (NOther "BLANK") ("N1")) ) zero_CreationInfo in
  let g5 := MkGraph [(MkTriple (MkNode (NOther "BLANK") ("N1")) ("http://www.w3.org/1999/02/22-rdf-syntax-ns#type") (MkNode NIri ("http://spdx.org/rdf/terms#CreationInfo")));
    (MkTriple (MkNode (NOther "BLANK") ("N1")) ("http://spdx.org/rdf/terms#licenseListVersion") (MkNode (NOther "LITERAL") ("2.6")));
    (MkTriple (MkNode (NOther "BLANK") ("N1")) ("http://spdx.org/rdf/terms#creator") (MkNode (NOther "LITERAL") ("Person: fossy")));
    (MkTriple (MkNode (NOther "BLANK") ("N1")) ("http://spdx.org/rdf/terms#created") (MkNode (NOther "LITERAL") ("2018-08-24T19:55:34Z")));
    (MkTriple (MkNode (NOther "BLANK") ("N1")) ("http://www.w3.org/2000/01/rdf-schema#comment") (MkNode (NOther "LITERAL") ("comment")))] [(MkNode (NOther "BLANK") ("N1"))] test_uri in
  let r6 := for_each creation_info_step ( triples_of g5 (MkNode (NOther "BLANK") ("N1")) ) zero_CreationInfo in
  [(olift Bool.eqb (failed r2) (Some false));
   (olift Bool.eqb (failed r4) (Some false));
   (option_map negb (olift Bool.eqb (failed r6) (Some false)));
   (option_map negb (olift String.eqb (option_map (fun x => ci_LicenseListVersion x) (value r6)) (Some ("2.6"))));
   (option_map negb (olift String.eqb (option_map (fun x => ci_Created x) (value r6)) (Some ("2018-08-24T19:55:34Z"))));
   (option_map negb (olift String.eqb (option_map (fun x => ci_CreatorComment x) (value r6)) (Some ("comment"))))]) = true.
Proof. vm_compute. reflexivity. Qed.
(** /repo/spdx/v2/v2_2/rdf/reader/parse_file_test.go 48 *)
Example v22_Test_rdfParser2_2_getArtifactFromNode : forallb is_false (
  let g1 := MkGraph [(MkTriple (MkNode (NOther "BLANK") ("N1")) ("http://www.w3.org/1999/02/22-rdf-syntax-ns#type") (MkNode NIri ("http://spdx.org/rdf/terms#File")));
    (MkTriple (MkNode (NOther "BLANK") ("N1")) ("http://spdx.org/rdf/terms#artifactOf") (MkNode (NOther "BLANK") ("N2")));
    (MkTriple (MkNode (NOther "BLANK") ("N2")) ("http://www.w3.org/1999/02/22-rdf-syntax-ns#type") (MkNode NIri ("http://usefulinc.com/ns/doap#Project")));
    (MkTriple (MkNode (NOther "BLANK") ("N2")) ("http://usefulinc.com/ns/doap#homepage") (MkNode (NOther "LITERAL") ("http://www.openjena.org/")));
    (MkTriple (MkNode (NOther "BLANK") ("N2")) ("http://usefulinc.com/ns/doap#name") (MkNode (NOther "LITERAL") ("Jena")))] [(MkNode (NOther "BLANK") ("N1"))] test_uri in
  let r2 := artifact_from_node g1 (MkNode (NOther "BLANK") ("N2")) in
  let g3 := MkGraph [(MkTriple (MkNode (NOther "BLANK") ("N1")) ("http://www.w3.org/1999/02/22-rdf-syntax-ns#type") (MkNode NIri ("http://spdx.org/rdf/terms#File")));
    (MkTriple (MkNode (NOther "BLANK") ("N1")) ("http://spdx.org/rdf/terms#artifactOf") (MkNode NIri ("http://subversion.apache.org/doap.rdf")));
    (MkTriple (MkNode NIri ("http://subversion.apache.org/doap.rdf")) ("http://www.w3.org/1999/02/22-rdf-syntax-ns#type") (MkNode NIri ("http://usefulinc.com/ns/doap#Project")));
    (MkTriple (MkNode NIri ("http://subversion.apache.org/doap.rdf")) ("http://usefulinc.com/ns/doap#homepage") (MkNode (NOther "LITERAL") ("http://www.openjena.org/")));
    (MkTriple (MkNode NIri ("http://subversion.apache.org/doap.rdf")) ("http://usefulinc.com/ns/doap#name") (MkNode (NOther "LITERAL") ("Jena")))] [(MkNode (NOther "BLANK") ("N1"))] test_uri in
  let r4 := artifact_from_node g3 (MkNode NIri ("http://subversion.apache.org/doap.rdf")) in
  let g5 := MkGraph [(MkTriple (MkNode (NOther "BLANK") ("N1")) ("http://www.w3.org/1999/02/22-rdf-syntax-ns#type") (MkNode NIri ("http://spdx.org/rdf/terms#File")));
    (MkTriple (MkNode (NOther "BLANK") ("N1")) ("http://spdx.org/rdf/terms#artifactOf") (MkNode NIri ("http://subversion.apache.org/doap.rdf")));
    (MkTriple (MkNode NIri ("http://subversion.apache.org/doap.rdf")) ("http://www.w3.org/1999/02/22-rdf-syntax-ns#type") (MkNode NIri ("http://usefulinc.com/ns/doap#Project")));
    (MkTriple (MkNode NIri ("http://subversion.apache.org/doap.rdf")) ("http://usefulinc.com/ns/doap#homepage") (MkNode (NOther "LITERAL") ("http://www.openjena.org/")));
    (MkTriple (MkNode NIri ("http://subversion.apache.org/doap.rdf")) ("http://usefulinc.com/ns/doap#name") (MkNode (NOther "LITERAL") ("Jena")));
    (MkTriple (MkNode NIri ("http://subversion.apache.org/doap.rdf")) ("http://usefulinc.com/ns/doap#invalidTag") (MkNode (NOther "LITERAL") ("")))] [(MkNode (NOther "BLANK") ("N1"))] test_uri in
  let r6 := artifact_from_node g5 (MkNode NIri ("http://subversion.apache.org/doap.rdf")) in
  [(option_map negb (olift Bool.eqb (failed r2) (Some false)));
   (option_map negb (olift String.eqb (option_map (fun x => ar_Name x) (value r2)) (Some ("Jena"))));
   (option_map negb (olift String.eqb (option_map (fun x => ar_HomePage x) (value r2)) (Some ("http://www.openjena.org/"))));
   (option_map negb (olift String.eqb (option_map (fun x => ar_URI x) (value r2)) (Some (""))));
   (option_map negb (olift Bool.eqb (failed r4) (Some false)));
   (option_map negb (olift String.eqb (option_map (fun x => ar_URI x) (value r4)) (Some ("http://subversion.apache.org/doap.rdf"))));
   (olift Bool.eqb (failed r6) (Some false))]) = true.
Proof. vm_compute. reflexivity. Qed.
(** /repo/spdx/v2/v2_2/rdf/reader/parse_file_test.go 122 *)
Example v22_Test_rdfParser2_2_getFileTypeFromUri : forallb is_false (
  let g1 := MkGraph [] [] test_uri in
  let r2 := file_type_from_uri ("http://spdx.org/rdf/terms#fileType_source") in
  let r3 := file_type_from_uri ("http://spdx.org/rdf/terms#source") in
  [(option_map negb (olift Bool.eqb (failed r2) (Some false)));
   (option_map negb (olift String.eqb (value r2) (Some ("source"))));
   (olift Bool.eqb (failed r3) (Some false))]) = true.
Proof. vm_compute. reflexivity. Qed.
(** /repo/spdx/v2/v2_2/rdf/reader/parse_file_test.go 177 *)
Example v22_Test_setFileIdentifier : forallb is_false (
  let r1 := file_identifier ("http://spdx.org/documents/spdx-toolsv2.1.7-SNAPSHOT#SPDXRef-129") in
  let r2 := file_identifier ("http://spdx.org/documents/spdx-toolsv2.1.7-SNAPSHOT#129") in
  [(option_map negb (olift Bool.eqb (failed r1) (Some false)));
   (option_map negb (olift String.eqb (option_map (fun x => x) (value r1)) (Some ("129"))));
   (olift Bool.eqb (failed r2) (Some false))]) = true.
Proof. vm_compute. reflexivity. Qed.
(** /repo/spdx/v2/v2_2/rdf/reader/parse_file_test.go 196 *)
Example v22_Test_rdfParser2_2_setFileChecksumFromNode : forallb is_false (
  let g1 := MkGraph [(MkTriple (MkNode (NOther "BLANK") ("N1")) ("http://www.w3.org/1999/02/22-rdf-syntax-ns#type") (MkNode NIri ("http://spdx.org/rdf/terms#Checksum")));
    (MkTriple (MkNode (NOther "BLANK") ("N1")) ("http://spdx.org/rdf/terms#algorithm") (MkNode (NOther "RESOURCELITERAL") ("http://spdx.org/rdf/terms#checksumAlgorithm_md5")));
    (MkTriple (MkNode (NOther "BLANK") ("N1")) ("http://spdx.org/rdf/terms#checksumValue") (MkNode (NOther "LITERAL") ("d2356e0fe1c0b85285d83c6b2ad51b5f")))] [(MkNode (NOther "BLANK") ("N1"))] test_uri in
  let r2 := element_checksum V22 g1 (MkNode (NOther "BLANK") ("N1")) in
  [(option_map negb (olift Bool.eqb (failed r2) (Some false)))]) = true.
Proof. vm_compute. reflexivity. Qed.
(** /repo/spdx/v2/v2_2/rdf/reader/parse_file_test.go 330 *)
Example v22_Test_rdfParser2_2_getFileFromNode : forallb is_false (
  let g1 := MkGraph [(MkTriple (MkNode NIri ("http://anupam-VirtualBox/repo/SPDX2_time-1.9.tar.gzspdx.rdf#item177")) ("http://www.w3.org/1999/02/22-rdf-syntax-ns#type") (MkNode NIri ("http://spdx.org/rdf/terms#File")))] [(MkNode NIri ("http://anupam-VirtualBox/repo/SPDX2_time-1.9.tar.gzspdx.rdf#item177"))] test_uri in
  let r2 := get_file V22 g1 (MkNode NIri ("http://anupam-VirtualBox/repo/SPDX2_time-1.9.tar.gzspdx.rdf#item177")) init_state in
  let s3 := match r2 with Ok x => snd x | _ => init_state end in
  let g4 := MkGraph [(MkTriple (MkNode NIri ("http://anupam-VirtualBox/repo/SPDX2_time-1.9.tar.gz_1535120734-spdx.rdf#SPDXRef-item177")) ("http://www.w3.org/1999/02/22-rdf-syntax-ns#type") (MkNode NIri ("http://spdx.org/rdf/terms#File")));
    (MkTriple (MkNode NIri ("http://anupam-VirtualBox/repo/SPDX2_time-1.9.tar.gz_1535120734-spdx.rdf#SPDXRef-item177")) ("http://spdx.org/rdf/terms#fileType") (MkNode (NOther "RESOURCELITERAL") ("http://spdx.org/rdf/terms#source")))] [(MkNode NIri ("http://anupam-VirtualBox/repo/SPDX2_time-1.9.tar.gz_1535120734-spdx.rdf#SPDXRef-item177"))] test_uri in
  let r5 := get_file V22 g4 (MkNode NIri ("http://anupam-VirtualBox/repo/SPDX2_time-1.9.tar.gz_1535120734-spdx.rdf#SPDXRef-item177")) init_state in
  let s6 := match r5 with Ok x => snd x | _ => init_state end in
  let g7 := MkGraph [(MkTriple (MkNode NIri ("http://anupam-VirtualBox/repo/SPDX2_time-1.9.tar.gz_1535120734-spdx.rdf#SPDXRef-item177")) ("http://www.w3.org/1999/02/22-rdf-syntax-ns#type") (MkNode NIri ("http://spdx.org/rdf/terms#File")));
    (MkTriple (MkNode NIri ("http://anupam-VirtualBox/repo/SPDX2_time-1.9.tar.gz_1535120734-spdx.rdf#SPDXRef-item177")) ("http://spdx.org/rdf/terms#checksum") (MkNode (NOther "BLANK") ("N1")));
    (MkTriple (MkNode (NOther "BLANK") ("N1")) ("http://www.w3.org/1999/02/22-rdf-syntax-ns#type") (MkNode NIri ("http://spdx.org/rdf/terms#Checksum")));
    (MkTriple (MkNode (NOther "BLANK") ("N1")) ("http://spdx.org/rdf/terms#algorithm") (MkNode (NOther "RESOURCELITERAL") ("http://spdx.org/rdf/terms#checksumAlgorithm_sha2000")));
    (MkTriple (MkNode (NOther "BLANK") ("N1")) ("http://spdx.org/rdf/terms#checksumValue") (MkNode (NOther "LITERAL") ("0a3a0e1ab72b7c132f5021c538a7a3ea6d539bcd")))] [(MkNode NIri ("http://anupam-VirtualBox/repo/SPDX2_time-1.9.tar.gz_1535120734-spdx.rdf#SPDXRef-item177"))] test_uri in
  let r8 := get_file V22 g7 (MkNode NIri ("http://anupam-VirtualBox/repo/SPDX2_time-1.9.tar.gz_1535120734-spdx.rdf#SPDXRef-item177")) init_state in
  let s9 := match r8 with Ok x => snd x | _ => init_state end in
  let g10 := MkGraph [(MkTriple (MkNode NIri ("http://anupam-VirtualBox/repo/SPDX2_time-1.9.tar.gz_1535120734-spdx.rdf#SPDXRef-item177")) ("http://www.w3.org/1999/02/22-rdf-syntax-ns#type") (MkNode NIri ("http://spdx.org/rdf/terms#File")));
    (MkTriple (MkNode NIri ("http://anupam-VirtualBox/repo/SPDX2_time-1.9.tar.gz_1535120734-spdx.rdf#SPDXRef-item177")) ("http://spdx.org/rdf/terms#licenseConcluded") (MkNode (NOther "RESOURCELITERAL") ("http://spdx.org/rdf/terms#invalid_license")))] [(MkNode NIri ("http://anupam-VirtualBox/repo/SPDX2_time-1.9.tar.gz_1535120734-spdx.rdf#SPDXRef-item177"))] test_uri in
  let r11 := get_file V22 g10 (MkNode NIri ("http://anupam-VirtualBox/repo/SPDX2_time-1.9.tar.gz_1535120734-spdx.rdf#SPDXRef-item177")) init_state in
  let s12 := match r11 with Ok x => snd x | _ => init_state end in
  let g13 := MkGraph [(MkTriple (MkNode NIri ("http://anupam-VirtualBox/repo/SPDX2_time-1.9.tar.gz_1535120734-spdx.rdf#SPDXRef-item177")) ("http://www.w3.org/1999/02/22-rdf-syntax-ns#type") (MkNode NIri ("http://spdx.org/rdf/terms#File")));
    (MkTriple (MkNode NIri ("http://anupam-VirtualBox/repo/SPDX2_time-1.9.tar.gz_1535120734-spdx.rdf#SPDXRef-item177")) ("http://spdx.org/rdf/terms#artifactOf") (MkNode (NOther "BLANK") ("N1")));
    (MkTriple (MkNode (NOther "BLANK") ("N1")) ("http://www.w3.org/1999/02/22-rdf-syntax-ns#type") (MkNode NIri ("http://usefulinc.com/ns/doap#Project")));
    (MkTriple (MkNode (NOther "BLANK") ("N1")) ("http://usefulinc.com/ns/doap#unknown_tag") (MkNode (NOther "LITERAL") ("")));
    (MkTriple (MkNode (NOther "BLANK") ("N1")) ("http://usefulinc.com/ns/doap#name") (MkNode (NOther "LITERAL") ("Jena")))] [(MkNode NIri ("http://anupam-VirtualBox/repo/SPDX2_time-1.9.tar.gz_1535120734-spdx.rdf#SPDXRef-item177"))] test_uri in
  let r14 := get_file V22 g13 (MkNode NIri ("http://anupam-VirtualBox/repo/SPDX2_time-1.9.tar.gz_1535120734-spdx.rdf#SPDXRef-item177")) init_state in
  let s15 := match r14 with Ok x => snd x | _ => init_state end in
  let g16 := MkGraph [(MkTriple (MkNode NIri ("http://anupam-VirtualBox/repo/SPDX2_time-1.9.tar.gz_1535120734-spdx.rdf#SPDXRef-item177")) ("http://www.w3.org/1999/02/22-rdf-syntax-ns#type") (MkNode NIri ("http://spdx.org/rdf/terms#File")));
    (MkTriple (MkNode NIri ("http://anupam-VirtualBox/repo/SPDX2_time-1.9.tar.gz_1535120734-spdx.rdf#SPDXRef-item177")) ("http://spdx.org/rdf/terms#fileDependency") (MkNode (NOther "RESOURCELITERAL") ("http://spdx.org/spdxdocs/spdx-example#CommonsLangSrc")))] [(MkNode NIri ("http://anupam-VirtualBox/repo/SPDX2_time-1.9.tar.gz_1535120734-spdx.rdf#SPDXRef-item177"))] test_uri in
  let r17 := get_file V22 g16 (MkNode NIri ("http://anupam-VirtualBox/repo/SPDX2_time-1.9.tar.gz_1535120734-spdx.rdf#SPDXRef-item177")) init_state in
  let s18 := match r17 with Ok x => snd x | _ => init_state end in
  let g19 := MkGraph [(MkTriple (MkNode NIri ("http://anupam-VirtualBox/repo/SPDX2_time-1.9.tar.gz_1535120734-spdx.rdf#SPDXRef-item177")) ("http://www.w3.org/1999/02/22-rdf-syntax-ns#type") (MkNode NIri ("http://spdx.org/rdf/terms#File")));
    (MkTriple (MkNode NIri ("http://anupam-VirtualBox/repo/SPDX2_time-1.9.tar.gz_1535120734-spdx.rdf#SPDXRef-item177")) ("http://spdx.org/rdf/terms#annotation") (MkNode (NOther "BLANK") ("N1")));
    (MkTriple (MkNode (NOther "BLANK") ("N1")) ("http://www.w3.org/1999/02/22-rdf-syntax-ns#type") (MkNode NIri ("http://spdx.org/rdf/terms#Annotation")));
    (MkTriple (MkNode (NOther "BLANK") ("N1")) ("http://spdx.org/rdf/terms#unknownAttribute") (MkNode (NOther "LITERAL") ("")))] [(MkNode NIri ("http://anupam-VirtualBox/repo/SPDX2_time-1.9.tar.gz_1535120734-spdx.rdf#SPDXRef-item177"))] test_uri in
  let r20 := get_file V22 g19 (MkNode NIri ("http://anupam-VirtualBox/repo/SPDX2_time-1.9.tar.gz_1535120734-spdx.rdf#SPDXRef-item177")) init_state in
  let s21 := match r20 with Ok x => snd x | _ => init_state end in
  let g22 := MkGraph [(MkTriple (MkNode NIri ("http://anupam-VirtualBox/repo/SPDX2_time-1.9.tar.gz_1535120734-spdx.rdf#SPDXRef-item177")) ("http://www.w3.org/1999/02/22-rdf-syntax-ns#type") (MkNode NIri ("http://spdx.org/rdf/terms#File")));
    (MkTriple (MkNode NIri ("http://anupam-VirtualBox/repo/SPDX2_time-1.9.tar.gz_1535120734-spdx.rdf#SPDXRef-item177")) ("http://spdx.org/rdf/terms#relationship") (MkNode (NOther "BLANK") ("N1")));
    (MkTriple (MkNode (NOther "BLANK") ("N1")) ("http://www.w3.org/1999/02/22-rdf-syntax-ns#type") (MkNode NIri ("http://spdx.org/rdf/terms#Relationship")));
    (MkTriple (MkNode (NOther "BLANK") ("N1")) ("http://spdx.org/rdf/terms#relationshipType") (MkNode (NOther "RESOURCELITERAL") ("http://spdx.org/rdf/terms#dynamicLink")))] [(MkNode NIri ("http://anupam-VirtualBox/repo/SPDX2_time-1.9.tar.gz_1535120734-spdx.rdf#SPDXRef-item177"))] test_uri in
  let r23 := get_file V22 g22 (MkNode NIri ("http://anupam-VirtualBox/repo/SPDX2_time-1.9.tar.gz_1535120734-spdx.rdf#SPDXRef-item177")) init_state in
  let s24 := match r23 with Ok x => snd x | _ => init_state end in
  let g25 := MkGraph [(MkTriple (MkNode NIri ("http://anupam-VirtualBox/repo/SPDX2_time-1.9.tar.gz_1535120734-spdx.rdf#SPDXRef-item177")) ("http://www.w3.org/1999/02/22-rdf-syntax-ns#type") (MkNode NIri ("http://spdx.org/rdf/terms#File")));
    (MkTriple (MkNode NIri ("http://anupam-VirtualBox/repo/SPDX2_time-1.9.tar.gz_1535120734-spdx.rdf#SPDXRef-item177")) ("http://spdx.org/rdf/terms#unknown") (MkNode (NOther "LITERAL") ("")))] [(MkNode NIri ("http://anupam-VirtualBox/repo/SPDX2_time-1.9.tar.gz_1535120734-spdx.rdf#SPDXRef-item177"))] test_uri in
  let r26 := get_file V22 g25 (MkNode NIri ("http://anupam-VirtualBox/repo/SPDX2_time-1.9.tar.gz_1535120734-spdx.rdf#SPDXRef-item177")) init_state in
  let s27 := match r26 with Ok x => snd x | _ => init_state end in
  let g28 := MkGraph [(MkTriple (MkNode NIri ("http://anupam-VirtualBox/repo/SPDX2_time-1.9.tar.gz_1535120734-spdx.rdf#SPDXRef-item177")) ("http://www.w3.org/1999/02/22-rdf-syntax-ns#type") (MkNode NIri ("http://spdx.org/rdf/terms#File")));
    (MkTriple (MkNode NIri ("http://anupam-VirtualBox/repo/SPDX2_time-1.9.tar.gz_1535120734-spdx.rdf#SPDXRef-item177")) ("http://spdx.org/rdf/terms#licenseInfoInFile") (MkNode (NOther "RESOURCELITERAL") ("http://spdx.org/licenses/DC0-1.0")))] [(MkNode NIri ("http://anupam-VirtualBox/repo/SPDX2_time-1.9.tar.gz_1535120734-spdx.rdf#SPDXRef-item177"))] test_uri in
  let r29 := get_file V22 g28 (MkNode NIri ("http://anupam-VirtualBox/repo/SPDX2_time-1.9.tar.gz_1535120734-spdx.rdf#SPDXRef-item177")) init_state in
  let s30 := match r29 with Ok x => snd x | _ => init_state end in
  [(olift Bool.eqb (failed r2) (Some false));
   (olift Bool.eqb (failed r5) (Some false));
   (olift Bool.eqb (failed r8) (Some false));
   (olift Bool.eqb (failed r11) (Some false));
   (olift Bool.eqb (failed r14) (Some false));
   (olift Bool.eqb (failed r17) (Some false));
   (olift Bool.eqb (failed r20) (Some false));
   (olift Bool.eqb (failed r23) (Some false));
   (olift Bool.eqb (failed r26) (Some false));
   (olift Bool.eqb (failed r29) (Some false))]) = true.
Proof. vm_compute. reflexivity. Qed.
(** /repo/spdx/v2/v2_2/rdf/reader/parse_file_test.go 737 *)
Example v22_Test_getNoticeTextFromNode : forallb is_false (
  [(option_map negb (olift String.eqb (Some (notice_text (MkNode NIri ("text")))) (Some ("text"))))]) = true.
Proof. vm_compute. reflexivity. Qed.
(** /repo/spdx/v2/v2_2/rdf/reader/parse_license_test.go 13 *)
Example v22_Test_rdfParser2_2_getAnyLicenseFromNode : forallb is_false (
  let g1 := MkGraph [] [] test_uri in
  let r2 := get_any_license g1 (MkNode NIri ("http://spdx.org/rdf/terms#NONE")) ( rs_cache init_state ) in
  let g3 := MkGraph [(MkTriple (MkNode (NOther "BLANK") ("N1")) ("http://www.w3.org/1999/02/22-rdf-syntax-ns#type") (MkNode NIri ("http://spdx.org/rdf/terms#DisjunctiveLicenseSet")));
    (MkTriple (MkNode (NOther "BLANK") ("N1")) ("http://spdx.org/rdf/terms#member") (MkNode (NOther "RESOURCELITERAL") ("http://spdx.org/licenses/Nokia")));
    (MkTriple (MkNode (NOther "BLANK") ("N1")) ("http://spdx.org/rdf/terms#member") (MkNode (NOther "RESOURCELITERAL") ("http://spdx.org/licenses/LGPL-2.0")))] [(MkNode (NOther "BLANK") ("N1"))] test_uri in
  let r4 := get_any_license g3 (MkNode (NOther "BLANK") ("N1")) ( rs_cache init_state ) in
  let g5 := MkGraph [(MkTriple (MkNode (NOther "BLANK") ("N1")) ("http://www.w3.org/1999/02/22-rdf-syntax-ns#type") (MkNode NIri ("http://spdx.org/rdf/terms#ConjunctiveLicenseSet")));
    (MkTriple (MkNode (NOther "BLANK") ("N1")) ("http://spdx.org/rdf/terms#member") (MkNode (NOther "RESOURCELITERAL") ("http://spdx.org/licenses/Nokia")));
    (MkTriple (MkNode (NOther "BLANK") ("N1")) ("http://spdx.org/rdf/terms#member") (MkNode (NOther "RESOURCELITERAL") ("http://spdx.org/licenses/LGPL-2.0")))] [(MkNode (NOther "BLANK") ("N1"))] test_uri in
  let r6 := get_any_license g5 (MkNode (NOther "BLANK") ("N1")) ( rs_cache init_state ) in
  let g7 := MkGraph [(MkTriple (MkNode NIri ("http://spdx.dev/spdx.rdf#LicenseRef-Freeware")) ("http://www.w3.org/1999/02/22-rdf-syntax-ns#type") (MkNode NIri ("http://spdx.org/rdf/terms#ExtractedLicensingInfo")));
    (MkTriple (MkNode NIri ("http://spdx.dev/spdx.rdf#LicenseRef-Freeware")) ("http://spdx.org/rdf/terms#licenseId") (MkNode (NOther "LITERAL") ("LicenseRef-Freeware")));
    (MkTriple (MkNode NIri ("http://spdx.dev/spdx.rdf#LicenseRef-Freeware")) ("http://spdx.org/rdf/terms#name") (MkNode (NOther "LITERAL") ("freeware")));
    (MkTriple (MkNode NIri ("http://spdx.dev/spdx.rdf#LicenseRef-Freeware")) ("http://spdx.org/rdf/terms#extractedText") (MkNode (NOther "LITERAL") ("...")))] [(MkNode NIri ("http://spdx.dev/spdx.rdf#LicenseRef-Freeware"))] test_uri in
  let r8 := get_any_license g7 (MkNode NIri ("http://spdx.dev/spdx.rdf#LicenseRef-Freeware")) ( rs_cache init_state ) in
  let g9 := MkGraph [(MkTriple (MkNode NIri ("http://spdx.dev/spdx.rdf#LicenseRef-Freeware")) ("http://www.w3.org/1999/02/22-rdf-syntax-ns#type") (MkNode NIri ("http://spdx.org/rdf/terms#ExtractedLicensingInfo")));
    (MkTriple (MkNode NIri ("http://spdx.dev/spdx.rdf#LicenseRef-Freeware")) ("http://spdx.org/rdf/terms#licenseId") (MkNode (NOther "LITERAL") ("LicenseRef-Freeware")));
    (MkTriple (MkNode NIri ("http://spdx.dev/spdx.rdf#LicenseRef-Freeware")) ("http://spdx.org/rdf/terms#name") (MkNode (NOther "LITERAL") ("freeware")));
    (MkTriple (MkNode NIri ("http://spdx.dev/spdx.rdf#LicenseRef-Freeware")) ("http://spdx.org/rdf/terms#extractedText") (MkNode (NOther "LITERAL") ("...")))] [(MkNode NIri ("http://spdx.dev/spdx.rdf#LicenseRef-Freeware"))] test_uri in
  let r10 := get_any_license g9 (MkNode NIri ("http://spdx.dev/spdx.rdf#LicenseRef-Freeware")) ( rs_cache init_state ) in
  let g11 := MkGraph [(MkTriple (MkNode NIri ("http://spdx.org/licenses/Apache-2.0")) ("http://www.w3.org/1999/02/22-rdf-syntax-ns#type") (MkNode NIri ("http://spdx.org/rdf/terms#License")));
    (MkTriple (MkNode NIri ("http://spdx.org/licenses/Apache-2.0")) ("http://spdx.org/rdf/terms#standardLicenseTemplate") (MkNode (NOther "LITERAL") ("<> Apache License Version 2.0, January 2004 http://www.apache.org/licenses/<><> TERMS AND CONDITIONS FOR USE, REPRODUCTION, AND DISTRIBUTION<> <> Definitions. ""License"" shall mean the terms and conditions for use, reproduction, and distribution as defined by Sections 1 through 9 of this document. ""Licensor"" shall mean the copyright owner or entity authorized by the copyright owner that is granting the License. ""Legal Entity"" shall mean the union of the acting entity and all other entities that control, are controlled by, or are under common control with that entity. For the purposes of this definition, ""control"" means (i) the power, direct or indirect, to cause the direction or management of such entity, whether by contract or otherwise, or (ii) ownership of fifty percent (50%) or more of the outstanding shares, or (iii) beneficial ownership of such entity. ""You"" (or ""Your"") shall mean an individual or Legal Entity exercising permissions granted by this License. ""Source"" form shall mean the preferred form for making modifications, including but not limited to software source code, documentation source, and configuration files. ""Object"" form shall mean any form resulting from mechanical transformation or translation of a Source form, including but not limited to compiled object code, generated documentation, and conversions to other media types. ""Work"" shall mean the work of authorship, whether in Source or Object form, made available under the License, as indicated by a copyright notice that is included in or attached to the work (an example is provided in the Appendix below). ""Derivative Works"" shall mean any work, whether in Source or Object form, that is based on (or derived from) the Work and for which the editorial revisions, annotations, elaborations, or other modifications represent, as a whole, an original work of authorship. For the purposes of this License, Derivative Works shall not include works that remain separable from, or merely link (or bind by name) to the interfaces of, the Work and Derivative Works thereof. ""Contribution"" shall mean any work of authorship, including the original version of the Work and any modifications or additions to that Work or Derivative Works thereof, that is intentionally submitted to Licensor for inclusion in the Work by the copyright owner or by an individual or Legal Entity authorized to submit on behalf of the copyright owner. For the purposes of this definition, ""submitted"" means any form of electronic, verbal, or written communication sent to the Licensor or its representatives, including but not limited to communication on electronic mailing lists, source code control systems, and issue tracking systems that are managed by, or on behalf of, the Licensor for the purpose of discussing and improving the Work, but excluding communication that is conspicuously marked or otherwise designated in writing by the copyright owner as ""Not a Contribution."" ""Contributor"" shall mean Licensor and any individual or Legal Entity on behalf of whom a Contribution has been received by Licensor and subsequently incorporated within the Work. <> Grant of Copyright License. Subject to the terms and conditions of this License, each Contributor hereby grants to You a perpetual, worldwide, non-exclusive, no-charge, royalty-free, irrevocable copyright license to reproduce, prepare Derivative Works of, publicly display, publicly perform, sublicense, and distribute the Work and such Derivative Works in Source or Object form. <> Grant of Patent License. Subject to the terms and conditions of this License, each Contributor hereby grants to You a perpetual, worldwide, non-exclusive, no-charge, royalty-free, irrevocable (except as stated in this section) patent license to make, have made, use, offer to sell, sell, import, and otherwise transfer the Work, where such license applies only to those patent claims licensable by such Contributor that are necessarily infringed by their Contribution(s) alone or by combination of their Contribution(s) with the Work to which such Contribution(s) was submitted. If You institute patent litigation against any entity (including a cross-claim or counterclaim in a lawsuit) alleging that the Work or a Contribution incorporated within the Work constitutes direct or contributory patent infringement, then any patent licenses granted to You under this License for that Work shall terminate as of the date such litigation is filed. <> Redistribution. You may reproduce and distribute copies of the Work or Derivative Works thereof in any medium, with or without modifications, and in Source or Object form, provided that You meet the following conditions: <> You must give any other recipients of the Work or Derivative Works a copy of this License; and <> You must cause any modified files to carry prominent notices stating that You changed the files; and <> You must retain, in the Source form of any Derivative Works that You distribute, all copyright, patent, trademark, and attribution notices from the Source form of the Work, excluding those notices that do not pertain to any part of the Derivative Works; and <> If the Work includes a ""NOTICE"" text file as part of its distribution, then any Derivative Works that You distribute must include a readable copy of the attribution notices contained within such NOTICE file, excluding those notices that do not pertain to any part of the Derivative Works, in at least one of the following places: within a NOTICE text file distributed as part of the Derivative Works; within the Source form or documentation, if provided along with the Derivative Works; or, within a display generated by the Derivative Works, if and wherever such third-party notices normally appear. The contents of the NOTICE file are for informational purposes only and do not modify the License. You may add Your own attribution notices within Derivative Works that You distribute, alongside or as an addendum to the NOTICE text from the Work, provided that such additional attribution notices cannot be construed as modifying the License. You may add Your own copyright statement to Your modifications and may provide additional or different license terms and conditions for use, reproduction, or distribution of Your modifications, or for any such Derivative Works as a whole, provided Your use, reproduction, and distribution of the Work otherwise complies with the conditions stated in this License. <> Submission of Contributions. Unless You explicitly state otherwise, any Contribution intentionally submitted for inclusion in the Work by You to the Licensor shall be under the terms and conditions of this License, without any additional terms or conditions. Notwithstanding the above, nothing herein shall supersede or modify the terms of any separate license agreement you may have executed with Licensor regarding such Contributions. <> Trademarks. This License does not grant permission to use the trade names, trademarks, service marks, or product names of the Licensor, except as required for reasonable and customary use in describing the origin of the Work and reproducing the content of the NOTICE file. <> Disclaimer of Warranty. Unless required by applicable law or agreed to in writing, Licensor provides the Work (and each Contributor provides its Contributions) on an ""AS IS"" BASIS, WITHOUT WARRANTIES OR CONDITIONS OF ANY KIND, either express or implied, including, without limitation, any warranties or conditions of TITLE, NON-INFRINGEMENT, MERCHANTABILITY, or FITNESS FOR A PARTICULAR PURPOSE. You are solely responsible for determining the appropriateness of using or redistributing the Work and assume any risks associated with Your exercise of permissions under this License. <> Limitation of Liability. In no event and under no legal theory, whether in tort (including negligence), contract, or otherwise, unless required by applicable law (such as deliberate and grossly negligent acts) or agreed to in writing, shall any Contributor be liable to You for damages, including any direct, indirect, special, incidental, or consequential damages of any character arising as a result of this License or out of the use or inability to use the Work (including but not limited to damages for loss of goodwill, work stoppage, computer failure or malfunction, or any and all other commercial damages or losses), even if such Contributor has been advised of the possibility of such damages. <> Accepting Warranty or Additional Liability. While redistributing the Work or Derivative Works thereof, You may choose to offer, and charge a fee for, acceptance of support, warranty, indemnity, or other liability obligations and/or rights consistent with this License. However, in accepting such obligations, You may act only on Your own behalf and on Your sole responsibility, not on behalf of any other Contributor, and only if You agree to indemnify, defend, and hold each Contributor harmless for any liability incurred by, or claims asserted against, such Contributor by reason of your accepting any such warranty or additional liability.<> END OF TERMS AND CONDITIONS APPENDIX: How to apply the Apache License to your work. To apply the Apache License to your work, attach the following boilerplate notice, with the fields enclosed by brackets ""[]"" replaced with your own identifying information. (Don't include the brackets!) The text should be enclosed in the appropriate comment syntax for the file format. We also recommend that a file or class name and description of purpose be included on the same ""printed page"" as the copyright notice for easier identification within third-party archives. Copyright <> Licensed under the Apache License, Version 2.0 (the ""License""); you may not use this file except in compliance with the License. You may obtain a copy of the License at http://www.apache.org/licenses/LICENSE-2.0 Unless required by applicable law or agreed to in writing, software distributed under the License is distributed on an ""AS IS"" BASIS, WITHOUT WARRANTIES OR CONDITIONS OF ANY KIND, either express or implied. See the License for the specific language governing permissions and limitations under the License.<>")));
    (MkTriple (MkNode NIri ("http://spdx.org/licenses/Apache-2.0")) ("http://www.w3.org/2000/01/rdf-schema#seeAlso") (MkNode (NOther "LITERAL") ("http://www.apache.org/licenses/LICENSE-2.0")));
    (MkTriple (MkNode NIri ("http://spdx.org/licenses/Apache-2.0")) ("http://spdx.org/rdf/terms#name") (MkNode (NOther "LITERAL") ("Apache License 2.0")));
    (MkTriple (MkNode NIri ("http://spdx.org/licenses/Apache-2.0")) ("http://spdx.org/rdf/terms#licenseId") (MkNode (NOther "LITERAL") ("Apache-2.0")));
    (MkTriple (MkNode NIri ("http://spdx.org/licenses/Apache-2.0")) ("http://spdx.org/rdf/terms#isOsiApproved") (MkNode (NOther "LITERAL") ("true")));
    (MkTriple (MkNode NIri ("http://spdx.org/licenses/Apache-2.0")) ("http://www.w3.org/2000/01/rdf-schema#seeAlso") (MkNode (NOther "LITERAL") ("http://www.opensource.org/licenses/Apache-2.0")));
    (MkTriple (MkNode NIri ("http://spdx.org/licenses/Apache-2.0")) ("http://spdx.org/rdf/terms#licenseText") (MkNode (NOther "LITERAL") ("...")));
    (MkTriple (MkNode NIri ("http://spdx.org/licenses/Apache-2.0")) ("http://spdx.org/rdf/terms#standardLicenseHeader") (MkNode (NOther "LITERAL") ("...")))] [(MkNode NIri ("http://spdx.org/licenses/Apache-2.0"))] test_uri in
  let r12 := get_any_license g11 (MkNode NIri ("http://spdx.org/licenses/Apache-2.0")) ( rs_cache init_state ) in
  let g13 := MkGraph [(MkTriple (MkNode (NOther "BLANK") ("N1")) ("http://www.w3.org/1999/02/22-rdf-syntax-ns#type") (MkNode NIri ("http://spdx.org/rdf/terms#WithExceptionOperator")));
    (MkTriple (MkNode (NOther "BLANK") ("N1")) ("http://spdx.org/rdf/terms#licenseException") (MkNode (NOther "NODEIDLITERAL") ("A1")));
    (MkTriple (MkNode (NOther "NODEIDLITERAL") ("A1")) ("http://www.w3.org/1999/02/22-rdf-syntax-ns#type") (MkNode NIri ("http://spdx.org/rdf/terms#LicenseException")));
    (MkTriple (MkNode (NOther "NODEIDLITERAL") ("A1")) ("http://spdx.org/rdf/terms#example") (MkNode (NOther "LITERAL") ("")));
    (MkTriple (MkNode (NOther "NODEIDLITERAL") ("A1")) ("http://spdx.org/rdf/terms#licenseExceptionId") (MkNode (NOther "LITERAL") ("Libtool-exception")));
    (MkTriple (MkNode (NOther "NODEIDLITERAL") ("A1")) ("http://www.w3.org/2000/01/rdf-schema#comment") (MkNode (NOther "LITERAL") ("")));
    (MkTriple (MkNode (NOther "BLANK") ("N1")) ("http://spdx.org/rdf/terms#member") (MkNode (NOther "RESOURCELITERAL") ("http://spdx.org/licenses/GPL-2.0-or-later")))] [(MkNode (NOther "BLANK") ("N1"))] test_uri in
  let r14 := get_any_license g13 (MkNode (NOther "BLANK") ("N1")) ( rs_cache init_state ) in
  let g15 := MkGraph [(MkTriple (MkNode (NOther "BLANK") ("N1")) ("http://www.w3.org/1999/02/22-rdf-syntax-ns#type") (MkNode NIri ("http://spdx.org/rdf/terms#OrLaterOperator")));
    (MkTriple (MkNode (NOther "BLANK") ("N1")) ("http://spdx.org/rdf/terms#member") (MkNode (NOther "BLANK") ("N2")));
    (MkTriple (MkNode (NOther "BLANK") ("N2")) ("http://www.w3.org/1999/02/22-rdf-syntax-ns#type") (MkNode NIri ("http://spdx.org/rdf/terms#SimpleLicensingInfo")));
    (MkTriple (MkNode (NOther "BLANK") ("N2")) ("http://spdx.org/rdf/terms#licenseId") (MkNode (NOther "LITERAL") ("LicenseRef-Freeware")));
    (MkTriple (MkNode (NOther "BLANK") ("N2")) ("http://spdx.org/rdf/terms#name") (MkNode (NOther "LITERAL") ("freeware")))] [(MkNode (NOther "BLANK") ("N1"))] test_uri in
  let r16 := get_any_license g15 (MkNode (NOther "BLANK") ("N1")) ( rs_cache init_state ) in
  let g17 := MkGraph [(MkTriple (MkNode (NOther "BLANK") ("N1")) ("http://www.w3.org/1999/02/22-rdf-syntax-ns#type") (MkNode NIri ("http://spdx.org/rdf/terms#UnknownLicense")));
    (MkTriple (MkNode (NOther "BLANK") ("N1")) ("http://spdx.org/rdf/terms#unknownTag") (MkNode (NOther "LITERAL") ("")))] [(MkNode (NOther "BLANK") ("N1"))] test_uri in
  let r18 := get_any_license g17 (MkNode (NOther "BLANK") ("N1")) ( rs_cache init_state ) in
  let g19 := MkGraph [(MkTriple (MkNode NIri ("http://spdx.org/spdxdocs/spdx-example-444504E0-4F89-41D3-9A0C-0305E82C3301#SPDXRef-RecursiveLicense")) ("http://www.w3.org/1999/02/22-rdf-syntax-ns#type") (MkNode NIri ("http://spdx.org/rdf/terms#ConjunctiveLicenseSet")));
    (MkTriple (MkNode NIri ("http://spdx.org/spdxdocs/spdx-example-444504E0-4F89-41D3-9A0C-0305E82C3301#SPDXRef-RecursiveLicense")) ("http://spdx.org/rdf/terms#member") (MkNode (NOther "RESOURCELITERAL") ("http://spdx.org/licenses/GPL-2.0-or-later")));
    (MkTriple (MkNode NIri ("http://spdx.org/spdxdocs/spdx-example-444504E0-4F89-41D3-9A0C-0305E82C3301#SPDXRef-RecursiveLicense")) ("http://spdx.org/rdf/terms#member") (MkNode NIri ("http://spdx.org/spdxdocs/spdx-example-444504E0-4F89-41D3-9A0C-0305E82C3301#SPDXRef-RecursiveLicense")));
    (MkTriple (MkNode NIri ("http://spdx.org/spdxdocs/spdx-example-444504E0-4F89-41D3-9A0C-0305E82C3301#SPDXRef-RecursiveLicense")) ("http://www.w3.org/1999/02/22-rdf-syntax-ns#type") (MkNode NIri ("http://spdx.org/rdf/terms#ConjunctiveLicenseSet")));
    (MkTriple (MkNode NIri ("http://spdx.org/spdxdocs/spdx-example-444504E0-4F89-41D3-9A0C-0305E82C3301#SPDXRef-RecursiveLicense")) ("http://spdx.org/rdf/terms#member") (MkNode (NOther "RESOURCELITERAL") ("http://spdx.org/licenses/LGPL-2.0")));
    (MkTriple (MkNode NIri ("http://spdx.org/spdxdocs/spdx-example-444504E0-4F89-41D3-9A0C-0305E82C3301#SPDXRef-RecursiveLicense")) ("http://spdx.org/rdf/terms#member") (MkNode (NOther "RESOURCELITERAL") ("http://spdx.org/spdxdocs/spdx-example-444504E0-4F89-41D3-9A0C-0305E82C3301#SPDXRef-RecursiveLicense")))] [] test_uri in
  let r20 := get_any_license g19 (MkNode NIri ("http://spdx.org/spdxdocs/spdx-example-444504E0-4F89-41D3-9A0C-0305E82C3301#SPDXRef-RecursiveLicense")) ( rs_cache init_state ) in
  [(option_map negb (olift Bool.eqb (failed r2) (Some false)));
   (option_map (fun x => match x with LSpecial _ => false | _ => true end) (option_map fst (value r2)));
   (option_map negb (olift Bool.eqb (failed r4) (Some false)));
   (option_map (fun x => match x with LDisjunctive _ => false | _ => true end) (option_map fst (value r4)));
   (option_map negb (olift Bool.eqb (failed r6) (Some false)));
   (option_map (fun x => match x with LConjunctive _ => false | _ => true end) (option_map fst (value r6)));
   (option_map negb (olift Bool.eqb (failed r8) (Some false)));
   (option_map (fun x => match x with LExtracted _ _ => false | _ => true end) (option_map fst (value r8)));
   (option_map negb (olift Bool.eqb (failed r10) (Some false)));
   (option_map (fun x => match x with LExtracted _ _ => false | _ => true end) (option_map fst (value r10)));
   (option_map negb (olift Bool.eqb (failed r12) (Some false)));
   (option_map (fun x => match x with LLicense _ _ => false | _ => true end) (option_map fst (value r12)));
   (option_map negb (olift Bool.eqb (failed r14) (Some false)));
   (option_map (fun x => match x with LWithException _ _ => false | _ => true end) (option_map fst (value r14)));
   (option_map negb (olift Bool.eqb (failed r16) (Some false)));
   (option_map (fun x => match x with LOrLater _ => false | _ => true end) (option_map fst (value r16)));
   (olift Bool.eqb (failed r18) (Some false));
   (olift Bool.eqb (failed r20) (Some false))]) = true.
Proof. vm_compute. reflexivity. Qed.
(** /repo/spdx/v2/v2_2/rdf/reader/parse_license_test.go 220 *)
Example v22_Test_rdfParser2_2_getConjunctiveLicenseSetFromNode : forallb is_false (
  let g1 := MkGraph [(MkTriple (MkNode (NOther "BLANK") ("N1")) ("http://www.w3.org/1999/02/22-rdf-syntax-ns#type") (MkNode NIri ("http://spdx.org/rdf/terms#ConjunctiveLicenseSet")));
    (MkTriple (MkNode (NOther "BLANK") ("N1")) ("http://spdx.org/rdf/terms#member") (MkNode (NOther "RESOURCELITERAL") ("http://spdx.org/licenses/Unknown")));
    (MkTriple (MkNode (NOther "BLANK") ("N1")) ("http://spdx.org/rdf/terms#member") (MkNode (NOther "RESOURCELITERAL") ("http://spdx.org/licenses/LGPL-2.0")))] [(MkNode (NOther "BLANK") ("N1"))] test_uri in
  let r2 := get_any_license g1 (MkNode (NOther "BLANK") ("N1")) ( rs_cache init_state ) in
  let g3 := MkGraph [(MkTriple (MkNode (NOther "BLANK") ("N1")) ("http://www.w3.org/1999/02/22-rdf-syntax-ns#type") (MkNode NIri ("http://spdx.org/rdf/terms#ConjunctiveLicenseSet")));
    (MkTriple (MkNode (NOther "BLANK") ("N1")) ("http://spdx.org/rdf/terms#member") (MkNode (NOther "RESOURCELITERAL") ("http://spdx.org/licenses/CC0-1.0")));
    (MkTriple (MkNode (NOther "BLANK") ("N1")) ("http://spdx.org/rdf/terms#member") (MkNode (NOther "RESOURCELITERAL") ("http://spdx.org/licenses/LGPL-2.0")));
    (MkTriple (MkNode (NOther "BLANK") ("N1")) ("http://spdx.org/rdf/terms#unknownTag") (MkNode (NOther "LITERAL") ("")))] [(MkNode (NOther "BLANK") ("N1"))] test_uri in
  let r4 := get_any_license g3 (MkNode (NOther "BLANK") ("N1")) ( rs_cache init_state ) in
  let g5 := MkGraph [(MkTriple (MkNode (NOther "BLANK") ("N1")) ("http://www.w3.org/1999/02/22-rdf-syntax-ns#type") (MkNode NIri ("http://spdx.org/rdf/terms#ConjunctiveLicenseSet")));
    (MkTriple (MkNode (NOther "BLANK") ("N1")) ("http://spdx.org/rdf/terms#member") (MkNode (NOther "RESOURCELITERAL") ("http://spdx.org/licenses/Nokia")));
    (MkTriple (MkNode (NOther "BLANK") ("N1")) ("http://spdx.org/rdf/terms#member") (MkNode (NOther "RESOURCELITERAL") ("http://spdx.org/licenses/LGPL-2.0")))] [(MkNode (NOther "BLANK") ("N1"))] test_uri in
  let r6 := get_any_license g5 (MkNode (NOther "BLANK") ("N1")) ( rs_cache init_state ) in
  [(olift Bool.eqb (failed r2) (Some false));
   (olift Bool.eqb (failed r4) (Some false));
   (option_map negb (olift Bool.eqb (failed r6) (Some false)))]) = true.
Proof. vm_compute. reflexivity. Qed.
(** /repo/spdx/v2/v2_2/rdf/reader/parse_license_test.go 277 *)
Example v22_Test_rdfParser2_2_getDisjunctiveLicenseSetFromNode : forallb is_false (
  let g1 := MkGraph [(MkTriple (MkNode (NOther "BLANK") ("N1")) ("http://www.w3.org/1999/02/22-rdf-syntax-ns#type") (MkNode NIri ("http://spdx.org/rdf/terms#DisjunctiveLicenseSet")));
    (MkTriple (MkNode (NOther "BLANK") ("N1")) ("http://spdx.org/rdf/terms#member") (MkNode (NOther "RESOURCELITERAL") ("http://spdx.org/licenses/Unknown")));
    (MkTriple (MkNode (NOther "BLANK") ("N1")) ("http://spdx.org/rdf/terms#member") (MkNode (NOther "RESOURCELITERAL") ("http://spdx.org/licenses/LGPL-2.0")))] [(MkNode (NOther "BLANK") ("N1"))] test_uri in
  let r2 := get_any_license g1 (MkNode (NOther "BLANK") ("N1")) ( rs_cache init_state ) in
  let g3 := MkGraph [(MkTriple (MkNode (NOther "BLANK") ("N1")) ("http://www.w3.org/1999/02/22-rdf-syntax-ns#type") (MkNode NIri ("http://spdx.org/rdf/terms#DisjunctiveLicenseSet")));
    (MkTriple (MkNode (NOther "BLANK") ("N1")) ("http://spdx.org/rdf/terms#member") (MkNode (NOther "RESOURCELITERAL") ("http://spdx.org/licenses/Unknown")));
    (MkTriple (MkNode (NOther "BLANK") ("N1")) ("http://spdx.org/rdf/terms#member") (MkNode (NOther "RESOURCELITERAL") ("http://spdx.org/licenses/LGPL-2.0")));
    (MkTriple (MkNode (NOther "BLANK") ("N1")) ("http://spdx.org/rdf/terms#unknownTag") (MkNode (NOther "LITERAL") ("")))] [(MkNode (NOther "BLANK") ("N1"))] test_uri in
  let r4 := get_any_license g3 (MkNode (NOther "BLANK") ("N1")) ( rs_cache init_state ) in
  let g5 := MkGraph [(MkTriple (MkNode (NOther "BLANK") ("N1")) ("http://www.w3.org/1999/02/22-rdf-syntax-ns#type") (MkNode NIri ("http://spdx.org/rdf/terms#DisjunctiveLicenseSet")));
    (MkTriple (MkNode (NOther "BLANK") ("N1")) ("http://spdx.org/rdf/terms#member") (MkNode (NOther "RESOURCELITERAL") ("http://spdx.org/licenses/Nokia")));
    (MkTriple (MkNode (NOther "BLANK") ("N1")) ("http://spdx.org/rdf/terms#member") (MkNode (NOther "RESOURCELITERAL") ("http://spdx.org/licenses/LGPL-2.0")))] [(MkNode (NOther "BLANK") ("N1"))] test_uri in
  let r6 := get_any_license g5 (MkNode (NOther "BLANK") ("N1")) ( rs_cache init_state ) in
  [(olift Bool.eqb (failed r2) (Some false));
   (olift Bool.eqb (failed r4) (Some false));
   (option_map negb (olift Bool.eqb (failed r6) (Some false)))]) = true.
Proof. vm_compute. reflexivity. Qed.
(** /repo/spdx/v2/v2_2/rdf/reader/parse_license_test.go 334 *)
Example v22_Test_rdfParser2_2_getLicenseExceptionFromNode : forallb is_false (
  let g1 := MkGraph [(MkTriple (MkNode (NOther "BLANK") ("N1")) ("http://www.w3.org/1999/02/22-rdf-syntax-ns#type") (MkNode NIri ("http://spdx.org/rdf/terms#LicenseException")));
    (MkTriple (MkNode (NOther "BLANK") ("N1")) ("http://www.w3.org/2000/01/rdf-schema#seeAlso") (MkNode (NOther "LITERAL") ("see-also")));
    (MkTriple (MkNode (NOther "BLANK") ("N1")) ("http://spdx.org/rdf/terms#example") (MkNode (NOther "LITERAL") ("")));
    (MkTriple (MkNode (NOther "BLANK") ("N1")) ("http://spdx.org/rdf/terms#licenseExceptionId") (MkNode (NOther "LITERAL") ("Libtool-exception")));
    (MkTriple (MkNode (NOther "BLANK") ("N1")) ("http://www.w3.org/2000/01/rdf-schema#comment") (MkNode (NOther "LITERAL") ("")))] [(MkNode (NOther "BLANK") ("N1"))] test_uri in
  let r2 := exception_from_node g1 (MkNode (NOther "BLANK") ("N1")) in
  let g3 := MkGraph [(MkTriple (MkNode (NOther "BLANK") ("N1")) ("http://www.w3.org/1999/02/22-rdf-syntax-ns#type") (MkNode NIri ("http://spdx.org/rdf/terms#LicenseException")));
    (MkTriple (MkNode (NOther "BLANK") ("N1")) ("http://spdx.org/rdf/terms#example") (MkNode (NOther "LITERAL") ("")));
    (MkTriple (MkNode (NOther "BLANK") ("N1")) ("http://spdx.org/rdf/terms#licenseExceptionId") (MkNode (NOther "LITERAL") ("Libtool-exception")));
    (MkTriple (MkNode (NOther "BLANK") ("N1")) ("http://www.w3.org/2000/01/rdf-schema#unknown") (MkNode (NOther "LITERAL") ("")))] [(MkNode (NOther "BLANK") ("N1"))] test_uri in
  let r4 := exception_from_node g3 (MkNode (NOther "BLANK") ("N1")) in
  let g5 := MkGraph [(MkTriple (MkNode (NOther "BLANK") ("N1")) ("http://www.w3.org/1999/02/22-rdf-syntax-ns#type") (MkNode NIri ("http://spdx.org/rdf/terms#LicenseException")));
    (MkTriple (MkNode (NOther "BLANK") ("N1")) ("http://www.w3.org/2000/01/rdf-schema#seeAlso") (MkNode (NOther "RESOURCELITERAL") ("http://www.opensource.org/licenses/GPL-3.0")));
    (MkTriple (MkNode (NOther "BLANK") ("N1")) ("http://spdx.org/rdf/terms#example") (MkNode (NOther "LITERAL") ("no example")));
    (MkTriple (MkNode (NOther "BLANK") ("N1")) ("http://spdx.org/rdf/terms#licenseExceptionId") (MkNode (NOther "LITERAL") ("Libtool-exception")));
    (MkTriple (MkNode (NOther "BLANK") ("N1")) ("http://www.w3.org/2000/01/rdf-schema#comment") (MkNode (NOther "LITERAL") ("no comments")));
    (MkTriple (MkNode (NOther "BLANK") ("N1")) ("http://spdx.org/rdf/terms#licenseExceptionText") (MkNode (NOther "LITERAL") ("text")));
    (MkTriple (MkNode (NOther "BLANK") ("N1")) ("http://spdx.org/rdf/terms#name") (MkNode (NOther "LITERAL") ("name")))] [(MkNode (NOther "BLANK") ("N1"))] test_uri in
  let r6 := exception_from_node g5 (MkNode (NOther "BLANK") ("N1")) in
  [(olift Bool.eqb (failed r2) (Some false));
   (olift Bool.eqb (failed r4) (Some false));
   (option_map negb (olift Bool.eqb (failed r6) (Some false)));
   (option_map negb (olift String.eqb (option_map (fun x => ex_seeAlso x) (value r6)) (Some ("http://www.opensource.org/licenses/GPL-3.0"))));
   (option_map negb (olift String.eqb (option_map (fun x => ex_example x) (value r6)) (Some ("no example"))));
   (option_map negb (olift String.eqb (option_map (fun x => ex_id x) (value r6)) (Some ("Libtool-exception"))));
   (option_map negb (olift String.eqb (option_map (fun x => ex_comment x) (value r6)) (Some ("no comments"))));
   (option_map negb (olift String.eqb (option_map (fun x => ex_text x) (value r6)) (Some ("text"))));
   (option_map negb (olift String.eqb (option_map (fun x => ex_name x) (value r6)) (Some ("name"))))]) = true.
Proof. vm_compute. reflexivity. Qed.
(** /repo/spdx/v2/v2_2/rdf/reader/parse_license_test.go 409 *)
Example v22_Test_rdfParser2_2_getLicenseFromNode : forallb is_false (
  let g1 := MkGraph [(MkTriple (MkNode (NOther "BLANK") ("N1")) ("http://www.w3.org/1999/02/22-rdf-syntax-ns#type") (MkNode NIri ("http://spdx.org/rdf/terms#License")));
    (MkTriple (MkNode (NOther "BLANK") ("N1")) ("http://spdx.org/rdf/terms#isOsiApproved") (MkNode (NOther "LITERAL") ("no")))] [(MkNode (NOther "BLANK") ("N1"))] test_uri in
  let r2 := license_from_node g1 (MkNode (NOther "BLANK") ("N1")) in
  let g3 := MkGraph [(MkTriple (MkNode (NOther "BLANK") ("N1")) ("http://www.w3.org/1999/02/22-rdf-syntax-ns#type") (MkNode NIri ("http://spdx.org/rdf/terms#License")));
    (MkTriple (MkNode (NOther "BLANK") ("N1")) ("http://www.w3.org/2000/01/rdf-schema#seeAlso") (MkNode (NOther "LITERAL") ("uri")))] [(MkNode (NOther "BLANK") ("N1"))] test_uri in
  let r4 := license_from_node g3 (MkNode (NOther "BLANK") ("N1")) in
  let g5 := MkGraph [(MkTriple (MkNode (NOther "BLANK") ("N1")) ("http://www.w3.org/1999/02/22-rdf-syntax-ns#type") (MkNode NIri ("http://spdx.org/rdf/terms#License")));
    (MkTriple (MkNode (NOther "BLANK") ("N1")) ("http://spdx.org/rdf/terms#isDeprecatedLicenseId") (MkNode (NOther "LITERAL") ("yes")))] [(MkNode (NOther "BLANK") ("N1"))] test_uri in
  let r6 := license_from_node g5 (MkNode (NOther "BLANK") ("N1")) in
  let g7 := MkGraph [(MkTriple (MkNode (NOther "BLANK") ("N1")) ("http://www.w3.org/1999/02/22-rdf-syntax-ns#type") (MkNode NIri ("http://spdx.org/rdf/terms#License")));
    (MkTriple (MkNode (NOther "BLANK") ("N1")) ("http://spdx.org/rdf/terms#isFsfLibre") (MkNode (NOther "LITERAL") ("no")))] [(MkNode (NOther "BLANK") ("N1"))] test_uri in
  let r8 := license_from_node g7 (MkNode (NOther "BLANK") ("N1")) in
  let g9 := MkGraph [(MkTriple (MkNode (NOther "BLANK") ("N1")) ("http://www.w3.org/1999/02/22-rdf-syntax-ns#type") (MkNode NIri ("http://spdx.org/rdf/terms#License")));
    (MkTriple (MkNode (NOther "BLANK") ("N1")) ("http://spdx.org/rdf/terms#unknown") (MkNode (NOther "LITERAL") ("")))] [(MkNode (NOther "BLANK") ("N1"))] test_uri in
  let r10 := license_from_node g9 (MkNode (NOther "BLANK") ("N1")) in
  let g11 := MkGraph [(MkTriple (MkNode NIri ("http://spdx.org/licenses/GPL-3.0-or-later")) ("http://www.w3.org/1999/02/22-rdf-syntax-ns#type") (MkNode NIri ("http://spdx.org/rdf/terms#License")));
    (MkTriple (MkNode NIri ("http://spdx.org/licenses/GPL-3.0-or-later")) ("http://www.w3.org/2000/01/rdf-schema#seeAlso") (MkNode (NOther "LITERAL") ("http://www.opensource.org/licenses/GPL-3.0")));
    (MkTriple (MkNode NIri ("http://spdx.org/licenses/GPL-3.0-or-later")) ("http://spdx.org/rdf/terms#isOsiApproved") (MkNode (NOther "LITERAL") ("true")));
    (MkTriple (MkNode NIri ("http://spdx.org/licenses/GPL-3.0-or-later")) ("http://spdx.org/rdf/terms#licenseText") (MkNode (NOther "LITERAL") ("GNU GENERAL PUBLIC LICENSE Version 3, 29 June 2007")));
    (MkTriple (MkNode NIri ("http://spdx.org/licenses/GPL-3.0-or-later")) ("http://spdx.org/rdf/terms#name") (MkNode (NOther "LITERAL") ("GNU General Public License v3.0 or later")));
    (MkTriple (MkNode NIri ("http://spdx.org/licenses/GPL-3.0-or-later")) ("http://spdx.org/rdf/terms#standardLicenseHeaderTemplate") (MkNode (NOther "LITERAL") ("...")));
    (MkTriple (MkNode NIri ("http://spdx.org/licenses/GPL-3.0-or-later")) ("http://spdx.org/rdf/terms#licenseId") (MkNode (NOther "LITERAL") ("GPL-3.0-or-later")));
    (MkTriple (MkNode NIri ("http://spdx.org/licenses/GPL-3.0-or-later")) ("http://www.w3.org/2000/01/rdf-schema#comment") (MkNode (NOther "LITERAL") ("This license was released: 29 June 2007")));
    (MkTriple (MkNode NIri ("http://spdx.org/licenses/GPL-3.0-or-later")) ("http://spdx.org/rdf/terms#isFsfLibre") (MkNode (NOther "LITERAL") ("true")));
    (MkTriple (MkNode NIri ("http://spdx.org/licenses/GPL-3.0-or-later")) ("http://spdx.org/rdf/terms#standardLicenseHeader") (MkNode (NOther "LITERAL") ("...")));
    (MkTriple (MkNode NIri ("http://spdx.org/licenses/GPL-3.0-or-later")) ("http://spdx.org/rdf/terms#standardLicenseTemplate") (MkNode (NOther "LITERAL") ("....")))] [(MkNode NIri ("http://spdx.org/licenses/GPL-3.0-or-later"))] test_uri in
  let r12 := license_from_node g11 (MkNode NIri ("http://spdx.org/licenses/GPL-3.0-or-later")) in
  [(olift Bool.eqb (failed r2) (Some false));
   (olift Bool.eqb (failed r4) (Some false));
   (olift Bool.eqb (failed r6) (Some false));
   (olift Bool.eqb (failed r8) (Some false));
   (olift Bool.eqb (failed r10) (Some false));
   (option_map negb (olift Bool.eqb (failed r12) (Some false)))]) = true.
Proof. vm_compute. reflexivity. Qed.
(** /repo/spdx/v2/v2_2/rdf/reader/parse_license_test.go 538 *)
Example v22_Test_rdfParser2_2_getOrLaterOperatorFromNode : forallb is_false (
  let g1 := MkGraph [(MkTriple (MkNode (NOther "BLANK") ("N1")) ("http://www.w3.org/1999/02/22-rdf-syntax-ns#type") (MkNode NIri ("http://spdx.org/rdf/terms#OrLaterOperator")));
    (MkTriple (MkNode (NOther "BLANK") ("N1")) ("http://spdx.org/rdf/terms#member") (MkNode (NOther "BLANK") ("N2")));
    (MkTriple (MkNode (NOther "BLANK") ("N2")) ("http://www.w3.org/1999/02/22-rdf-syntax-ns#type") (MkNode NIri ("http://spdx.org/rdf/terms#SimpleLicensingInfo")));
    (MkTriple (MkNode (NOther "BLANK") ("N2")) ("http://spdx.org/rdf/terms#licenseId") (MkNode (NOther "LITERAL") ("LicenseRef-Freeware")));
    (MkTriple (MkNode (NOther "BLANK") ("N2")) ("http://spdx.org/rdf/terms#name") (MkNode (NOther "LITERAL") ("freeware")));
    (MkTriple (MkNode (NOther "BLANK") ("N1")) ("http://spdx.org/rdf/terms#member") (MkNode (NOther "RESOURCELITERAL") ("http://spdx.org/licenses/Nokia")))] [(MkNode (NOther "BLANK") ("N1"))] test_uri in
  let r2 := or_later_from_node g1 (MkNode (NOther "BLANK") ("N1")) in
  let g3 := MkGraph [(MkTriple (MkNode (NOther "BLANK") ("N1")) ("http://www.w3.org/1999/02/22-rdf-syntax-ns#type") (MkNode NIri ("http://spdx.org/rdf/terms#OrLaterOperator")));
    (MkTriple (MkNode (NOther "BLANK") ("N1")) ("http://spdx.org/rdf/terms#members") (MkNode (NOther "BLANK") ("N2")));
    (MkTriple (MkNode (NOther "BLANK") ("N2")) ("http://www.w3.org/1999/02/22-rdf-syntax-ns#type") (MkNode NIri ("http://spdx.org/rdf/terms#SimpleLicensingInfo")));
    (MkTriple (MkNode (NOther "BLANK") ("N2")) ("http://spdx.org/rdf/terms#licenseId") (MkNode (NOther "LITERAL") ("LicenseRef-Freeware")));
    (MkTriple (MkNode (NOther "BLANK") ("N2")) ("http://spdx.org/rdf/terms#name") (MkNode (NOther "LITERAL") ("freeware")))] [(MkNode (NOther "BLANK") ("N1"))] test_uri in
  let r4 := or_later_from_node g3 (MkNode (NOther "BLANK") ("N1")) in
  let g5 := MkGraph [(MkTriple (MkNode (NOther "BLANK") ("N1")) ("http://www.w3.org/1999/02/22-rdf-syntax-ns#type") (MkNode NIri ("http://spdx.org/rdf/terms#OrLaterOperator")));
    (MkTriple (MkNode (NOther "BLANK") ("N1")) ("http://spdx.org/rdf/terms#member") (MkNode (NOther "BLANK") ("N2")));
    (MkTriple (MkNode (NOther "BLANK") ("N2")) ("http://www.w3.org/1999/02/22-rdf-syntax-ns#type") (MkNode NIri ("http://spdx.org/rdf/terms#SimpleLicensingInfo")));
    (MkTriple (MkNode (NOther "BLANK") ("N2")) ("http://spdx.org/rdf/terms#invalidTag") (MkNode (NOther "LITERAL") ("")));
    (MkTriple (MkNode (NOther "BLANK") ("N2")) ("http://spdx.org/rdf/terms#licenseId") (MkNode (NOther "LITERAL") ("LicenseRef-Freeware")));
    (MkTriple (MkNode (NOther "BLANK") ("N2")) ("http://spdx.org/rdf/terms#name") (MkNode (NOther "LITERAL") ("freeware")))] [(MkNode (NOther "BLANK") ("N1"))] test_uri in
  let r6 := or_later_from_node g5 (MkNode (NOther "BLANK") ("N1")) in
  let g7 := MkGraph [(MkTriple (MkNode (NOther "BLANK") ("N1")) ("http://www.w3.org/1999/02/22-rdf-syntax-ns#type") (MkNode NIri ("http://spdx.org/rdf/terms#OrLaterOperator")));
    (MkTriple (MkNode (NOther "BLANK") ("N1")) ("http://spdx.org/rdf/terms#member") (MkNode (NOther "BLANK") ("N2")));
    (MkTriple (MkNode (NOther "BLANK") ("N2")) ("http://www.w3.org/1999/02/22-rdf-syntax-ns#type") (MkNode NIri ("http://spdx.org/rdf/terms#SimpleLicensingInfo")));
    (MkTriple (MkNode (NOther "BLANK") ("N2")) ("http://spdx.org/rdf/terms#licenseId") (MkNode (NOther "LITERAL") ("LicenseRef-Freeware")));
    (MkTriple (MkNode (NOther "BLANK") ("N2")) ("http://spdx.org/rdf/terms#name") (MkNode (NOther "LITERAL") ("freeware")))] [(MkNode (NOther "BLANK") ("N1"))] test_uri in
  let r8 := or_later_from_node g7 (MkNode (NOther "BLANK") ("N1")) in
  [(olift Bool.eqb (failed r2) (Some false));
   (olift Bool.eqb (failed r4) (Some false));
   (olift Bool.eqb (failed r6) (Some false));
   (option_map negb (olift Bool.eqb (failed r8) (Some false)))]) = true.
Proof. vm_compute. reflexivity. Qed.
(** /repo/spdx/v2/v2_2/rdf/reader/parse_license_test.go 614 *)
Example v22_Test_rdfParser2_2_getSimpleLicensingInfoFromNode : forallb is_false (
  let g1 := MkGraph [(MkTriple (MkNode (NOther "BLANK") ("N1")) ("http://www.w3.org/1999/02/22-rdf-syntax-ns#type") (MkNode NIri ("http://spdx.org/rdf/terms#SimpleLicensingInfo")));
    (MkTriple (MkNode (NOther "BLANK") ("N1")) ("http://spdx.org/rdf/terms#licenseId") (MkNode (NOther "LITERAL") ("LicenseRef-Freeware")));
    (MkTriple (MkNode (NOther "BLANK") ("N1")) ("http://spdx.org/rdf/terms#name") (MkNode (NOther "LITERAL") ("freeware")))] [(MkNode (NOther "BLANK") ("N1"))] test_uri in
  let r2 := simple_from_node g1 (MkNode (NOther "BLANK") ("N1")) in
  [(option_map negb (olift Bool.eqb (failed r2) (Some false)))]) = true.
Proof. vm_compute. reflexivity. Qed.
(** /repo/spdx/v2/v2_2/rdf/reader/parse_license_test.go 630 *)
Example v22_Test_rdfParser2_2_getSimpleLicensingInfoFromTriples : forallb is_false (
  let g1 := MkGraph [(MkTriple (MkNode (NOther "BLANK") ("N1")) ("http://www.w3.org/1999/02/22-rdf-syntax-ns#type") (MkNode NIri ("http://spdx.org/rdf/terms#SimpleLicensingInfo")));
    (MkTriple (MkNode (NOther "BLANK") ("N1")) ("http://www.w3.org/2000/01/rdf-schema#seeAlso") (MkNode (NOther "LITERAL") ("an invalid uri")))] [(MkNode (NOther "BLANK") ("N1"))] test_uri in
  let r2 := simple_from_triples g1 [(MkTriple (MkNode (NOther "BLANK") ("N1")) ("http://www.w3.org/1999/02/22-rdf-syntax-ns#type") (MkNode NIri ("http://spdx.org/rdf/terms#SimpleLicensingInfo"))); (MkTriple (MkNode (NOther "BLANK") ("N1")) ("http://www.w3.org/2000/01/rdf-schema#seeAlso") (MkNode (NOther "LITERAL") ("an invalid uri")))] in
  let g3 := MkGraph [(MkTriple (MkNode (NOther "BLANK") ("N1")) ("http://www.w3.org/1999/02/22-rdf-syntax-ns#type") (MkNode NIri ("http://spdx.org/rdf/terms#SimpleLicensingInfo")));
    (MkTriple (MkNode (NOther "BLANK") ("N1")) ("http://www.w3.org/2000/01/rdf-schema#invalidPredicate") (MkNode (NOther "LITERAL") ("")))] [(MkNode (NOther "BLANK") ("N1"))] test_uri in
  let r4 := simple_from_triples g3 [(MkTriple (MkNode (NOther "BLANK") ("N1")) ("http://www.w3.org/1999/02/22-rdf-syntax-ns#type") (MkNode NIri ("http://spdx.org/rdf/terms#SimpleLicensingInfo"))); (MkTriple (MkNode (NOther "BLANK") ("N1")) ("http://www.w3.org/2000/01/rdf-schema#invalidPredicate") (MkNode (NOther "LITERAL") ("")))] in
  let g5 := MkGraph [(MkTriple (MkNode (NOther "BLANK") ("N1")) ("http://www.w3.org/1999/02/22-rdf-syntax-ns#type") (MkNode NIri ("http://spdx.org/rdf/terms#SimpleLicensingInfo")));
    (MkTriple (MkNode (NOther "BLANK") ("N1")) ("http://www.w3.org/2000/01/rdf-schema#comment") (MkNode (NOther "LITERAL") ("comment")));
    (MkTriple (MkNode (NOther "BLANK") ("N1")) ("http://spdx.org/rdf/terms#licenseId") (MkNode (NOther "LITERAL") ("lid")));
    (MkTriple (MkNode (NOther "BLANK") ("N1")) ("http://spdx.org/rdf/terms#name") (MkNode (NOther "LITERAL") ("name")));
    (MkTriple (MkNode (NOther "BLANK") ("N1")) ("http://www.w3.org/2000/01/rdf-schema#seeAlso") (MkNode (NOther "LITERAL") ("https://opensource.org/licenses/MPL-1.0")));
    (MkTriple (MkNode (NOther "BLANK") ("N1")) ("http://spdx.org/rdf/terms#example") (MkNode (NOther "LITERAL") ("example")))] [(MkNode (NOther "BLANK") ("N1"))] test_uri in
  let r6 := simple_from_triples g5 [(MkTriple (MkNode (NOther "BLANK") ("N1")) ("http://www.w3.org/1999/02/22-rdf-syntax-ns#type") (MkNode NIri ("http://spdx.org/rdf/terms#SimpleLicensingInfo"))); (MkTriple (MkNode (NOther "BLANK") ("N1")) ("http://www.w3.org/2000/01/rdf-schema#comment") (MkNode (NOther "LITERAL") ("comment"))); (MkTriple (MkNode (NOther "BLANK") ("N1")) ("http://spdx.org/rdf/terms#licenseId") (MkNode (NOther "LITERAL") ("lid"))); (MkTriple (MkNode (NOther "BLANK") ("N1")) ("http://spdx.org/rdf/terms#name") (MkNode (NOther "LITERAL") ("name"))); (MkTriple (MkNode (NOther "BLANK") ("N1")) ("http://www.w3.org/2000/01/rdf-schema#seeAlso") (MkNode (NOther "LITERAL") ("https://opensource.org/licenses/MPL-1.0"))); (MkTriple (MkNode (NOther "BLANK") ("N1")) ("http://spdx.org/rdf/terms#example") (MkNode (NOther "LITERAL") ("example")))] in
  [(olift Bool.eqb (failed r2) (Some false));
   (olift Bool.eqb (failed r4) (Some false));
   (option_map negb (olift Bool.eqb (failed r6) (Some false)));
   (option_map negb (olift String.eqb (option_map (fun x => sl_comment x) (value r6)) (Some ("comment"))));
   (option_map negb (olift String.eqb (option_map (fun x => sl_licenseID x) (value r6)) (Some ("lid"))));
   (option_map negb (olift String.eqb (option_map (fun x => sl_name x) (value r6)) (Some ("name"))));
   (option_map negb (olift String.eqb (option_map (fun x => sl_example x) (value r6)) (Some ("example"))))]) = true.
Proof. vm_compute. reflexivity. Qed.
(** /repo/spdx/v2/v2_2/rdf/reader/parse_license_test.go 696 *)
Example v22_Test_rdfParser2_2_getSpecialLicenseFromNode : forallb is_false (
  let g1 := MkGraph [] [] test_uri in
  let r2 := special_license (MkNode NIri ("http://spdx.org/rdf/terms#NONE")) in
  let g3 := MkGraph [] [] test_uri in
  let r4 := special_license (MkNode NIri ("http://spdx.org/rdf/terms#NOASSERTION")) in
  let g5 := MkGraph [] [] test_uri in
  let r6 := special_license (MkNode NIri ("https://opensource.org/licenses/unknown")) in
  let g7 := MkGraph [] [] test_uri in
  let r8 := special_license (MkNode NIri ("https://opensource.org/licenses/MPL-1.0")) in
  [(option_map negb (olift Bool.eqb (failed r2) (Some false)));
   (option_map negb (olift Bool.eqb (failed r4) (Some false)));
   (olift Bool.eqb (failed r6) (Some false));
   (option_map negb (olift Bool.eqb (failed r8) (Some false)))]) = true.
Proof. vm_compute. reflexivity. Qed.
(** /repo/spdx/v2/v2_2/rdf/reader/parse_license_test.go 755 *)
Example v22_Test_rdfParser2_2_getWithExceptionOperatorFromNode : forallb is_false (
  let g1 := MkGraph [(MkTriple (MkNode (NOther "BLANK") ("N1")) ("http://www.w3.org/1999/02/22-rdf-syntax-ns#type") (MkNode NIri ("http://spdx.org/rdf/terms#WithExceptionOperator")));
    (MkTriple (MkNode (NOther "BLANK") ("N1")) ("http://spdx.org/rdf/terms#member") (MkNode (NOther "BLANK") ("N2")));
    (MkTriple (MkNode (NOther "BLANK") ("N2")) ("http://www.w3.org/1999/02/22-rdf-syntax-ns#type") (MkNode NIri ("http://spdx.org/rdf/terms#SimpleLicensingInfo")));
    (MkTriple (MkNode (NOther "BLANK") ("N2")) ("http://spdx.org/rdf/terms#licenseId") (MkNode (NOther "LITERAL") ("LicenseRef-Freeware")));
    (MkTriple (MkNode (NOther "BLANK") ("N2")) ("http://spdx.org/rdf/terms#name") (MkNode (NOther "LITERAL") ("freeware")));
    (MkTriple (MkNode (NOther "BLANK") ("N1")) ("http://spdx.org/rdf/terms#member") (MkNode (NOther "RESOURCELITERAL") ("http://spdx.org/licenses/Nokia")))] [(MkNode (NOther "BLANK") ("N1"))] test_uri in
  let r2 := with_exception_from_node g1 (MkNode (NOther "BLANK") ("N1")) in
  let g3 := MkGraph [(MkTriple (MkNode (NOther "BLANK") ("N1")) ("http://www.w3.org/1999/02/22-rdf-syntax-ns#type") (MkNode NIri ("http://spdx.org/rdf/terms#WithExceptionOperator")));
    (MkTriple (MkNode (NOther "BLANK") ("N1")) ("http://spdx.org/rdf/terms#members") (MkNode (NOther "BLANK") ("N2")));
    (MkTriple (MkNode (NOther "BLANK") ("N2")) ("http://www.w3.org/1999/02/22-rdf-syntax-ns#type") (MkNode NIri ("http://spdx.org/rdf/terms#SimpleLicensingInfo")));
    (MkTriple (MkNode (NOther "BLANK") ("N2")) ("http://spdx.org/rdf/terms#licenseId") (MkNode (NOther "LITERAL") ("LicenseRef-Freeware")));
    (MkTriple (MkNode (NOther "BLANK") ("N2")) ("http://spdx.org/rdf/terms#name") (MkNode (NOther "LITERAL") ("freeware")))] [(MkNode (NOther "BLANK") ("N1"))] test_uri in
  let r4 := with_exception_from_node g3 (MkNode (NOther "BLANK") ("N1")) in
  let g5 := MkGraph [(MkTriple (MkNode (NOther "BLANK") ("N1")) ("http://www.w3.org/1999/02/22-rdf-syntax-ns#type") (MkNode NIri ("http://spdx.org/rdf/terms#WithExceptionOperator")));
    (MkTriple (MkNode (NOther "BLANK") ("N1")) ("http://spdx.org/rdf/terms#member") (MkNode NIri ("http://spdx.org/licenses/GPL-2.0-or-later")));
    (MkTriple (MkNode NIri ("http://spdx.org/licenses/GPL-2.0-or-later")) ("http://www.w3.org/1999/02/22-rdf-syntax-ns#type") (MkNode NIri ("http://spdx.org/rdf/terms#License")));
    (MkTriple (MkNode NIri ("http://spdx.org/licenses/GPL-2.0-or-later")) ("http://spdx.org/rdf/terms#unknownTag") (MkNode (NOther "LITERAL") ("")))] [(MkNode (NOther "BLANK") ("N1"))] test_uri in
  let r6 := with_exception_from_node g5 (MkNode (NOther "BLANK") ("N1")) in
  let g7 := MkGraph [(MkTriple (MkNode (NOther "BLANK") ("N1")) ("http://www.w3.org/1999/02/22-rdf-syntax-ns#type") (MkNode NIri ("http://spdx.org/rdf/terms#WithExceptionOperator")));
    (MkTriple (MkNode (NOther "BLANK") ("N1")) ("http://spdx.org/rdf/terms#member") (MkNode NIri ("http://spdx.org/licenses/GPL-2.0-or-later")));
    (MkTriple (MkNode NIri ("http://spdx.org/licenses/GPL-2.0-or-later")) ("http://www.w3.org/1999/02/22-rdf-syntax-ns#type") (MkNode NIri ("http://spdx.org/rdf/terms#License")));
    (MkTriple (MkNode (NOther "BLANK") ("N1")) ("http://spdx.org/rdf/terms#licenseException") (MkNode (NOther "BLANK") ("N2")));
    (MkTriple (MkNode (NOther "BLANK") ("N2")) ("http://www.w3.org/1999/02/22-rdf-syntax-ns#type") (MkNode NIri ("http://spdx.org/rdf/terms#LicenseException")));
    (MkTriple (MkNode (NOther "BLANK") ("N2")) ("http://spdx.org/rdf/terms#invalidTag") (MkNode (NOther "LITERAL") ("")));
    (MkTriple (MkNode (NOther "BLANK") ("N2")) ("http://spdx.org/rdf/terms#example") (MkNode (NOther "LITERAL") ("example")));
    (MkTriple (MkNode (NOther "BLANK") ("N2")) ("http://spdx.org/rdf/terms#licenseExceptionId") (MkNode (NOther "LITERAL") ("Libtool-exception")));
    (MkTriple (MkNode (NOther "BLANK") ("N2")) ("http://www.w3.org/2000/01/rdf-schema#comment") (MkNode (NOther "LITERAL") ("comment")))] [(MkNode (NOther "BLANK") ("N1"))] test_uri in
  let r8 := with_exception_from_node g7 (MkNode (NOther "BLANK") ("N1")) in
  let g9 := MkGraph [(MkTriple (MkNode (NOther "BLANK") ("N1")) ("http://www.w3.org/1999/02/22-rdf-syntax-ns#type") (MkNode NIri ("http://spdx.org/rdf/terms#WithExceptionOperator")));
    (MkTriple (MkNode (NOther "BLANK") ("N1")) ("http://spdx.org/rdf/terms#member") (MkNode NIri ("http://spdx.org/licenses/GPL-2.0-or-later")));
    (MkTriple (MkNode NIri ("http://spdx.org/licenses/GPL-2.0-or-later")) ("http://www.w3.org/1999/02/22-rdf-syntax-ns#type") (MkNode NIri ("http://spdx.org/rdf/terms#License")));
    (MkTriple (MkNode (NOther "BLANK") ("N1")) ("http://spdx.org/rdf/terms#licenseException") (MkNode (NOther "BLANK") ("N2")));
    (MkTriple (MkNode (NOther "BLANK") ("N2")) ("http://www.w3.org/1999/02/22-rdf-syntax-ns#type") (MkNode NIri ("http://spdx.org/rdf/terms#LicenseException")));
    (MkTriple (MkNode (NOther "BLANK") ("N2")) ("http://spdx.org/rdf/terms#example") (MkNode (NOther "LITERAL") ("example")));
    (MkTriple (MkNode (NOther "BLANK") ("N2")) ("http://spdx.org/rdf/terms#licenseExceptionId") (MkNode (NOther "LITERAL") ("Libtool-exception")));
    (MkTriple (MkNode (NOther "BLANK") ("N2")) ("http://www.w3.org/2000/01/rdf-schema#comment") (MkNode (NOther "LITERAL") ("comment")))] [(MkNode (NOther "BLANK") ("N1"))] test_uri in
  let r10 := with_exception_from_node g9 (MkNode (NOther "BLANK") ("N1")) in
  [(olift Bool.eqb (failed r2) (Some false));
   (olift Bool.eqb (failed r4) (Some false));
   (olift Bool.eqb (failed r6) (Some false));
   (olift Bool.eqb (failed r8) (Some false));
   (option_map negb (olift Bool.eqb (failed r10) (Some false)))]) = true.
Proof. vm_compute. reflexivity. Qed.
(** /repo/spdx/v2/v2_2/rdf/reader/parse_other_license_info_test.go 12 *)
Example v22_Test_rdfParser2_2_getExtractedLicensingInfoFromNode : forallb is_false (
  let g1 := MkGraph [(MkTriple (MkNode NIri ("http://anupam-VirtualBox/repo/SPDX2_time-1.9.tar.gz_1535120734-spdx.rdf#LicenseRef-Freeware")) ("http://www.w3.org/1999/02/22-rdf-syntax-ns#type") (MkNode NIri ("http://spdx.org/rdf/terms#ExtractedLicensingInfo")));
    (MkTriple (MkNode NIri ("http://anupam-VirtualBox/repo/SPDX2_time-1.9.tar.gz_1535120734-spdx.rdf#LicenseRef-Freeware")) ("http://spdx.org/rdf/terms#licenseID") (MkNode (NOther "LITERAL") ("LicenseRef-Freeware")));
    (MkTriple (MkNode NIri ("http://anupam-VirtualBox/repo/SPDX2_time-1.9.tar.gz_1535120734-spdx.rdf#LicenseRef-Freeware")) ("http://spdx.org/rdf/terms#name") (MkNode (NOther "LITERAL") ("freeware")));
    (MkTriple (MkNode NIri ("http://anupam-VirtualBox/repo/SPDX2_time-1.9.tar.gz_1535120734-spdx.rdf#LicenseRef-Freeware")) ("http://spdx.org/rdf/terms#extractedText") (MkNode (NOther "LITERAL") ("Software classified as freeware is licensed at no cost and is either fully functional for an unlimited time; or has only basic functions enabled with a fully functional version available commercially or as shareware.[8] In contrast to free software, the author usually restricts one or more rights of the user, including the rights to use, copy, distribute, modify and make derivative works of the software or extract the source code.[1][2][9][10] The software license may impose various additional restrictions on the type of use, e.g. only for personal use, private use, individual use, non-profit use, non-commercial use, academic use, educational use, use in charity or humanitarian organizations, non-military use, use by public authorities or various other combinations of these type of restrictions.[11] For instance, the license may be ""free for private, non-commercial use"". The software license may also impose various other restrictions, such as restricted use over a network, restricted use on a server, restricted use in a combination with some types of other software or with some hardware devices, prohibited distribution over the Internet other than linking to author's website, restricted distribution without author's consent, restricted number of copies, etc.")))] [(MkNode NIri ("http://anupam-VirtualBox/repo/SPDX2_time-1.9.tar.gz_1535120734-spdx.rdf#LicenseRef-Freeware"))] test_uri in
  let r2 := extracted_from_node g1 (MkNode NIri ("http://anupam-VirtualBox/repo/SPDX2_time-1.9.tar.gz_1535120734-spdx.rdf#LicenseRef-Freeware")) in
  let g3 := MkGraph [(MkTriple (MkNode NIri ("http://anupam-VirtualBox/repo/SPDX2_time-1.9.tar.gz_1535120734-spdx.rdf#LicenseRef-Freeware")) ("http://www.w3.org/1999/02/22-rdf-syntax-ns#type") (MkNode NIri ("http://spdx.org/rdf/terms#ExtractedLicensingInfo")));
    (MkTriple (MkNode NIri ("http://anupam-VirtualBox/repo/SPDX2_time-1.9.tar.gz_1535120734-spdx.rdf#LicenseRef-Freeware")) ("http://spdx.org/rdf/terms#licenseId") (MkNode (NOther "LITERAL") ("LicenseRef-Freeware")));
    (MkTriple (MkNode NIri ("http://anupam-VirtualBox/repo/SPDX2_time-1.9.tar.gz_1535120734-spdx.rdf#LicenseRef-Freeware")) ("http://spdx.org/rdf/terms#name") (MkNode (NOther "LITERAL") ("freeware")));
    (MkTriple (MkNode NIri ("http://anupam-VirtualBox/repo/SPDX2_time-1.9.tar.gz_1535120734-spdx.rdf#LicenseRef-Freeware")) ("http://spdx.org/rdf/terms#extractedText") (MkNode (NOther "LITERAL") ("Software classified as freeware is licensed at no cost and is either fully functional for an unlimited time; or has only basic functions enabled with a fully functional version available commercially or as shareware.[8] In contrast to free software, the author usually restricts one or more rights of the user, including the rights to use, copy, distribute, modify and make derivative works of the software or extract the source code.[1][2][9][10] The software license may impose various additional restrictions on the type of use, e.g. only for personal use, private use, individual use, non-profit use, non-commercial use, academic use, educational use, use in charity or humanitarian organizations, non-military use, use by public authorities or various other combinations of these type of restrictions.[11] For instance, the license may be ""free for private, non-commercial use"". The software license may also impose various other restrictions, such as restricted use over a network, restricted use on a server, restricted use in a combination with some types of other software or with some hardware devices, prohibited distribution over the Internet other than linking to author's website, restricted distribution without author's consent, restricted number of copies, etc.")))] [(MkNode NIri ("http://anupam-VirtualBox/repo/SPDX2_time-1.9.tar.gz_1535120734-spdx.rdf#LicenseRef-Freeware"))] test_uri in
  let r4 := extracted_from_node g3 (MkNode NIri ("http://anupam-VirtualBox/repo/SPDX2_time-1.9.tar.gz_1535120734-spdx.rdf#LicenseRef-Freeware")) in
  [(olift Bool.eqb (failed r2) (Some false));
   (option_map negb (olift Bool.eqb (failed r4) (Some false)))]) = true.
Proof. vm_compute. reflexivity. Qed.
(** /repo/spdx/v2/v2_2/rdf/reader/parse_package_test.go 14 *)
Example v22_Test_setPackageSupplier : forallb is_false (
  let r1 := package_actor ("NOASSERTION") in
  let r2 := package_actor ("noassertion") in
  let r3 := package_actor ("string without colon separator") in
  let r4 := package_actor ("Person: Rishabh Bhatnagar") in
  let r5 := package_actor ("Organization: SPDX") in
  let r6 := package_actor ("InvalidEntity: entity") in
  [(option_map negb (olift Bool.eqb (failed r1) (Some false)));
   (option_map negb (olift Bool.eqb (failed r2) (Some false)));
   (olift Bool.eqb (failed r3) (Some false));
   (option_map negb (olift Bool.eqb (failed r4) (Some false)));
   (option_map negb (olift Bool.eqb (failed r5) (Some false)));
   (olift Bool.eqb (failed r6) (Some false))]) = true.
Proof. vm_compute. reflexivity. Qed.
(** /repo/spdx/v2/v2_2/rdf/reader/parse_package_test.go 79 *)
Example v22_Test_setPackageOriginator : forallb is_false (
  let r1 := package_actor ("NOASSERTION") in
  let r2 := package_actor ("noassertion") in
  let r3 := package_actor ("string without colon separator") in
  let r4 := package_actor ("Person: Rishabh Bhatnagar") in
  let r5 := package_actor ("Organization: SPDX") in
  let r6 := package_actor ("InvalidEntity: entity") in
  [(option_map negb (olift Bool.eqb (failed r1) (Some false)));
   (option_map negb (olift Bool.eqb (failed r2) (Some false)));
   (olift Bool.eqb (failed r3) (Some false));
   (option_map negb (olift Bool.eqb (failed r4) (Some false)));
   (option_map negb (olift Bool.eqb (failed r5) (Some false)));
   (olift Bool.eqb (failed r6) (Some false))]) = true.
Proof. vm_compute. reflexivity. Qed.
(** /repo/spdx/v2/v2_2/rdf/reader/parse_package_test.go 144 *)
Example v22_Test_rdfParser2_2_setPackageVerificationCode : forallb is_false (
  let g1 := MkGraph [(MkTriple (MkNode (NOther "BLANK") ("N1")) ("http://www.w3.org/1999/02/22-rdf-syntax-ns#type") (MkNode NIri ("http://spdx.org/spdxdocs/spdx-example-444504E0-4F89-41D3-9A0C-0305E82C3301#spdx.PackageVerificationCode")));
    (MkTriple (MkNode (NOther "BLANK") ("N1")) ("http://spdx.org/rdf/terms#invalidPredicate") (MkNode (NOther "LITERAL") ("")));
    (MkTriple (MkNode (NOther "BLANK") ("N1")) ("http://spdx.org/rdf/terms#packageVerificationCodeValue") (MkNode (NOther "LITERAL") ("cbceb8b5689b75a584efe35587b5d41bd48820ce")));
    (MkTriple (MkNode (NOther "BLANK") ("N1")) ("http://spdx.org/rdf/terms#packageVerificationCodeExcludedFile") (MkNode (NOther "LITERAL") ("./package.spdx")))] [(MkNode (NOther "BLANK") ("N1"))] test_uri in
  let r2 := verification_from_node g1 (MkNode (NOther "BLANK") ("N1")) None in
  let g3 := MkGraph [(MkTriple (MkNode (NOther "BLANK") ("N1")) ("http://www.w3.org/1999/02/22-rdf-syntax-ns#type") (MkNode NIri ("http://spdx.org/spdxdocs/spdx-example-444504E0-4F89-41D3-9A0C-0305E82C3301#spdx.PackageVerificationCode")));
    (MkTriple (MkNode (NOther "BLANK") ("N1")) ("http://spdx.org/rdf/terms#packageVerificationCodeValue") (MkNode (NOther "LITERAL") ("cbceb8b5689b75a584efe35587b5d41bd48820ce")));
    (MkTriple (MkNode (NOther "BLANK") ("N1")) ("http://spdx.org/rdf/terms#packageVerificationCodeExcludedFile") (MkNode (NOther "LITERAL") ("./package.spdx")))] [(MkNode (NOther "BLANK") ("N1"))] test_uri in
  let r4 := verification_from_node g3 (MkNode (NOther "BLANK") ("N1")) None in
  [(olift Bool.eqb (failed r2) (Some false));
   (option_map negb (olift Bool.eqb (failed r4) (Some false)));
   (option_map negb (olift String.eqb (option_map (fun x => vc_Value x) (option_map (fun x => x) (value r4))) (Some ("cbceb8b5689b75a584efe35587b5d41bd48820ce"))))]) = true.
Proof. vm_compute. reflexivity. Qed.
(** /repo/spdx/v2/v2_2/rdf/reader/parse_package_test.go 188 *)
Example v22_Test_rdfParser2_2_getPackageExternalRef : forallb is_false (
  let g1 := MkGraph [(MkTriple (MkNode (NOther "BLANK") ("N1")) ("http://www.w3.org/1999/02/22-rdf-syntax-ns#type") (MkNode NIri ("http://spdx.org/rdf/terms#ExternalRef")));
    (MkTriple (MkNode (NOther "BLANK") ("N1")) ("http://spdx.org/rdf/terms#referenceLocator") (MkNode (NOther "LITERAL") ("cpe:2.3:a:pivotal_software:spring_framework:4.1.0:*:*:*:*:*:*:*")));
    (MkTriple (MkNode (NOther "BLANK") ("N1")) ("http://spdx.org/rdf/terms#referenceType") (MkNode NIri ("http://spdx.org/rdf/references/cpe23Type")));
    (MkTriple (MkNode NIri ("http://spdx.org/rdf/references/cpe23Type")) ("http://www.w3.org/1999/02/22-rdf-syntax-ns#type") (MkNode NIri ("http://spdx.org/rdf/terms#ReferenceType")));
    (MkTriple (MkNode (NOther "BLANK") ("N1")) ("http://spdx.org/rdf/terms#referenceCategory") (MkNode (NOther "RESOURCELITERAL") ("http://spdx.org/rdf/terms#referenceCategory_invalid")))] [(MkNode (NOther "BLANK") ("N1"))] test_uri in
  let r2 := external_ref_from_node g1 (MkNode (NOther "BLANK") ("N1")) in
  let g3 := MkGraph [(MkTriple (MkNode (NOther "BLANK") ("N1")) ("http://www.w3.org/1999/02/22-rdf-syntax-ns#type") (MkNode NIri ("http://spdx.org/rdf/terms#ExternalRef")));
    (MkTriple (MkNode (NOther "BLANK") ("N1")) ("http://spdx.org/rdf/terms#unknownPredicate") (MkNode (NOther "LITERAL") ("")));
    (MkTriple (MkNode (NOther "BLANK") ("N1")) ("http://spdx.org/rdf/terms#referenceLocator") (MkNode (NOther "LITERAL") ("cpe:2.3:a:pivotal_software:spring_framework:4.1.0:*:*:*:*:*:*:*")));
    (MkTriple (MkNode (NOther "BLANK") ("N1")) ("http://spdx.org/rdf/terms#referenceType") (MkNode NIri ("http://spdx.org/rdf/references/cpe23Type")));
    (MkTriple (MkNode NIri ("http://spdx.org/rdf/references/cpe23Type")) ("http://www.w3.org/1999/02/22-rdf-syntax-ns#type") (MkNode NIri ("http://spdx.org/rdf/terms#ReferenceType")));
    (MkTriple (MkNode (NOther "BLANK") ("N1")) ("http://spdx.org/rdf/terms#referenceCategory") (MkNode (NOther "RESOURCELITERAL") ("http://spdx.org/rdf/terms#referenceCategory_security")))] [(MkNode (NOther "BLANK") ("N1"))] test_uri in
  let r4 := external_ref_from_node g3 (MkNode (NOther "BLANK") ("N1")) in
  let g5 := MkGraph [(MkTriple (MkNode (NOther "BLANK") ("N1")) ("http://www.w3.org/1999/02/22-rdf-syntax-ns#type") (MkNode NIri ("http://spdx.org/rdf/terms#ExternalRef")));
    (MkTriple (MkNode (NOther "BLANK") ("N1")) ("http://spdx.org/rdf/terms#referenceLocator") (MkNode (NOther "LITERAL") ("cpe:2.3:a:pivotal_software:spring_framework:4.1.0:*:*:*:*:*:*:*")));
    (MkTriple (MkNode (NOther "BLANK") ("N1")) ("http://spdx.org/rdf/terms#referenceType") (MkNode NIri ("http://spdx.org/rdf/references/cpe23Type")));
    (MkTriple (MkNode NIri ("http://spdx.org/rdf/references/cpe23Type")) ("http://www.w3.org/1999/02/22-rdf-syntax-ns#type") (MkNode NIri ("http://spdx.org/rdf/terms#ReferenceType")));
    (MkTriple (MkNode (NOther "BLANK") ("N1")) ("http://spdx.org/rdf/terms#referenceCategory") (MkNode (NOther "RESOURCELITERAL") ("http://spdx.org/rdf/terms#referenceCategory_security")));
    (MkTriple (MkNode (NOther "BLANK") ("N1")) ("http://www.w3.org/2000/01/rdf-schema#comment") (MkNode (NOther "LITERAL") ("comment")))] [(MkNode (NOther "BLANK") ("N1"))] test_uri in
  let r6 := external_ref_from_node g5 (MkNode (NOther "BLANK") ("N1")) in
  let g7 := MkGraph [(MkTriple (MkNode (NOther "BLANK") ("N1")) ("http://www.w3.org/1999/02/22-rdf-syntax-ns#type") (MkNode NIri ("http://spdx.org/rdf/terms#ExternalRef")));
    (MkTriple (MkNode (NOther "BLANK") ("N1")) ("http://spdx.org/rdf/terms#referenceLocator") (MkNode (NOther "LITERAL") ("cpe:2.3:a:pivotal_software:spring_framework:4.1.0:*:*:*:*:*:*:*")));
    (MkTriple (MkNode (NOther "BLANK") ("N1")) ("http://spdx.org/rdf/terms#referenceType") (MkNode NIri ("http://spdx.org/rdf/references/cpe23Type")));
    (MkTriple (MkNode NIri ("http://spdx.org/rdf/references/cpe23Type")) ("http://www.w3.org/1999/02/22-rdf-syntax-ns#type") (MkNode NIri ("http://spdx.org/rdf/terms#ReferenceType")));
    (MkTriple (MkNode (NOther "BLANK") ("N1")) ("http://spdx.org/rdf/terms#referenceCategory") (MkNode (NOther "RESOURCELITERAL") ("http://spdx.org/rdf/terms#referenceCategory_packageManager")));
    (MkTriple (MkNode (NOther "BLANK") ("N1")) ("http://www.w3.org/2000/01/rdf-schema#comment") (MkNode (NOther "LITERAL") ("comment")))] [(MkNode (NOther "BLANK") ("N1"))] test_uri in
  let r8 := external_ref_from_node g7 (MkNode (NOther "BLANK") ("N1")) in
  let g9 := MkGraph [(MkTriple (MkNode (NOther "BLANK") ("N1")) ("http://www.w3.org/1999/02/22-rdf-syntax-ns#type") (MkNode NIri ("http://spdx.org/rdf/terms#ExternalRef")));
    (MkTriple (MkNode (NOther "BLANK") ("N1")) ("http://spdx.org/rdf/terms#referenceLocator") (MkNode (NOther "LITERAL") ("cpe:2.3:a:pivotal_software:spring_framework:4.1.0:*:*:*:*:*:*:*")));
    (MkTriple (MkNode (NOther "BLANK") ("N1")) ("http://spdx.org/rdf/terms#referenceType") (MkNode NIri ("http://spdx.org/rdf/references/cpe23Type")));
    (MkTriple (MkNode NIri ("http://spdx.org/rdf/references/cpe23Type")) ("http://www.w3.org/1999/02/22-rdf-syntax-ns#type") (MkNode NIri ("http://spdx.org/rdf/terms#ReferenceType")));
    (MkTriple (MkNode (NOther "BLANK") ("N1")) ("http://spdx.org/rdf/terms#referenceCategory") (MkNode (NOther "RESOURCELITERAL") ("http://spdx.org/rdf/terms#referenceCategory_other")));
    (MkTriple (MkNode (NOther "BLANK") ("N1")) ("http://www.w3.org/2000/01/rdf-schema#comment") (MkNode (NOther "LITERAL") ("comment")))] [(MkNode (NOther "BLANK") ("N1"))] test_uri in
  let r10 := external_ref_from_node g9 (MkNode (NOther "BLANK") ("N1")) in
  [(olift Bool.eqb (failed r2) (Some false));
   (olift Bool.eqb (failed r4) (Some false));
   (option_map negb (olift Bool.eqb (failed r6) (Some false)));
   (option_map negb (olift Bool.eqb (failed r8) (Some false)));
   (option_map negb (olift Bool.eqb (failed r10) (Some false)))]) = true.
Proof. vm_compute. reflexivity. Qed.
(** /repo/spdx/v2/v2_2/rdf/reader/parse_package_test.go 306 *)
Example v22_Test_rdfParser2_2_getPackageFromNode : forallb is_false (
  let g1 := MkGraph [(MkTriple (MkNode NIri ("http://anupam-VirtualBox/repo/SPDX2_time-1.9#upload2")) ("http://www.w3.org/1999/02/22-rdf-syntax-ns#type") (MkNode NIri ("http://spdx.org/rdf/terms#Package")));
    (MkTriple (MkNode NIri ("http://anupam-VirtualBox/repo/SPDX2_time-1.9#upload2")) ("http://spdx.org/rdf/terms#name") (MkNode (NOther "LITERAL") ("time-1.9.tar.gz")))] [(MkNode NIri ("http://anupam-VirtualBox/repo/SPDX2_time-1.9#upload2"))] test_uri in
  let r2 := get_package V22 g1 (MkNode NIri ("http://anupam-VirtualBox/repo/SPDX2_time-1.9#upload2")) init_state in
  let s3 := match r2 with Ok x => snd x | _ => init_state end in
  let g4 := MkGraph [(MkTriple (MkNode NIri ("http://anupam-VirtualBox/repo/SPDX2_time-1.9#SPDXRef-upload2")) ("http://www.w3.org/1999/02/22-rdf-syntax-ns#type") (MkNode NIri ("http://spdx.org/rdf/terms#Package")));
    (MkTriple (MkNode NIri ("http://anupam-VirtualBox/repo/SPDX2_time-1.9#SPDXRef-upload2")) ("http://spdx.org/rdf/terms#licenseConcluded") (MkNode (NOther "RESOURCELITERAL") ("http://spdx.org/licenses/IPL-3.0")))] [(MkNode NIri ("http://anupam-VirtualBox/repo/SPDX2_time-1.9#SPDXRef-upload2"))] test_uri in
  let r5 := get_package V22 g4 (MkNode NIri ("http://anupam-VirtualBox/repo/SPDX2_time-1.9#SPDXRef-upload2")) init_state in
  let s6 := match r5 with Ok x => snd x | _ => init_state end in
  let g7 := MkGraph [(MkTriple (MkNode NIri ("http://anupam-VirtualBox/repo/SPDX2_time-1.9#SPDXRef-upload2")) ("http://www.w3.org/1999/02/22-rdf-syntax-ns#type") (MkNode NIri ("http://spdx.org/rdf/terms#Package")));
    (MkTriple (MkNode NIri ("http://anupam-VirtualBox/repo/SPDX2_time-1.9#SPDXRef-upload2")) ("http://spdx.org/rdf/terms#licenseDeclared") (MkNode (NOther "RESOURCELITERAL") ("http://spdx.org/licenses/IPL-3.0")))] [(MkNode NIri ("http://anupam-VirtualBox/repo/SPDX2_time-1.9#SPDXRef-upload2"))] test_uri in
  let r8 := get_package V22 g7 (MkNode NIri ("http://anupam-VirtualBox/repo/SPDX2_time-1.9#SPDXRef-upload2")) init_state in
  let s9 := match r8 with Ok x => snd x | _ => init_state end in
  let g10 := MkGraph [(MkTriple (MkNode NIri ("http://anupam-VirtualBox/repo/SPDX2_time-1.9#SPDXRef-upload2")) ("http://www.w3.org/1999/02/22-rdf-syntax-ns#type") (MkNode NIri ("http://spdx.org/rdf/terms#Package")));
    (MkTriple (MkNode NIri ("http://anupam-VirtualBox/repo/SPDX2_time-1.9#SPDXRef-upload2")) ("http://spdx.org/rdf/terms#externalRef") (MkNode (NOther "BLANK") ("N1")));
    (MkTriple (MkNode (NOther "BLANK") ("N1")) ("http://www.w3.org/1999/02/22-rdf-syntax-ns#type") (MkNode NIri ("http://spdx.org/rdf/terms#ExternalRef")));
    (MkTriple (MkNode (NOther "BLANK") ("N1")) ("http://spdx.org/rdf/terms#referenceLocator") (MkNode (NOther "LITERAL") ("cpe:2.3:a:pivotal_software:spring_framework:4.1.0:*:*:*:*:*:*:*")));
    (MkTriple (MkNode (NOther "BLANK") ("N1")) ("http://spdx.org/rdf/terms#referenceType") (MkNode NIri ("http://spdx.org/rdf/references/cpe23Type")));
    (MkTriple (MkNode NIri ("http://spdx.org/rdf/references/cpe23Type")) ("http://www.w3.org/1999/02/22-rdf-syntax-ns#type") (MkNode NIri ("http://spdx.org/rdf/terms#ReferenceType")));
    (MkTriple (MkNode (NOther "BLANK") ("N1")) ("http://spdx.org/rdf/terms#referenceCategory") (MkNode (NOther "RESOURCELITERAL") ("http://spdx.org/rdf/terms#referenceCategory_invalid")))] [(MkNode NIri ("http://anupam-VirtualBox/repo/SPDX2_time-1.9#SPDXRef-upload2"))] test_uri in
  let r11 := get_package V22 g10 (MkNode NIri ("http://anupam-VirtualBox/repo/SPDX2_time-1.9#SPDXRef-upload2")) init_state in
  let s12 := match r11 with Ok x => snd x | _ => init_state end in
  let g13 := MkGraph [(MkTriple (MkNode NIri ("http://anupam-VirtualBox/repo/SPDX2_time-1.9#SPDXRef-upload2")) ("http://www.w3.org/1999/02/22-rdf-syntax-ns#type") (MkNode NIri ("http://spdx.org/rdf/terms#Package")));
    (MkTriple (MkNode NIri ("http://anupam-VirtualBox/repo/SPDX2_time-1.9#SPDXRef-upload2")) ("http://spdx.org/rdf/terms#hasFile") (MkNode NIri ("http://anupam-VirtualBox/repo/SPDX2_time-1.9.tar.gz_1535120734-spdx.rdf#item8")));
    (MkTriple (MkNode NIri ("http://anupam-VirtualBox/repo/SPDX2_time-1.9.tar.gz_1535120734-spdx.rdf#item8")) ("http://www.w3.org/1999/02/22-rdf-syntax-ns#type") (MkNode NIri ("http://spdx.org/rdf/terms#File")))] [(MkNode NIri ("http://anupam-VirtualBox/repo/SPDX2_time-1.9#SPDXRef-upload2"))] test_uri in
  let r14 := get_package V22 g13 (MkNode NIri ("http://anupam-VirtualBox/repo/SPDX2_time-1.9#SPDXRef-upload2")) init_state in
  let s15 := match r14 with Ok x => snd x | _ => init_state end in
  let g16 := MkGraph [(MkTriple (MkNode NIri ("http://anupam-VirtualBox/repo/SPDX2_time-1.9#SPDXRef-upload2")) ("http://www.w3.org/1999/02/22-rdf-syntax-ns#type") (MkNode NIri ("http://spdx.org/rdf/terms#Package")));
    (MkTriple (MkNode NIri ("http://anupam-VirtualBox/repo/SPDX2_time-1.9#SPDXRef-upload2")) ("http://spdx.org/rdf/terms#hasFiles") (MkNode NIri ("http://anupam-VirtualBox/repo/SPDX2_time-1.9.tar.gz_1535120734-spdx.rdf#item8")));
    (MkTriple (MkNode NIri ("http://anupam-VirtualBox/repo/SPDX2_time-1.9.tar.gz_1535120734-spdx.rdf#item8")) ("http://www.w3.org/1999/02/22-rdf-syntax-ns#type") (MkNode NIri ("http://spdx.org/rdf/terms#File")))] [(MkNode NIri ("http://anupam-VirtualBox/repo/SPDX2_time-1.9#SPDXRef-upload2"))] test_uri in
  let r17 := get_package V22 g16 (MkNode NIri ("http://anupam-VirtualBox/repo/SPDX2_time-1.9#SPDXRef-upload2")) init_state in
  let s18 := match r17 with Ok x => snd x | _ => init_state end in
  let g19 := MkGraph [(MkTriple (MkNode NIri ("http://anupam-VirtualBox/repo/SPDX2_time-1.9#SPDXRef-upload2")) ("http://www.w3.org/1999/02/22-rdf-syntax-ns#type") (MkNode NIri ("http://spdx.org/rdf/terms#Package")));
    (MkTriple (MkNode NIri ("http://anupam-VirtualBox/repo/SPDX2_time-1.9#SPDXRef-upload2")) ("http://spdx.org/rdf/terms#annotation") (MkNode (NOther "BLANK") ("N1")));
    (MkTriple (MkNode (NOther "BLANK") ("N1")) ("http://www.w3.org/1999/02/22-rdf-syntax-ns#type") (MkNode NIri ("http://spdx.org/rdf/terms#Annotation")));
    (MkTriple (MkNode (NOther "BLANK") ("N1")) ("http://spdx.org/rdf/terms#unknownAttribute") (MkNode (NOther "LITERAL") ("")))] [(MkNode NIri ("http://anupam-VirtualBox/repo/SPDX2_time-1.9#SPDXRef-upload2"))] test_uri in
  let r20 := get_package V22 g19 (MkNode NIri ("http://anupam-VirtualBox/repo/SPDX2_time-1.9#SPDXRef-upload2")) init_state in
  let s21 := match r20 with Ok x => snd x | _ => init_state end in
  let g22 := MkGraph [(MkTriple (MkNode NIri ("http://anupam-VirtualBox/repo/SPDX2_time-1.9#SPDXRef-upload2")) ("http://www.w3.org/1999/02/22-rdf-syntax-ns#type") (MkNode NIri ("http://spdx.org/rdf/terms#Package")));
    (MkTriple (MkNode NIri ("http://anupam-VirtualBox/repo/SPDX2_time-1.9#SPDXRef-upload2")) ("http://usefulinc.com/ns/doap#homepage") (MkNode (NOther "LITERAL") ("u r i")))] [(MkNode NIri ("http://anupam-VirtualBox/repo/SPDX2_time-1.9#SPDXRef-upload2"))] test_uri in
  let r23 := get_package V22 g22 (MkNode NIri ("http://anupam-VirtualBox/repo/SPDX2_time-1.9#SPDXRef-upload2")) init_state in
  let s24 := match r23 with Ok x => snd x | _ => init_state end in
  let g25 := MkGraph [(MkTriple (MkNode NIri ("http://anupam-VirtualBox/repo/SPDX2_time-1.9#SPDXRef-upload2")) ("http://www.w3.org/1999/02/22-rdf-syntax-ns#type") (MkNode NIri ("http://spdx.org/rdf/terms#Package")));
    (MkTriple (MkNode NIri ("http://anupam-VirtualBox/repo/SPDX2_time-1.9#SPDXRef-upload2")) ("http://spdx.org/rdf/terms#name") (MkNode (NOther "LITERAL") ("Test Package")))] [(MkNode NIri ("http://anupam-VirtualBox/repo/SPDX2_time-1.9#SPDXRef-upload2"))] test_uri in
  let r26 := get_package V22 g25 (MkNode NIri ("http://anupam-VirtualBox/repo/SPDX2_time-1.9#SPDXRef-upload2")) init_state in
  let s27 := match r26 with Ok x => snd x | _ => init_state end in
  [(olift Bool.eqb (failed r2) (Some false));
   (olift Bool.eqb (failed r5) (Some false));
   (olift Bool.eqb (failed r8) (Some false));
   (olift Bool.eqb (failed r11) (Some false));
   (olift Bool.eqb (failed r14) (Some false));
   (olift Bool.eqb (failed r17) (Some false));
   (olift Bool.eqb (failed r20) (Some false));
   (olift Bool.eqb (failed r23) (Some false));
   (option_map negb (olift Bool.eqb (failed r26) (Some false)))]) = true.
Proof. vm_compute. reflexivity. Qed.
(** /repo/spdx/v2/v2_2/rdf/reader/parse_package_test.go 585 *)
Example v22_Test_rdfParser2_2_setPackageChecksum : forallb is_false (
  let g1 := MkGraph [(MkTriple (MkNode (NOther "BLANK") ("N1")) ("http://www.w3.org/1999/02/22-rdf-syntax-ns#type") (MkNode NIri ("http://spdx.org/rdf/terms#Checksum")));
    (MkTriple (MkNode (NOther "BLANK") ("N1")) ("http://spdx.org/rdf/terms#checksumValue") (MkNode (NOther "LITERAL") ("2fd4e1c67a2d28fced849ee1bb76e7391b93eb12")));
    (MkTriple (MkNode (NOther "BLANK") ("N1")) ("http://spdx.org/rdf/terms#algorithm") (MkNode (NOther "RESOURCELITERAL") ("http://spdx.org/rdf/terms#checksumAlgorithm_sha999")))] [(MkNode (NOther "BLANK") ("N1"))] test_uri in
  let r2 := element_checksum V22 g1 (MkNode (NOther "BLANK") ("N1")) in
  let g3 := MkGraph [(MkTriple (MkNode (NOther "BLANK") ("N1")) ("http://www.w3.org/1999/02/22-rdf-syntax-ns#type") (MkNode NIri ("http://spdx.org/rdf/terms#Checksum")));
    (MkTriple (MkNode (NOther "BLANK") ("N1")) ("http://spdx.org/rdf/terms#checksumValue") (MkNode (NOther "LITERAL") ("2fd4e1c67a2d28fced849ee1bb76e7391b93eb12")));
    (MkTriple (MkNode (NOther "BLANK") ("N1")) ("http://spdx.org/rdf/terms#algorithm") (MkNode (NOther "RESOURCELITERAL") ("http://spdx.org/rdf/terms#checksumAlgorithm_sha2000")))] [(MkNode (NOther "BLANK") ("N1"))] test_uri in
  let r4 := element_checksum V22 g3 (MkNode (NOther "BLANK") ("N1")) in
  let g5 := MkGraph [(MkTriple (MkNode (NOther "BLANK") ("N1")) ("http://www.w3.org/1999/02/22-rdf-syntax-ns#type") (MkNode NIri ("http://spdx.org/rdf/terms#Checksum")));
    (MkTriple (MkNode (NOther "BLANK") ("N1")) ("http://spdx.org/rdf/terms#checksumValue") (MkNode (NOther "LITERAL") ("2fd4e1c67a2d28fced849ee1bb76e7391b93eb12")));
    (MkTriple (MkNode (NOther "BLANK") ("N1")) ("http://spdx.org/rdf/terms#algorithm") (MkNode (NOther "RESOURCELITERAL") ("http://spdx.org/rdf/terms#checksumAlgorithm_sha1")))] [(MkNode (NOther "BLANK") ("N1"))] test_uri in
  let r6 := element_checksum V22 g5 (MkNode (NOther "BLANK") ("N1")) in
  [(olift Bool.eqb (failed r2) (Some false));
   (olift Bool.eqb (failed r4) (Some false));
   (option_map negb (olift Bool.eqb (failed r6) (Some false)))]) = true.
Proof. vm_compute. reflexivity. Qed.
(** /repo/spdx/v2/v2_2/rdf/reader/parse_package_test.go 745 *)
Example v22_Test_setFilesAnalyzed : forallb is_false (
  let r1 := bool_from_string ("no") in
  let r2 := bool_from_string ("true") in
  [(olift Bool.eqb (failed r1) (Some false));
   (option_map negb (olift Bool.eqb (failed r2) (Some false)));
   (option_map negb (option_map (fun x => x) (value r2)))]) = true.
Proof. vm_compute. reflexivity. Qed.
(** /repo/spdx/v2/v2_2/rdf/reader/parse_relationship_test.go 14 *)
Example v22_Test_getReferenceFromURI : forallb is_false (
  let r1 := reference_from_uri ("http://spdx.org/rdf/terms#NOASSERTION") in
  let r2 := reference_from_uri ("http://spdx.org/rdf/terms#NONE") in
  let r3 := reference_from_uri ("http://spdx.org/rdf/terms#SPDXRef-item1") in
  let r4 := reference_from_uri ("http://spdx.org/rdf/terms#item1") in
  [(option_map negb (olift Bool.eqb (failed r1) (Some false)));
   (option_map negb (olift String.eqb (option_map (fun x => de_DocumentRefID x) (value r1)) (Some (""))));
   (option_map negb (olift String.eqb (option_map (fun x => de_ElementRefID x) (value r1)) (Some ("NOASSERTION"))));
   (option_map negb (olift Bool.eqb (failed r2) (Some false)));
   (option_map negb (olift String.eqb (option_map (fun x => de_DocumentRefID x) (value r2)) (Some (""))));
   (option_map negb (olift String.eqb (option_map (fun x => de_ElementRefID x) (value r2)) (Some ("NONE"))));
   (option_map negb (olift Bool.eqb (failed r3) (Some false)));
   (option_map negb (olift String.eqb (option_map (fun x => de_DocumentRefID x) (value r3)) (Some (""))));
   (option_map negb (olift String.eqb (option_map (fun x => de_ElementRefID x) (value r3)) (Some ("item1"))));
   (olift Bool.eqb (failed r4) (Some false))]) = true.
Proof. vm_compute. reflexivity. Qed.
(** /repo/spdx/v2/v2_2/rdf/reader/parse_relationship_test.go 58 *)
Example v22_Test_getRelationshipTypeFromURI : forallb is_false (
  let r1 := relationship_type_from_uri ("http://spdx.org/rdf/terms#relationshipType_expandedFromArchive") in
  let r2 := relationship_type_from_uri ("http://spdx.org/rdf/terms#relationshipType_invalidRelationship") in
  [(option_map negb (olift Bool.eqb (failed r1) (Some false)));
   (option_map negb (olift String.eqb (value r1) (Some ("expandedFromArchive"))));
   (olift Bool.eqb (failed r2) (Some false))]) = true.
Proof. vm_compute. reflexivity. Qed.
(** /repo/spdx/v2/v2_2/rdf/reader/parse_relationship_test.go 77 *)
Example v22_Test_rdfParser2_2_parseRelatedElementFromTriple : forallb is_false (
  let g1 := MkGraph [(MkTriple (MkNode (NOther "BLANK") ("N1")) ("http://www.w3.org/1999/02/22-rdf-syntax-ns#type") (MkNode NIri ("http://spdx.org/rdf/terms#Relationship")));
    (MkTriple (MkNode (NOther "BLANK") ("N1")) ("http://spdx.org/rdf/terms#relatedSpdxElement") (MkNode NIri ("http://spdx.org/spdxdocs/spdx-example-444504E0-4F89-41D3-9A0C-0305E82C3301#SPDXRef-Saxon")));
    (MkTriple (MkNode NIri ("http://spdx.org/spdxdocs/spdx-example-444504E0-4F89-41D3-9A0C-0305E82C3301#SPDXRef-Saxon")) ("http://www.w3.org/1999/02/22-rdf-syntax-ns#type") (MkNode NIri ("http://spdx.org/rdf/terms#Package")))] [(MkNode (NOther "BLANK") ("N1"))] test_uri in
  let r2 := related_element ( go V22 g1 ( enough g1 ) ) (MkTriple (MkNode NIri ("http://spdx.org/spdxdocs/spdx-example-444504E0-4F89-41D3-9A0C-0305E82C3301#SPDXRef-Saxon")) ("http://www.w3.org/1999/02/22-rdf-syntax-ns#type") (MkNode NIri ("http://spdx.org/rdf/terms#Package"))) zero_Relationship init_state in
  let s3 := match r2 with Ok x => snd x | _ => init_state end in
  let g4 := MkGraph [(MkTriple (MkNode (NOther "BLANK") ("N1")) ("http://www.w3.org/1999/02/22-rdf-syntax-ns#type") (MkNode NIri ("http://spdx.org/rdf/terms#Relationship")));
    (MkTriple (MkNode (NOther "BLANK") ("N1")) ("http://spdx.org/rdf/terms#relatedSpdxElement") (MkNode NIri ("http://spdx.org/spdxdocs/spdx-example-444504E0-4F89-41D3-9A0C-0305E82C3301#Saxon")));
    (MkTriple (MkNode NIri ("http://spdx.org/spdxdocs/spdx-example-444504E0-4F89-41D3-9A0C-0305E82C3301#Saxon")) ("http://www.w3.org/1999/02/22-rdf-syntax-ns#type") (MkNode NIri ("http://spdx.org/rdf/terms#Package")))] [(MkNode (NOther "BLANK") ("N1"))] test_uri in
  let r5 := related_element ( go V22 g4 ( enough g4 ) ) (MkTriple (MkNode NIri ("http://spdx.org/spdxdocs/spdx-example-444504E0-4F89-41D3-9A0C-0305E82C3301#Saxon")) ("http://www.w3.org/1999/02/22-rdf-syntax-ns#type") (MkNode NIri ("http://spdx.org/rdf/terms#Package"))) zero_Relationship init_state in
  let s6 := match r5 with Ok x => snd x | _ => init_state end in
  let g7 := MkGraph [(MkTriple (MkNode (NOther "BLANK") ("N1")) ("http://www.w3.org/1999/02/22-rdf-syntax-ns#type") (MkNode NIri ("http://spdx.org/rdf/terms#Relationship")));
    (MkTriple (MkNode (NOther "BLANK") ("N1")) ("http://spdx.org/rdf/terms#relatedSpdxElement") (MkNode NIri ("http://spdx.org/spdxdocs/spdx-example-444504E0-4F89-41D3-9A0C-0305E82C3301#SPDXRef-Saxon")));
    (MkTriple (MkNode NIri ("http://spdx.org/spdxdocs/spdx-example-444504E0-4F89-41D3-9A0C-0305E82C3301#SPDXRef-Saxon")) ("http://www.w3.org/1999/02/22-rdf-syntax-ns#type") (MkNode NIri ("http://spdx.org/rdf/terms#File")))] [(MkNode (NOther "BLANK") ("N1"))] test_uri in
  let r8 := related_element ( go V22 g7 ( enough g7 ) ) (MkTriple (MkNode NIri ("http://spdx.org/spdxdocs/spdx-example-444504E0-4F89-41D3-9A0C-0305E82C3301#SPDXRef-Saxon")) ("http://www.w3.org/1999/02/22-rdf-syntax-ns#type") (MkNode NIri ("http://spdx.org/rdf/terms#File"))) zero_Relationship init_state in
  let s9 := match r8 with Ok x => snd x | _ => init_state end in
  let g10 := MkGraph [(MkTriple (MkNode (NOther "BLANK") ("N1")) ("http://www.w3.org/1999/02/22-rdf-syntax-ns#type") (MkNode NIri ("http://spdx.org/rdf/terms#Relationship")));
    (MkTriple (MkNode (NOther "BLANK") ("N1")) ("http://spdx.org/rdf/terms#relatedSpdxElement") (MkNode NIri ("http://spdx.org/spdxdocs/spdx-example-444504E0-4F89-41D3-9A0C-0305E82C3301#Saxon")));
    (MkTriple (MkNode NIri ("http://spdx.org/spdxdocs/spdx-example-444504E0-4F89-41D3-9A0C-0305E82C3301#Saxon")) ("http://www.w3.org/1999/02/22-rdf-syntax-ns#type") (MkNode NIri ("http://spdx.org/rdf/terms#File")))] [(MkNode (NOther "BLANK") ("N1"))] test_uri in
  let r11 := related_element ( go V22 g10 ( enough g10 ) ) (MkTriple (MkNode NIri ("http://spdx.org/spdxdocs/spdx-example-444504E0-4F89-41D3-9A0C-0305E82C3301#Saxon")) ("http://www.w3.org/1999/02/22-rdf-syntax-ns#type") (MkNode NIri ("http://spdx.org/rdf/terms#File"))) zero_Relationship init_state in
  let s12 := match r11 with Ok x => snd x | _ => init_state end in
  let g13 := MkGraph [(MkTriple (MkNode (NOther "BLANK") ("N1")) ("http://www.w3.org/1999/02/22-rdf-syntax-ns#type") (MkNode NIri ("http://spdx.org/rdf/terms#Relationship")));
    (MkTriple (MkNode (NOther "BLANK") ("N1")) ("http://spdx.org/rdf/terms#relatedSpdxElement") (MkNode NIri ("http://spdx.org/spdxdocs/spdx-example-444504E0-4F89-41D3-9A0C-0305E82C3301#SPDXRef-File")));
    (MkTriple (MkNode NIri ("http://spdx.org/spdxdocs/spdx-example-444504E0-4F89-41D3-9A0C-0305E82C3301#SPDXRef-File")) ("http://www.w3.org/1999/02/22-rdf-syntax-ns#type") (MkNode NIri ("http://spdx.org/rdf/terms#SpdxElement")))] [(MkNode (NOther "BLANK") ("N1"))] test_uri in
  let r14 := related_element ( go V22 g13 ( enough g13 ) ) (MkTriple (MkNode NIri ("http://spdx.org/spdxdocs/spdx-example-444504E0-4F89-41D3-9A0C-0305E82C3301#SPDXRef-File")) ("http://www.w3.org/1999/02/22-rdf-syntax-ns#type") (MkNode NIri ("http://spdx.org/rdf/terms#SpdxElement"))) zero_Relationship init_state in
  let s15 := match r14 with Ok x => snd x | _ => init_state end in
  let g16 := MkGraph [(MkTriple (MkNode (NOther "BLANK") ("N1")) ("http://www.w3.org/1999/02/22-rdf-syntax-ns#type") (MkNode NIri ("http://spdx.org/rdf/terms#Relationship")));
    (MkTriple (MkNode (NOther "BLANK") ("N1")) ("http://spdx.org/rdf/terms#relatedSpdxElement") (MkNode NIri ("http://spdx.org/spdxdocs/spdx-example-444504E0-4F89-41D3-9A0C-0305E82C3301#SPDXRef-:File")));
    (MkTriple (MkNode NIri ("http://spdx.org/spdxdocs/spdx-example-444504E0-4F89-41D3-9A0C-0305E82C3301#SPDXRef-:File")) ("http://www.w3.org/1999/02/22-rdf-syntax-ns#type") (MkNode NIri ("http://spdx.org/rdf/terms#SpdxElement")))] [(MkNode (NOther "BLANK") ("N1"))] test_uri in
  let r17 := related_element ( go V22 g16 ( enough g16 ) ) (MkTriple (MkNode NIri ("http://spdx.org/spdxdocs/spdx-example-444504E0-4F89-41D3-9A0C-0305E82C3301#SPDXRef-:File")) ("http://www.w3.org/1999/02/22-rdf-syntax-ns#type") (MkNode NIri ("http://spdx.org/rdf/terms#SpdxElement"))) zero_Relationship init_state in
  let s18 := match r17 with Ok x => snd x | _ => init_state end in
  [(option_map negb (olift Bool.eqb (failed r2) (Some false)));
   (option_map negb (option_map (fun x => String.eqb (de_DocumentRefID x) ("") && String.eqb (de_ElementRefID x) ("") && String.eqb (de_SpecialID x) ("")) (option_map (fun x => r_RefA (fst x)) (value r2))));
   (option_map negb (option_map (fun x => String.eqb (de_DocumentRefID x) ("") && String.eqb (de_ElementRefID x) ("Saxon") && String.eqb (de_SpecialID x) ("")) (option_map (fun x => r_RefB (fst x)) (value r2))));
   (olift Bool.eqb (failed r5) (Some false));
   (option_map negb (olift Bool.eqb (failed r8) (Some false)));
   (option_map negb (option_map (fun x => String.eqb (de_DocumentRefID x) ("") && String.eqb (de_ElementRefID x) ("") && String.eqb (de_SpecialID x) ("")) (option_map (fun x => r_RefA (fst x)) (value r8))));
   (option_map negb (option_map (fun x => String.eqb (de_DocumentRefID x) ("") && String.eqb (de_ElementRefID x) ("Saxon") && String.eqb (de_SpecialID x) ("")) (option_map (fun x => r_RefB (fst x)) (value r8))));
   (olift Bool.eqb (failed r11) (Some false));
   (option_map negb (olift Bool.eqb (failed r14) (Some false)));
   (option_map negb (option_map (fun x => String.eqb (de_DocumentRefID x) ("") && String.eqb (de_ElementRefID x) ("") && String.eqb (de_SpecialID x) ("")) (option_map (fun x => r_RefA (fst x)) (value r14))));
   (option_map negb (option_map (fun x => String.eqb (de_DocumentRefID x) ("") && String.eqb (de_ElementRefID x) ("File") && String.eqb (de_SpecialID x) ("")) (option_map (fun x => r_RefB (fst x)) (value r14))));
   (olift Bool.eqb (failed r17) (Some false))]) = true.
Proof. vm_compute. reflexivity. Qed.
(** /repo/spdx/v2/v2_2/rdf/reader/parse_relationship_test.go 211 *)
Example v22_Test_rdfParser2_2_parseRelationship : forallb is_false (
  let g1 := MkGraph [(MkTriple (MkNode (NOther "BLANK") ("N1")) ("http://www.w3.org/1999/02/22-rdf-syntax-ns#type") (MkNode NIri ("http://spdx.org/rdf/terms#File")));
    (MkTriple (MkNode (NOther "BLANK") ("N1")) ("http://spdx.org/rdf/terms#relationship") (MkNode (NOther "BLANK") ("N2")));
    (MkTriple (MkNode (NOther "BLANK") ("N2")) ("http://www.w3.org/1999/02/22-rdf-syntax-ns#type") (MkNode NIri ("http://spdx.org/rdf/terms#Relationship")));
    (MkTriple (MkNode (NOther "BLANK") ("N2")) ("http://spdx.org/rdf/terms#relatedSpdxElement") (MkNode NIri ("http://spdx.org/spdxdocs/spdx-example-444504E0-4F89-41D3-9A0C-0305E82C3301#SPDXRef-Saxon")));
    (MkTriple (MkNode NIri ("http://spdx.org/spdxdocs/spdx-example-444504E0-4F89-41D3-9A0C-0305E82C3301#SPDXRef-Saxon")) ("http://www.w3.org/1999/02/22-rdf-syntax-ns#type") (MkNode NIri ("http://spdx.org/rdf/terms#Package")))] [(MkNode (NOther "BLANK") ("N1"))] test_uri in
  let r2 := parse_relationship V22 g1 (MkTriple (MkNode (NOther "BLANK") ("N1")) ("http://spdx.org/rdf/terms#relationship") (MkNode (NOther "BLANK") ("N2"))) init_state in
  let s3 := match r2 with Ok x => x | _ => init_state end in
  let g4 := MkGraph [(MkTriple (MkNode NIri ("http://spdx.org/spdxdocs/spdx-example-444504E0-4F89-41D3-9A0C-0305E82C3301#SPDXRef-File")) ("http://www.w3.org/1999/02/22-rdf-syntax-ns#type") (MkNode NIri ("http://spdx.org/rdf/terms#File")));
    (MkTriple (MkNode NIri ("http://spdx.org/spdxdocs/spdx-example-444504E0-4F89-41D3-9A0C-0305E82C3301#SPDXRef-File")) ("http://spdx.org/rdf/terms#relationship") (MkNode (NOther "BLANK") ("N1")));
    (MkTriple (MkNode (NOther "BLANK") ("N1")) ("http://www.w3.org/1999/02/22-rdf-syntax-ns#type") (MkNode NIri ("http://spdx.org/rdf/terms#Relationship")));
    (MkTriple (MkNode (NOther "BLANK") ("N1")) ("http://spdx.org/rdf/terms#relatedSpdxElement") (MkNode NIri ("http://spdx.org/spdxdocs/spdx-example-444504E0-4F89-41D3-9A0C-0305E82C3301#Saxon")));
    (MkTriple (MkNode NIri ("http://spdx.org/spdxdocs/spdx-example-444504E0-4F89-41D3-9A0C-0305E82C3301#Saxon")) ("http://www.w3.org/1999/02/22-rdf-syntax-ns#type") (MkNode NIri ("http://spdx.org/rdf/terms#Package")))] [(MkNode NIri ("http://spdx.org/spdxdocs/spdx-example-444504E0-4F89-41D3-9A0C-0305E82C3301#SPDXRef-File"))] test_uri in
  let r5 := parse_relationship V22 g4 (MkTriple (MkNode NIri ("http://spdx.org/spdxdocs/spdx-example-444504E0-4F89-41D3-9A0C-0305E82C3301#SPDXRef-File")) ("http://spdx.org/rdf/terms#relationship") (MkNode (NOther "BLANK") ("N1"))) init_state in
  let s6 := match r5 with Ok x => x | _ => init_state end in
  let g7 := MkGraph [(MkTriple (MkNode NIri ("http://spdx.org/spdxdocs/spdx-example-444504E0-4F89-41D3-9A0C-0305E82C3301#SPDXRef-File")) ("http://www.w3.org/1999/02/22-rdf-syntax-ns#type") (MkNode NIri ("http://spdx.org/rdf/terms#File")));
    (MkTriple (MkNode NIri ("http://spdx.org/spdxdocs/spdx-example-444504E0-4F89-41D3-9A0C-0305E82C3301#SPDXRef-File")) ("http://spdx.org/rdf/terms#relationship") (MkNode (NOther "BLANK") ("N1")));
    (MkTriple (MkNode (NOther "BLANK") ("N1")) ("http://www.w3.org/1999/02/22-rdf-syntax-ns#type") (MkNode NIri ("http://spdx.org/rdf/terms#Relationship")));
    (MkTriple (MkNode (NOther "BLANK") ("N1")) ("http://spdx.org/rdf/terms#relatedSpdxElement") (MkNode NIri ("http://spdx.org/spdxdocs/spdx-example-444504E0-4F89-41D3-9A0C-0305E82C3301#SPDXRef-Saxon")));
    (MkTriple (MkNode NIri ("http://spdx.org/spdxdocs/spdx-example-444504E0-4F89-41D3-9A0C-0305E82C3301#SPDXRef-Saxon")) ("http://www.w3.org/1999/02/22-rdf-syntax-ns#type") (MkNode NIri ("http://spdx.org/rdf/terms#Package")));
    (MkTriple (MkNode (NOther "BLANK") ("N1")) ("http://spdx.org/rdf/terms#relatedSpdxElement") (MkNode (NOther "BLANK") ("N2")));
    (MkTriple (MkNode (NOther "BLANK") ("N2")) ("http://www.w3.org/1999/02/22-rdf-syntax-ns#type") (MkNode NIri ("http://spdx.org/rdf/terms#File")))] [(MkNode NIri ("http://spdx.org/spdxdocs/spdx-example-444504E0-4F89-41D3-9A0C-0305E82C3301#SPDXRef-File"))] test_uri in
  let r8 := parse_relationship V22 g7 (MkTriple (MkNode NIri ("http://spdx.org/spdxdocs/spdx-example-444504E0-4F89-41D3-9A0C-0305E82C3301#SPDXRef-File")) ("http://spdx.org/rdf/terms#relationship") (MkNode (NOther "BLANK") ("N1"))) init_state in
  let s9 := match r8 with Ok x => x | _ => init_state end in
  let g10 := MkGraph [(MkTriple (MkNode NIri ("http://spdx.org/spdxdocs/spdx-example-444504E0-4F89-41D3-9A0C-0305E82C3301#SPDXRef-File")) ("http://www.w3.org/1999/02/22-rdf-syntax-ns#type") (MkNode NIri ("http://spdx.org/rdf/terms#File")));
    (MkTriple (MkNode NIri ("http://spdx.org/spdxdocs/spdx-example-444504E0-4F89-41D3-9A0C-0305E82C3301#SPDXRef-File")) ("http://spdx.org/rdf/terms#relationship") (MkNode (NOther "BLANK") ("N1")));
    (MkTriple (MkNode (NOther "BLANK") ("N1")) ("http://www.w3.org/1999/02/22-rdf-syntax-ns#type") (MkNode NIri ("http://spdx.org/rdf/terms#Relationship")));
    (MkTriple (MkNode (NOther "BLANK") ("N1")) ("http://spdx.org/rdf/terms#relatedSpdxElement") (MkNode NIri ("http://spdx.org/spdxdocs/spdx-example-444504E0-4F89-41D3-9A0C-0305E82C3301#SPDXRef-Saxon")));
    (MkTriple (MkNode NIri ("http://spdx.org/spdxdocs/spdx-example-444504E0-4F89-41D3-9A0C-0305E82C3301#SPDXRef-Saxon")) ("http://www.w3.org/1999/02/22-rdf-syntax-ns#type") (MkNode NIri ("http://spdx.org/rdf/terms#Unknown")))] [(MkNode NIri ("http://spdx.org/spdxdocs/spdx-example-444504E0-4F89-41D3-9A0C-0305E82C3301#SPDXRef-File"))] test_uri in
  let r11 := parse_relationship V22 g10 (MkTriple (MkNode NIri ("http://spdx.org/spdxdocs/spdx-example-444504E0-4F89-41D3-9A0C-0305E82C3301#SPDXRef-File")) ("http://spdx.org/rdf/terms#relationship") (MkNode (NOther "BLANK") ("N1"))) init_state in
  let s12 := match r11 with Ok x => x | _ => init_state end in
  let g13 := MkGraph [(MkTriple (MkNode NIri ("http://spdx.org/spdxdocs/spdx-example-444504E0-4F89-41D3-9A0C-0305E82C3301#SPDXRef-File")) ("http://www.w3.org/1999/02/22-rdf-syntax-ns#type") (MkNode NIri ("http://spdx.org/rdf/terms#File")));
    (MkTriple (MkNode NIri ("http://spdx.org/spdxdocs/spdx-example-444504E0-4F89-41D3-9A0C-0305E82C3301#SPDXRef-File")) ("http://spdx.org/rdf/terms#relationship") (MkNode (NOther "BLANK") ("N1")));
    (MkTriple (MkNode (NOther "BLANK") ("N1")) ("http://www.w3.org/1999/02/22-rdf-syntax-ns#type") (MkNode NIri ("http://spdx.org/rdf/terms#Relationship")));
    (MkTriple (MkNode (NOther "BLANK") ("N1")) ("http://spdx.org/rdf/terms#relatedSpdxElement") (MkNode NIri ("http://spdx.org/spdxdocs/spdx-example-444504E0-4F89-41D3-9A0C-0305E82C3301#SPDXRef-Saxon")));
    (MkTriple (MkNode NIri ("http://spdx.org/spdxdocs/spdx-example-444504E0-4F89-41D3-9A0C-0305E82C3301#SPDXRef-Saxon")) ("http://www.w3.org/1999/02/22-rdf-syntax-ns#type") (MkNode NIri ("http://spdx.org/rdf/terms#Package")));
    (MkTriple (MkNode NIri ("http://spdx.org/spdxdocs/spdx-example-444504E0-4F89-41D3-9A0C-0305E82C3301#SPDXRef-Saxon")) ("http://www.w3.org/1999/02/22-rdf-syntax-ns#type") (MkNode NIri ("http://spdx.org/rdf/terms#File")))] [(MkNode NIri ("http://spdx.org/spdxdocs/spdx-example-444504E0-4F89-41D3-9A0C-0305E82C3301#SPDXRef-File"))] test_uri in
  let r14 := parse_relationship V22 g13 (MkTriple (MkNode NIri ("http://spdx.org/spdxdocs/spdx-example-444504E0-4F89-41D3-9A0C-0305E82C3301#SPDXRef-File")) ("http://spdx.org/rdf/terms#relationship") (MkNode (NOther "BLANK") ("N1"))) init_state in
  let s15 := match r14 with Ok x => x | _ => init_state end in
  let g16 := MkGraph [(MkTriple (MkNode NIri ("http://spdx.org/spdxdocs/spdx-example-444504E0-4F89-41D3-9A0C-0305E82C3301#SPDXRef-File")) ("http://www.w3.org/1999/02/22-rdf-syntax-ns#type") (MkNode NIri ("http://spdx.org/rdf/terms#File")));
    (MkTriple (MkNode NIri ("http://spdx.org/spdxdocs/spdx-example-444504E0-4F89-41D3-9A0C-0305E82C3301#SPDXRef-File")) ("http://spdx.org/rdf/terms#relationship") (MkNode (NOther "BLANK") ("N1")));
    (MkTriple (MkNode (NOther "BLANK") ("N1")) ("http://www.w3.org/1999/02/22-rdf-syntax-ns#type") (MkNode NIri ("http://spdx.org/rdf/terms#Relationship")));
    (MkTriple (MkNode (NOther "BLANK") ("N1")) ("http://spdx.org/rdf/terms#relatedSpdxElement") (MkNode NIri ("http://spdx.org/spdxdocs/spdx-example-444504E0-4F89-41D3-9A0C-0305E82C3301#SPDXRef-Saxon")));
    (MkTriple (MkNode NIri ("http://spdx.org/spdxdocs/spdx-example-444504E0-4F89-41D3-9A0C-0305E82C3301#SPDXRef-Saxon")) ("http://www.w3.org/1999/02/22-rdf-syntax-ns#type") (MkNode NIri ("http://spdx.org/rdf/terms#Unknown")));
    (MkTriple (MkNode (NOther "BLANK") ("N1")) ("http://spdx.org/rdf/terms#unknownPredicate") (MkNode (NOther "LITERAL") ("")))] [(MkNode NIri ("http://spdx.org/spdxdocs/spdx-example-444504E0-4F89-41D3-9A0C-0305E82C3301#SPDXRef-File"))] test_uri in
  let r17 := parse_relationship V22 g16 (MkTriple (MkNode NIri ("http://spdx.org/spdxdocs/spdx-example-444504E0-4F89-41D3-9A0C-0305E82C3301#SPDXRef-File")) ("http://spdx.org/rdf/terms#relationship") (MkNode (NOther "BLANK") ("N1"))) init_state in
  let s18 := match r17 with Ok x => x | _ => init_state end in
  let g19 := MkGraph [(MkTriple (MkNode NIri ("http://spdx.org/spdxdocs/spdx-example-444504E0-4F89-41D3-9A0C-0305E82C3301#SPDXRef-File")) ("http://www.w3.org/1999/02/22-rdf-syntax-ns#type") (MkNode NIri ("http://spdx.org/rdf/terms#File")));
    (MkTriple (MkNode NIri ("http://spdx.org/spdxdocs/spdx-example-444504E0-4F89-41D3-9A0C-0305E82C3301#SPDXRef-File")) ("http://spdx.org/rdf/terms#relationship") (MkNode NIri ("http://spdx.org/spdxdocs/spdx-example-444504E0-4F89-41D3-9A0C-0305E82C3301#SPDXRef-reln")));
    (MkTriple (MkNode NIri ("http://spdx.org/spdxdocs/spdx-example-444504E0-4F89-41D3-9A0C-0305E82C3301#SPDXRef-reln")) ("http://www.w3.org/1999/02/22-rdf-syntax-ns#type") (MkNode NIri ("http://spdx.org/rdf/terms#Relationship")));
    (MkTriple (MkNode NIri ("http://spdx.org/spdxdocs/spdx-example-444504E0-4F89-41D3-9A0C-0305E82C3301#SPDXRef-reln")) ("http://spdx.org/rdf/terms#relationshipType") (MkNode (NOther "RESOURCELITERAL") ("http://spdx.org/rdf/terms#relationshipType_describes")));
    (MkTriple (MkNode NIri ("http://spdx.org/spdxdocs/spdx-example-444504E0-4F89-41D3-9A0C-0305E82C3301#SPDXRef-reln")) ("http://spdx.org/rdf/terms#relatedSpdxElement") (MkNode NIri ("http://spdx.org/spdxdocs/spdx-example-444504E0-4F89-41D3-9A0C-0305E82C3301#SPDXRef-Saxon")));
    (MkTriple (MkNode NIri ("http://spdx.org/spdxdocs/spdx-example-444504E0-4F89-41D3-9A0C-0305E82C3301#SPDXRef-Saxon")) ("http://www.w3.org/1999/02/22-rdf-syntax-ns#type") (MkNode NIri ("http://spdx.org/rdf/terms#Package")));
    (MkTriple (MkNode NIri ("http://spdx.org/spdxdocs/spdx-example-444504E0-4F89-41D3-9A0C-0305E82C3301#SPDXRef-Saxon")) ("http://spdx.org/rdf/terms#relationship") (MkNode NIri ("http://spdx.org/spdxdocs/spdx-example-444504E0-4F89-41D3-9A0C-0305E82C3301#SPDXRef-reln")));
    (MkTriple (MkNode NIri ("http://spdx.org/spdxdocs/spdx-example-444504E0-4F89-41D3-9A0C-0305E82C3301#SPDXRef-reln")) ("http://www.w3.org/1999/02/22-rdf-syntax-ns#type") (MkNode NIri ("http://spdx.org/rdf/terms#Relationship")));
    (MkTriple (MkNode NIri ("http://spdx.org/spdxdocs/spdx-example-444504E0-4F89-41D3-9A0C-0305E82C3301#SPDXRef-reln")) ("http://spdx.org/rdf/terms#relationshipType") (MkNode (NOther "RESOURCELITERAL") ("http://spdx.org/rdf/terms#relationshipType_describes")));
    (MkTriple (MkNode NIri ("http://spdx.org/spdxdocs/spdx-example-444504E0-4F89-41D3-9A0C-0305E82C3301#SPDXRef-reln")) ("http://spdx.org/rdf/terms#relatedSpdxElement") (MkNode (NOther "RESOURCELITERAL") ("http://spdx.org/spdxdocs/spdx-example-444504E0-4F89-41D3-9A0C-0305E82C3301#SPDXRef-File")))] [(MkNode NIri ("http://spdx.org/spdxdocs/spdx-example-444504E0-4F89-41D3-9A0C-0305E82C3301#SPDXRef-File"))] test_uri in
  let r20 := parse_relationship V22 g19 (MkTriple (MkNode NIri ("http://spdx.org/spdxdocs/spdx-example-444504E0-4F89-41D3-9A0C-0305E82C3301#SPDXRef-File")) ("http://spdx.org/rdf/terms#relationship") (MkNode NIri ("http://spdx.org/spdxdocs/spdx-example-444504E0-4F89-41D3-9A0C-0305E82C3301#SPDXRef-reln"))) init_state in
  let s21 := match r20 with Ok x => x | _ => init_state end in
  let g22 := MkGraph [(MkTriple (MkNode NIri ("http://spdx.org/spdxdocs/spdx-example-444504E0-4F89-41D3-9A0C-0305E82C3301#SPDXRef-File")) ("http://www.w3.org/1999/02/22-rdf-syntax-ns#type") (MkNode NIri ("http://spdx.org/rdf/terms#File")));
    (MkTriple (MkNode NIri ("http://spdx.org/spdxdocs/spdx-example-444504E0-4F89-41D3-9A0C-0305E82C3301#SPDXRef-File")) ("http://spdx.org/rdf/terms#relationship") (MkNode (NOther "BLANK") ("N1")));
    (MkTriple (MkNode (NOther "BLANK") ("N1")) ("http://www.w3.org/1999/02/22-rdf-syntax-ns#type") (MkNode NIri ("http://spdx.org/rdf/terms#Relationship")));
    (MkTriple (MkNode (NOther "BLANK") ("N1")) ("http://spdx.org/rdf/terms#relationshipType") (MkNode (NOther "RESOURCELITERAL") ("http://spdx.org/rdf/terms#relationshipType_describes")));
    (MkTriple (MkNode (NOther "BLANK") ("N1")) ("http://spdx.org/rdf/terms#relatedSpdxElement") (MkNode NIri ("http://spdx.org/spdxdocs/spdx-example-444504E0-4F89-41D3-9A0C-0305E82C3301#SPDXRef-Saxon")));
    (MkTriple (MkNode NIri ("http://spdx.org/spdxdocs/spdx-example-444504E0-4F89-41D3-9A0C-0305E82C3301#SPDXRef-Saxon")) ("http://www.w3.org/1999/02/22-rdf-syntax-ns#type") (MkNode NIri ("http://spdx.org/rdf/terms#Package")));
    (MkTriple (MkNode (NOther "BLANK") ("N1")) ("http://www.w3.org/2000/01/rdf-schema#comment") (MkNode (NOther "LITERAL") ("comment")))] [(MkNode NIri ("http://spdx.org/spdxdocs/spdx-example-444504E0-4F89-41D3-9A0C-0305E82C3301#SPDXRef-File"))] test_uri in
  let r23 := parse_relationship V22 g22 (MkTriple (MkNode NIri ("http://spdx.org/spdxdocs/spdx-example-444504E0-4F89-41D3-9A0C-0305E82C3301#SPDXRef-File")) ("http://spdx.org/rdf/terms#relationship") (MkNode (NOther "BLANK") ("N1"))) init_state in
  let s24 := match r23 with Ok x => x | _ => init_state end in
  [(olift Bool.eqb (failed r2) (Some false));
   (olift Bool.eqb (failed r5) (Some false));
   (olift Bool.eqb (failed r8) (Some false));
   (olift Bool.eqb (failed r11) (Some false));
   (olift Bool.eqb (failed r14) (Some false));
   (olift Bool.eqb (failed r17) (Some false));
   (option_map negb (olift Bool.eqb (failed r20) (Some false)));
   (option_map negb (olift Bool.eqb (failed r23) (Some false)));
   (option_map negb (olift Nat.eqb (option_map (@List.length _) (option_map (fun x => d_Relationships x) (Some (rs_doc s24)))) (Some 1)));
   (option_map negb (olift String.eqb (option_map (fun x => r_Relationship x) (obind (option_map (fun x => d_Relationships x) (Some (rs_doc s24))) (fun l => nth_error l 0))) (Some ("describes"))));
   (option_map negb (option_map (fun x => String.eqb (de_DocumentRefID x) ("") && String.eqb (de_ElementRefID x) ("File") && String.eqb (de_SpecialID x) ("")) (option_map (fun x => r_RefA x) (obind (option_map (fun x => d_Relationships x) (Some (rs_doc s24))) (fun l => nth_error l 0)))));
   (option_map negb (option_map (fun x => String.eqb (de_DocumentRefID x) ("") && String.eqb (de_ElementRefID x) ("Saxon") && String.eqb (de_SpecialID x) ("")) (option_map (fun x => r_RefB x) (obind (option_map (fun x => d_Relationships x) (Some (rs_doc s24))) (fun l => nth_error l 0)))));
   (option_map negb (olift String.eqb (option_map (fun x => r_Comment x) (obind (option_map (fun x => d_Relationships x) (Some (rs_doc s24))) (fun l => nth_error l 0))) (Some ("comment"))))]) = true.
Proof. vm_compute. reflexivity. Qed.
(** /repo/spdx/v2/v2_2/rdf/reader/parse_review_test.go 9 *)
Example v22_Test_rdfParser2_2_setReviewFromNode : forallb is_false (
  let g1 := MkGraph [(MkTriple (MkNode (NOther "BLANK") ("N1")) ("http://www.w3.org/1999/02/22-rdf-syntax-ns#type") (MkNode NIri ("http://spdx.org/rdf/terms#Review")));
    (MkTriple (MkNode (NOther "BLANK") ("N1")) ("http://www.w3.org/2000/01/rdf-schema#comment") (MkNode (NOther "LITERAL") ("Another example reviewer.")));
    (MkTriple (MkNode (NOther "BLANK") ("N1")) ("http://spdx.org/rdf/terms#reviewDate") (MkNode (NOther "LITERAL") ("2011-03-13T00:00:00Z")));
    (MkTriple (MkNode (NOther "BLANK") ("N1")) ("http://spdx.org/rdf/terms#reviewer") (MkNode (NOther "LITERAL") ("Person: Suzanne Reviewer")));
    (MkTriple (MkNode (NOther "BLANK") ("N1")) ("http://spdx.org/rdf/terms#unknown") (MkNode (NOther "LITERAL") ("")))] [(MkNode (NOther "BLANK") ("N1"))] test_uri in
  let r2 := set_review g1 (MkNode (NOther "BLANK") ("N1")) init_state in
  let s3 := match r2 with Ok x => x | _ => init_state end in
  let g4 := MkGraph [(MkTriple (MkNode (NOther "BLANK") ("N1")) ("http://www.w3.org/1999/02/22-rdf-syntax-ns#type") (MkNode NIri ("http://spdx.org/rdf/terms#Review")));
    (MkTriple (MkNode (NOther "BLANK") ("N1")) ("http://www.w3.org/2000/01/rdf-schema#comment") (MkNode (NOther "LITERAL") ("Another example reviewer.")));
    (MkTriple (MkNode (NOther "BLANK") ("N1")) ("http://spdx.org/rdf/terms#reviewDate") (MkNode (NOther "LITERAL") ("2011-03-13T00:00:00Z")));
    (MkTriple (MkNode (NOther "BLANK") ("N1")) ("http://spdx.org/rdf/terms#reviewer") (MkNode (NOther "LITERAL") ("Suzanne Reviewer")))] [(MkNode (NOther "BLANK") ("N1"))] test_uri in
  let r5 := set_review g4 (MkNode (NOther "BLANK") ("N1")) init_state in
  let s6 := match r5 with Ok x => x | _ => init_state end in
  let g7 := MkGraph [(MkTriple (MkNode (NOther "BLANK") ("N1")) ("http://www.w3.org/1999/02/22-rdf-syntax-ns#type") (MkNode NIri ("http://spdx.org/rdf/terms#Review")));
    (MkTriple (MkNode (NOther "BLANK") ("N1")) ("http://www.w3.org/2000/01/rdf-schema#comment") (MkNode (NOther "LITERAL") ("Another example reviewer.")));
    (MkTriple (MkNode (NOther "BLANK") ("N1")) ("http://spdx.org/rdf/terms#reviewDate") (MkNode (NOther "LITERAL") ("2011-03-13T00:00:00Z")));
    (MkTriple (MkNode (NOther "BLANK") ("N1")) ("http://spdx.org/rdf/terms#reviewer") (MkNode (NOther "LITERAL") ("Person: Suzanne")))] [(MkNode (NOther "BLANK") ("N1"))] test_uri in
  let r8 := set_review g7 (MkNode (NOther "BLANK") ("N1")) init_state in
  let s9 := match r8 with Ok x => x | _ => init_state end in
  [(olift Bool.eqb (failed r2) (Some false));
   (olift Bool.eqb (failed r5) (Some false));
   (option_map negb (olift Bool.eqb (failed r8) (Some false)));
   (option_map negb (olift Nat.eqb (option_map (@List.length _) (option_map (fun x => d_Reviews x) (Some (rs_doc s9)))) (Some 1)))]) = true.
Proof. vm_compute. reflexivity. Qed.
(** /repo/spdx/v2/v2_2/rdf/reader/parse_snippet_info_test.go 13 *)
Example v22_Test_rdfParser2_2_getSnippetInformationFromTriple2_2 : forallb is_false (
  let g1 := MkGraph [(MkTriple (MkNode NIri ("http://spdx.org/spdxdocs/spdx-example-444504E0-4F89-41D3-9A0C-0305E82C3301#Snippet")) ("http://www.w3.org/1999/02/22-rdf-syntax-ns#type") (MkNode NIri ("http://spdx.org/rdf/terms#Snippet")))] [(MkNode NIri ("http://spdx.org/spdxdocs/spdx-example-444504E0-4F89-41D3-9A0C-0305E82C3301#Snippet"))] test_uri in
  let r2 := snippet_from_node V22 g1 (MkNode NIri ("http://spdx.org/spdxdocs/spdx-example-444504E0-4F89-41D3-9A0C-0305E82C3301#Snippet")) init_state in
  let s3 := match r2 with Ok x => snd x | _ => init_state end in
  let g4 := MkGraph [(MkTriple (MkNode NIri ("http://spdx.org/spdxdocs/spdx-example-444504E0-4F89-41D3-9A0C-0305E82C3301#SPDXRef-Snippet")) ("http://www.w3.org/1999/02/22-rdf-syntax-ns#type") (MkNode NIri ("http://spdx.org/rdf/terms#Snippet")));
    (MkTriple (MkNode NIri ("http://spdx.org/spdxdocs/spdx-example-444504E0-4F89-41D3-9A0C-0305E82C3301#SPDXRef-Snippet")) ("http://spdx.org/rdf/terms#licenseInfoInSnippet") (MkNode (NOther "RESOURCELITERAL") ("http://spdx.org/licenses/Unknown")))] [(MkNode NIri ("http://spdx.org/spdxdocs/spdx-example-444504E0-4F89-41D3-9A0C-0305E82C3301#SPDXRef-Snippet"))] test_uri in
  let r5 := snippet_from_node V22 g4 (MkNode NIri ("http://spdx.org/spdxdocs/spdx-example-444504E0-4F89-41D3-9A0C-0305E82C3301#SPDXRef-Snippet")) init_state in
  let s6 := match r5 with Ok x => snd x | _ => init_state end in
  let g7 := MkGraph [(MkTriple (MkNode NIri ("http://spdx.org/spdxdocs/spdx-example-444504E0-4F89-41D3-9A0C-0305E82C3301#SPDXRef-Snippet")) ("http://www.w3.org/1999/02/22-rdf-syntax-ns#type") (MkNode NIri ("http://spdx.org/rdf/terms#Snippet")));
    (MkTriple (MkNode NIri ("http://spdx.org/spdxdocs/spdx-example-444504E0-4F89-41D3-9A0C-0305E82C3301#SPDXRef-Snippet")) ("http://spdx.org/rdf/terms#range") (MkNode (NOther "BLANK") ("N1")));
    (MkTriple (MkNode (NOther "BLANK") ("N1")) ("http://www.w3.org/1999/02/22-rdf-syntax-ns#type") (MkNode NIri ("http://spdx.org/rdf/terms#StartEndPointer")));
    (MkTriple (MkNode (NOther "BLANK") ("N1")) ("http://spdx.org/rdf/terms#unknownTag") (MkNode (NOther "LITERAL") ("")))] [(MkNode NIri ("http://spdx.org/spdxdocs/spdx-example-444504E0-4F89-41D3-9A0C-0305E82C3301#SPDXRef-Snippet"))] test_uri in
  let r8 := snippet_from_node V22 g7 (MkNode NIri ("http://spdx.org/spdxdocs/spdx-example-444504E0-4F89-41D3-9A0C-0305E82C3301#SPDXRef-Snippet")) init_state in
  let s9 := match r8 with Ok x => snd x | _ => init_state end in
  let g10 := MkGraph [(MkTriple (MkNode NIri ("http://spdx.org/spdxdocs/spdx-example-444504E0-4F89-41D3-9A0C-0305E82C3301#SPDXRef-Snippet")) ("http://www.w3.org/1999/02/22-rdf-syntax-ns#type") (MkNode NIri ("http://spdx.org/rdf/terms#Snippet")));
    (MkTriple (MkNode NIri ("http://spdx.org/spdxdocs/spdx-example-444504E0-4F89-41D3-9A0C-0305E82C3301#SPDXRef-Snippet")) ("http://spdx.org/rdf/terms#snippetFromFile") (MkNode (NOther "BLANK") ("N1")));
    (MkTriple (MkNode (NOther "BLANK") ("N1")) ("http://www.w3.org/1999/02/22-rdf-syntax-ns#type") (MkNode NIri ("http://spdx.org/rdf/terms#File")))] [(MkNode NIri ("http://spdx.org/spdxdocs/spdx-example-444504E0-4F89-41D3-9A0C-0305E82C3301#SPDXRef-Snippet"))] test_uri in
  let r11 := snippet_from_node V22 g10 (MkNode NIri ("http://spdx.org/spdxdocs/spdx-example-444504E0-4F89-41D3-9A0C-0305E82C3301#SPDXRef-Snippet")) init_state in
  let s12 := match r11 with Ok x => snd x | _ => init_state end in
  let g13 := MkGraph [(MkTriple (MkNode NIri ("http://spdx.org/spdxdocs/spdx-example-444504E0-4F89-41D3-9A0C-0305E82C3301#SPDXRef-Snippet")) ("http://www.w3.org/1999/02/22-rdf-syntax-ns#type") (MkNode NIri ("http://spdx.org/rdf/terms#Snippet")));
    (MkTriple (MkNode NIri ("http://spdx.org/spdxdocs/spdx-example-444504E0-4F89-41D3-9A0C-0305E82C3301#SPDXRef-Snippet")) ("http://spdx.org/rdf/terms#unknownPredicate") (MkNode (NOther "LITERAL") ("")))] [(MkNode NIri ("http://spdx.org/spdxdocs/spdx-example-444504E0-4F89-41D3-9A0C-0305E82C3301#SPDXRef-Snippet"))] test_uri in
  let r14 := snippet_from_node V22 g13 (MkNode NIri ("http://spdx.org/spdxdocs/spdx-example-444504E0-4F89-41D3-9A0C-0305E82C3301#SPDXRef-Snippet")) init_state in
  let s15 := match r14 with Ok x => snd x | _ => init_state end in
  let g16 := MkGraph [(MkTriple (MkNode NIri ("http://spdx.org/spdxdocs/spdx-example-444504E0-4F89-41D3-9A0C-0305E82C3301#SPDXRef-Snippet")) ("http://www.w3.org/1999/02/22-rdf-syntax-ns#type") (MkNode NIri ("http://spdx.org/rdf/terms#Snippet")));
    (MkTriple (MkNode NIri ("http://spdx.org/spdxdocs/spdx-example-444504E0-4F89-41D3-9A0C-0305E82C3301#SPDXRef-Snippet")) ("http://spdx.org/rdf/terms#licenseConcluded") (MkNode (NOther "RESOURCELITERAL") ("http://spdx.org/licenses/Unknown")))] [(MkNode NIri ("http://spdx.org/spdxdocs/spdx-example-444504E0-4F89-41D3-9A0C-0305E82C3301#SPDXRef-Snippet"))] test_uri in
  let r17 := snippet_from_node V22 g16 (MkNode NIri ("http://spdx.org/spdxdocs/spdx-example-444504E0-4F89-41D3-9A0C-0305E82C3301#SPDXRef-Snippet")) init_state in
  let s18 := match r17 with Ok x => snd x | _ => init_state end in
  let g19 := MkGraph [(MkTriple (MkNode NIri ("http://spdx.org/spdxdocs/spdx-example-444504E0-4F89-41D3-9A0C-0305E82C3301#SPDXRef-Snippet")) ("http://www.w3.org/1999/02/22-rdf-syntax-ns#type") (MkNode NIri ("http://spdx.org/rdf/terms#Snippet")));
    (MkTriple (MkNode NIri ("http://spdx.org/spdxdocs/spdx-example-444504E0-4F89-41D3-9A0C-0305E82C3301#SPDXRef-Snippet")) ("http://spdx.org/rdf/terms#snippetFromFile") (MkNode NIri ("http://spdx.org/spdxdocs/spdx-example-444504E0-4F89-41D3-9A0C-0305E82C3301#SPDXRef-File")));
    (MkTriple (MkNode NIri ("http://spdx.org/spdxdocs/spdx-example-444504E0-4F89-41D3-9A0C-0305E82C3301#SPDXRef-File")) ("http://www.w3.org/1999/02/22-rdf-syntax-ns#type") (MkNode NIri ("http://spdx.org/rdf/terms#File")));
    (MkTriple (MkNode NIri ("http://spdx.org/spdxdocs/spdx-example-444504E0-4F89-41D3-9A0C-0305E82C3301#SPDXRef-Snippet")) ("http://spdx.org/rdf/terms#range") (MkNode (NOther "BLANK") ("N1")));
    (MkTriple (MkNode (NOther "BLANK") ("N1")) ("http://www.w3.org/1999/02/22-rdf-syntax-ns#type") (MkNode NIri ("http://www.w3.org/2009/pointers#StartEndPointer")));
    (MkTriple (MkNode (NOther "BLANK") ("N1")) ("http://www.w3.org/2009/pointers#startPointer") (MkNode (NOther "BLANK") ("N2")));
    (MkTriple (MkNode (NOther "BLANK") ("N2")) ("http://www.w3.org/1999/02/22-rdf-syntax-ns#type") (MkNode NIri ("http://www.w3.org/2009/pointers#LineCharPointer")));
    (MkTriple (MkNode (NOther "BLANK") ("N2")) ("http://www.w3.org/2009/pointers#reference") (MkNode (NOther "RESOURCELITERAL") ("http://spdx.org/spdxdocs/spdx-example-444504E0-4F89-41D3-9A0C-0305E82C3301#SPDXRef-DoapSource")));
    (MkTriple (MkNode (NOther "BLANK") ("N2")) ("http://www.w3.org/2009/pointers#lineNumber") (MkNode (NOther "LITERAL") ("420")));
    (MkTriple (MkNode (NOther "BLANK") ("N1")) ("http://www.w3.org/2009/pointers#endPointer") (MkNode (NOther "BLANK") ("N3")));
    (MkTriple (MkNode (NOther "BLANK") ("N3")) ("http://www.w3.org/1999/02/22-rdf-syntax-ns#type") (MkNode NIri ("http://www.w3.org/2009/pointers#LineCharPointer")));
    (MkTriple (MkNode (NOther "BLANK") ("N3")) ("http://www.w3.org/2009/pointers#reference") (MkNode (NOther "RESOURCELITERAL") ("http://spdx.org/spdxdocs/spdx-example-444504E0-4F89-41D3-9A0C-0305E82C3301#SPDXRef-DoapSource")));
    (MkTriple (MkNode (NOther "BLANK") ("N3")) ("http://www.w3.org/2009/pointers#lineNumber") (MkNode (NOther "LITERAL") ("310")));
    (MkTriple (MkNode NIri ("http://spdx.org/spdxdocs/spdx-example-444504E0-4F89-41D3-9A0C-0305E82C3301#SPDXRef-Snippet")) ("http://spdx.org/rdf/terms#licenseInfoInSnippet") (MkNode (NOther "RESOURCELITERAL") ("http://spdx.org/rdf/terms#noassertion")));
    (MkTriple (MkNode NIri ("http://spdx.org/spdxdocs/spdx-example-444504E0-4F89-41D3-9A0C-0305E82C3301#SPDXRef-Snippet")) ("http://spdx.org/rdf/terms#name") (MkNode (NOther "LITERAL") ("snippet test")));
    (MkTriple (MkNode NIri ("http://spdx.org/spdxdocs/spdx-example-444504E0-4F89-41D3-9A0C-0305E82C3301#SPDXRef-Snippet")) ("http://spdx.org/rdf/terms#copyrightText") (MkNode (NOther "LITERAL") ("test")));
    (MkTriple (MkNode NIri ("http://spdx.org/spdxdocs/spdx-example-444504E0-4F89-41D3-9A0C-0305E82C3301#SPDXRef-Snippet")) ("http://spdx.org/rdf/terms#licenseComments") (MkNode (NOther "LITERAL") ("comments")));
    (MkTriple (MkNode NIri ("http://spdx.org/spdxdocs/spdx-example-444504E0-4F89-41D3-9A0C-0305E82C3301#SPDXRef-Snippet")) ("http://www.w3.org/2000/01/rdf-schema#comment") (MkNode (NOther "LITERAL") ("comments")));
    (MkTriple (MkNode NIri ("http://spdx.org/spdxdocs/spdx-example-444504E0-4F89-41D3-9A0C-0305E82C3301#SPDXRef-Snippet")) ("http://spdx.org/rdf/terms#licenseConcluded") (MkNode (NOther "RESOURCELITERAL") ("http://spdx.org/rdf/terms#noassertion")))] [(MkNode NIri ("http://spdx.org/spdxdocs/spdx-example-444504E0-4F89-41D3-9A0C-0305E82C3301#SPDXRef-Snippet"))] test_uri in
  let r20 := snippet_from_node V22 g19 (MkNode NIri ("http://spdx.org/spdxdocs/spdx-example-444504E0-4F89-41D3-9A0C-0305E82C3301#SPDXRef-Snippet")) init_state in
  let s21 := match r20 with Ok x => snd x | _ => init_state end in
  [(olift Bool.eqb (failed r2) (Some false));
   (olift Bool.eqb (failed r5) (Some false));
   (olift Bool.eqb (failed r8) (Some false));
   (olift Bool.eqb (failed r11) (Some false));
   (olift Bool.eqb (failed r14) (Some false));
   (olift Bool.eqb (failed r17) (Some false));
   (option_map negb (olift Bool.eqb (failed r20) (Some false)))]) = true.
Proof. vm_compute. reflexivity. Qed.
(** /repo/spdx/v2/v2_2/rdf/reader/parse_snippet_info_test.go 150 *)
Example v22_Test_rdfParser2_2_parseRangeReference : forallb is_false (
  let g1 := MkGraph [] [] test_uri in
  let r2 := range_reference V22 g1 (MkNode (NOther "RESOURCELITERAL") ("http://spdx.org/spdxdocs/spdx-example-444504E0-4F89-41D3-9A0C-0305E82C3301#SPDXRef-DoapSource")) init_state in
  let s3 := match r2 with Ok x => x | _ => init_state end in
  let g4 := MkGraph [(MkTriple (MkNode NIri ("http://spdx.org/spdxdocs/spdx-example-444504E0-4F89-41D3-9A0C-0305E82C3301#DoapSource")) ("http://www.w3.org/1999/02/22-rdf-syntax-ns#type") (MkNode NIri ("http://spdx.org/rdf/terms#File")));
    (MkTriple (MkNode NIri ("http://spdx.org/spdxdocs/spdx-example-444504E0-4F89-41D3-9A0C-0305E82C3301#DoapSource")) ("http://spdx.org/rdf/terms#fileName") (MkNode (NOther "LITERAL") (" test file ")))] [(MkNode NIri ("http://spdx.org/spdxdocs/spdx-example-444504E0-4F89-41D3-9A0C-0305E82C3301#DoapSource"))] test_uri in
  let r5 := range_reference V22 g4 (MkNode NIri ("http://spdx.org/spdxdocs/spdx-example-444504E0-4F89-41D3-9A0C-0305E82C3301#DoapSource")) init_state in
  let s6 := match r5 with Ok x => x | _ => init_state end in
  let g7 := MkGraph [(MkTriple (MkNode NIri ("http://spdx.org/spdxdocs/spdx-example-444504E0-4F89-41D3-9A0C-0305E82C3301#SPDXRef-DoapSource")) ("http://www.w3.org/1999/02/22-rdf-syntax-ns#type") (MkNode NIri ("http://spdx.org/rdf/terms#File")));
    (MkTriple (MkNode NIri ("http://spdx.org/spdxdocs/spdx-example-444504E0-4F89-41D3-9A0C-0305E82C3301#SPDXRef-DoapSource")) ("http://spdx.org/rdf/terms#fileName") (MkNode (NOther "LITERAL") (" test file ")))] [(MkNode NIri ("http://spdx.org/spdxdocs/spdx-example-444504E0-4F89-41D3-9A0C-0305E82C3301#SPDXRef-DoapSource"))] test_uri in
  let r8 := range_reference V22 g7 (MkNode NIri ("http://spdx.org/spdxdocs/spdx-example-444504E0-4F89-41D3-9A0C-0305E82C3301#SPDXRef-DoapSource")) init_state in
  let s9 := match r8 with Ok x => x | _ => init_state end in
  [(option_map negb (olift Bool.eqb (failed r2) (Some false)));
   (olift Bool.eqb (failed r5) (Some false));
   (option_map negb (olift Bool.eqb (failed r8) (Some false)))]) = true.
Proof. vm_compute. reflexivity. Qed.
(** /repo/spdx/v2/v2_2/rdf/reader/parse_snippet_info_test.go 198 *)
Example v22_Test_rdfParser2_2_getPointerFromNode : forallb is_false (
  let g1 := MkGraph [(MkTriple (MkNode (NOther "BLANK") ("N1")) ("http://www.w3.org/1999/02/22-rdf-syntax-ns#type") (MkNode NIri ("http://www.w3.org/2009/pointers#startPointer")));
    (MkTriple (MkNode (NOther "BLANK") ("N1")) ("http://www.w3.org/2009/pointers#LineCharPointer") (MkNode (NOther "BLANK") ("N2")));
    (MkTriple (MkNode (NOther "BLANK") ("N2")) ("http://www.w3.org/1999/02/22-rdf-syntax-ns#type") (MkNode NIri ("http://www.w3.org/2009/pointers#reference")));
    (MkTriple (MkNode (NOther "BLANK") ("N1")) ("http://www.w3.org/2009/pointers#LineCharPointer") (MkNode (NOther "BLANK") ("N3")));
    (MkTriple (MkNode (NOther "BLANK") ("N3")) ("http://www.w3.org/1999/02/22-rdf-syntax-ns#type") (MkNode NIri ("http://www.w3.org/2009/pointers#offset")))] [(MkNode (NOther "BLANK") ("N1"))] test_uri in
  let r2 := pointer_from_node V22 g1 (MkNode (NOther "BLANK") ("N1")) init_state in
  let s3 := match r2 with Ok x => snd x | _ => init_state end in
  let g4 := MkGraph [(MkTriple (MkNode (NOther "BLANK") ("N1")) ("http://www.w3.org/1999/02/22-rdf-syntax-ns#type") (MkNode NIri ("http://www.w3.org/2009/pointers#ByteOffsetPointer")));
    (MkTriple (MkNode (NOther "BLANK") ("N1")) ("http://www.w3.org/2009/pointers#reference") (MkNode (NOther "RESOURCELITERAL") ("http://spdx.org/spdxdocs/spdx-example-444504E0-4F89-41D3-9A0C-0305E82C3301#SPDXRef-DoapSource")));
    (MkTriple (MkNode (NOther "BLANK") ("N1")) ("http://www.w3.org/2009/pointers#offset") (MkNode (NOther "LITERAL") ("3-10")))] [(MkNode (NOther "BLANK") ("N1"))] test_uri in
  let r5 := pointer_from_node V22 g4 (MkNode (NOther "BLANK") ("N1")) init_state in
  let s6 := match r5 with Ok x => snd x | _ => init_state end in
  let g7 := MkGraph [(MkTriple (MkNode (NOther "BLANK") ("N1")) ("http://www.w3.org/1999/02/22-rdf-syntax-ns#type") (MkNode NIri ("http://www.w3.org/2009/pointers#ByteOffsetPointer")));
    (MkTriple (MkNode (NOther "BLANK") ("N1")) ("http://spdx.org/rdf/terms#invalidTag") (MkNode (NOther "LITERAL") ("")));
    (MkTriple (MkNode (NOther "BLANK") ("N1")) ("http://www.w3.org/2009/pointers#reference") (MkNode (NOther "RESOURCELITERAL") ("http://spdx.org/spdxdocs/spdx-example-444504E0-4F89-41D3-9A0C-0305E82C3301#SPDXRef-DoapSource")));
    (MkTriple (MkNode (NOther "BLANK") ("N1")) ("http://www.w3.org/2009/pointers#lineNumber") (MkNode (NOther "LITERAL") ("3-10")))] [(MkNode (NOther "BLANK") ("N1"))] test_uri in
  let r8 := pointer_from_node V22 g7 (MkNode (NOther "BLANK") ("N1")) init_state in
  let s9 := match r8 with Ok x => snd x | _ => init_state end in
  let g10 := MkGraph [(MkTriple (MkNode (NOther "BLANK") ("N1")) ("http://www.w3.org/1999/02/22-rdf-syntax-ns#type") (MkNode NIri ("http://www.w3.org/2009/pointers#ByteOffsetPointer")));
    (MkTriple (MkNode (NOther "BLANK") ("N1")) ("http://www.w3.org/2009/pointers#reference") (MkNode (NOther "RESOURCELITERAL") ("http://spdx.org/spdxdocs/spdx-example-444504E0-4F89-41D3-9A0C-0305E82C3301#SPDXRef-DoapSource")))] [(MkNode (NOther "BLANK") ("N1"))] test_uri in
  let r11 := pointer_from_node V22 g10 (MkNode (NOther "BLANK") ("N1")) init_state in
  let s12 := match r11 with Ok x => snd x | _ => init_state end in
  let g13 := MkGraph [(MkTriple (MkNode (NOther "BLANK") ("N1")) ("http://www.w3.org/1999/02/22-rdf-syntax-ns#type") (MkNode NIri ("http://www.w3.org/2009/pointers#ByteOffsetPointer")));
    (MkTriple (MkNode (NOther "BLANK") ("N1")) ("http://www.w3.org/2009/pointers#reference") (MkNode (NOther "RESOURCELITERAL") ("http://spdx.org/spdxdocs/spdx-example-444504E0-4F89-41D3-9A0C-0305E82C3301#SPDXRef-DoapSource")));
    (MkTriple (MkNode (NOther "BLANK") ("N1")) ("http://www.w3.org/2009/pointers#offset") (MkNode (NOther "LITERAL") ("310")))] [(MkNode (NOther "BLANK") ("N1"))] test_uri in
  let r14 := pointer_from_node V22 g13 (MkNode (NOther "BLANK") ("N1")) init_state in
  let s15 := match r14 with Ok x => snd x | _ => init_state end in
  [(olift Bool.eqb (failed r2) (Some false));
   (olift Bool.eqb (failed r5) (Some false));
   (olift Bool.eqb (failed r8) (Some false));
   (olift Bool.eqb (failed r11) (Some false));
   (option_map negb (olift Bool.eqb (failed r14) (Some false)));
   (option_map negb (olift Z.eqb (option_map (fun x => snd (fst x)) (value r14)) (Some 310%Z)))]) = true.
Proof. vm_compute. reflexivity. Qed.
(** /repo/spdx/v2/v2_2/rdf/reader/parse_snippet_info_test.go 280 *)
Example v22_Test_rdfParser2_2_setSnippetRangeFromNode : forallb is_false (
  let g1 := MkGraph [(MkTriple (MkNode (NOther "BLANK") ("N1")) ("http://www.w3.org/1999/02/22-rdf-syntax-ns#type") (MkNode NIri ("http://www.w3.org/2009/pointers#StartEndPointer")));
    (MkTriple (MkNode (NOther "BLANK") ("N1")) ("http://www.w3.org/2009/pointers#startPointer") (MkNode (NOther "BLANK") ("N2")));
    (MkTriple (MkNode (NOther "BLANK") ("N2")) ("http://www.w3.org/1999/02/22-rdf-syntax-ns#type") (MkNode NIri ("http://www.w3.org/2009/pointers#LineCharPointer")));
    (MkTriple (MkNode (NOther "BLANK") ("N2")) ("http://www.w3.org/2009/pointers#reference") (MkNode (NOther "RESOURCELITERAL") ("http://spdx.org/spdxdocs/spdx-example-444504E0-4F89-41D3-9A0C-0305E82C3301#SPDXRef-DoapSource")));
    (MkTriple (MkNode (NOther "BLANK") ("N2")) ("http://www.w3.org/2009/pointers#offset") (MkNode (NOther "LITERAL") ("310")))] [(MkNode (NOther "BLANK") ("N1"))] test_uri in
  let r2 := range_from_node V22 g1 (MkNode (NOther "BLANK") ("N1")) "" init_state in
  let s3 := match r2 with Ok x => snd x | _ => init_state end in
  let g4 := MkGraph [(MkTriple (MkNode (NOther "BLANK") ("N1")) ("http://www.w3.org/1999/02/22-rdf-syntax-ns#type") (MkNode NIri ("http://www.w3.org/2009/pointers#StartEndPointer")));
    (MkTriple (MkNode (NOther "BLANK") ("N1")) ("http://www.w3.org/2009/pointers#endPointer") (MkNode (NOther "BLANK") ("N2")));
    (MkTriple (MkNode (NOther "BLANK") ("N2")) ("http://www.w3.org/1999/02/22-rdf-syntax-ns#type") (MkNode NIri ("http://www.w3.org/2009/pointers#ByteOffsetPointer")));
    (MkTriple (MkNode (NOther "BLANK") ("N2")) ("http://www.w3.org/2009/pointers#reference") (MkNode (NOther "RESOURCELITERAL") ("http://spdx.org/spdxdocs/spdx-example-444504E0-4F89-41D3-9A0C-0305E82C3301#SPDXRef-DoapSource")));
    (MkTriple (MkNode (NOther "BLANK") ("N2")) ("http://www.w3.org/2009/pointers#offset") (MkNode (NOther "LITERAL") ("420")));
    (MkTriple (MkNode (NOther "BLANK") ("N1")) ("http://www.w3.org/2009/pointers#startPointer") (MkNode (NOther "BLANK") ("N3")));
    (MkTriple (MkNode (NOther "BLANK") ("N3")) ("http://www.w3.org/1999/02/22-rdf-syntax-ns#type") (MkNode NIri ("http://www.w3.org/2009/pointers#ByteOffsetPointer")));
    (MkTriple (MkNode (NOther "BLANK") ("N3")) ("http://www.w3.org/2009/pointers#reference") (MkNode (NOther "RESOURCELITERAL") ("http://spdx.org/spdxdocs/spdx-example-444504E0-4F89-41D3-9A0C-0305E82C3301#SPDXRef-DoapSource")));
    (MkTriple (MkNode (NOther "BLANK") ("N3")) ("http://www.w3.org/2009/pointers#offset") (MkNode (NOther "LITERAL") ("310")))] [(MkNode (NOther "BLANK") ("N1"))] test_uri in
  [(olift Bool.eqb (failed r2) (Some false))]) = true.
Proof. vm_compute. reflexivity. Qed.
(** /repo/spdx/v2/v2_2/rdf/reader/parse_spdx_document_test.go 11 *)
Example v22_Test_rdfParser2_2_getExternalDocumentRefFromNode : forallb is_false (
  let g1 := MkGraph [(MkTriple (MkNode (NOther "BLANK") ("N1")) ("http://www.w3.org/1999/02/22-rdf-syntax-ns#type") (MkNode NIri ("http://spdx.org/rdf/terms#ExternalDocumentRef")));
    (MkTriple (MkNode (NOther "BLANK") ("N1")) ("http://spdx.org/rdf/terms#externalDocumentId") (MkNode (NOther "LITERAL") ("DocumentRef-spdx-tool-1.2")));
    (MkTriple (MkNode (NOther "BLANK") ("N1")) ("http://spdx.org/rdf/terms#checksum") (MkNode (NOther "BLANK") ("N2")));
    (MkTriple (MkNode (NOther "BLANK") ("N2")) ("http://www.w3.org/1999/02/22-rdf-syntax-ns#type") (MkNode NIri ("http://spdx.org/rdf/terms#Checksum")));
    (MkTriple (MkNode (NOther "BLANK") ("N2")) ("http://spdx.org/rdf/terms#checksumValue") (MkNode (NOther "LITERAL") ("d6a770ba38583ed4bb4525bd96e50461655d2759")));
    (MkTriple (MkNode (NOther "BLANK") ("N2")) ("http://spdx.org/rdf/terms#algorithm") (MkNode (NOther "RESOURCELITERAL") ("http://spdx.org/rdf/terms#checksumAlgorithm_sha999")));
    (MkTriple (MkNode (NOther "BLANK") ("N1")) ("http://spdx.org/rdf/terms#spdxDocument") (MkNode (NOther "RESOURCELITERAL") ("http://spdx.org/spdxdocs/spdx-tools-v1.2-3F2504E0-4F89-41D3-9A0C-0305E82C3301")))] [(MkNode (NOther "BLANK") ("N1"))] test_uri in
  let r2 := external_document_from_node g1 (MkNode (NOther "BLANK") ("N1")) in
  let g3 := MkGraph [(MkTriple (MkNode (NOther "BLANK") ("N1")) ("http://www.w3.org/1999/02/22-rdf-syntax-ns#type") (MkNode NIri ("http://spdx.org/rdf/terms#ExternalDocumentRef")));
    (MkTriple (MkNode (NOther "BLANK") ("N1")) ("http://spdx.org/rdf/terms#unknownTag") (MkNode (NOther "LITERAL") ("")))] [(MkNode (NOther "BLANK") ("N1"))] test_uri in
  let r4 := external_document_from_node g3 (MkNode (NOther "BLANK") ("N1")) in
  let g5 := MkGraph [(MkTriple (MkNode (NOther "BLANK") ("N1")) ("http://www.w3.org/1999/02/22-rdf-syntax-ns#type") (MkNode NIri ("http://spdx.org/rdf/terms#ExternalDocumentRef")));
    (MkTriple (MkNode (NOther "BLANK") ("N1")) ("http://spdx.org/rdf/terms#externalDocumentId") (MkNode (NOther "LITERAL") ("DocumentRef-spdx-tool-1.2")));
    (MkTriple (MkNode (NOther "BLANK") ("N1")) ("http://spdx.org/rdf/terms#checksum") (MkNode (NOther "BLANK") ("N2")));
    (MkTriple (MkNode (NOther "BLANK") ("N2")) ("http://www.w3.org/1999/02/22-rdf-syntax-ns#type") (MkNode NIri ("http://spdx.org/rdf/terms#Checksum")));
    (MkTriple (MkNode (NOther "BLANK") ("N2")) ("http://spdx.org/rdf/terms#checksumValue") (MkNode (NOther "LITERAL") ("d6a770ba38583ed4bb4525bd96e50461655d2759")));
    (MkTriple (MkNode (NOther "BLANK") ("N2")) ("http://spdx.org/rdf/terms#algorithm") (MkNode (NOther "RESOURCELITERAL") ("http://spdx.org/rdf/terms#checksumAlgorithm_sha256")));
    (MkTriple (MkNode (NOther "BLANK") ("N1")) ("http://spdx.org/rdf/terms#spdxDocument") (MkNode (NOther "RESOURCELITERAL") ("http://spdx.org/spdxdocs/spdx-tools-v1.2-3F2504E0-4F89-41D3-9A0C-0305E82C3301")))] [(MkNode (NOther "BLANK") ("N1"))] test_uri in
  let r6 := external_document_from_node g5 (MkNode (NOther "BLANK") ("N1")) in
  [(olift Bool.eqb (failed r2) (Some false));
   (olift Bool.eqb (failed r4) (Some false));
   (option_map negb (olift Bool.eqb (failed r6) (Some false)))]) = true.
Proof. vm_compute. reflexivity. Qed.
(** /repo/spdx/v2/v2_2/rdf/reader/parse_spdx_document_test.go 67 *)
Example v22_Test_rdfParser2_2_parseSpdxDocumentNode : forallb is_false (
  let g1 := MkGraph [(MkTriple (MkNode NIri ("http://spdx.org/spdxdocs/spdx-example-444504E0-4F89-41D3-9A0C-0305E82C3301/Document")) ("http://www.w3.org/1999/02/22-rdf-syntax-ns#type") (MkNode NIri ("http://spdx.org/rdf/terms#SpdxDocument")))] [(MkNode NIri ("http://spdx.org/spdxdocs/spdx-example-444504E0-4F89-41D3-9A0C-0305E82C3301/Document"))] test_uri in
  let r2 := parse_document_node V22 g1 (MkNode NIri ("http://spdx.org/spdxdocs/spdx-example-444504E0-4F89-41D3-9A0C-0305E82C3301/Document")) init_state in
  let s3 := match r2 with Ok x => x | _ => init_state end in
  let g4 := MkGraph [(MkTriple (MkNode NIri ("http://spdx.org/spdxdocs/spdx-example-444504E0-4F89-41D3-9A0C-0305E82C3301#SPDXRef-Document")) ("http://www.w3.org/1999/02/22-rdf-syntax-ns#type") (MkNode NIri ("http://spdx.org/rdf/terms#SpdxDocument")));
    (MkTriple (MkNode NIri ("http://spdx.org/spdxdocs/spdx-example-444504E0-4F89-41D3-9A0C-0305E82C3301#SPDXRef-Document")) ("http://spdx.org/rdf/terms#dataLicense") (MkNode (NOther "RESOURCELITERAL") ("http://spdx.org/rdf/terms#Unknown")))] [(MkNode NIri ("http://spdx.org/spdxdocs/spdx-example-444504E0-4F89-41D3-9A0C-0305E82C3301#SPDXRef-Document"))] test_uri in
  let r5 := parse_document_node V22 g4 (MkNode NIri ("http://spdx.org/spdxdocs/spdx-example-444504E0-4F89-41D3-9A0C-0305E82C3301#SPDXRef-Document")) init_state in
  let s6 := match r5 with Ok x => x | _ => init_state end in
  let g7 := MkGraph [(MkTriple (MkNode NIri ("http://spdx.org/spdxdocs/spdx-example-444504E0-4F89-41D3-9A0C-0305E82C3301#SPDXRef-Document")) ("http://www.w3.org/1999/02/22-rdf-syntax-ns#type") (MkNode NIri ("http://spdx.org/rdf/terms#SpdxDocument")));
    (MkTriple (MkNode NIri ("http://spdx.org/spdxdocs/spdx-example-444504E0-4F89-41D3-9A0C-0305E82C3301#SPDXRef-Document")) ("http://spdx.org/rdf/terms#externalDocumentRef") (MkNode (NOther "BLANK") ("N1")));
    (MkTriple (MkNode (NOther "BLANK") ("N1")) ("http://www.w3.org/1999/02/22-rdf-syntax-ns#type") (MkNode NIri ("http://spdx.org/rdf/terms#ExternalDocumentRef")));
    (MkTriple (MkNode (NOther "BLANK") ("N1")) ("http://spdx.org/rdf/terms#externalDocumentId") (MkNode (NOther "LITERAL") ("DocumentRef-spdx-tool-1.2")));
    (MkTriple (MkNode (NOther "BLANK") ("N1")) ("http://spdx.org/rdf/terms#checksum") (MkNode (NOther "BLANK") ("N2")));
    (MkTriple (MkNode (NOther "BLANK") ("N2")) ("http://www.w3.org/1999/02/22-rdf-syntax-ns#type") (MkNode NIri ("http://spdx.org/rdf/terms#Checksum")));
    (MkTriple (MkNode (NOther "BLANK") ("N2")) ("http://spdx.org/rdf/terms#checksumValue") (MkNode (NOther "LITERAL") ("d6a770ba38583ed4bb4525bd96e50461655d2759")));
    (MkTriple (MkNode (NOther "BLANK") ("N2")) ("http://spdx.org/rdf/terms#algorithm") (MkNode (NOther "RESOURCELITERAL") ("http://spdx.org/rdf/terms#checksumAlgorithm_sha999")));
    (MkTriple (MkNode (NOther "BLANK") ("N1")) ("http://spdx.org/rdf/terms#spdxDocument") (MkNode (NOther "RESOURCELITERAL") ("http://spdx.org/spdxdocs/spdx-tools-v1.2-3F2504E0-4F89-41D3-9A0C-0305E82C3301")))] [(MkNode NIri ("http://spdx.org/spdxdocs/spdx-example-444504E0-4F89-41D3-9A0C-0305E82C3301#SPDXRef-Document"))] test_uri in
  let r8 := parse_document_node V22 g7 (MkNode NIri ("http://spdx.org/spdxdocs/spdx-example-444504E0-4F89-41D3-9A0C-0305E82C3301#SPDXRef-Document")) init_state in
  let s9 := match r8 with Ok x => x | _ => init_state end in
  let g10 := MkGraph [(MkTriple (MkNode NIri ("http://spdx.org/spdxdocs/spdx-example-444504E0-4F89-41D3-9A0C-0305E82C3301#SPDXRef-Document")) ("http://www.w3.org/1999/02/22-rdf-syntax-ns#type") (MkNode NIri ("http://spdx.org/rdf/terms#SpdxDocument")));
    (MkTriple (MkNode NIri ("http://spdx.org/spdxdocs/spdx-example-444504E0-4F89-41D3-9A0C-0305E82C3301#SPDXRef-Document")) ("http://spdx.org/rdf/terms#describesPackage") (MkNode NIri ("http://www.spdx.org/spdxdocs/8f141b09-1138-4fc5-aecb-fc10d9ac1eed#SPDX-1")));
    (MkTriple (MkNode NIri ("http://www.spdx.org/spdxdocs/8f141b09-1138-4fc5-aecb-fc10d9ac1eed#SPDX-1")) ("http://www.w3.org/1999/02/22-rdf-syntax-ns#type") (MkNode NIri ("http://spdx.org/rdf/terms#Package")))] [(MkNode NIri ("http://spdx.org/spdxdocs/spdx-example-444504E0-4F89-41D3-9A0C-0305E82C3301#SPDXRef-Document"))] test_uri in
  let r11 := parse_document_node V22 g10 (MkNode NIri ("http://spdx.org/spdxdocs/spdx-example-444504E0-4F89-41D3-9A0C-0305E82C3301#SPDXRef-Document")) init_state in
  let s12 := match r11 with Ok x => x | _ => init_state end in
  let g13 := MkGraph [(MkTriple (MkNode NIri ("http://spdx.org/spdxdocs/spdx-example-444504E0-4F89-41D3-9A0C-0305E82C3301#SPDXRef-Document")) ("http://www.w3.org/1999/02/22-rdf-syntax-ns#type") (MkNode NIri ("http://spdx.org/rdf/terms#SpdxDocument")));
    (MkTriple (MkNode NIri ("http://spdx.org/spdxdocs/spdx-example-444504E0-4F89-41D3-9A0C-0305E82C3301#SPDXRef-Document")) ("http://spdx.org/rdf/terms#hasExtractedLicensingInfo") (MkNode NIri ("http://spdx.org/spdxdocs/spdx-example-444504E0-4F89-41D3-9A0C-0305E82C3301#LicenseRef-Freeware")));
    (MkTriple (MkNode NIri ("http://spdx.org/spdxdocs/spdx-example-444504E0-4F89-41D3-9A0C-0305E82C3301#LicenseRef-Freeware")) ("http://www.w3.org/1999/02/22-rdf-syntax-ns#type") (MkNode NIri ("http://spdx.org/rdf/terms#ExtractedLicensingInfo")));
    (MkTriple (MkNode NIri ("http://spdx.org/spdxdocs/spdx-example-444504E0-4F89-41D3-9A0C-0305E82C3301#LicenseRef-Freeware")) ("http://spdx.org/rdf/terms#invalidTag") (MkNode (NOther "LITERAL") ("")));
    (MkTriple (MkNode NIri ("http://spdx.org/spdxdocs/spdx-example-444504E0-4F89-41D3-9A0C-0305E82C3301#LicenseRef-Freeware")) ("http://spdx.org/rdf/terms#licenseId") (MkNode (NOther "LITERAL") ("LicenseRef-Freeware")));
    (MkTriple (MkNode NIri ("http://spdx.org/spdxdocs/spdx-example-444504E0-4F89-41D3-9A0C-0305E82C3301#LicenseRef-Freeware")) ("http://spdx.org/rdf/terms#name") (MkNode (NOther "LITERAL") ("freeware")));
    (MkTriple (MkNode NIri ("http://spdx.org/spdxdocs/spdx-example-444504E0-4F89-41D3-9A0C-0305E82C3301#LicenseRef-Freeware")) ("http://spdx.org/rdf/terms#extractedText") (MkNode (NOther "LITERAL") ("
Software classified as freeware is licensed at no cost and is either fully functional for an unlimited time; or has only basic functions enabled with a fully functional version available commercially or as shareware.[8] In contrast to free software, the author usually restricts one or more rights of the user, including the rights to use, copy, distribute, modify and make derivative works of the software or extract the source code.[1][2][9][10] The software license may impose various additional restrictions on the type of use, e.g. only for personal use, private use, individual use, non-profit use, non-commercial use, academic use, educational use, use in charity or humanitarian organizations, non-military use, use by public authorities or various other combinations of these type of restrictions.[11] For instance, the license may be ""free for private, non-commercial use"". The software license may also impose various other restrictions, such as restricted use over a network, restricted use on a server, restricted use in a combination with some types of other software or with some hardware devices, prohibited distribution over the Internet other than linking to author's website, restricted distribution without author's consent, restricted number of copies, etc.
					")))] [(MkNode NIri ("http://spdx.org/spdxdocs/spdx-example-444504E0-4F89-41D3-9A0C-0305E82C3301#SPDXRef-Document"))] test_uri in
  let r14 := parse_document_node V22 g13 (MkNode NIri ("http://spdx.org/spdxdocs/spdx-example-444504E0-4F89-41D3-9A0C-0305E82C3301#SPDXRef-Document")) init_state in
  let s15 := match r14 with Ok x => x | _ => init_state end in
  let g16 := MkGraph [(MkTriple (MkNode NIri ("http://spdx.org/spdxdocs/spdx-example-444504E0-4F89-41D3-9A0C-0305E82C3301#SPDXRef-Document")) ("http://www.w3.org/1999/02/22-rdf-syntax-ns#type") (MkNode NIri ("http://spdx.org/rdf/terms#SpdxDocument")));
    (MkTriple (MkNode NIri ("http://spdx.org/spdxdocs/spdx-example-444504E0-4F89-41D3-9A0C-0305E82C3301#SPDXRef-Document")) ("http://spdx.org/rdf/terms#annotation") (MkNode (NOther "BLANK") ("N1")));
    (MkTriple (MkNode (NOther "BLANK") ("N1")) ("http://www.w3.org/1999/02/22-rdf-syntax-ns#type") (MkNode NIri ("http://spdx.org/rdf/terms#Annotation")));
    (MkTriple (MkNode (NOther "BLANK") ("N1")) ("http://spdx.org/rdf/terms#unknownAttribute") (MkNode (NOther "LITERAL") ("")))] [(MkNode NIri ("http://spdx.org/spdxdocs/spdx-example-444504E0-4F89-41D3-9A0C-0305E82C3301#SPDXRef-Document"))] test_uri in
  let r17 := parse_document_node V22 g16 (MkNode NIri ("http://spdx.org/spdxdocs/spdx-example-444504E0-4F89-41D3-9A0C-0305E82C3301#SPDXRef-Document")) init_state in
  let s18 := match r17 with Ok x => x | _ => init_state end in
  let g19 := MkGraph [(MkTriple (MkNode NIri ("http://spdx.org/spdxdocs/spdx-example-444504E0-4F89-41D3-9A0C-0305E82C3301#SPDXRef-Document")) ("http://www.w3.org/1999/02/22-rdf-syntax-ns#type") (MkNode NIri ("http://spdx.org/rdf/terms#SpdxDocument")));
    (MkTriple (MkNode NIri ("http://spdx.org/spdxdocs/spdx-example-444504E0-4F89-41D3-9A0C-0305E82C3301#SPDXRef-Document")) ("http://spdx.org/rdf/terms#unknownTag") (MkNode (NOther "LITERAL") ("")))] [(MkNode NIri ("http://spdx.org/spdxdocs/spdx-example-444504E0-4F89-41D3-9A0C-0305E82C3301#SPDXRef-Document"))] test_uri in
  let r20 := parse_document_node V22 g19 (MkNode NIri ("http://spdx.org/spdxdocs/spdx-example-444504E0-4F89-41D3-9A0C-0305E82C3301#SPDXRef-Document")) init_state in
  let s21 := match r20 with Ok x => x | _ => init_state end in
  let g22 := MkGraph [(MkTriple (MkNode NIri ("http://spdx.org/spdxdocs/spdx-example-444504E0-4F89-41D3-9A0C-0305E82C3301#SPDXRef-Document")) ("http://www.w3.org/1999/02/22-rdf-syntax-ns#type") (MkNode NIri ("http://spdx.org/rdf/terms#SpdxDocument")));
    (MkTriple (MkNode NIri ("http://spdx.org/spdxdocs/spdx-example-444504E0-4F89-41D3-9A0C-0305E82C3301#SPDXRef-Document")) ("http://spdx.org/rdf/terms#specVersion") (MkNode (NOther "LITERAL") ("SPDX-2.1")));
    (MkTriple (MkNode NIri ("http://spdx.org/spdxdocs/spdx-example-444504E0-4F89-41D3-9A0C-0305E82C3301#SPDXRef-Document")) ("http://spdx.org/rdf/terms#dataLicense") (MkNode (NOther "RESOURCELITERAL") ("http://spdx.org/licenses/CC0-1.0")));
    (MkTriple (MkNode NIri ("http://spdx.org/spdxdocs/spdx-example-444504E0-4F89-41D3-9A0C-0305E82C3301#SPDXRef-Document")) ("http://spdx.org/rdf/terms#name") (MkNode (NOther "LITERAL") ("/test/example")));
    (MkTriple (MkNode NIri ("http://spdx.org/spdxdocs/spdx-example-444504E0-4F89-41D3-9A0C-0305E82C3301#SPDXRef-Document")) ("http://spdx.org/rdf/terms#externalDocumentRef") (MkNode (NOther "BLANK") ("N1")));
    (MkTriple (MkNode (NOther "BLANK") ("N1")) ("http://www.w3.org/1999/02/22-rdf-syntax-ns#type") (MkNode NIri ("http://spdx.org/rdf/terms#ExternalDocumentRef")));
    (MkTriple (MkNode (NOther "BLANK") ("N1")) ("http://spdx.org/rdf/terms#externalDocumentId") (MkNode (NOther "LITERAL") ("DocumentRef-spdx-tool-1.2")));
    (MkTriple (MkNode (NOther "BLANK") ("N1")) ("http://spdx.org/rdf/terms#checksum") (MkNode (NOther "BLANK") ("N2")));
    (MkTriple (MkNode (NOther "BLANK") ("N2")) ("http://www.w3.org/1999/02/22-rdf-syntax-ns#type") (MkNode NIri ("http://spdx.org/rdf/terms#Checksum")));
    (MkTriple (MkNode (NOther "BLANK") ("N2")) ("http://spdx.org/rdf/terms#checksumValue") (MkNode (NOther "LITERAL") ("d6a770ba38583ed4bb4525bd96e50461655d2759")));
    (MkTriple (MkNode (NOther "BLANK") ("N2")) ("http://spdx.org/rdf/terms#algorithm") (MkNode (NOther "RESOURCELITERAL") ("http://spdx.org/rdf/terms#checksumAlgorithm_sha1")));
    (MkTriple (MkNode (NOther "BLANK") ("N1")) ("http://spdx.org/rdf/terms#spdxDocument") (MkNode (NOther "RESOURCELITERAL") ("http://spdx.org/spdxdocs/spdx-tools-v1.2-3F2504E0-4F89-41D3-9A0C-0305E82C3301")));
    (MkTriple (MkNode NIri ("http://spdx.org/spdxdocs/spdx-example-444504E0-4F89-41D3-9A0C-0305E82C3301#SPDXRef-Document")) ("http://spdx.org/rdf/terms#creationInfo") (MkNode (NOther "BLANK") ("N3")));
    (MkTriple (MkNode (NOther "BLANK") ("N3")) ("http://www.w3.org/1999/02/22-rdf-syntax-ns#type") (MkNode NIri ("http://spdx.org/rdf/terms#CreationInfo")));
    (MkTriple (MkNode (NOther "BLANK") ("N3")) ("http://spdx.org/rdf/terms#licenseListVersion") (MkNode (NOther "LITERAL") ("2.6")));
    (MkTriple (MkNode (NOther "BLANK") ("N3")) ("http://spdx.org/rdf/terms#creator") (MkNode (NOther "LITERAL") ("Person: spdx (y)")));
    (MkTriple (MkNode (NOther "BLANK") ("N3")) ("http://spdx.org/rdf/terms#creator") (MkNode (NOther "LITERAL") ("Organization: ")));
    (MkTriple (MkNode (NOther "BLANK") ("N3")) ("http://spdx.org/rdf/terms#creator") (MkNode (NOther "LITERAL") ("Tool: spdx2")));
    (MkTriple (MkNode (NOther "BLANK") ("N3")) ("http://spdx.org/rdf/terms#created") (MkNode (NOther "LITERAL") ("2018-08-24T19:55:34Z")));
    (MkTriple (MkNode NIri ("http://spdx.org/spdxdocs/spdx-example-444504E0-4F89-41D3-9A0C-0305E82C3301#SPDXRef-Document")) ("http://www.w3.org/2000/01/rdf-schema#comment") (MkNode (NOther "LITERAL") ("test")));
    (MkTriple (MkNode NIri ("http://spdx.org/spdxdocs/spdx-example-444504E0-4F89-41D3-9A0C-0305E82C3301#SPDXRef-Document")) ("http://spdx.org/rdf/terms#reviewed") (MkNode (NOther "BLANK") ("N4")));
    (MkTriple (MkNode (NOther "BLANK") ("N4")) ("http://www.w3.org/1999/02/22-rdf-syntax-ns#type") (MkNode NIri ("http://spdx.org/rdf/terms#Review")));
    (MkTriple (MkNode (NOther "BLANK") ("N4")) ("http://www.w3.org/2000/01/rdf-schema#comment") (MkNode (NOther "LITERAL") ("Another example reviewer.")));
    (MkTriple (MkNode (NOther "BLANK") ("N4")) ("http://spdx.org/rdf/terms#reviewDate") (MkNode (NOther "LITERAL") ("2011-03-13T00:00:00Z")));
    (MkTriple (MkNode (NOther "BLANK") ("N4")) ("http://spdx.org/rdf/terms#reviewer") (MkNode (NOther "LITERAL") ("Person: Suzanne Reviewer")));
    (MkTriple (MkNode NIri ("http://spdx.org/spdxdocs/spdx-example-444504E0-4F89-41D3-9A0C-0305E82C3301#SPDXRef-Document")) ("http://spdx.org/rdf/terms#describesPackage") (MkNode NIri ("http://spdx.org/spdxdocs/spdx-example-444504E0-4F89-41D3-9A0C-0305E82C3301#SPDXRef-1")));
    (MkTriple (MkNode NIri ("http://spdx.org/spdxdocs/spdx-example-444504E0-4F89-41D3-9A0C-0305E82C3301#SPDXRef-1")) ("http://www.w3.org/1999/02/22-rdf-syntax-ns#type") (MkNode NIri ("http://spdx.org/rdf/terms#Package")));
    (MkTriple (MkNode NIri ("http://spdx.org/spdxdocs/spdx-example-444504E0-4F89-41D3-9A0C-0305E82C3301#SPDXRef-Document")) ("http://spdx.org/rdf/terms#hasExtractedLicensingInfo") (MkNode (NOther "RESOURCELITERAL") ("http://spdx.org/licenses/CC0-1.0")));
    (MkTriple (MkNode NIri ("http://spdx.org/spdxdocs/spdx-example-444504E0-4F89-41D3-9A0C-0305E82C3301#SPDXRef-Document")) ("http://spdx.org/rdf/terms#relationship") (MkNode (NOther "BLANK") ("N5")));
    (MkTriple (MkNode (NOther "BLANK") ("N5")) ("http://www.w3.org/1999/02/22-rdf-syntax-ns#type") (MkNode NIri ("http://spdx.org/rdf/terms#Relationship")));
    (MkTriple (MkNode (NOther "BLANK") ("N5")) ("http://spdx.org/rdf/terms#relationshipType") (MkNode (NOther "RESOURCELITERAL") ("http://spdx.org/rdf/terms#relationshipType_containedBy")));
    (MkTriple (MkNode (NOther "BLANK") ("N5")) ("http://spdx.org/rdf/terms#relatedSpdxElement") (MkNode (NOther "RESOURCELITERAL") ("http://spdx.org/documents/spdx-toolsv2.1.7-SNAPSHOT#SPDXRef-1")));
    (MkTriple (MkNode (NOther "BLANK") ("N5")) ("http://www.w3.org/2000/01/rdf-schema#comment") (MkNode (NOther "LITERAL") ("")));
    (MkTriple (MkNode NIri ("http://spdx.org/spdxdocs/spdx-example-444504E0-4F89-41D3-9A0C-0305E82C3301#SPDXRef-Document")) ("http://spdx.org/rdf/terms#annotation") (MkNode (NOther "BLANK") ("N6")));
    (MkTriple (MkNode (NOther "BLANK") ("N6")) ("http://www.w3.org/1999/02/22-rdf-syntax-ns#type") (MkNode NIri ("http://spdx.org/rdf/terms#Annotation")));
    (MkTriple (MkNode (NOther "BLANK") ("N6")) ("http://spdx.org/rdf/terms#annotationDate") (MkNode (NOther "LITERAL") ("2011-01-29T18:30:22Z")));
    (MkTriple (MkNode (NOther "BLANK") ("N6")) ("http://www.w3.org/2000/01/rdf-schema#comment") (MkNode (NOther "LITERAL") ("test annotation")));
    (MkTriple (MkNode (NOther "BLANK") ("N6")) ("http://spdx.org/rdf/terms#annotator") (MkNode (NOther "LITERAL") ("Person: Rishabh Bhatnagar")));
    (MkTriple (MkNode (NOther "BLANK") ("N6")) ("http://spdx.org/rdf/terms#annotationType") (MkNode (NOther "RESOURCELITERAL") ("http://spdx.org/rdf/terms#annotationType_other")))] [(MkNode NIri ("http://spdx.org/spdxdocs/spdx-example-444504E0-4F89-41D3-9A0C-0305E82C3301#SPDXRef-Document"))] test_uri in
  let r23 := parse_document_node V22 g22 (MkNode NIri ("http://spdx.org/spdxdocs/spdx-example-444504E0-4F89-41D3-9A0C-0305E82C3301#SPDXRef-Document")) init_state in
  let s24 := match r23 with Ok x => x | _ => init_state end in
  [(olift Bool.eqb (failed r2) (Some false));
   (olift Bool.eqb (failed r5) (Some false));
   (olift Bool.eqb (failed r8) (Some false));
   (olift Bool.eqb (failed r11) (Some false));
   (olift Bool.eqb (failed r14) (Some false));
   (olift Bool.eqb (failed r17) (Some false));
   (olift Bool.eqb (failed r20) (Some false));
   (option_map negb (olift Bool.eqb (failed r23) (Some false)))]) = true.
Proof. vm_compute. reflexivity. Qed.
(** /repo/spdx/v2/v2_2/rdf/reader/parser_test.go 32 *)
Example v22_TestLoadFromGoRDFParser : forallb is_false (
  let g1 := MkGraph [] [] test_uri in
  let r2 := load V22 g1 ( fun l => l ) in
  let g3 := MkGraph [(MkTriple (MkNode NIri ("http://spdx.org/spdxdocs/spdx-example-444504E0-4F89-41D3-9A0C-0305E82C3301/Document")) ("http://www.w3.org/1999/02/22-rdf-syntax-ns#type") (MkNode NIri ("http://spdx.org/rdf/terms#SpdxDocument")));
    (MkTriple (MkNode NIri ("http://spdx.org/spdxdocs/spdx-example-444504E0-4F89-41D3-9A0C-0305E82C3301/Document")) ("http://spdx.org/rdf/terms#invalidTag") (MkNode (NOther "LITERAL") ("")))] [(MkNode NIri ("http://spdx.org/spdxdocs/spdx-example-444504E0-4F89-41D3-9A0C-0305E82C3301/Document"))] test_uri in
  let r4 := load V22 g3 ( fun l => l ) in
  let g5 := MkGraph [(MkTriple (MkNode NIri ("http://spdx.org/spdxdocs/spdx-example-444504E0-4F89-41D3-9A0C-0305E82C3301#SPDXRef-Document")) ("http://www.w3.org/1999/02/22-rdf-syntax-ns#type") (MkNode NIri ("http://spdx.org/rdf/terms#SpdxDocument")));
    (MkTriple (MkNode NIri ("http://spdx.org/spdxdocs/spdx-example-444504E0-4F89-41D3-9A0C-0305E82C3301#Snippet")) ("http://www.w3.org/1999/02/22-rdf-syntax-ns#type") (MkNode NIri ("http://spdx.org/rdf/terms#Snippet")));
    (MkTriple (MkNode NIri ("http://spdx.org/spdxdocs/spdx-example-444504E0-4F89-41D3-9A0C-0305E82C3301#Snippet")) ("http://www.w3.org/1999/02/22-rdf-syntax-ns#type") (MkNode NIri ("http://spdx.org/rdf/terms#CreationInfo")))] [(MkNode NIri ("http://spdx.org/spdxdocs/spdx-example-444504E0-4F89-41D3-9A0C-0305E82C3301#SPDXRef-Document")); (MkNode NIri ("http://spdx.org/spdxdocs/spdx-example-444504E0-4F89-41D3-9A0C-0305E82C3301#Snippet"))] test_uri in
  let r6 := load V22 g5 ( fun l => l ) in
  let g7 := MkGraph [(MkTriple (MkNode NIri ("http://spdx.org/spdxdocs/spdx-example-444504E0-4F89-41D3-9A0C-0305E82C3301#SPDXRef-Document")) ("http://www.w3.org/1999/02/22-rdf-syntax-ns#type") (MkNode NIri ("http://spdx.org/rdf/terms#SpdxDocument")));
    (MkTriple (MkNode NIri ("http://spdx.org/spdxdocs/spdx-example-444504E0-4F89-41D3-9A0C-0305E82C3301#Snippet")) ("http://www.w3.org/1999/02/22-rdf-syntax-ns#type") (MkNode NIri ("http://spdx.org/rdf/terms#Snippet")))] [(MkNode NIri ("http://spdx.org/spdxdocs/spdx-example-444504E0-4F89-41D3-9A0C-0305E82C3301#SPDXRef-Document")); (MkNode NIri ("http://spdx.org/spdxdocs/spdx-example-444504E0-4F89-41D3-9A0C-0305E82C3301#Snippet"))] test_uri in
  let r8 := load V22 g7 ( fun l => l ) in
  let g9 := MkGraph [(MkTriple (MkNode NIri ("http://spdx.org/spdxdocs/spdx-example-444504E0-4F89-41D3-9A0C-0305E82C3301#SPDXRef-Document")) ("http://www.w3.org/1999/02/22-rdf-syntax-ns#type") (MkNode NIri ("http://spdx.org/rdf/terms#SpdxDocument")));
    (MkTriple (MkNode NIri ("http://spdx.org/spdxdocs/spdx-example-444504E0-4F89-41D3-9A0C-0305E82C3301#SPDXRef-Snippet")) ("http://www.w3.org/1999/02/22-rdf-syntax-ns#type") (MkNode NIri ("http://spdx.org/rdf/terms#Snippet")))] [(MkNode NIri ("http://spdx.org/spdxdocs/spdx-example-444504E0-4F89-41D3-9A0C-0305E82C3301#SPDXRef-Document")); (MkNode NIri ("http://spdx.org/spdxdocs/spdx-example-444504E0-4F89-41D3-9A0C-0305E82C3301#SPDXRef-Snippet"))] test_uri in
  let r10 := load V22 g9 ( fun l => l ) in
  let g11 := MkGraph [(MkTriple (MkNode NIri ("http://spdx.org/spdxdocs/spdx-example-444504E0-4F89-41D3-9A0C-0305E82C3301#SPDXRef-Document")) ("http://www.w3.org/1999/02/22-rdf-syntax-ns#type") (MkNode NIri ("http://spdx.org/rdf/terms#SpdxDocument")));
    (MkTriple (MkNode (NOther "BLANK") ("N1")) ("http://www.w3.org/1999/02/22-rdf-syntax-ns#type") (MkNode NIri ("http://spdx.org/rdf/terms#review")))] [(MkNode NIri ("http://spdx.org/spdxdocs/spdx-example-444504E0-4F89-41D3-9A0C-0305E82C3301#SPDXRef-Document")); (MkNode (NOther "BLANK") ("N1"))] test_uri in
  let r12 := load V22 g11 ( fun l => l ) in
  let g13 := MkGraph [(MkTriple (MkNode NIri ("http://spdx.org/spdxdocs/spdx-example-444504E0-4F89-41D3-9A0C-0305E82C3301#SPDXRef-Document")) ("http://www.w3.org/1999/02/22-rdf-syntax-ns#type") (MkNode NIri ("http://spdx.org/rdf/terms#SpdxDocument")));
    (MkTriple (MkNode NIri ("http://spdx.org/spdxdocs/spdx-example-444504E0-4F89-41D3-9A0C-0305E82C3301#SPDXRef-Snippet")) ("http://www.w3.org/1999/02/22-rdf-syntax-ns#type") (MkNode NIri ("http://spdx.org/rdf/terms#Snippet")));
    (MkTriple (MkNode NIri ("http://spdx.org/spdxdocs/spdx-example-444504E0-4F89-41D3-9A0C-0305E82C3301#SPDXRef-Snippet")) ("http://spdx.org/rdf/terms#name") (MkNode (NOther "LITERAL") ("from linux kernel")));
    (MkTriple (MkNode NIri ("http://spdx.org/spdxdocs/spdx-example-444504E0-4F89-41D3-9A0C-0305E82C3301#SPDXRef-Snippet")) ("http://spdx.org/rdf/terms#copyrightText") (MkNode (NOther "LITERAL") ("Copyright 2008-2010 John Smith")));
    (MkTriple (MkNode NIri ("http://spdx.org/spdxdocs/spdx-example-444504E0-4F89-41D3-9A0C-0305E82C3301#SPDXRef-Snippet")) ("http://spdx.org/rdf/terms#licenseComments") (MkNode (NOther "LITERAL") ("The concluded license was taken from package xyz, from which the snippet was copied into the current file. The concluded license information was found in the COPYING.txt file in package xyz.")));
    (MkTriple (MkNode NIri ("http://spdx.org/spdxdocs/spdx-example-444504E0-4F89-41D3-9A0C-0305E82C3301#SPDXRef-Snippet")) ("http://spdx.org/rdf/terms#snippetFromFile") (MkNode NIri ("http://spdx.org/spdxdocs/spdx-example-444504E0-4F89-41D3-9A0C-0305E82C3301#SPDXRef-DoapSource")));
    (MkTriple (MkNode NIri ("http://spdx.org/spdxdocs/spdx-example-444504E0-4F89-41D3-9A0C-0305E82C3301#SPDXRef-DoapSource")) ("http://www.w3.org/1999/02/22-rdf-syntax-ns#type") (MkNode NIri ("http://spdx.org/rdf/terms#File")));
    (MkTriple (MkNode NIri ("http://spdx.org/spdxdocs/spdx-example-444504E0-4F89-41D3-9A0C-0305E82C3301#SPDXRef-DoapSource")) ("http://spdx.org/rdf/terms#copyrightText") (MkNode (NOther "LITERAL") ("Copyright 2010, 2011 Source Auditor Inc.")));
    (MkTriple (MkNode NIri ("http://spdx.org/spdxdocs/spdx-example-444504E0-4F89-41D3-9A0C-0305E82C3301#SPDXRef-DoapSource")) ("http://spdx.org/rdf/terms#fileContributor") (MkNode (NOther "LITERAL") ("Open Logic Inc.")));
    (MkTriple (MkNode NIri ("http://spdx.org/spdxdocs/spdx-example-444504E0-4F89-41D3-9A0C-0305E82C3301#SPDXRef-DoapSource")) ("http://spdx.org/rdf/terms#fileName") (MkNode (NOther "LITERAL") ("./src/org/spdx/parser/DOAPProject.java")));
    (MkTriple (MkNode NIri ("http://spdx.org/spdxdocs/spdx-example-444504E0-4F89-41D3-9A0C-0305E82C3301#SPDXRef-DoapSource")) ("http://spdx.org/rdf/terms#fileContributor") (MkNode (NOther "LITERAL") ("Black Duck Software In.c")));
    (MkTriple (MkNode NIri ("http://spdx.org/spdxdocs/spdx-example-444504E0-4F89-41D3-9A0C-0305E82C3301#SPDXRef-DoapSource")) ("http://spdx.org/rdf/terms#fileType") (MkNode (NOther "RESOURCELITERAL") ("http://spdx.org/rdf/terms#fileType_source")));
    (MkTriple (MkNode NIri ("http://spdx.org/spdxdocs/spdx-example-444504E0-4F89-41D3-9A0C-0305E82C3301#SPDXRef-DoapSource")) ("http://spdx.org/rdf/terms#licenseInfoInFile") (MkNode (NOther "RESOURCELITERAL") ("http://spdx.org/licenses/Apache-2.0")))] [(MkNode NIri ("http://spdx.org/spdxdocs/spdx-example-444504E0-4F89-41D3-9A0C-0305E82C3301#SPDXRef-Document")); (MkNode NIri ("http://spdx.org/spdxdocs/spdx-example-444504E0-4F89-41D3-9A0C-0305E82C3301#SPDXRef-Snippet"))] test_uri in
  let r14 := load V22 g13 ( fun l => l ) in
  [(olift Bool.eqb (failed r2) (Some false));
   (olift Bool.eqb (failed r4) (Some false));
   (olift Bool.eqb (failed r6) (Some false));
   (olift Bool.eqb (failed r8) (Some false));
   (olift Bool.eqb (failed r10) (Some false));
   (option_map negb (olift Bool.eqb (failed r12) (Some false)));
   (option_map negb (olift Bool.eqb (failed r14) (Some false)))]) = true.
Proof. vm_compute. reflexivity. Qed.
(** /repo/spdx/v2/v2_2/rdf/reader/parser_test.go 120 *)
Example v22_Test_rdfParser2_2_getSpdxDocNode : forallb is_false (
  let g1 := MkGraph [(MkTriple (MkNode NIri ("http://spdx.org/spdxdocs/spdx-example-444504E0-4F89-41D3-9A0C-0305E82C3301#SPDXRef-Document")) ("http://www.w3.org/1999/02/22-rdf-syntax-ns#type") (MkNode NIri ("http://spdx.org/rdf/terms#SpdxDocument")));
    (MkTriple (MkNode NIri ("http://spdx.org/spdxdocs/spdx-example-444504E0-4F89-41D3-9A0C-0305E82C3301#SPDXRef-Document")) ("http://www.w3.org/1999/02/22-rdf-syntax-ns#type") (MkNode NIri ("http://spdx.org/rdf/terms#Snippet")))] [(MkNode NIri ("http://spdx.org/spdxdocs/spdx-example-444504E0-4F89-41D3-9A0C-0305E82C3301#SPDXRef-Document"))] test_uri in
  let r2 := get_doc_node g1 in
  let g3 := MkGraph [(MkTriple (MkNode NIri ("http://spdx.org/spdxdocs/spdx-example-444504E0-4F89-41D3-9A0C-0305E82C3301#SPDXRef-Document")) ("http://www.w3.org/1999/02/22-rdf-syntax-ns#type") (MkNode NIri ("http://spdx.org/rdf/terms#SpdxDocument")));
    (MkTriple (MkNode NIri ("http://spdx.org/spdxdocs/spdx-example-444504E0-4F89-41D3-9A0C-0305E82C3301#SPDXRef-Document")) ("http://www.w3.org/1999/02/22-rdf-syntax-ns#type") (MkNode NIri ("http://spdx.org/rdf/terms#Snippet")));
    (MkTriple (MkNode NIri ("http://spdx.org/spdxdocs/spdx-example-444504E0-4F89-41D3-9A0C-0305E82C3301#SPDXRef-DoapSource")) ("http://www.w3.org/1999/02/22-rdf-syntax-ns#type") (MkNode NIri ("http://spdx.org/rdf/terms#File")))] [(MkNode NIri ("http://spdx.org/spdxdocs/spdx-example-444504E0-4F89-41D3-9A0C-0305E82C3301#SPDXRef-Document")); (MkNode NIri ("http://spdx.org/spdxdocs/spdx-example-444504E0-4F89-41D3-9A0C-0305E82C3301#SPDXRef-DoapSource"))] test_uri in
  let r4 := get_doc_node g3 in
  let g5 := MkGraph [(MkTriple (MkNode NIri ("http://spdx.org/spdxdocs/spdx-example-444504E0-4F89-41D3-9A0C-0305E82C3301#SPDXRef-Document-1")) ("http://www.w3.org/1999/02/22-rdf-syntax-ns#type") (MkNode NIri ("http://spdx.org/rdf/terms#SpdxDocument")));
    (MkTriple (MkNode NIri ("http://spdx.org/spdxdocs/spdx-example-444504E0-4F89-41D3-9A0C-0305E82C3301#SPDXRef-Document-2")) ("http://www.w3.org/1999/02/22-rdf-syntax-ns#type") (MkNode NIri ("http://spdx.org/rdf/terms#SpdxDocument")))] [(MkNode NIri ("http://spdx.org/spdxdocs/spdx-example-444504E0-4F89-41D3-9A0C-0305E82C3301#SPDXRef-Document-1")); (MkNode NIri ("http://spdx.org/spdxdocs/spdx-example-444504E0-4F89-41D3-9A0C-0305E82C3301#SPDXRef-Document-2"))] test_uri in
  let r6 := get_doc_node g5 in
  let g7 := MkGraph [] [] test_uri in
  let r8 := get_doc_node g7 in
  let g9 := MkGraph [(MkTriple (MkNode NIri ("http://spdx.org/spdxdocs/spdx-example-444504E0-4F89-41D3-9A0C-0305E82C3301#SPDXRef-Document-1")) ("http://www.w3.org/1999/02/22-rdf-syntax-ns#type") (MkNode NIri ("http://spdx.org/rdf/terms#SpdxDocument")))] [(MkNode NIri ("http://spdx.org/spdxdocs/spdx-example-444504E0-4F89-41D3-9A0C-0305E82C3301#SPDXRef-Document-1"))] test_uri in
  let r10 := get_doc_node g9 in
  [(olift Bool.eqb (failed r2) (Some false));
   (olift Bool.eqb (failed r4) (Some false));
   (olift Bool.eqb (failed r6) (Some false));
   (olift Bool.eqb (failed r8) (Some false));
   (option_map negb (olift Bool.eqb (failed r10) (Some false)))]) = true.
Proof. vm_compute. reflexivity. Qed.
(** /repo/spdx/v2/v2_2/rdf/reader/utils_test.go 13 *)
Example v22_Test_getLastPartOfURI : forallb is_false (
  [(option_map negb (olift String.eqb (Some (last_part ("baseFragment#fragment"))) (Some ("fragment"))));
   (option_map negb (olift String.eqb (Some (last_part ("baseFragment/subFragment"))) (Some ("subFragment"))));
   (option_map negb (olift String.eqb (Some (last_part ("www.github.com"))) (Some ("www.github.com"))))]) = true.
Proof. vm_compute. reflexivity. Qed.
(** /repo/spdx/v2/v2_2/rdf/reader/utils_test.go 39 *)
Example v22_Test_isUriValid : forallb is_false (
  [(option_map negb (Some (test_uri ("https://www.github.com"))));
   (Some (test_uri ("http\:www.github.com")))]) = true.
Proof. vm_compute. reflexivity. Qed.
(** /repo/spdx/v2/v2_2/rdf/reader/utils_test.go 93 *)
Example v22_Test_boolFromString : forallb is_false (
  let r1 := bool_from_string ("true") in
  let r2 := bool_from_string ("false") in
  let r3 := bool_from_string ("") in
  [(option_map negb (olift Bool.eqb (failed r1) (Some false)));
   (option_map negb (olift Bool.eqb (value r1) (Some true)));
   (option_map negb (olift Bool.eqb (failed r2) (Some false)));
   (option_map negb (olift Bool.eqb (value r2) (Some false)));
   (olift Bool.eqb (failed r3) (Some false))]) = true.
Proof. vm_compute. reflexivity. Qed.
(** /repo/spdx/v2/v2_2/rdf/reader/utils_test.go 272 *)
Example v22_TestCanExtractSubvalues : forallb is_false (
  let r1 := extract_subs_sep ("SHA1: abc123") (":") in
  [(option_map negb (olift Bool.eqb (failed r1) (Some false)));
   (option_map negb (olift String.eqb (option_map fst (value r1)) (Some ("SHA1"))));
   (option_map negb (olift String.eqb (option_map snd (value r1)) (Some ("abc123"))))]) = true.
Proof. vm_compute. reflexivity. Qed.
(** /repo/spdx/v2/v2_2/rdf/reader/utils_test.go 285 *)
Example v22_TestReturnsErrorForInvalidSubvalueFormat : forallb is_false (
  let r1 := extract_subs_sep ("blah") (":") in
  [(olift Bool.eqb (failed r1) (Some false))]) = true.
Proof. vm_compute. reflexivity. Qed.
(** /repo/spdx/v2/v2_3/rdf/reader/license_utils_test.go 10 *)
Example v23_Test_getLicenseStringFromURI : forallb is_false (
  [(option_map negb (olift String.eqb (Some (license_string_from_uri ("http://spdx.org/rdf/terms#NONE"))) (Some ("NONE"))));
   (option_map negb (olift String.eqb (Some (license_string_from_uri ("http://spdx.org/rdf/terms#noassertion"))) (Some ("NOASSERTION"))));
   (option_map negb (olift String.eqb (Some (license_string_from_uri ("http://spdx.org/rdf/terms#LicenseRef-1"))) (Some ("LicenseRef-1"))))]) = true.
Proof. vm_compute. reflexivity. Qed.
(** /repo/spdx/v2/v2_3/rdf/reader/license_utils_test.go 36 *)
Example v23_Test_rdfParser2_3_getChecksumFromNode : forallb is_false (
  let g1 := MkGraph [(MkTriple (MkNode (NOther "BLANK") ("N1")) ("http://www.w3.org/1999/02/22-rdf-syntax-ns#type") (MkNode NIri ("http://spdx.org/rdf/terms#Checksum")));
    (MkTriple (MkNode (NOther "BLANK") ("N1")) ("http://spdx.org/rdf/terms#checksumValue") (MkNode (NOther "LITERAL") ("2fd4e1c67a2d28fced849ee1bb76e7391b93eb12")));
    (MkTriple (MkNode (NOther "BLANK") ("N1")) ("http://spdx.org/rdf/terms#algorithm") (MkNode (NOther "RESOURCELITERAL") ("http://spdx.org/rdf/terms#checksumAlgorithm_sha999")))] [(MkNode (NOther "BLANK") ("N1"))] test_uri in
  let r2 := checksum_from_node g1 (MkNode (NOther "BLANK") ("N1")) in
  let g3 := MkGraph [(MkTriple (MkNode (NOther "BLANK") ("N1")) ("http://www.w3.org/1999/02/22-rdf-syntax-ns#type") (MkNode NIri ("http://spdx.org/rdf/terms#Checksum")));
    (MkTriple (MkNode (NOther "BLANK") ("N1")) ("http://spdx.org/rdf/terms#checksumValue") (MkNode (NOther "LITERAL") ("2fd4e1c67a2d28fced849ee1bb76e7391b93eb12")));
    (MkTriple (MkNode (NOther "BLANK") ("N1")) ("http://spdx.org/rdf/terms#algorithm") (MkNode (NOther "RESOURCELITERAL") ("http://spdx.org/rdf/terms#checksumAlgorithm_sha1")));
    (MkTriple (MkNode (NOther "BLANK") ("N1")) ("http://spdx.org/rdf/terms#invalidPredicate") (MkNode (NOther "LITERAL") ("")))] [(MkNode (NOther "BLANK") ("N1"))] test_uri in
  let r4 := checksum_from_node g3 (MkNode (NOther "BLANK") ("N1")) in
  let g5 := MkGraph [(MkTriple (MkNode (NOther "BLANK") ("N1")) ("http://www.w3.org/1999/02/22-rdf-syntax-ns#type") (MkNode NIri ("http://spdx.org/rdf/terms#Checksum")));
    (MkTriple (MkNode (NOther "BLANK") ("N1")) ("http://spdx.org/rdf/terms#checksumValue") (MkNode (NOther "LITERAL") ("2fd4e1c67a2d28fced849ee1bb76e7391b93eb12")));
    (MkTriple (MkNode (NOther "BLANK") ("N1")) ("http://spdx.org/rdf/terms#algorithm") (MkNode (NOther "RESOURCELITERAL") ("http://spdx.org/rdf/terms#checksumAlgorithm_sha1")))] [(MkNode (NOther "BLANK") ("N1"))] test_uri in
  let r6 := checksum_from_node g5 (MkNode (NOther "BLANK") ("N1")) in
  [(olift Bool.eqb (failed r2) (Some false));
   (olift Bool.eqb (failed r4) (Some false));
   (option_map negb (olift Bool.eqb (failed r6) (Some false)));
   (option_map negb (olift String.eqb (option_map ck_Algorithm (value r6)) (Some ("SHA1"))));
   (option_map negb (olift String.eqb (option_map ck_Value (value r6)) (Some ("2fd4e1c67a2d28fced849ee1bb76e7391b93eb12"))))]) = true.
Proof. vm_compute. reflexivity. Qed.
(** /repo/spdx/v2/v2_3/rdf/reader/license_utils_test.go 87 *)
Example v23_Test_rdfParser2_3_getAlgorithmFromURI : forallb is_false (
  let r1 := algorithm_from_uri ("http://spdx.org/rdf/terms#sha1") in
  let r2 := algorithm_from_uri ("http://spdx.org/rdf/terms#checksumAlgorithm_sha999") in
  let r3 := algorithm_from_uri ("http://spdx.org/rdf/terms#checksumAlgorithm_sha256") in
  [(olift Bool.eqb (failed r1) (Some false));
   (olift Bool.eqb (failed r2) (Some false));
   (option_map negb (olift Bool.eqb (failed r3) (Some false)));
   (option_map negb (olift String.eqb (value r3) (Some ("SHA256"))))]) = true.
Proof. vm_compute. reflexivity. Qed.
(** /repo/spdx/v2/v2_3/rdf/reader/license_utils_test.go 134 *)
Example v23_TestConjunctiveLicenseSet_ToLicenseString : forallb is_false (
  [(option_map negb (olift String.eqb (Some (license_string (LConjunctive []))) (Some (""))));
   (option_map negb (olift String.eqb (Some (license_string (LConjunctive [(LSpecial ("NOASSERTION"))]))) (Some ("NOASSERTION"))));
   (option_map negb (olift String.eqb (Some (license_string (LConjunctive [(LSpecial ("NOASSERTION")); (LSpecial ("NONE"))]))) (Some ("NOASSERTION AND NONE"))));
   (option_map negb (olift String.eqb (Some (license_string (LConjunctive [(LSpecial ("NOASSERTION")); (LConjunctive [(LSpecial ("LicenseRef-1")); (LSpecial ("NONE"))])]))) (Some ("NOASSERTION AND LicenseRef-1 AND NONE"))))]) = true.
Proof. vm_compute. reflexivity. Qed.
(** /repo/spdx/v2/v2_3/rdf/reader/license_utils_test.go 192 *)
Example v23_TestDisjunctiveLicenseSet_ToLicenseString : forallb is_false (
  [(option_map negb (olift String.eqb (Some (license_string (LDisjunctive []))) (Some (""))));
   (option_map negb (olift String.eqb (Some (license_string (LDisjunctive [(LSpecial ("NOASSERTION"))]))) (Some ("NOASSERTION"))));
   (option_map negb (olift String.eqb (Some (license_string (LDisjunctive [(LSpecial ("NOASSERTION")); (LSpecial ("NONE"))]))) (Some ("NOASSERTION OR NONE"))));
   (option_map negb (olift String.eqb (Some (license_string (LDisjunctive [(LSpecial ("NOASSERTION")); (LDisjunctive [(LSpecial ("LicenseRef-1")); (LSpecial ("NONE"))])]))) (Some ("NOASSERTION OR LicenseRef-1 OR NONE"))))]) = true.
Proof. vm_compute. reflexivity. Qed.
(** /repo/spdx/v2/v2_3/rdf/reader/license_utils_test.go 250 *)
Example v23_TestExtractedLicensingInfo_ToLicenseString : forallb is_false (
  [(option_map negb (olift String.eqb (Some (license_string (LExtracted (MkSimple ("") ("license") ("") [] ("")) ""))) (Some ("license"))))]) = true.
Proof. vm_compute. reflexivity. Qed.
(** /repo/spdx/v2/v2_3/rdf/reader/license_utils_test.go 265 *)
Example v23_TestOrLaterOperator_ToLicenseString : forallb is_false (
  [(option_map negb (olift String.eqb (Some (license_string (LOrLater (MkSimple ("") ("license") ("") [] (""))))) (Some ("license"))))]) = true.
Proof. vm_compute. reflexivity. Qed.
(** /repo/spdx/v2/v2_3/rdf/reader/license_utils_test.go 279 *)
Example v23_TestLicense_ToLicenseString : forallb is_false (
  [(option_map negb (olift String.eqb (Some (license_string (LLicense (MkSimple ("") ("license") ("") [] ("")) zero_license_info))) (Some ("license"))))]) = true.
Proof. vm_compute. reflexivity. Qed.
(** /repo/spdx/v2/v2_3/rdf/reader/license_utils_test.go 323 *)
Example v23_TestSpecialLicense_ToLicenseString : forallb is_false (
  [(option_map negb (olift String.eqb (Some (license_string (LSpecial ("license")))) (Some ("license"))))]) = true.
Proof. vm_compute. reflexivity. Qed.
(** /repo/spdx/v2/v2_3/rdf/reader/license_utils_test.go 335 *)
Example v23_TestSimpleLicensingInfo_ToLicenseString : forallb is_false (
  [(option_map negb (olift String.eqb (Some (license_string (LSimple (MkSimple ("") ("license") ("") [] (""))))) (Some ("license"))))]) = true.
Proof. vm_compute. reflexivity. Qed.
(** /repo/spdx/v2/v2_3/rdf/reader/parse_annotation_test.go 43 *)
Example v23_Test_setAnnotationType : forallb is_false (
  let r1 := annotation_type ("") in
  let r2 := annotation_type ("http://spdx.org/rdf/terms#annotationType_unknown") in
  let r3 := annotation_type ("http://spdx.org/rdf/terms#annotationType_other") in
  let r4 := annotation_type ("http://spdx.org/rdf/terms#annotationType_review") in
  [(olift Bool.eqb (failed r1) (Some false));
   (olift Bool.eqb (failed r2) (Some false));
   (option_map negb (olift Bool.eqb (failed r3) (Some false)));
   (option_map negb (olift String.eqb (option_map (fun x => x) (value r3)) (Some ("OTHER"))));
   (option_map negb (olift Bool.eqb (failed r4) (Some false)));
   (option_map negb (olift String.eqb (option_map (fun x => x) (value r4)) (Some ("REVIEW"))))]) = true.
Proof. vm_compute. reflexivity. Qed.
(** /repo/spdx/v2/v2_3/rdf/reader/parse_annotation_test.go 98 *)
Example v23_Test_rdfParser2_3_parseAnnotationFromNode : forallb is_false (
  let g1 := MkGraph [(MkTriple (MkNode (NOther "BLANK") ("N1")) ("http://www.w3.org/1999/02/22-rdf-syntax-ns#type") (MkNode NIri ("http://spdx.org/rdf/terms#Annotation")));
    (MkTriple (MkNode (NOther "BLANK") ("N1")) ("http://spdx.org/rdf/terms#annotationDate") (MkNode (NOther "LITERAL") ("2010-01-29T18:30:22Z")));
    (MkTriple (MkNode (NOther "BLANK") ("N1")) ("http://www.w3.org/2000/01/rdf-schema#comment") (MkNode (NOther "LITERAL") ("Document level annotation")));
    (MkTriple (MkNode (NOther "BLANK") ("N1")) ("http://spdx.org/rdf/terms#annotator") (MkNode (NOther "LITERAL") ("Company: some company")));
    (MkTriple (MkNode (NOther "BLANK") ("N1")) ("http://spdx.org/rdf/terms#annotationType") (MkNode (NOther "RESOURCELITERAL") ("http://spdx.org/rdf/terms#annotationType_other")))] [(MkNode (NOther "BLANK") ("N1"))] test_uri in
  let r2 := parse_annotation g1 (MkNode (NOther "BLANK") ("N1")) init_state in
  let s3 := match r2 with Ok x => x | _ => init_state end in
  let g4 := MkGraph [(MkTriple (MkNode (NOther "BLANK") ("N1")) ("http://www.w3.org/1999/02/22-rdf-syntax-ns#type") (MkNode NIri ("http://spdx.org/rdf/terms#Annotation")));
    (MkTriple (MkNode (NOther "BLANK") ("N1")) ("http://spdx.org/rdf/terms#annotationDate") (MkNode (NOther "LITERAL") ("2010-01-29T18:30:22Z")));
    (MkTriple (MkNode (NOther "BLANK") ("N1")) ("http://www.w3.org/2000/01/rdf-schema#comment") (MkNode (NOther "LITERAL") ("Document level annotation")));
    (MkTriple (MkNode (NOther "BLANK") ("N1")) ("http://spdx.org/rdf/terms#annotator") (MkNode (NOther "LITERAL") ("Person: Jane Doe")));
    (MkTriple (MkNode (NOther "BLANK") ("N1")) ("http://spdx.org/rdf/terms#annotationType") (MkNode (NOther "RESOURCELITERAL") ("http://spdx.org/rdf/terms#annotationType_unknown")))] [(MkNode (NOther "BLANK") ("N1"))] test_uri in
  let r5 := parse_annotation g4 (MkNode (NOther "BLANK") ("N1")) init_state in
  let s6 := match r5 with Ok x => x | _ => init_state end in
  let g7 := MkGraph [(MkTriple (MkNode (NOther "BLANK") ("N1")) ("http://www.w3.org/1999/02/22-rdf-syntax-ns#type") (MkNode NIri ("http://spdx.org/rdf/terms#Annotation")));
    (MkTriple (MkNode (NOther "BLANK") ("N1")) ("http://spdx.org/rdf/terms#annotationDate") (MkNode (NOther "LITERAL") ("2010-01-29T18:30:22Z")));
    (MkTriple (MkNode (NOther "BLANK") ("N1")) ("http://www.w3.org/2000/01/rdf-schema#comment") (MkNode (NOther "LITERAL") ("Document level annotation")));
    (MkTriple (MkNode (NOther "BLANK") ("N1")) ("http://spdx.org/rdf/terms#annotator") (MkNode (NOther "LITERAL") ("Person: Jane Doe")));
    (MkTriple (MkNode (NOther "BLANK") ("N1")) ("http://spdx.org/rdf/terms#annotationType") (MkNode (NOther "RESOURCELITERAL") ("http://spdx.org/rdf/terms#annotationType_unknown")));
    (MkTriple (MkNode (NOther "BLANK") ("N1")) ("http://spdx.org/rdf/terms#unknownPredicate") (MkNode (NOther "LITERAL") ("")))] [(MkNode (NOther "BLANK") ("N1"))] test_uri in
  let r8 := parse_annotation g7 (MkNode (NOther "BLANK") ("N1")) init_state in
  let s9 := match r8 with Ok x => x | _ => init_state end in
  let g10 := MkGraph [(MkTriple (MkNode (NOther "BLANK") ("N1")) ("http://www.w3.org/1999/02/22-rdf-syntax-ns#type") (MkNode NIri ("http://spdx.org/rdf/terms#Annotation")));
    (MkTriple (MkNode (NOther "BLANK") ("N1")) ("http://spdx.org/rdf/terms#annotationDate") (MkNode (NOther "LITERAL") ("2010-01-29T18:30:22Z")));
    (MkTriple (MkNode (NOther "BLANK") ("N1")) ("http://www.w3.org/2000/01/rdf-schema#comment") (MkNode (NOther "LITERAL") ("Document level annotation")));
    (MkTriple (MkNode (NOther "BLANK") ("N1")) ("http://spdx.org/rdf/terms#annotator") (MkNode (NOther "LITERAL") ("Person: Jane Doe")));
    (MkTriple (MkNode (NOther "BLANK") ("N1")) ("http://spdx.org/rdf/terms#annotationType") (MkNode (NOther "RESOURCELITERAL") ("http://spdx.org/rdf/terms#annotationType_other")))] [(MkNode (NOther "BLANK") ("N1"))] test_uri in
  let r11 := parse_annotation g10 (MkNode (NOther "BLANK") ("N1")) init_state in
  let s12 := match r11 with Ok x => x | _ => init_state end in
  [(olift Bool.eqb (failed r2) (Some false));
   (olift Bool.eqb (failed r5) (Some false));
   (olift Bool.eqb (failed r8) (Some false));
   (option_map negb (olift Bool.eqb (failed r11) (Some false)));
   (option_map negb (olift Nat.eqb (option_map (@List.length _) (option_map (fun x => d_Annotations x) (Some (rs_doc s12)))) (Some 1)));
   (option_map negb (olift String.eqb (option_map (fun x => a_Comment x) (obind (option_map (fun x => d_Annotations x) (Some (rs_doc s12))) (fun l => nth_error l 0))) (Some ("Document level annotation"))));
   (option_map negb (olift String.eqb (option_map (fun x => a_Date x) (obind (option_map (fun x => d_Annotations x) (Some (rs_doc s12))) (fun l => nth_error l 0))) (Some ("2010-01-29T18:30:22Z"))));
   (option_map negb (olift String.eqb (option_map (fun x => a_Type x) (obind (option_map (fun x => d_Annotations x) (Some (rs_doc s12))) (fun l => nth_error l 0))) (Some ("OTHER"))))]) = true.
Proof. vm_compute. reflexivity. Qed.
(** /repo/spdx/v2/v2_3/rdf/reader/parse_creation_info_test.go 42 *)
Example v23_Test_rdfParser2_3_parseCreationInfoFromNode : forallb is_false (
  let g1 := MkGraph [(MkTriple (MkNode (NOther "BLANK") ("N1")) ("http://www.w3.org/1999/02/22-rdf-syntax-ns#type") (MkNode NIri ("http://spdx.org/rdf/terms#CreationInfo")));
    (MkTriple (MkNode (NOther "BLANK") ("N1")) ("http://spdx.org/rdf/terms#licenseListVersion") (MkNode (NOther "LITERAL") ("2.6")));
    (MkTriple (MkNode (NOther "BLANK") ("N1")) ("http://spdx.org/rdf/terms#creator") (MkNode (NOther "LITERAL") ("Person Unknown")));
    (MkTriple (MkNode (NOther "BLANK") ("N1")) ("http://spdx.org/rdf/terms#created") (MkNode (NOther "LITERAL") ("2018-08-24T19:55:34Z")))] [(MkNode (NOther "BLANK") ("N1"))] test_uri in
  let r2 := for_each creation_info_step ( triples_of g1 (MkNode (NOther "BLANK") ("N1")) ) zero_CreationInfo in
  let g3 := MkGraph [(MkTriple (MkNode (NOther "BLANK") ("N1")) ("http://www.w3.org/1999/02/22-rdf-syntax-ns#type") (MkNode NIri ("http://spdx.org/rdf/terms#CreationInfo")));
    (MkTriple (MkNode (NOther "BLANK") ("N1")) ("http://spdx.org/rdf/terms#licenseListVersion") (MkNode (NOther "LITERAL") ("2.6")));
    (MkTriple (MkNode (NOther "BLANK") ("N1")) ("http://spdx.org/rdf/terms#creator") (MkNode (NOther "LITERAL") ("Person: fossy (y)")));
    (MkTriple (MkNode (NOther "BLANK") ("N1")) ("http://spdx.org/rdf/terms#creator") (MkNode (NOther "LITERAL") ("Organization: ")));
    (MkTriple (MkNode (NOther "BLANK") ("N1")) ("http://spdx.org/rdf/terms#creator") (MkNode (NOther "LITERAL") ("Tool: spdx2")));
    (MkTriple (MkNode (NOther "BLANK") ("N1")) ("http://spdx.org/rdf/terms#created") (MkNode (NOther "LITERAL") ("2018-08-24T19:55:34Z")));
    (MkTriple (MkNode (NOther "BLANK") ("N1")) ("http://spdx.org/rdf/terms#unknownPredicate") (MkNode (NOther "LITERAL") ("")))] [(MkNode (NOther "BLANK") ("N1"))] test_uri in
  let r4 := for_each creation_info_step ( triples_of g3 (MkNode (NOther "BLANK") ("N1")) ) zero_CreationInfo in
  let g5 := MkGraph [(MkTriple (MkNode (NOther "BLANK") ("N1")) ("http://www.w3.org/1999/02/22-rdf-syntax-ns#type") (MkNode NIri ("http://spdx.org/rdf/terms#CreationInfo")));
    (MkTriple (MkNode (NOther "BLANK") ("N1")) ("http://spdx.org/rdf/terms#licenseListVersion") (MkNode (NOther "LITERAL") ("2.6")));
    (MkTriple (MkNode (NOther "BLANK") ("N1")) ("http://spdx.org/rdf/terms#creator") (MkNode (NOther "LITERAL") ("Person: fossy")));
    (MkTriple (MkNode (NOther "BLANK") ("N1")) ("http://spdx.org/rdf/terms#created") (MkNode (NOther "LITERAL") ("2018-08-24T19:55:34Z")));
    (MkTriple (MkNode (NOther "BLANK") ("N1")) ("http://www.w3.org/2000/01/rdf-schema#comment") (MkNode (NOther "LITERAL") ("comment")))] [(MkNode (NOther "BLANK") ("N1"))] test_uri in
  let r6 := for_each creation_info_step ( triples_of g5 (MkNode (NOther "BLANK") ("N1")) ) zero_CreationInfo in
  [(olift Bool.eqb (failed r2) (Some false));
   (olift Bool.eqb (failed r4) (Some false));
   (option_map negb (olift Bool.eqb (failed r6) (Some false)));
   (option_map negb (olift String.eqb (option_map (fun x => ci_LicenseListVersion x) (value r6)) (Some ("2.6"))));
   (option_map negb (olift String.eqb (option_map (fun x => ci_Created x) (value r6)) (Some ("2018-08-24T19:55:34Z"))));
   (option_map negb (olift String.eqb (option_map (fun x => ci_CreatorComment x) (value r6)) (Some ("comment"))))]) = true.
Proof. vm_compute. reflexivity. Qed.
(** /repo/spdx/v2/v2_3/rdf/reader/parse_file_test.go 48 *)
Example v23_Test_rdfParser2_3_getArtifactFromNode : forallb is_false (
  let g1 := MkGraph [(MkTriple (MkNode (NOther "BLANK") ("N1")) ("http://www.w3.org/1999/02/22-rdf-syntax-ns#type") (MkNode NIri ("http://spdx.org/rdf/terms#File")));
    (MkTriple (MkNode (NOther "BLANK") ("N1")) ("http://spdx.org/rdf/terms#artifactOf") (MkNode (NOther "BLANK") ("N2")));
    (MkTriple (MkNode (NOther "BLANK") ("N2")) ("http://www.w3.org/1999/02/22-rdf-syntax-ns#type") (MkNode NIri ("http://usefulinc.com/ns/doap#Project")));
    (MkTriple (MkNode (NOther "BLANK") ("N2")) ("http://usefulinc.com/ns/doap#homepage") (MkNode (NOther "LITERAL") ("http://www.openjena.org/")));
    (MkTriple (MkNode (NOther "BLANK") ("N2")) ("http://usefulinc.com/ns/doap#name") (MkNode (NOther "LITERAL") ("Jena")))] [(MkNode (NOther "BLANK") ("N1"))] test_uri in
  let r2 := artifact_from_node g1 (MkNode (NOther "BLANK") ("N2")) in
  let g3 := MkGraph [(MkTriple (MkNode (NOther "BLANK") ("N1")) ("http://www.w3.org/1999/02/22-rdf-syntax-ns#type") (MkNode NIri ("http://spdx.org/rdf/terms#File")));
    (MkTriple (MkNode (NOther "BLANK") ("N1")) ("http://spdx.org/rdf/terms#artifactOf") (MkNode NIri ("http://subversion.apache.org/doap.rdf")));
    (MkTriple (MkNode NIri ("http://subversion.apache.org/doap.rdf")) ("http://www.w3.org/1999/02/22-rdf-syntax-ns#type") (MkNode NIri ("http://usefulinc.com/ns/doap#Project")));
    (MkTriple (MkNode NIri ("http://subversion.apache.org/doap.rdf")) ("http://usefulinc.com/ns/doap#homepage") (MkNode (NOther "LITERAL") ("http://www.openjena.org/")));
    (MkTriple (MkNode NIri ("http://subversion.apache.org/doap.rdf")) ("http://usefulinc.com/ns/doap#name") (MkNode (NOther "LITERAL") ("Jena")))] [(MkNode (NOther "BLANK") ("N1"))] test_uri in
  let r4 := artifact_from_node g3 (MkNode NIri ("http://subversion.apache.org/doap.rdf")) in
  let g5 := MkGraph [(MkTriple (MkNode (NOther "BLANK") ("N1")) ("http://www.w3.org/1999/02/22-rdf-syntax-ns#type") (MkNode NIri ("http://spdx.org/rdf/terms#File")));
    (MkTriple (MkNode (NOther "BLANK") ("N1")) ("http://spdx.org/rdf/terms#artifactOf") (MkNode NIri ("http://subversion.apache.org/doap.rdf")));
    (MkTriple (MkNode NIri ("http://subversion.apache.org/doap.rdf")) ("http://www.w3.org/1999/02/22-rdf-syntax-ns#type") (MkNode NIri ("http://usefulinc.com/ns/doap#Project")));
    (MkTriple (MkNode NIri ("http://subversion.apache.org/doap.rdf")) ("http://usefulinc.com/ns/doap#homepage") (MkNode (NOther "LITERAL") ("http://www.openjena.org/")));
    (MkTriple (MkNode NIri ("http://subversion.apache.org/doap.rdf")) ("http://usefulinc.com/ns/doap#name") (MkNode (NOther "LITERAL") ("Jena")));
    (MkTriple (MkNode NIri ("http://subversion.apache.org/doap.rdf")) ("http://usefulinc.com/ns/doap#invalidTag") (MkNode (NOther "LITERAL") ("")))] [(MkNode (NOther "BLANK") ("N1"))] test_uri in
  let r6 := artifact_from_node g5 (MkNode NIri ("http://subversion.apache.org/doap.rdf")) in
  [(option_map negb (olift Bool.eqb (failed r2) (Some false)));
   (option_map negb (olift String.eqb (option_map (fun x => ar_Name x) (value r2)) (Some ("Jena"))));
   (option_map negb (olift String.eqb (option_map (fun x => ar_HomePage x) (value r2)) (Some ("http://www.openjena.org/"))));
   (option_map negb (olift String.eqb (option_map (fun x => ar_URI x) (value r2)) (Some (""))));
   (option_map negb (olift Bool.eqb (failed r4) (Some false)));
   (option_map negb (olift String.eqb (option_map (fun x => ar_URI x) (value r4)) (Some ("http://subversion.apache.org/doap.rdf"))));
   (olift Bool.eqb (failed r6) (Some false))]) = true.
Proof. vm_compute. reflexivity. Qed.
(** /repo/spdx/v2/v2_3/rdf/reader/parse_file_test.go 122 *)
Example v23_Test_rdfParser2_3_getFileTypeFromUri : forallb is_false (
  let g1 := MkGraph [] [] test_uri in
  let r2 := file_type_from_uri ("http://spdx.org/rdf/terms#fileType_source") in
  let r3 := file_type_from_uri ("http://spdx.org/rdf/terms#source") in
  [(option_map negb (olift Bool.eqb (failed r2) (Some false)));
   (option_map negb (olift String.eqb (value r2) (Some ("source"))));
   (olift Bool.eqb (failed r3) (Some false))]) = true.
Proof. vm_compute. reflexivity. Qed.
(** /repo/spdx/v2/v2_3/rdf/reader/parse_file_test.go 177 *)
Example v23_Test_setFileIdentifier : forallb is_false (
  let r1 := file_identifier ("http://spdx.org/documents/spdx-toolsv2.1.7-SNAPSHOT#SPDXRef-129") in
  let r2 := file_identifier ("http://spdx.org/documents/spdx-toolsv2.1.7-SNAPSHOT#129") in
  [(option_map negb (olift Bool.eqb (failed r1) (Some false)));
   (option_map negb (olift String.eqb (option_map (fun x => x) (value r1)) (Some ("129"))));
   (olift Bool.eqb (failed r2) (Some false))]) = true.
Proof. vm_compute. reflexivity. Qed.
(** /repo/spdx/v2/v2_3/rdf/reader/parse_file_test.go 196 *)
Example v23_Test_rdfParser2_3_setFileChecksumFromNode : forallb is_false (
  let g1 := MkGraph [(MkTriple (MkNode (NOther "BLANK") ("N1")) ("http://www.w3.org/1999/02/22-rdf-syntax-ns#type") (MkNode NIri ("http://spdx.org/rdf/terms#Checksum")));
    (MkTriple (MkNode (NOther "BLANK") ("N1")) ("http://spdx.org/rdf/terms#algorithm") (MkNode (NOther "RESOURCELITERAL") ("http://spdx.org/rdf/terms#checksumAlgorithm_md5")));
    (MkTriple (MkNode (NOther "BLANK") ("N1")) ("http://spdx.org/rdf/terms#checksumValue") (MkNode (NOther "LITERAL") ("d2356e0fe1c0b85285d83c6b2ad51b5f")))] [(MkNode (NOther "BLANK") ("N1"))] test_uri in
  let r2 := element_checksum V23 g1 (MkNode (NOther "BLANK") ("N1")) in
  [(option_map negb (olift Bool.eqb (failed r2) (Some false)))]) = true.
Proof. vm_compute. reflexivity. Qed.
(** /repo/spdx/v2/v2_3/rdf/reader/parse_file_test.go 330 *)
Example v23_Test_rdfParser2_3_getFileFromNode : forallb is_false (
  let g1 := MkGraph [(MkTriple (MkNode NIri ("http://anupam-VirtualBox/repo/SPDX2_time-1.9.tar.gzspdx.rdf#item177")) ("http://www.w3.org/1999/02/22-rdf-syntax-ns#type") (MkNode NIri ("http://spdx.org/rdf/terms#File")))] [(MkNode NIri ("http://anupam-VirtualBox/repo/SPDX2_time-1.9.tar.gzspdx.rdf#item177"))] test_uri in
  let r2 := get_file V23 g1 (MkNode NIri ("http://anupam-VirtualBox/repo/SPDX2_time-1.9.tar.gzspdx.rdf#item177")) init_state in
  let s3 := match r2 with Ok x => snd x | _ => init_state end in
  let g4 := MkGraph [(MkTriple (MkNode NIri ("http://anupam-VirtualBox/repo/SPDX2_time-1.9.tar.gz_1535120734-spdx.rdf#SPDXRef-item177")) ("http://www.w3.org/1999/02/22-rdf-syntax-ns#type") (MkNode NIri ("http://spdx.org/rdf/terms#File")));
    (MkTriple (MkNode NIri ("http://anupam-VirtualBox/repo/SPDX2_time-1.9.tar.gz_1535120734-spdx.rdf#SPDXRef-item177")) ("http://spdx.org/rdf/terms#fileType") (MkNode (NOther "RESOURCELITERAL") ("http://spdx.org/rdf/terms#source")))] [(MkNode NIri ("http://anupam-VirtualBox/repo/SPDX2_time-1.9.tar.gz_1535120734-spdx.rdf#SPDXRef-item177"))] test_uri in
  let r5 := get_file V23 g4 (MkNode NIri ("http://anupam-VirtualBox/repo/SPDX2_time-1.9.tar.gz_1535120734-spdx.rdf#SPDXRef-item177")) init_state in
  let s6 := match r5 with Ok x => snd x | _ => init_state end in
  let g7 := MkGraph [(MkTriple (MkNode NIri ("http://anupam-VirtualBox/repo/SPDX2_time-1.9.tar.gz_1535120734-spdx.rdf#SPDXRef-item177")) ("http://www.w3.org/1999/02/22-rdf-syntax-ns#type") (MkNode NIri ("http://spdx.org/rdf/terms#File")));
    (MkTriple (MkNode NIri ("http://anupam-VirtualBox/repo/SPDX2_time-1.9.tar.gz_1535120734-spdx.rdf#SPDXRef-item177")) ("http://spdx.org/rdf/terms#checksum") (MkNode (NOther "BLANK") ("N1")));
    (MkTriple (MkNode (NOther "BLANK") ("N1")) ("http://www.w3.org/1999/02/22-rdf-syntax-ns#type") (MkNode NIri ("http://spdx.org/rdf/terms#Checksum")));
    (MkTriple (MkNode (NOther "BLANK") ("N1")) ("http://spdx.org/rdf/terms#algorithm") (MkNode (NOther "RESOURCELITERAL") ("http://spdx.org/rdf/terms#checksumAlgorithm_sha2000")));
    (MkTriple (MkNode (NOther "BLANK") ("N1")) ("http://spdx.org/rdf/terms#checksumValue") (MkNode (NOther "LITERAL") ("0a3a0e1ab72b7c132f5021c538a7a3ea6d539bcd")))] [(MkNode NIri ("http://anupam-VirtualBox/repo/SPDX2_time-1.9.tar.gz_1535120734-spdx.rdf#SPDXRef-item177"))] test_uri in
  let r8 := get_file V23 g7 (MkNode NIri ("http://anupam-VirtualBox/repo/SPDX2_time-1.9.tar.gz_1535120734-spdx.rdf#SPDXRef-item177")) init_state in
  let s9 := match r8 with Ok x => snd x | _ => init_state end in
  let g10 := MkGraph [(MkTriple (MkNode NIri ("http://anupam-VirtualBox/repo/SPDX2_time-1.9.tar.gz_1535120734-spdx.rdf#SPDXRef-item177")) ("http://www.w3.org/1999/02/22-rdf-syntax-ns#type") (MkNode NIri ("http://spdx.org/rdf/terms#File")));
    (MkTriple (MkNode NIri ("http://anupam-VirtualBox/repo/SPDX2_time-1.9.tar.gz_1535120734-spdx.rdf#SPDXRef-item177")) ("http://spdx.org/rdf/terms#licenseConcluded") (MkNode (NOther "RESOURCELITERAL") ("http://spdx.org/rdf/terms#invalid_license")))] [(MkNode NIri ("http://anupam-VirtualBox/repo/SPDX2_time-1.9.tar.gz_1535120734-spdx.rdf#SPDXRef-item177"))] test_uri in
  let r11 := get_file V23 g10 (MkNode NIri ("http://anupam-VirtualBox/repo/SPDX2_time-1.9.tar.gz_1535120734-spdx.rdf#SPDXRef-item177")) init_state in
  let s12 := match r11 with Ok x => snd x | _ => init_state end in
  let g13 := MkGraph [(MkTriple (MkNode NIri ("http://anupam-VirtualBox/repo/SPDX2_time-1.9.tar.gz_1535120734-spdx.rdf#SPDXRef-item177")) ("http://www.w3.org/1999/02/22-rdf-syntax-ns#type") (MkNode NIri ("http://spdx.org/rdf/terms#File")));
    (MkTriple (MkNode NIri ("http://anupam-VirtualBox/repo/SPDX2_time-1.9.tar.gz_1535120734-spdx.rdf#SPDXRef-item177")) ("http://spdx.org/rdf/terms#artifactOf") (MkNode (NOther "BLANK") ("N1")));
    (MkTriple (MkNode (NOther "BLANK") ("N1")) ("http://www.w3.org/1999/02/22-rdf-syntax-ns#type") (MkNode NIri ("http://usefulinc.com/ns/doap#Project")));
    (MkTriple (MkNode (NOther "BLANK") ("N1")) ("http://usefulinc.com/ns/doap#unknown_tag") (MkNode (NOther "LITERAL") ("")));
    (MkTriple (MkNode (NOther "BLANK") ("N1")) ("http://usefulinc.com/ns/doap#name") (MkNode (NOther "LITERAL") ("Jena")))] [(MkNode NIri ("http://anupam-VirtualBox/repo/SPDX2_time-1.9.tar.gz_1535120734-spdx.rdf#SPDXRef-item177"))] test_uri in
  let r14 := get_file V23 g13 (MkNode NIri ("http://anupam-VirtualBox/repo/SPDX2_time-1.9.tar.gz_1535120734-spdx.rdf#SPDXRef-item177")) init_state in
  let s15 := match r14 with Ok x => snd x | _ => init_state end in
  let g16 := MkGraph [(MkTriple (MkNode NIri ("http://anupam-VirtualBox/repo/SPDX2_time-1.9.tar.gz_1535120734-spdx.rdf#SPDXRef-item177")) ("http://www.w3.org/1999/02/22-rdf-syntax-ns#type") (MkNode NIri ("http://spdx.org/rdf/terms#File")));
    (MkTriple (MkNode NIri ("http://anupam-VirtualBox/repo/SPDX2_time-1.9.tar.gz_1535120734-spdx.rdf#SPDXRef-item177")) ("http://spdx.org/rdf/terms#fileDependency") (MkNode (NOther "RESOURCELITERAL") ("http://spdx.org/spdxdocs/spdx-example#CommonsLangSrc")))] [(MkNode NIri ("http://anupam-VirtualBox/repo/SPDX2_time-1.9.tar.gz_1535120734-spdx.rdf#SPDXRef-item177"))] test_uri in
  let r17 := get_file V23 g16 (MkNode NIri ("http://anupam-VirtualBox/repo/SPDX2_time-1.9.tar.gz_1535120734-spdx.rdf#SPDXRef-item177")) init_state in
  let s18 := match r17 with Ok x => snd x | _ => init_state end in
  let g19 := MkGraph [(MkTriple (MkNode NIri ("http://anupam-VirtualBox/repo/SPDX2_time-1.9.tar.gz_1535120734-spdx.rdf#SPDXRef-item177")) ("http://www.w3.org/1999/02/22-rdf-syntax-ns#type") (MkNode NIri ("http://spdx.org/rdf/terms#File")));
    (MkTriple (MkNode NIri ("http://anupam-VirtualBox/repo/SPDX2_time-1.9.tar.gz_1535120734-spdx.rdf#SPDXRef-item177")) ("http://spdx.org/rdf/terms#annotation") (MkNode (NOther "BLANK") ("N1")));
    (MkTriple (MkNode (NOther "BLANK") ("N1")) ("http://www.w3.org/1999/02/22-rdf-syntax-ns#type") (MkNode NIri ("http://spdx.org/rdf/terms#Annotation")));
    (MkTriple (MkNode (NOther "BLANK") ("N1")) ("http://spdx.org/rdf/terms#unknownAttribute") (MkNode (NOther "LITERAL") ("")))] [(MkNode NIri ("http://anupam-VirtualBox/repo/SPDX2_time-1.9.tar.gz_1535120734-spdx.rdf#SPDXRef-item177"))] test_uri in
  let r20 := get_file V23 g19 (MkNode NIri ("http://anupam-VirtualBox/repo/SPDX2_time-1.9.tar.gz_1535120734-spdx.rdf#SPDXRef-item177")) init_state in
  let s21 := match r20 with Ok x => snd x | _ => init_state end in
  let g22 := MkGraph [(MkTriple (MkNode NIri ("http://anupam-VirtualBox/repo/SPDX2_time-1.9.tar.gz_1535120734-spdx.rdf#SPDXRef-item177")) ("http://www.w3.org/1999/02/22-rdf-syntax-ns#type") (MkNode NIri ("http://spdx.org/rdf/terms#File")));
    (MkTriple (MkNode NIri ("http://anupam-VirtualBox/repo/SPDX2_time-1.9.tar.gz_1535120734-spdx.rdf#SPDXRef-item177")) ("http://spdx.org/rdf/terms#relationship") (MkNode (NOther "BLANK") ("N1")));
    (MkTriple (MkNode (NOther "BLANK") ("N1")) ("http://www.w3.org/1999/02/22-rdf-syntax-ns#type") (MkNode NIri ("http://spdx.org/rdf/terms#Relationship")));
    (MkTriple (MkNode (NOther "BLANK") ("N1")) ("http://spdx.org/rdf/terms#relationshipType") (MkNode (NOther "RESOURCELITERAL") ("http://spdx.org/rdf/terms#dynamicLink")))] [(MkNode NIri ("http://anupam-VirtualBox/repo/SPDX2_time-1.9.tar.gz_1535120734-spdx.rdf#SPDXRef-item177"))] test_uri in
  let r23 := get_file V23 g22 (MkNode NIri ("http://anupam-VirtualBox/repo/SPDX2_time-1.9.tar.gz_1535120734-spdx.rdf#SPDXRef-item177")) init_state in
  let s24 := match r23 with Ok x => snd x | _ => init_state end in
  let g25 := MkGraph [(MkTriple (MkNode NIri ("http://anupam-VirtualBox/repo/SPDX2_time-1.9.tar.gz_1535120734-spdx.rdf#SPDXRef-item177")) ("http://www.w3.org/1999/02/22-rdf-syntax-ns#type") (MkNode NIri ("http://spdx.org/rdf/terms#File")));
    (MkTriple (MkNode NIri ("http://anupam-VirtualBox/repo/SPDX2_time-1.9.tar.gz_1535120734-spdx.rdf#SPDXRef-item177")) ("http://spdx.org/rdf/terms#unknown") (MkNode (NOther "LITERAL") ("")))] [(MkNode NIri ("http://anupam-VirtualBox/repo/SPDX2_time-1.9.tar.gz_1535120734-spdx.rdf#SPDXRef-item177"))] test_uri in
  let r26 := get_file V23 g25 (MkNode NIri ("http://anupam-VirtualBox/repo/SPDX2_time-1.9.tar.gz_1535120734-spdx.rdf#SPDXRef-item177")) init_state in
  let s27 := match r26 with Ok x => snd x | _ => init_state end in
  let g28 := MkGraph [(MkTriple (MkNode NIri ("http://anupam-VirtualBox/repo/SPDX2_time-1.9.tar.gz_1535120734-spdx.rdf#SPDXRef-item177")) ("http://www.w3.org/1999/02/22-rdf-syntax-ns#type") (MkNode NIri ("http://spdx.org/rdf/terms#File")));
    (MkTriple (MkNode NIri ("http://anupam-VirtualBox/repo/SPDX2_time-1.9.tar.gz_1535120734-spdx.rdf#SPDXRef-item177")) ("http://spdx.org/rdf/terms#licenseInfoInFile") (MkNode (NOther "RESOURCELITERAL") ("http://spdx.org/licenses/DC0-1.0")))] [(MkNode NIri ("http://anupam-VirtualBox/repo/SPDX2_time-1.9.tar.gz_1535120734-spdx.rdf#SPDXRef-item177"))] test_uri in
  let r29 := get_file V23 g28 (MkNode NIri ("http://anupam-VirtualBox/repo/SPDX2_time-1.9.tar.gz_1535120734-spdx.rdf#SPDXRef-item177")) init_state in
  let s30 := match r29 with Ok x => snd x | _ => init_state end in
  [(olift Bool.eqb (failed r2) (Some false));
   (olift Bool.eqb (failed r5) (Some false));
   (olift Bool.eqb (failed r8) (Some false));
   (olift Bool.eqb (failed r11) (Some false));
   (olift Bool.eqb (failed r14) (Some false));
   (olift Bool.eqb (failed r17) (Some false));
   (olift Bool.eqb (failed r20) (Some false));
   (olift Bool.eqb (failed r23) (Some false));
   (olift Bool.eqb (failed r26) (Some false));
   (olift Bool.eqb (failed r29) (Some false))]) = true.
Proof. vm_compute. reflexivity. Qed.
(** /repo/spdx/v2/v2_3/rdf/reader/parse_file_test.go 737 *)
Example v23_Test_getNoticeTextFromNode : forallb is_false (
  [(option_map negb (olift String.eqb (Some (notice_text (MkNode NIri ("text")))) (Some ("text"))))]) = true.
Proof. vm_compute. reflexivity. Qed.
(** /repo/spdx/v2/v2_3/rdf/reader/parse_license_test.go 13 *)
Example v23_Test_rdfParser2_3_getAnyLicenseFromNode : forallb is_false (
  let g1 := MkGraph [] [] test_uri in
  let r2 := get_any_license g1 (MkNode NIri ("http://spdx.org/rdf/terms#NONE")) ( rs_cache init_state ) in
  let g3 := MkGraph [(MkTriple (MkNode (NOther "BLANK") ("N1")) ("http://www.w3.org/1999/02/22-rdf-syntax-ns#type") (MkNode NIri ("http://spdx.org/rdf/terms#DisjunctiveLicenseSet")));
    (MkTriple (MkNode (NOther "BLANK") ("N1")) ("http://spdx.org/rdf/terms#member") (MkNode (NOther "RESOURCELITERAL") ("http://spdx.org/licenses/Nokia")));
    (MkTriple (MkNode (NOther "BLANK") ("N1")) ("http://spdx.org/rdf/terms#member") (MkNode (NOther "RESOURCELITERAL") ("http://spdx.org/licenses/LGPL-2.0")))] [(MkNode (NOther "BLANK") ("N1"))] test_uri in
  let r4 := get_any_license g3 (MkNode (NOther "BLANK") ("N1")) ( rs_cache init_state ) in
  let g5 := MkGraph [(MkTriple (MkNode (NOther "BLANK") ("N1")) ("http://www.w3.org/1999/02/22-rdf-syntax-ns#type") (MkNode NIri ("http://spdx.org/rdf/terms#ConjunctiveLicenseSet")));
    (MkTriple (MkNode (NOther "BLANK") ("N1")) ("http://spdx.org/rdf/terms#member") (MkNode (NOther "RESOURCELITERAL") ("http://spdx.org/licenses/Nokia")));
    (MkTriple (MkNode (NOther "BLANK") ("N1")) ("http://spdx.org/rdf/terms#member") (MkNode (NOther "RESOURCELITERAL") ("http://spdx.org/licenses/LGPL-2.0")))] [(MkNode (NOther "BLANK") ("N1"))] test_uri in
  let r6 := get_any_license g5 (MkNode (NOther "BLANK") ("N1")) ( rs_cache init_state ) in
  let g7 := MkGraph [(MkTriple (MkNode NIri ("http://spdx.dev/spdx.rdf#LicenseRef-Freeware")) ("http://www.w3.org/1999/02/22-rdf-syntax-ns#type") (MkNode NIri ("http://spdx.org/rdf/terms#ExtractedLicensingInfo")));
    (MkTriple (MkNode NIri ("http://spdx.dev/spdx.rdf#LicenseRef-Freeware")) ("http://spdx.org/rdf/terms#licenseId") (MkNode (NOther "LITERAL") ("LicenseRef-Freeware")));
    (MkTriple (MkNode NIri ("http://spdx.dev/spdx.rdf#LicenseRef-Freeware")) ("http://spdx.org/rdf/terms#name") (MkNode (NOther "LITERAL") ("freeware")));
    (MkTriple (MkNode NIri ("http://spdx.dev/spdx.rdf#LicenseRef-Freeware")) ("http://spdx.org/rdf/terms#extractedText") (MkNode (NOther "LITERAL") ("...")))] [(MkNode NIri ("http://spdx.dev/spdx.rdf#LicenseRef-Freeware"))] test_uri in
  let r8 := get_any_license g7 (MkNode NIri ("http://spdx.dev/spdx.rdf#LicenseRef-Freeware")) ( rs_cache init_state ) in
  let g9 := MkGraph [(MkTriple (MkNode NIri ("http://spdx.dev/spdx.rdf#LicenseRef-Freeware")) ("http://www.w3.org/1999/02/22-rdf-syntax-ns#type") (MkNode NIri ("http://spdx.org/rdf/terms#ExtractedLicensingInfo")));
    (MkTriple (MkNode NIri ("http://spdx.dev/spdx.rdf#LicenseRef-Freeware")) ("http://spdx.org/rdf/terms#licenseId") (MkNode (NOther "LITERAL") ("LicenseRef-Freeware")));
    (MkTriple (MkNode NIri ("http://spdx.dev/spdx.rdf#LicenseRef-Freeware")) ("http://spdx.org/rdf/terms#name") (MkNode (NOther "LITERAL") ("freeware")));
    (MkTriple (MkNode NIri ("http://spdx.dev/spdx.rdf#LicenseRef-Freeware")) ("http://spdx.org/rdf/terms#extractedText") (MkNode (NOther "LITERAL") ("...")))] [(MkNode NIri ("http://spdx.dev/spdx.rdf#LicenseRef-Freeware"))] test_uri in
  let r10 := get_any_license g9 (MkNode NIri ("http://spdx.dev/spdx.rdf#LicenseRef-Freeware")) ( rs_cache init_state ) in
  let g11 := MkGraph [(MkTriple (MkNode NIri ("http://spdx.org/licenses/Apache-2.0")) ("http://www.w3.org/1999/02/22-rdf-syntax-ns#type") (MkNode NIri ("http://spdx.org/rdf/terms#License")));
    (MkTriple (MkNode NIri ("http://spdx.org/licenses/Apache-2.0")) ("http://spdx.org/rdf/terms#standardLicenseTemplate") (MkNode (NOther "LITERAL") ("<> Apache License Version 2.0, January 2004 http://www.apache.org/licenses/<><> TERMS AND CONDITIONS FOR USE, REPRODUCTION, AND DISTRIBUTION<> <> Definitions. ""License"" shall mean the terms and conditions for use, reproduction, and distribution as defined by Sections 1 through 9 of this document. ""Licensor"" shall mean the copyright owner or entity authorized by the copyright owner that is granting the License. ""Legal Entity"" shall mean the union of the acting entity and all other entities that control, are controlled by, or are under common control with that entity. For the purposes of this definition, ""control"" means (i) the power, direct or indirect, to cause the direction or management of such entity, whether by contract or otherwise, or (ii) ownership of fifty percent (50%) or more of the outstanding shares, or (iii) beneficial ownership of such entity. ""You"" (or ""Your"") shall mean an individual or Legal Entity exercising permissions granted by this License. ""Source"" form shall mean the preferred form for making modifications, including but not limited to software source code, documentation source, and configuration files. ""Object"" form shall mean any form resulting from mechanical transformation or translation of a Source form, including but not limited to compiled object code, generated documentation, and conversions to other media types. ""Work"" shall mean the work of authorship, whether in Source or Object form, made available under the License, as indicated by a copyright notice that is included in or attached to the work (an example is provided in the Appendix below). ""Derivative Works"" shall mean any work, whether in Source or Object form, that is based on (or derived from) the Work and for which the editorial revisions, annotations, elaborations, or other modifications represent, as a whole, an original work of authorship. For the purposes of this License, Derivative Works shall not include works that remain separable from, or merely link (or bind by name) to the interfaces of, the Work and Derivative Works thereof. ""Contribution"" shall mean any work of authorship, including the original version of the Work and any modifications or additions to that Work or Derivative Works thereof, that is intentionally submitted to Licensor for inclusion in the Work by the copyright owner or by an individual or Legal Entity authorized to submit on behalf of the copyright owner. For the purposes of this definition, ""submitted"" means any form of electronic, verbal, or written communication sent to the Licensor or its representatives, including but not limited to communication on electronic mailing lists, source code control systems, and issue tracking systems that are managed by, or on behalf of, the Licensor for the purpose of discussing and improving the Work, but excluding communication that is conspicuously marked or otherwise designated in writing by the copyright owner as ""Not a Contribution."" ""Contributor"" shall mean Licensor and any individual or Legal Entity on behalf of whom a Contribution has been received by Licensor and subsequently incorporated within the Work. <> Grant of Copyright License. Subject to the terms and conditions of this License, each Contributor hereby grants to You a perpetual, worldwide, non-exclusive, no-charge, royalty-free, irrevocable copyright license to reproduce, prepare Derivative Works of, publicly display, publicly perform, sublicense, and distribute the Work and such Derivative Works in Source or Object form. <> Grant of Patent License. Subject to the terms and conditions of this License, each Contributor hereby grants to You a perpetual, worldwide, non-exclusive, no-charge, royalty-free, irrevocable (except as stated in this section) patent license to make, have made, use, offer to sell, sell, import, and otherwise transfer the Work, where such license applies only to those patent claims licensable by such Contributor that are necessarily infringed by their Contribution(s) alone or by combination of their Contribution(s) with the Work to which such Contribution(s) was submitted. If You institute patent litigation against any entity (including a cross-claim or counterclaim in a lawsuit) alleging that the Work or a Contribution incorporated within the Work constitutes direct or contributory patent infringement, then any patent licenses granted to You under this License for that Work shall terminate as of the date such litigation is filed. <> Redistribution. You may reproduce and distribute copies of the Work or Derivative Works thereof in any medium, with or without modifications, and in Source or Object form, provided that You meet the following conditions: <> You must give any other recipients of the Work or Derivative Works a copy of this License; and <> You must cause any modified files to carry prominent notices stating that You changed the files; and <> You must retain, in the Source form of any Derivative Works that You distribute, all copyright, patent, trademark, and attribution notices from the Source form of the Work, excluding those notices that do not pertain to any part of the Derivative Works; and <> If the Work includes a ""NOTICE"" text file as part of its distribution, then any Derivative Works that You distribute must include a readable copy of the attribution notices contained within such NOTICE file, excluding those notices that do not pertain to any part of the Derivative Works, in at least one of the following places: within a NOTICE text file distributed as part of the Derivative Works; within the Source form or documentation, if provided along with the Derivative Works; or, within a display generated by the Derivative Works, if and wherever such third-party notices normally appear. The contents of the NOTICE file are for informational purposes only and do not modify the License. You may add Your own attribution notices within Derivative Works that You distribute, alongside or as an addendum to the NOTICE text from the Work, provided that such additional attribution notices cannot be construed as modifying the License. You may add Your own copyright statement to Your modifications and may provide additional or different license terms and conditions for use, reproduction, or distribution of Your modifications, or for any such Derivative Works as a whole, provided Your use, reproduction, and distribution of the Work otherwise complies with the conditions stated in this License. <> Submission of Contributions. Unless You explicitly state otherwise, any Contribution intentionally submitted for inclusion in the Work by You to the Licensor shall be under the terms and conditions of this License, without any additional terms or conditions. Notwithstanding the above, nothing herein shall supersede or modify the terms of any separate license agreement you may have executed with Licensor regarding such Contributions. <> Trademarks. This License does not grant permission to use the trade names, trademarks, service marks, or product names of the Licensor, except as required for reasonable and customary use in describing the origin of the Work and reproducing the content of the NOTICE file. <> Disclaimer of Warranty. Unless required by applicable law or agreed to in writing, Licensor provides the Work (and each Contributor provides its Contributions) on an ""AS IS"" BASIS, WITHOUT WARRANTIES OR CONDITIONS OF ANY KIND, either express or implied, including, without limitation, any warranties or conditions of TITLE, NON-INFRINGEMENT, MERCHANTABILITY, or FITNESS FOR A PARTICULAR PURPOSE. You are solely responsible for determining the appropriateness of using or redistributing the Work and assume any risks associated with Your exercise of permissions under this License. <> Limitation of Liability. In no event and under no legal theory, whether in tort (including negligence), contract, or otherwise, unless required by applicable law (such as deliberate and grossly negligent acts) or agreed to in writing, shall any Contributor be liable to You for damages, including any direct, indirect, special, incidental, or consequential damages of any character arising as a result of this License or out of the use or inability to use the Work (including but not limited to damages for loss of goodwill, work stoppage, computer failure or malfunction, or any and all other commercial damages or losses), even if such Contributor has been advised of the possibility of such damages. <> Accepting Warranty or Additional Liability. While redistributing the Work or Derivative Works thereof, You may choose to offer, and charge a fee for, acceptance of support, warranty, indemnity, or other liability obligations and/or rights consistent with this License. However, in accepting such obligations, You may act only on Your own behalf and on Your sole responsibility, not on behalf of any other Contributor, and only if You agree to indemnify, defend, and hold each Contributor harmless for any liability incurred by, or claims asserted against, such Contributor by reason of your accepting any such warranty or additional liability.<> END OF TERMS AND CONDITIONS APPENDIX: How to apply the Apache License to your work. To apply the Apache License to your work, attach the following boilerplate notice, with the fields enclosed by brackets ""[]"" replaced with your own identifying information. (Don't include the brackets!) The text should be enclosed in the appropriate comment syntax for the file format. We also recommend that a file or class name and description of purpose be included on the same ""printed page"" as the copyright notice for easier identification within third-party archives. Copyright <> Licensed under the Apache License, Version 2.0 (the ""License""); you may not use this file except in compliance with the License. You may obtain a copy of the License at http://www.apache.org/licenses/LICENSE-2.0 Unless required by applicable law or agreed to in writing, software distributed under the License is distributed on an ""AS IS"" BASIS, WITHOUT WARRANTIES OR CONDITIONS OF ANY KIND, either express or implied. See the License for the specific language governing permissions and limitations under the License.<>")));
    (MkTriple (MkNode NIri ("http://spdx.org/licenses/Apache-2.0")) ("http://www.w3.org/2000/01/rdf-schema#seeAlso") (MkNode (NOther "LITERAL") ("http://www.apache.org/licenses/LICENSE-2.0")));
    (MkTriple (MkNode NIri ("http://spdx.org/licenses/Apache-2.0")) ("http://spdx.org/rdf/terms#name") (MkNode (NOther "LITERAL") ("Apache License 2.0")));
    (MkTriple (MkNode NIri ("http://spdx.org/licenses/Apache-2.0")) ("http://spdx.org/rdf/terms#licenseId") (MkNode (NOther "LITERAL") ("Apache-2.0")));
    (MkTriple (MkNode NIri ("http://spdx.org/licenses/Apache-2.0")) ("http://spdx.org/rdf/terms#isOsiApproved") (MkNode (NOther "LITERAL") ("true")));
    (MkTriple (MkNode NIri ("http://spdx.org/licenses/Apache-2.0")) ("http://www.w3.org/2000/01/rdf-schema#seeAlso") (MkNode (NOther "LITERAL") ("http://www.opensource.org/licenses/Apache-2.0")));
    (MkTriple (MkNode NIri ("http://spdx.org/licenses/Apache-2.0")) ("http://spdx.org/rdf/terms#licenseText") (MkNode (NOther "LITERAL") ("...")));
    (MkTriple (MkNode NIri ("http://spdx.org/licenses/Apache-2.0")) ("http://spdx.org/rdf/terms#standardLicenseHeader") (MkNode (NOther "LITERAL") ("...")))] [(MkNode NIri ("http://spdx.org/licenses/Apache-2.0"))] test_uri in
  let r12 := get_any_license g11 (MkNode NIri ("http://spdx.org/licenses/Apache-2.0")) ( rs_cache init_state ) in
  let g13 := MkGraph [(MkTriple (MkNode (NOther "BLANK") ("N1")) ("http://www.w3.org/1999/02/22-rdf-syntax-ns#type") (MkNode NIri ("http://spdx.org/rdf/terms#WithExceptionOperator")));
    (MkTriple (MkNode (NOther "BLANK") ("N1")) ("http://spdx.org/rdf/terms#licenseException") (MkNode (NOther "NODEIDLITERAL") ("A1")));
    (MkTriple (MkNode (NOther "NODEIDLITERAL") ("A1")) ("http://www.w3.org/1999/02/22-rdf-syntax-ns#type") (MkNode NIri ("http://spdx.org/rdf/terms#LicenseException")));
    (MkTriple (MkNode (NOther "NODEIDLITERAL") ("A1")) ("http://spdx.org/rdf/terms#example") (MkNode (NOther "LITERAL") ("")));
    (MkTriple (MkNode (NOther "NODEIDLITERAL") ("A1")) ("http://spdx.org/rdf/terms#licenseExceptionId") (MkNode (NOther "LITERAL") ("Libtool-exception")));
    (MkTriple (MkNode (NOther "NODEIDLITERAL") ("A1")) ("http://www.w3.org/2000/01/rdf-schema#comment") (MkNode (NOther "LITERAL") ("")));
    (MkTriple (MkNode (NOther "BLANK") ("N1")) ("http://spdx.org/rdf/terms#member") (MkNode (NOther "RESOURCELITERAL") ("http://spdx.org/licenses/GPL-2.0-or-later")))] [(MkNode (NOther "BLANK") ("N1"))] test_uri in
  let r14 := get_any_license g13 (MkNode (NOther "BLANK") ("N1")) ( rs_cache init_state ) in
  let g15 := MkGraph [(MkTriple (MkNode (NOther "BLANK") ("N1")) ("http://www.w3.org/1999/02/22-rdf-syntax-ns#type") (MkNode NIri ("http://spdx.org/rdf/terms#OrLaterOperator")));
    (MkTriple (MkNode (NOther "BLANK") ("N1")) ("http://spdx.org/rdf/terms#member") (MkNode (NOther "BLANK") ("N2")));
    (MkTriple (MkNode (NOther "BLANK") ("N2")) ("http://www.w3.org/1999/02/22-rdf-syntax-ns#type") (MkNode NIri ("http://spdx.org/rdf/terms#SimpleLicensingInfo")));
    (MkTriple (MkNode (NOther "BLANK") ("N2")) ("http://spdx.org/rdf/terms#licenseId") (MkNode (NOther "LITERAL") ("LicenseRef-Freeware")));
    (MkTriple (MkNode (NOther "BLANK") ("N2")) ("http://spdx.org/rdf/terms#name") (MkNode (NOther "LITERAL") ("freeware")))] [(MkNode (NOther "BLANK") ("N1"))] test_uri in
  let r16 := get_any_license g15 (MkNode (NOther "BLANK") ("N1")) ( rs_cache init_state ) in
  let g17 := MkGraph [(MkTriple (MkNode (NOther "BLANK") ("N1")) ("http://www.w3.org/1999/02/22-rdf-syntax-ns#type") (MkNode NIri ("http://spdx.org/rdf/terms#UnknownLicense")));
    (MkTriple (MkNode (NOther "BLANK") ("N1")) ("http://spdx.org/rdf/terms#unknownTag") (MkNode (NOther "LITERAL") ("")))] [(MkNode (NOther "BLANK") ("N1"))] test_uri in
  let r18 := get_any_license g17 (MkNode (NOther "BLANK") ("N1")) ( rs_cache init_state ) in
  let g19 := MkGraph [(MkTriple (MkNode NIri ("http://spdx.org/spdxdocs/spdx-example-444504E0-4F89-41D3-9A0C-0305E82C3301#SPDXRef-RecursiveLicense")) ("http://www.w3.org/1999/02/22-rdf-syntax-ns#type") (MkNode NIri ("http://spdx.org/rdf/terms#ConjunctiveLicenseSet")));
    (MkTriple (MkNode NIri ("http://spdx.org/spdxdocs/spdx-example-444504E0-4F89-41D3-9A0C-0305E82C3301#SPDXRef-RecursiveLicense")) ("http://spdx.org/rdf/terms#member") (MkNode (NOther "RESOURCELITERAL") ("http://spdx.org/licenses/GPL-2.0-or-later")));
    (MkTriple (MkNode NIri ("http://spdx.org/spdxdocs/spdx-example-444504E0-4F89-41D3-9A0C-0305E82C3301#SPDXRef-RecursiveLicense")) ("http://spdx.org/rdf/terms#member") (MkNode NIri ("http://spdx.org/spdxdocs/spdx-example-444504E0-4F89-41D3-9A0C-0305E82C3301#SPDXRef-RecursiveLicense")));
    (MkTriple (MkNode NIri ("http://spdx.org/spdxdocs/spdx-example-444504E0-4F89-41D3-9A0C-0305E82C3301#SPDXRef-RecursiveLicense")) ("http://www.w3.org/1999/02/22-rdf-syntax-ns#type") (MkNode NIri ("http://spdx.org/rdf/terms#ConjunctiveLicenseSet")));
    (MkTriple (MkNode NIri ("http://spdx.org/spdxdocs/spdx-example-444504E0-4F89-41D3-9A0C-0305E82C3301#SPDXRef-RecursiveLicense")) ("http://spdx.org/rdf/terms#member") (MkNode (NOther "RESOURCELITERAL") ("http://spdx.org/licenses/LGPL-2.0")));
    (MkTriple (MkNode NIri ("http://spdx.org/spdxdocs/spdx-example-444504E0-4F89-41D3-9A0C-0305E82C3301#SPDXRef-RecursiveLicense")) ("http://spdx.org/rdf/terms#member") (MkNode (NOther "RESOURCELITERAL") ("http://spdx.org/spdxdocs/spdx-example-444504E0-4F89-41D3-9A0C-0305E82C3301#SPDXRef-RecursiveLicense")))] [] test_uri in
  let r20 := get_any_license g19 (MkNode NIri ("http://spdx.org/spdxdocs/spdx-example-444504E0-4F89-41D3-9A0C-0305E82C3301#SPDXRef-RecursiveLicense")) ( rs_cache init_state ) in
  [(option_map negb (olift Bool.eqb (failed r2) (Some false)));
   (option_map (fun x => match x with LSpecial _ => false | _ => true end) (option_map fst (value r2)));
   (option_map negb (olift Bool.eqb (failed r4) (Some false)));
   (option_map (fun x => match x with LDisjunctive _ => false | _ => true end) (option_map fst (value r4)));
   (option_map negb (olift Bool.eqb (failed r6) (Some false)));
   (option_map (fun x => match x with LConjunctive _ => false | _ => true end) (option_map fst (value r6)));
   (option_map negb (olift Bool.eqb (failed r8) (Some false)));
   (option_map (fun x => match x with LExtracted _ _ => false | _ => true end) (option_map fst (value r8)));
   (option_map negb (olift Bool.eqb (failed r10) (Some false)));
   (option_map (fun x => match x with LExtracted _ _ => false | _ => true end) (option_map fst (value r10)));
   (option_map negb (olift Bool.eqb (failed r12) (Some false)));
   (option_map (fun x => match x with LLicense _ _ => false | _ => true end) (option_map fst (value r12)));
   (option_map negb (olift Bool.eqb (failed r14) (Some false)));
   (option_map (fun x => match x with LWithException _ _ => false | _ => true end) (option_map fst (value r14)));
   (option_map negb (olift Bool.eqb (failed r16) (Some false)));
   (option_map (fun x => match x with LOrLater _ => false | _ => true end) (option_map fst (value r16)));
   (olift Bool.eqb (failed r18) (Some false));
   (olift Bool.eqb (failed r20) (Some false))]) = true.
Proof. vm_compute. reflexivity. Qed.
(** /repo/spdx/v2/v2_3/rdf/reader/parse_license_test.go 220 *)
Example v23_Test_rdfParser2_3_getConjunctiveLicenseSetFromNode : forallb is_false (
  let g1 := MkGraph [(MkTriple (MkNode (NOther "BLANK") ("N1")) ("http://www.w3.org/1999/02/22-rdf-syntax-ns#type") (MkNode NIri ("http://spdx.org/rdf/terms#ConjunctiveLicenseSet")));
    (MkTriple (MkNode (NOther "BLANK") ("N1")) ("http://spdx.org/rdf/terms#member") (MkNode (NOther "RESOURCELITERAL") ("http://spdx.org/licenses/Unknown")));
    (MkTriple (MkNode (NOther "BLANK") ("N1")) ("http://spdx.org/rdf/terms#member") (MkNode (NOther "RESOURCELITERAL") ("http://spdx.org/licenses/LGPL-2.0")))] [(MkNode (NOther "BLANK") ("N1"))] test_uri in
  let r2 := get_any_license g1 (MkNode (NOther "BLANK") ("N1")) ( rs_cache init_state ) in
  let g3 := MkGraph [(MkTriple (MkNode (NOther "BLANK") ("N1")) ("http://www.w3.org/1999/02/22-rdf-syntax-ns#type") (MkNode NIri ("http://spdx.org/rdf/terms#ConjunctiveLicenseSet")));
    (MkTriple (MkNode (NOther "BLANK") ("N1")) ("http://spdx.org/rdf/terms#member") (MkNode (NOther "RESOURCELITERAL") ("http://spdx.org/licenses/CC0-1.0")));
    (MkTriple (MkNode (NOther "BLANK") ("N1")) ("http://spdx.org/rdf/terms#member") (MkNode (NOther "RESOURCELITERAL") ("http://spdx.org/licenses/LGPL-2.0")));
    (MkTriple (MkNode (NOther "BLANK") ("N1")) ("http://spdx.org/rdf/terms#unknownTag") (MkNode (NOther "LITERAL") ("")))] [(MkNode (NOther "BLANK") ("N1"))] test_uri in
  let r4 := get_any_license g3 (MkNode (NOther "BLANK") ("N1")) ( rs_cache init_state ) in
  let g5 := MkGraph [(MkTriple (MkNode (NOther "BLANK") ("N1")) ("http://www.w3.org/1999/02/22-rdf-syntax-ns#type") (MkNode NIri ("http://spdx.org/rdf/terms#ConjunctiveLicenseSet")));
    (MkTriple (MkNode (NOther "BLANK") ("N1")) ("http://spdx.org/rdf/terms#member") (MkNode (NOther "RESOURCELITERAL") ("http://spdx.org/licenses/Nokia")));
    (MkTriple (MkNode (NOther "BLANK") ("N1")) ("http://spdx.org/rdf/terms#member") (MkNode (NOther "RESOURCELITERAL") ("http://spdx.org/licenses/LGPL-2.0")))] [(MkNode (NOther "BLANK") ("N1"))] test_uri in
  let r6 := get_any_license g5 (MkNode (NOther "BLANK") ("N1")) ( rs_cache init_state ) in
  [(olift Bool.eqb (failed r2) (Some false));
   (olift Bool.eqb (failed r4) (Some false));
   (option_map negb (olift Bool.eqb (failed r6) (Some false)))]) = true.
Proof. vm_compute. reflexivity. Qed.
(** /repo/spdx/v2/v2_3/rdf/reader/parse_license_test.go 277 *)
Example v23_Test_rdfParser2_3_getDisjunctiveLicenseSetFromNode : forallb is_false (
  let g1 := MkGraph [(MkTriple (MkNode (NOther "BLANK") ("N1")) ("http://www.w3.org/1999/02/22-rdf-syntax-ns#type") (MkNode NIri ("http://spdx.org/rdf/terms#DisjunctiveLicenseSet")));
    (MkTriple (MkNode (NOther "BLANK") ("N1")) ("http://spdx.org/rdf/terms#member") (MkNode (NOther "RESOURCELITERAL") ("http://spdx.org/licenses/Unknown")));
    (MkTriple (MkNode (NOther "BLANK") ("N1")) ("http://spdx.org/rdf/terms#member") (MkNode (NOther "RESOURCELITERAL") ("http://spdx.org/licenses/LGPL-2.0")))] [(MkNode (NOther "BLANK") ("N1"))] test_uri in
  let r2 := get_any_license g1 (MkNode (NOther "BLANK") ("N1")) ( rs_cache init_state ) in
  let g3 := MkGraph [(MkTriple (MkNode (NOther "BLANK") ("N1")) ("http://www.w3.org/1999/02/22-rdf-syntax-ns#type") (MkNode NIri ("http://spdx.org/rdf/terms#DisjunctiveLicenseSet")));
    (MkTriple (MkNode (NOther "BLANK") ("N1")) ("http://spdx.org/rdf/terms#member") (MkNode (NOther "RESOURCELITERAL") ("http://spdx.org/licenses/Unknown")));
    (MkTriple (MkNode (NOther "BLANK") ("N1")) ("http://spdx.org/rdf/terms#member") (MkNode (NOther "RESOURCELITERAL") ("http://spdx.org/licenses/LGPL-2.0")));
    (MkTriple (MkNode (NOther "BLANK") ("N1")) ("http://spdx.org/rdf/terms#unknownTag") (MkNode (NOther "LITERAL") ("")))] [(MkNode (NOther "BLANK") ("N1"))] test_uri in
  let r4 := get_any_license g3 (MkNode (NOther "BLANK") ("N1")) ( rs_cache init_state ) in
  let g5 := MkGraph [(MkTriple (MkNode (NOther "BLANK") ("N1")) ("http://www.w3.org/1999/02/22-rdf-syntax-ns#type") (MkNode NIri ("http://spdx.org/rdf/terms#DisjunctiveLicenseSet")));
    (MkTriple (MkNode (NOther "BLANK") ("N1")) ("http://spdx.org/rdf/terms#member") (MkNode (NOther "RESOURCELITERAL") ("http://spdx.org/licenses/Nokia")));
    (MkTriple (MkNode (NOther "BLANK") ("N1")) ("http://spdx.org/rdf/terms#member") (MkNode (NOther "RESOURCELITERAL") ("http://spdx.org/licenses/LGPL-2.0")))] [(MkNode (NOther "BLANK") ("N1"))] test_uri in
  let r6 := get_any_license g5 (MkNode (NOther "BLANK") ("N1")) ( rs_cache init_state ) in
  [(olift Bool.eqb (failed r2) (Some false));
   (olift Bool.eqb (failed r4) (Some false));
   (option_map negb (olift Bool.eqb (failed r6) (Some false)))]) = true.
Proof. vm_compute. reflexivity. Qed.
(** /repo/spdx/v2/v2_3/rdf/reader/parse_license_test.go 334 *)
Example v23_Test_rdfParser2_3_getLicenseExceptionFromNode : forallb is_false (
  let g1 := MkGraph [(MkTriple (MkNode (NOther "BLANK") ("N1")) ("http://www.w3.org/1999/02/22-rdf-syntax-ns#type") (MkNode NIri ("http://spdx.org/rdf/terms#LicenseException")));
    (MkTriple (MkNode (NOther "BLANK") ("N1")) ("http://www.w3.org/2000/01/rdf-schema#seeAlso") (MkNode (NOther "LITERAL") ("see-also")));
    (MkTriple (MkNode (NOther "BLANK") ("N1")) ("http://spdx.org/rdf/terms#example") (MkNode (NOther "LITERAL") ("")));
    (MkTriple (MkNode (NOther "BLANK") ("N1")) ("http://spdx.org/rdf/terms#licenseExceptionId") (MkNode (NOther "LITERAL") ("Libtool-exception")));
    (MkTriple (MkNode (NOther "BLANK") ("N1")) ("http://www.w3.org/2000/01/rdf-schema#comment") (MkNode (NOther "LITERAL") ("")))] [(MkNode (NOther "BLANK") ("N1"))] test_uri in
  let r2 := exception_from_node g1 (MkNode (NOther "BLANK") ("N1")) in
  let g3 := MkGraph [(MkTriple (MkNode (NOther "BLANK") ("N1")) ("http://www.w3.org/1999/02/22-rdf-syntax-ns#type") (MkNode NIri ("http://spdx.org/rdf/terms#LicenseException")));
    (MkTriple (MkNode (NOther "BLANK") ("N1")) ("http://spdx.org/rdf/terms#example") (MkNode (NOther "LITERAL") ("")));
    (MkTriple (MkNode (NOther "BLANK") ("N1")) ("http://spdx.org/rdf/terms#licenseExceptionId") (MkNode (NOther "LITERAL") ("Libtool-exception")));
    (MkTriple (MkNode (NOther "BLANK") ("N1")) ("http://www.w3.org/2000/01/rdf-schema#unknown") (MkNode (NOther "LITERAL") ("")))] [(MkNode (NOther "BLANK") ("N1"))] test_uri in
  let r4 := exception_from_node g3 (MkNode (NOther "BLANK") ("N1")) in
  let g5 := MkGraph [(MkTriple (MkNode (NOther "BLANK") ("N1")) ("http://www.w3.org/1999/02/22-rdf-syntax-ns#type") (MkNode NIri ("http://spdx.org/rdf/terms#LicenseException")));
    (MkTriple (MkNode (NOther "BLANK") ("N1")) ("http://www.w3.org/2000/01/rdf-schema#seeAlso") (MkNode (NOther "RESOURCELITERAL") ("http://www.opensource.org/licenses/GPL-3.0")));
    (MkTriple (MkNode (NOther "BLANK") ("N1")) ("http://spdx.org/rdf/terms#example") (MkNode (NOther "LITERAL") ("no example")));
    (MkTriple (MkNode (NOther "BLANK") ("N1")) ("http://spdx.org/rdf/terms#licenseExceptionId") (MkNode (NOther "LITERAL") ("Libtool-exception")));
    (MkTriple (MkNode (NOther "BLANK") ("N1")) ("http://www.w3.org/2000/01/rdf-schema#comment") (MkNode (NOther "LITERAL") ("no comments")));
    (MkTriple (MkNode (NOther "BLANK") ("N1")) ("http://spdx.org/rdf/terms#licenseExceptionText") (MkNode (NOther "LITERAL") ("text")));
    (MkTriple (MkNode (NOther "BLANK") ("N1")) ("http://spdx.org/rdf/terms#name") (MkNode (NOther "LITERAL") ("name")))] [(MkNode (NOther "BLANK") ("N1"))] test_uri in
  let r6 := exception_from_node g5 (MkNode (NOther "BLANK") ("N1")) in
  [(olift Bool.eqb (failed r2) (Some false));
   (olift Bool.eqb (failed r4) (Some false));
   (option_map negb (olift Bool.eqb (failed r6) (Some false)));
   (option_map negb (olift String.eqb (option_map (fun x => ex_seeAlso x) (value r6)) (Some ("http://www.opensource.org/licenses/GPL-3.0"))));
   (option_map negb (olift String.eqb (option_map (fun x => ex_example x) (value r6)) (Some ("no example"))));
   (option_map negb (olift String.eqb (option_map (fun x => ex_id x) (value r6)) (Some ("Libtool-exception"))));
   (option_map negb (olift String.eqb (option_map (fun x => ex_comment x) (value r6)) (Some ("no comments"))));
   (option_map negb (olift String.eqb (option_map (fun x => ex_text x) (value r6)) (Some ("text"))));
   (option_map negb (olift String.eqb (option_map (fun x => ex_name x) (value r6)) (Some ("name"))))]) = true.
Proof. vm_compute. reflexivity. Qed.
(** /repo/spdx/v2/v2_3/rdf/reader/parse_license_test.go 409 *)
Example v23_Test_rdfParser2_3_getLicenseFromNode : forallb is_false (
  let g1 := MkGraph [(MkTriple (MkNode (NOther "BLANK") ("N1")) ("http://www.w3.org/1999/02/22-rdf-syntax-ns#type") (MkNode NIri ("http://spdx.org/rdf/terms#License")));
    (MkTriple (MkNode (NOther "BLANK") ("N1")) ("http://spdx.org/rdf/terms#isOsiApproved") (MkNode (NOther "LITERAL") ("no")))] [(MkNode (NOther "BLANK") ("N1"))] test_uri in
  let r2 := license_from_node g1 (MkNode (NOther "BLANK") ("N1")) in
  let g3 := MkGraph [(MkTriple (MkNode (NOther "BLANK") ("N1")) ("http://www.w3.org/1999/02/22-rdf-syntax-ns#type") (MkNode NIri ("http://spdx.org/rdf/terms#License")));
    (MkTriple (MkNode (NOther "BLANK") ("N1")) ("http://www.w3.org/2000/01/rdf-schema#seeAlso") (MkNode (NOther "LITERAL") ("uri")))] [(MkNode (NOther "BLANK") ("N1"))] test_uri in
  let r4 := license_from_node g3 (MkNode (NOther "BLANK") ("N1")) in
  let g5 := MkGraph [(MkTriple (MkNode (NOther "BLANK") ("N1")) ("http://www.w3.org/1999/02/22-rdf-syntax-ns#type") (MkNode NIri ("http://spdx.org/rdf/terms#License")));
    (MkTriple (MkNode (NOther "BLANK") ("N1")) ("http://spdx.org/rdf/terms#isDeprecatedLicenseId") (MkNode (NOther "LITERAL") ("yes")))] [(MkNode (NOther "BLANK") ("N1"))] test_uri in
  let r6 := license_from_node g5 (MkNode (NOther "BLANK") ("N1")) in
  let g7 := MkGraph [(MkTriple (MkNode (NOther "BLANK") ("N1")) ("http://www.w3.org/1999/02/22-rdf-syntax-ns#type") (MkNode NIri ("http://spdx.org/rdf/terms#License")));
    (MkTriple (MkNode (NOther "BLANK") ("N1")) ("http://spdx.org/rdf/terms#isFsfLibre") (MkNode (NOther "LITERAL") ("no")))] [(MkNode (NOther "BLANK") ("N1"))] test_uri in
  let r8 := license_from_node g7 (MkNode (NOther "BLANK") ("N1")) in
  let g9 := MkGraph [(MkTriple (MkNode (NOther "BLANK") ("N1")) ("http://www.w3.org/1999/02/22-rdf-syntax-ns#type") (MkNode NIri ("http://spdx.org/rdf/terms#License")));
    (MkTriple (MkNode (NOther "BLANK") ("N1")) ("http://spdx.org/rdf/terms#unknown") (MkNode (NOther "LITERAL") ("")))] [(MkNode (NOther "BLANK") ("N1"))] test_uri in
  let r10 := license_from_node g9 (MkNode (NOther "BLANK") ("N1")) in
  let g11 := MkGraph [(MkTriple (MkNode NIri ("http://spdx.org/licenses/GPL-3.0-or-later")) ("http://www.w3.org/1999/02/22-rdf-syntax-ns#type") (MkNode NIri ("http://spdx.org/rdf/terms#License")));
    (MkTriple (MkNode NIri ("http://spdx.org/licenses/GPL-3.0-or-later")) ("http://www.w3.org/2000/01/rdf-schema#seeAlso") (MkNode (NOther "LITERAL") ("http://www.opensource.org/licenses/GPL-3.0")));
    (MkTriple (MkNode NIri ("http://spdx.org/licenses/GPL-3.0-or-later")) ("http://spdx.org/rdf/terms#isOsiApproved") (MkNode (NOther "LITERAL") ("true")));
    (MkTriple (MkNode NIri ("http://spdx.org/licenses/GPL-3.0-or-later")) ("http://spdx.org/rdf/terms#licenseText") (MkNode (NOther "LITERAL") ("GNU GENERAL PUBLIC LICENSE Version 3, 29 June 2007")));
    (MkTriple (MkNode NIri ("http://spdx.org/licenses/GPL-3.0-or-later")) ("http://spdx.org/rdf/terms#name") (MkNode (NOther "LITERAL") ("GNU General Public License v3.0 or later")));
    (MkTriple (MkNode NIri ("http://spdx.org/licenses/GPL-3.0-or-later")) ("http://spdx.org/rdf/terms#standardLicenseHeaderTemplate") (MkNode (NOther "LITERAL") ("...")));
    (MkTriple (MkNode NIri ("http://spdx.org/licenses/GPL-3.0-or-later")) ("http://spdx.org/rdf/terms#licenseId") (MkNode (NOther "LITERAL") ("GPL-3.0-or-later")));
    (MkTriple (MkNode NIri ("http://spdx.org/licenses/GPL-3.0-or-later")) ("http://www.w3.org/2000/01/rdf-schema#comment") (MkNode (NOther "LITERAL") ("This license was released: 29 June 2007")));
    (MkTriple (MkNode NIri ("http://spdx.org/licenses/GPL-3.0-or-later")) ("http://spdx.org/rdf/terms#isFsfLibre") (MkNode (NOther "LITERAL") ("true")));
    (MkTriple (MkNode NIri ("http://spdx.org/licenses/GPL-3.0-or-later")) ("http://spdx.org/rdf/terms#standardLicenseHeader") (MkNode (NOther "LITERAL") ("...")));
    (MkTriple (MkNode NIri ("http://spdx.org/licenses/GPL-3.0-or-later")) ("http://spdx.org/rdf/terms#standardLicenseTemplate") (MkNode (NOther "LITERAL") ("....")))] [(MkNode NIri ("http://spdx.org/licenses/GPL-3.0-or-later"))] test_uri in
  let r12 := license_from_node g11 (MkNode NIri ("http://spdx.org/licenses/GPL-3.0-or-later")) in
  [(olift Bool.eqb (failed r2) (Some false));
   (olift Bool.eqb (failed r4) (Some false));
   (olift Bool.eqb (failed r6) (Some false));
   (olift Bool.eqb (failed r8) (Some false));
   (olift Bool.eqb (failed r10) (Some false));
   (option_map negb (olift Bool.eqb (failed r12) (Some false)))]) = true.
Proof. vm_compute. reflexivity. Qed.
(** /repo/spdx/v2/v2_3/rdf/reader/parse_license_test.go 538 *)
Example v23_Test_rdfParser2_3_getOrLaterOperatorFromNode : forallb is_false (
  let g1 := MkGraph [(MkTriple (MkNode (NOther "BLANK") ("N1")) ("http://www.w3.org/1999/02/22-rdf-syntax-ns#type") (MkNode NIri ("http://spdx.org/rdf/terms#OrLaterOperator")));
    (MkTriple (MkNode (NOther "BLANK") ("N1")) ("http://spdx.org/rdf/terms#member") (MkNode (NOther "BLANK") ("N2")));
    (MkTriple (MkNode (NOther "BLANK") ("N2")) ("http://www.w3.org/1999/02/22-rdf-syntax-ns#type") (MkNode NIri ("http://spdx.org/rdf/terms#SimpleLicensingInfo")));
    (MkTriple (MkNode (NOther "BLANK") ("N2")) ("http://spdx.org/rdf/terms#licenseId") (MkNode (NOther "LITERAL") ("LicenseRef-Freeware")));
    (MkTriple (MkNode (NOther "BLANK") ("N2")) ("http://spdx.org/rdf/terms#name") (MkNode (NOther "LITERAL") ("freeware")));
    (MkTriple (MkNode (NOther "BLANK") ("N1")) ("http://spdx.org/rdf/terms#member") (MkNode (NOther "RESOURCELITERAL") ("http://spdx.org/licenses/Nokia")))] [(MkNode (NOther "BLANK") ("N1"))] test_uri in
  let r2 := or_later_from_node g1 (MkNode (NOther "BLANK") ("N1")) in
  let g3 := MkGraph [(MkTriple (MkNode (NOther "BLANK") ("N1")) ("http://www.w3.org/1999/02/22-rdf-syntax-ns#type") (MkNode NIri ("http://spdx.org/rdf/terms#OrLaterOperator")));
    (MkTriple (MkNode (NOther "BLANK") ("N1")) ("http://spdx.org/rdf/terms#members") (MkNode (NOther "BLANK") ("N2")));
    (MkTriple (MkNode (NOther "BLANK") ("N2")) ("http://www.w3.org/1999/02/22-rdf-syntax-ns#type") (MkNode NIri ("http://spdx.org/rdf/terms#SimpleLicensingInfo")));
    (MkTriple (MkNode (NOther "BLANK") ("N2")) ("http://spdx.org/rdf/terms#licenseId") (MkNode (NOther "LITERAL") ("LicenseRef-Freeware")));
    (MkTriple (MkNode (NOther "BLANK") ("N2")) ("http://spdx.org/rdf/terms#name") (MkNode (NOther "LITERAL") ("freeware")))] [(MkNode (NOther "BLANK") ("N1"))] test_uri in
  let r4 := or_later_from_node g3 (MkNode (NOther "BLANK") ("N1")) in
  let g5 := MkGraph [(MkTriple (MkNode (NOther "BLANK") ("N1")) ("http://www.w3.org/1999/02/22-rdf-syntax-ns#type") (MkNode NIri ("http://spdx.org/rdf/terms#OrLaterOperator")));
    (MkTriple (MkNode (NOther "BLANK") ("N1")) ("http://spdx.org/rdf/terms#member") (MkNode (NOther "BLANK") ("N2")));
    (MkTriple (MkNode (NOther "BLANK") ("N2")) ("http://www.w3.org/1999/02/22-rdf-syntax-ns#type") (MkNode NIri ("http://spdx.org/rdf/terms#SimpleLicensingInfo")));
    (MkTriple (MkNode (NOther "BLANK") ("N2")) ("http://spdx.org/rdf/terms#invalidTag") (MkNode (NOther "LITERAL") ("")));
    (MkTriple (MkNode (NOther "BLANK") ("N2")) ("http://spdx.org/rdf/terms#licenseId") (MkNode (NOther "LITERAL") ("LicenseRef-Freeware")));
    (MkTriple (MkNode (NOther "BLANK") ("N2")) ("http://spdx.org/rdf/terms#name") (MkNode (NOther "LITERAL") ("freeware")))] [(MkNode (NOther "BLANK") ("N1"))] test_uri in
  let r6 := or_later_from_node g5 (MkNode (NOther "BLANK") ("N1")) in
  let g7 := MkGraph [(MkTriple (MkNode (NOther "BLANK") ("N1")) ("http://www.w3.org/1999/02/22-rdf-syntax-ns#type") (MkNode NIri ("http://spdx.org/rdf/terms#OrLaterOperator")));
    (MkTriple (MkNode (NOther "BLANK") ("N1")) ("http://spdx.org/rdf/terms#member") (MkNode (NOther "BLANK") ("N2")));
    (MkTriple (MkNode (NOther "BLANK") ("N2")) ("http://www.w3.org/1999/02/22-rdf-syntax-ns#type") (MkNode NIri ("http://spdx.org/rdf/terms#SimpleLicensingInfo")));
    (MkTriple (MkNode (NOther "BLANK") ("N2")) ("http://spdx.org/rdf/terms#licenseId") (MkNode (NOther "LITERAL") ("LicenseRef-Freeware")));
    (MkTriple (MkNode (NOther "BLANK") ("N2")) ("http://spdx.org/rdf/terms#name") (MkNode (NOther "LITERAL") ("freeware")))] [(MkNode (NOther "BLANK") ("N1"))] test_uri in
  let r8 := or_later_from_node g7 (MkNode (NOther "BLANK") ("N1")) in
  [(olift Bool.eqb (failed r2) (Some false));
   (olift Bool.eqb (failed r4) (Some false));
   (olift Bool.eqb (failed r6) (Some false));
   (option_map negb (olift Bool.eqb (failed r8) (Some false)))]) = true.
Proof. vm_compute. reflexivity. Qed.
(** /repo/spdx/v2/v2_3/rdf/reader/parse_license_test.go 614 *)
Example v23_Test_rdfParser2_3_getSimpleLicensingInfoFromNode : forallb is_false (
  let g1 := MkGraph [(MkTriple (MkNode (NOther "BLANK") ("N1")) ("http://www.w3.org/1999/02/22-rdf-syntax-ns#type") (MkNode NIri ("http://spdx.org/rdf/terms#SimpleLicensingInfo")));
    (MkTriple (MkNode (NOther "BLANK") ("N1")) ("http://spdx.org/rdf/terms#licenseId") (MkNode (NOther "LITERAL") ("LicenseRef-Freeware")));
    (MkTriple (MkNode (NOther "BLANK") ("N1")) ("http://spdx.org/rdf/terms#name") (MkNode (NOther "LITERAL") ("freeware")))] [(MkNode (NOther "BLANK") ("N1"))] test_uri in
  let r2 := simple_from_node g1 (MkNode (NOther "BLANK") ("N1")) in
  [(option_map negb (olift Bool.eqb (failed r2) (Some false)))]) = true.
Proof. vm_compute. reflexivity. Qed.
(** /repo/spdx/v2/v2_3/rdf/reader/parse_license_test.go 630 *)
Example v23_Test_rdfParser2_3_getSimpleLicensingInfoFromTriples : forallb is_false (
  let g1 := MkGraph [(MkTriple (MkNode (NOther "BLANK") ("N1")) ("http://www.w3.org/1999/02/22-rdf-syntax-ns#type") (MkNode NIri ("http://spdx.org/rdf/terms#SimpleLicensingInfo")));
    (MkTriple (MkNode (NOther "BLANK") ("N1")) ("http://www.w3.org/2000/01/rdf-schema#seeAlso") (MkNode (NOther "LITERAL") ("an invalid uri")))] [(MkNode (NOther "BLANK") ("N1"))] test_uri in
  let r2 := simple_from_triples g1 [(MkTriple (MkNode (NOther "BLANK") ("N1")) ("http://www.w3.org/1999/02/22-rdf-syntax-ns#type") (MkNode NIri ("http://spdx.org/rdf/terms#SimpleLicensingInfo"))); (MkTriple (MkNode (NOther "BLANK") ("N1")) ("http://www.w3.org/2000/01/rdf-schema#seeAlso") (MkNode (NOther "LITERAL") ("an invalid uri")))] in
  let g3 := MkGraph [(MkTriple (MkNode (NOther "BLANK") ("N1")) ("http://www.w3.org/1999/02/22-rdf-syntax-ns#type") (MkNode NIri ("http://spdx.org/rdf/terms#SimpleLicensingInfo")));
    (MkTriple (MkNode (NOther "BLANK") ("N1")) ("http://www.w3.org/2000/01/rdf-schema#invalidPredicate") (MkNode (NOther "LITERAL") ("")))] [(MkNode (NOther "BLANK") ("N1"))] test_uri in
  let r4 := simple_from_triples g3 [(MkTriple (MkNode (NOther "BLANK") ("N1")) ("http://www.w3.org/1999/02/22-rdf-syntax-ns#type") (MkNode NIri ("http://spdx.org/rdf/terms#SimpleLicensingInfo"))); (MkTriple (MkNode (NOther "BLANK") ("N1")) ("http://www.w3.org/2000/01/rdf-schema#invalidPredicate") (MkNode (NOther "LITERAL") ("")))] in
  let g5 := MkGraph [(MkTriple (MkNode (NOther "BLANK") ("N1")) ("http://www.w3.org/1999/02/22-rdf-syntax-ns#type") (MkNode NIri ("http://spdx.org/rdf/terms#SimpleLicensingInfo")));
    (MkTriple (MkNode (NOther "BLANK") ("N1")) ("http://www.w3.org/2000/01/rdf-schema#comment") (MkNode (NOther "LITERAL") ("comment")));
    (MkTriple (MkNode (NOther "BLANK") ("N1")) ("http://spdx.org/rdf/terms#licenseId") (MkNode (NOther "LITERAL") ("lid")));
    (MkTriple (MkNode (NOther "BLANK") ("N1")) ("http://spdx.org/rdf/terms#name") (MkNode (NOther "LITERAL") ("name")));
    (MkTriple (MkNode (NOther "BLANK") ("N1")) ("http://www.w3.org/2000/01/rdf-schema#seeAlso") (MkNode (NOther "LITERAL") ("https://opensource.org/licenses/MPL-1.0")));
    (MkTriple (MkNode (NOther "BLANK") ("N1")) ("http://spdx.org/rdf/terms#example") (MkNode (NOther "LITERAL") ("example")))] [(MkNode (NOther "BLANK") ("N1"))] test_uri in
  let r6 := simple_from_triples g5 [(MkTriple (MkNode (NOther "BLANK") ("N1")) ("http://www.w3.org/1999/02/22-rdf-syntax-ns#type") (MkNode NIri ("http://spdx.org/rdf/terms#SimpleLicensingInfo"))); (MkTriple (MkNode (NOther "BLANK") ("N1")) ("http://www.w3.org/2000/01/rdf-schema#comment") (MkNode (NOther "LITERAL") ("comment"))); (MkTriple (MkNode (NOther "BLANK") ("N1")) ("http://spdx.org/rdf/terms#licenseId") (MkNode (NOther "LITERAL") ("lid"))); (MkTriple (MkNode (NOther "BLANK") ("N1")) ("http://spdx.org/rdf/terms#name") (MkNode (NOther "LITERAL") ("name"))); (MkTriple (MkNode (NOther "BLANK") ("N1")) ("http://www.w3.org/2000/01/rdf-schema#seeAlso") (MkNode (NOther "LITERAL") ("https://opensource.org/licenses/MPL-1.0"))); (MkTriple (MkNode (NOther "BLANK") ("N1")) ("http://spdx.org/rdf/terms#example") (MkNode (NOther "LITERAL") ("example")))] in
  [(olift Bool.eqb (failed r2) (Some false));
   (olift Bool.eqb (failed r4) (Some false));
   (option_map negb (olift Bool.eqb (failed r6) (Some false)));
   (option_map negb (olift String.eqb (option_map (fun x => sl_comment x) (value r6)) (Some ("comment"))));
   (option_map negb (olift String.eqb (option_map (fun x => sl_licenseID x) (value r6)) (Some ("lid"))));
   (option_map negb (olift String.eqb (option_map (fun x => sl_name x) (value r6)) (Some ("name"))));
   (option_map negb (olift String.eqb (option_map (fun x => sl_example x) (value r6)) (Some ("example"))))]) = true.
Proof. vm_compute. reflexivity. Qed.
(** /repo/spdx/v2/v2_3/rdf/reader/parse_license_test.go 696 *)
Example v23_Test_rdfParser2_3_getSpecialLicenseFromNode : forallb is_false (
  let g1 := MkGraph [] [] test_uri in
  let r2 := special_license (MkNode NIri ("http://spdx.org/rdf/terms#NONE")) in
  let g3 := MkGraph [] [] test_uri in
  let r4 := special_license (MkNode NIri ("http://spdx.org/rdf/terms#NOASSERTION")) in
  let g5 := MkGraph [] [] test_uri in
  let r6 := special_license (MkNode NIri ("https://opensource.org/licenses/unknown")) in
  let g7 := MkGraph [] [] test_uri in
  let r8 := special_license (MkNode NIri ("https://opensource.org/licenses/MPL-1.0")) in
  [(option_map negb (olift Bool.eqb (failed r2) (Some false)));
   (option_map negb (olift Bool.eqb (failed r4) (Some false)));
   (olift Bool.eqb (failed r6) (Some false));
   (option_map negb (olift Bool.eqb (failed r8) (Some false)))]) = true.
Proof. vm_compute. reflexivity. Qed.
(** /repo/spdx/v2/v2_3/rdf/reader/parse_license_test.go 755 *)
Example v23_Test_rdfParser2_3_getWithExceptionOperatorFromNode : forallb is_false (
  let g1 := MkGraph [(MkTriple (MkNode (NOther "BLANK") ("N1")) ("http://www.w3.org/1999/02/22-rdf-syntax-ns#type") (MkNode NIri ("http://spdx.org/rdf/terms#WithExceptionOperator")));
    (MkTriple (MkNode (NOther "BLANK") ("N1")) ("http://spdx.org/rdf/terms#member") (MkNode (NOther "BLANK") ("N2")));
    (MkTriple (MkNode (NOther "BLANK") ("N2")) ("http://www.w3.org/1999/02/22-rdf-syntax-ns#type") (MkNode NIri ("http://spdx.org/rdf/terms#SimpleLicensingInfo")));
    (MkTriple (MkNode (NOther "BLANK") ("N2")) ("http://spdx.org/rdf/terms#licenseId") (MkNode (NOther "LITERAL") ("LicenseRef-Freeware")));
    (MkTriple (MkNode (NOther "BLANK") ("N2")) ("http://spdx.org/rdf/terms#name") (MkNode (NOther "LITERAL") ("freeware")));
    (MkTriple (MkNode (NOther "BLANK") ("N1")) ("http://spdx.org/rdf/terms#member") (MkNode (NOther "RESOURCELITERAL") ("http://spdx.org/licenses/Nokia")))] [(MkNode (NOther "BLANK") ("N1"))] test_uri in
  let r2 := with_exception_from_node g1 (MkNode (NOther "BLANK") ("N1")) in
  let g3 := MkGraph [(MkTriple (MkNode (NOther "BLANK") ("N1")) ("http://www.w3.org/1999/02/22-rdf-syntax-ns#type") (MkNode NIri ("http://spdx.org/rdf/terms#WithExceptionOperator")));
    (MkTriple (MkNode (NOther "BLANK") ("N1")) ("http://spdx.org/rdf/terms#members") (MkNode (NOther "BLANK") ("N2")));
    (MkTriple (MkNode (NOther "BLANK") ("N2")) ("http://www.w3.org/1999/02/22-rdf-syntax-ns#type") (MkNode NIri ("http://spdx.org/rdf/terms#SimpleLicensingInfo")));
    (MkTriple (MkNode (NOther "BLANK") ("N2")) ("http://spdx.org/rdf/terms#licenseId") (MkNode (NOther "LITERAL") ("LicenseRef-Freeware")));
    (MkTriple (MkNode (NOther "BLANK") ("N2")) ("http://spdx.org/rdf/terms#name") (MkNode (NOther "LITERAL") ("freeware")))] [(MkNode (NOther "BLANK") ("N1"))] test_uri in
  let r4 := with_exception_from_node g3 (MkNode (NOther "BLANK") ("N1")) in
  let g5 := MkGraph [(MkTriple (MkNode (NOther "BLANK") ("N1")) ("http://www.w3.org/1999/02/22-rdf-syntax-ns#type") (MkNode NIri ("http://spdx.org/rdf/terms#WithExceptionOperator")));
    (MkTriple (MkNode (NOther "BLANK") ("N1")) ("http://spdx.org/rdf/terms#member") (MkNode NIri ("http://spdx.org/licenses/GPL-2.0-or-later")));
    (MkTriple (MkNode NIri ("http://spdx.org/licenses/GPL-2.0-or-later")) ("http://www.w3.org/1999/02/22-rdf-syntax-ns#type") (MkNode NIri ("http://spdx.org/rdf/terms#License")));
    (MkTriple (MkNode NIri ("http://spdx.org/licenses/GPL-2.0-or-later")) ("http://spdx.org/rdf/terms#unknownTag") (MkNode (NOther "LITERAL") ("")))] [(MkNode (NOther "BLANK") ("N1"))] test_uri in
  let r6 := with_exception_from_node g5 (MkNode (NOther "BLANK") ("N1")) in
  let g7 := MkGraph [(MkTriple (MkNode (NOther "BLANK") ("N1")) ("http://www.w3.org/1999/02/22-rdf-syntax-ns#type") (MkNode NIri ("http://spdx.org/rdf/terms#WithExceptionOperator")));
    (MkTriple (MkNode (NOther "BLANK") ("N1")) ("http://spdx.org/rdf/terms#member") (MkNode NIri ("http://spdx.org/licenses/GPL-2.0-or-later")));
    (MkTriple (MkNode NIri ("http://spdx.org/licenses/GPL-2.0-or-later")) ("http://www.w3.org/1999/02/22-rdf-syntax-ns#type") (MkNode NIri ("http://spdx.org/rdf/terms#License")));
    (MkTriple (MkNode (NOther "BLANK") ("N1")) ("http://spdx.org/rdf/terms#licenseException") (MkNode (NOther "BLANK") ("N2")));
    (MkTriple (MkNode (NOther "BLANK") ("N2")) ("http://www.w3.org/1999/02/22-rdf-syntax-ns#type") (MkNode NIri ("http://spdx.org/rdf/terms#LicenseException")));
    (MkTriple (MkNode (NOther "BLANK") ("N2")) ("http://spdx.org/rdf/terms#invalidTag") (MkNode (NOther "LITERAL") ("")));
    (MkTriple (MkNode (NOther "BLANK") ("N2")) ("http://spdx.org/rdf/terms#example") (MkNode (NOther "LITERAL") ("example")));
    (MkTriple (MkNode (NOther "BLANK") ("N2")) ("http://spdx.org/rdf/terms#licenseExceptionId") (MkNode (NOther "LITERAL") ("Libtool-exception")));
    (MkTriple (MkNode (NOther "BLANK") ("N2")) ("http://www.w3.org/2000/01/rdf-schema#comment") (MkNode (NOther "LITERAL") ("comment")))] [(MkNode (NOther "BLANK") ("N1"))] test_uri in
  let r8 := with_exception_from_node g7 (MkNode (NOther "BLANK") ("N1")) in
  let g9 := MkGraph [(MkTriple (MkNode (NOther "BLANK") ("N1")) ("http://www.w3.org/1999/02/22-rdf-syntax-ns#type") (MkNode NIri ("http://spdx.org/rdf/terms#WithExceptionOperator")));
    (MkTriple (MkNode (NOther "BLANK") ("N1")) ("http://spdx.org/rdf/terms#member") (MkNode NIri ("http://spdx.org/licenses/GPL-2.0-or-later")));
    (MkTriple (MkNode NIri ("http://spdx.org/licenses/GPL-2.0-or-later")) ("http://www.w3.org/1999/02/22-rdf-syntax-ns#type") (MkNode NIri ("http://spdx.org/rdf/terms#License")));
    (MkTriple (MkNode (NOther "BLANK") ("N1")) ("http://spdx.org/rdf/terms#licenseException") (MkNode (NOther "BLANK") ("N2")));
    (MkTriple (MkNode (NOther "BLANK") ("N2")) ("http://www.w3.org/1999/02/22-rdf-syntax-ns#type") (MkNode NIri ("http://spdx.org/rdf/terms#LicenseException")));
    (MkTriple (MkNode (NOther "BLANK") ("N2")) ("http://spdx.org/rdf/terms#example") (MkNode (NOther "LITERAL") ("example")));
    (MkTriple (MkNode (NOther "BLANK") ("N2")) ("http://spdx.org/rdf/terms#licenseExceptionId") (MkNode (NOther "LITERAL") ("Libtool-exception")));
    (MkTriple (MkNode (NOther "BLANK") ("N2")) ("http://www.w3.org/2000/01/rdf-schema#comment") (MkNode (NOther "LITERAL") ("comment")))] [(MkNode (NOther "BLANK") ("N1"))] test_uri in
  let r10 := with_exception_from_node g9 (MkNode (NOther "BLANK") ("N1")) in
  [(olift Bool.eqb (failed r2) (Some false));
   (olift Bool.eqb (failed r4) (Some false));
   (olift Bool.eqb (failed r6) (Some false));
   (olift Bool.eqb (failed r8) (Some false));
   (option_map negb (olift Bool.eqb (failed r10) (Some false)))]) = true.
Proof. vm_compute. reflexivity. Qed.
(** /repo/spdx/v2/v2_3/rdf/reader/parse_other_license_info_test.go 12 *)
Example v23_Test_rdfParser2_3_getExtractedLicensingInfoFromNode : forallb is_false (
  let g1 := MkGraph [(MkTriple (MkNode NIri ("http://anupam-VirtualBox/repo/SPDX2_time-1.9.tar.gz_1535120734-spdx.rdf#LicenseRef-Freeware")) ("http://www.w3.org/1999/02/22-rdf-syntax-ns#type") (MkNode NIri ("http://spdx.org/rdf/terms#ExtractedLicensingInfo")));
    (MkTriple (MkNode NIri ("http://anupam-VirtualBox/repo/SPDX2_time-1.9.tar.gz_1535120734-spdx.rdf#LicenseRef-Freeware")) ("http://spdx.org/rdf/terms#licenseID") (MkNode (NOther "LITERAL") ("LicenseRef-Freeware")));
    (MkTriple (MkNode NIri ("http://anupam-VirtualBox/repo/SPDX2_time-1.9.tar.gz_1535120734-spdx.rdf#LicenseRef-Freeware")) ("http://spdx.org/rdf/terms#name") (MkNode (NOther "LITERAL") ("freeware")));
    (MkTriple (MkNode NIri ("http://anupam-VirtualBox/repo/SPDX2_time-1.9.tar.gz_1535120734-spdx.rdf#LicenseRef-Freeware")) ("http://spdx.org/rdf/terms#extractedText") (MkNode (NOther "LITERAL") ("Software classified as freeware is licensed at no cost and is either fully functional for an unlimited time; or has only basic functions enabled with a fully functional version available commercially or as shareware.[8] In contrast to free software, the author usually restricts one or more rights of the user, including the rights to use, copy, distribute, modify and make derivative works of the software or extract the source code.[1][2][9][10] The software license may impose various additional restrictions on the type of use, e.g. only for personal use, private use, individual use, non-profit use, non-commercial use, academic use, educational use, use in charity or humanitarian organizations, non-military use, use by public authorities or various other combinations of these type of restrictions.[11] For instance, the license may be ""free for private, non-commercial use"". The software license may also impose various other restrictions, such as restricted use over a network, restricted use on a server, restricted use in a combination with some types of other software or with some hardware devices, prohibited distribution over the Internet other than linking to author's website, restricted distribution without author's consent, restricted number of copies, etc.")))] [(MkNode NIri ("http://anupam-VirtualBox/repo/SPDX2_time-1.9.tar.gz_1535120734-spdx.rdf#LicenseRef-Freeware"))] test_uri in
  let r2 := extracted_from_node g1 (MkNode NIri ("http://anupam-VirtualBox/repo/SPDX2_time-1.9.tar.gz_1535120734-spdx.rdf#LicenseRef-Freeware")) in
  let g3 := MkGraph [(MkTriple (MkNode NIri ("http://anupam-VirtualBox/repo/SPDX2_time-1.9.tar.gz_1535120734-spdx.rdf#LicenseRef-Freeware")) ("http://www.w3.org/1999/02/22-rdf-syntax-ns#type") (MkNode NIri ("http://spdx.org/rdf/terms#ExtractedLicensingInfo")));
    (MkTriple (MkNode NIri ("http://anupam-VirtualBox/repo/SPDX2_time-1.9.tar.gz_1535120734-spdx.rdf#LicenseRef-Freeware")) ("http://spdx.org/rdf/terms#licenseId") (MkNode (NOther "LITERAL") ("LicenseRef-Freeware")));
    (MkTriple (MkNode NIri ("http://anupam-VirtualBox/repo/SPDX2_time-1.9.tar.gz_1535120734-spdx.rdf#LicenseRef-Freeware")) ("http://spdx.org/rdf/terms#name") (MkNode (NOther "LITERAL") ("freeware")));
    (MkTriple (MkNode NIri ("http://anupam-VirtualBox/repo/SPDX2_time-1.9.tar.gz_1535120734-spdx.rdf#LicenseRef-Freeware")) ("http://spdx.org/rdf/terms#extractedText") (MkNode (NOther "LITERAL") ("Software classified as freeware is licensed at no cost and is either fully functional for an unlimited time; or has only basic functions enabled with a fully functional version available commercially or as shareware.[8] In contrast to free software, the author usually restricts one or more rights of the user, including the rights to use, copy, distribute, modify and make derivative works of the software or extract the source code.[1][2][9][10] The software license may impose various additional restrictions on the type of use, e.g. only for personal use, private use, individual use, non-profit use, non-commercial use, academic use, educational use, use in charity or humanitarian organizations, non-military use, use by public authorities or various other combinations of these type of restrictions.[11] For instance, the license may be ""free for private, non-commercial use"". The software license may also impose various other restrictions, such as restricted use over a network, restricted use on a server, restricted use in a combination with some types of other software or with some hardware devices, prohibited distribution over the Internet other than linking to author's website, restricted distribution without author's consent, restricted number of copies, etc.")))] [(MkNode NIri ("http://anupam-VirtualBox/repo/SPDX2_time-1.9.tar.gz_1535120734-spdx.rdf#LicenseRef-Freeware"))] test_uri in
  let r4 := extracted_from_node g3 (MkNode NIri ("http://anupam-VirtualBox/repo/SPDX2_time-1.9.tar.gz_1535120734-spdx.rdf#LicenseRef-Freeware")) in
  [(olift Bool.eqb (failed r2) (Some false));
   (option_map negb (olift Bool.eqb (failed r4) (Some false)))]) = true.
Proof. vm_compute. reflexivity. Qed.
(** /repo/spdx/v2/v2_3/rdf/reader/parse_package_test.go 14 *)
Example v23_Test_setPackageSupplier : forallb is_false (
  let r1 := package_actor ("NOASSERTION") in
  let r2 := package_actor ("noassertion") in
  let r3 := package_actor ("string without colon separator") in
  let r4 := package_actor ("Person: Rishabh Bhatnagar") in
  let r5 := package_actor ("Organization: SPDX") in
  let r6 := package_actor ("InvalidEntity: entity") in
  [(option_map negb (olift Bool.eqb (failed r1) (Some false)));
   (option_map negb (olift Bool.eqb (failed r2) (Some false)));
   (olift Bool.eqb (failed r3) (Some false));
   (option_map negb (olift Bool.eqb (failed r4) (Some false)));
   (option_map negb (olift Bool.eqb (failed r5) (Some false)));
   (olift Bool.eqb (failed r6) (Some false))]) = true.
Proof. vm_compute. reflexivity. Qed.
(** /repo/spdx/v2/v2_3/rdf/reader/parse_package_test.go 79 *)
Example v23_Test_setPackageOriginator : forallb is_false (
  let r1 := package_actor ("NOASSERTION") in
  let r2 := package_actor ("noassertion") in
  let r3 := package_actor ("string without colon separator") in
  let r4 := package_actor ("Person: Rishabh Bhatnagar") in
  let r5 := package_actor ("Organization: SPDX") in
  let r6 := package_actor ("InvalidEntity: entity") in
  [(option_map negb (olift Bool.eqb (failed r1) (Some false)));
   (option_map negb (olift Bool.eqb (failed r2) (Some false)));
   (olift Bool.eqb (failed r3) (Some false));
   (option_map negb (olift Bool.eqb (failed r4) (Some false)));
   (option_map negb (olift Bool.eqb (failed r5) (Some false)));
   (olift Bool.eqb (failed r6) (Some false))]) = true.
Proof. vm_compute. reflexivity. Qed.
(** /repo/spdx/v2/v2_3/rdf/reader/parse_package_test.go 144 *)
Example v23_Test_rdfParser2_3_setPackageVerificationCode : forallb is_false (
  let g1 := MkGraph [(MkTriple (MkNode (NOther "BLANK") ("N1")) ("http://www.w3.org/1999/02/22-rdf-syntax-ns#type") (MkNode NIri ("http://spdx.org/spdxdocs/spdx-example-444504E0-4F89-41D3-9A0C-0305E82C3301#spdx.PackageVerificationCode")));
    (MkTriple (MkNode (NOther "BLANK") ("N1")) ("http://spdx.org/rdf/terms#invalidPredicate") (MkNode (NOther "LITERAL") ("")));
    (MkTriple (MkNode (NOther "BLANK") ("N1")) ("http://spdx.org/rdf/terms#packageVerificationCodeValue") (MkNode (NOther "LITERAL") ("cbceb8b5689b75a584efe35587b5d41bd48820ce")));
    (MkTriple (MkNode (NOther "BLANK") ("N1")) ("http://spdx.org/rdf/terms#packageVerificationCodeExcludedFile") (MkNode (NOther "LITERAL") ("./package.spdx")))] [(MkNode (NOther "BLANK") ("N1"))] test_uri in
  let r2 := verification_from_node g1 (MkNode (NOther "BLANK") ("N1")) None in
  let g3 := MkGraph [(MkTriple (MkNode (NOther "BLANK") ("N1")) ("http://www.w3.org/1999/02/22-rdf-syntax-ns#type") (MkNode NIri ("http://spdx.org/spdxdocs/spdx-example-444504E0-4F89-41D3-9A0C-0305E82C3301#spdx.PackageVerificationCode")));
    (MkTriple (MkNode (NOther "BLANK") ("N1")) ("http://spdx.org/rdf/terms#packageVerificationCodeValue") (MkNode (NOther "LITERAL") ("cbceb8b5689b75a584efe35587b5d41bd48820ce")));
    (MkTriple (MkNode (NOther "BLANK") ("N1")) ("http://spdx.org/rdf/terms#packageVerificationCodeExcludedFile") (MkNode (NOther "LITERAL") ("./package.spdx")))] [(MkNode (NOther "BLANK") ("N1"))] test_uri in
  let r4 := verification_from_node g3 (MkNode (NOther "BLANK") ("N1")) None in
  [(olift Bool.eqb (failed r2) (Some false));
   (option_map negb (olift Bool.eqb (failed r4) (Some false)));
   (option_map negb (olift String.eqb (option_map (fun x => vc_Value x) (option_map (fun x => x) (value r4))) (Some ("cbceb8b5689b75a584efe35587b5d41bd48820ce"))))]) = true.
Proof. vm_compute. reflexivity. Qed.
(** /repo/spdx/v2/v2_3/rdf/reader/parse_package_test.go 188 *)
Example v23_Test_rdfParser2_3_getPackageExternalRef : forallb is_false (
  let g1 := MkGraph [(MkTriple (MkNode (NOther "BLANK") ("N1")) ("http://www.w3.org/1999/02/22-rdf-syntax-ns#type") (MkNode NIri ("http://spdx.org/rdf/terms#ExternalRef")));
    (MkTriple (MkNode (NOther "BLANK") ("N1")) ("http://spdx.org/rdf/terms#referenceLocator") (MkNode (NOther "LITERAL") ("cpe:2.3:a:pivotal_software:spring_framework:4.1.0:*:*:*:*:*:*:*")));
    (MkTriple (MkNode (NOther "BLANK") ("N1")) ("http://spdx.org/rdf/terms#referenceType") (MkNode NIri ("http://spdx.org/rdf/references/cpe23Type")));
    (MkTriple (MkNode NIri ("http://spdx.org/rdf/references/cpe23Type")) ("http://www.w3.org/1999/02/22-rdf-syntax-ns#type") (MkNode NIri ("http://spdx.org/rdf/terms#ReferenceType")));
    (MkTriple (MkNode (NOther "BLANK") ("N1")) ("http://spdx.org/rdf/terms#referenceCategory") (MkNode (NOther "RESOURCELITERAL") ("http://spdx.org/rdf/terms#referenceCategory_invalid")))] [(MkNode (NOther "BLANK") ("N1"))] test_uri in
  let r2 := external_ref_from_node g1 (MkNode (NOther "BLANK") ("N1")) in
  let g3 := MkGraph [(MkTriple (MkNode (NOther "BLANK") ("N1")) ("http://www.w3.org/1999/02/22-rdf-syntax-ns#type") (MkNode NIri ("http://spdx.org/rdf/terms#ExternalRef")));
    (MkTriple (MkNode (NOther "BLANK") ("N1")) ("http://spdx.org/rdf/terms#unknownPredicate") (MkNode (NOther "LITERAL") ("")));
    (MkTriple (MkNode (NOther "BLANK") ("N1")) ("http://spdx.org/rdf/terms#referenceLocator") (MkNode (NOther "LITERAL") ("cpe:2.3:a:pivotal_software:spring_framework:4.1.0:*:*:*:*:*:*:*")));
    (MkTriple (MkNode (NOther "BLANK") ("N1")) ("http://spdx.org/rdf/terms#referenceType") (MkNode NIri ("http://spdx.org/rdf/references/cpe23Type")));
    (MkTriple (MkNode NIri ("http://spdx.org/rdf/references/cpe23Type")) ("http://www.w3.org/1999/02/22-rdf-syntax-ns#type") (MkNode NIri ("http://spdx.org/rdf/terms#ReferenceType")));
    (MkTriple (MkNode (NOther "BLANK") ("N1")) ("http://spdx.org/rdf/terms#referenceCategory") (MkNode (NOther "RESOURCELITERAL") ("http://spdx.org/rdf/terms#referenceCategory_security")))] [(MkNode (NOther "BLANK") ("N1"))] test_uri in
  let r4 := external_ref_from_node g3 (MkNode (NOther "BLANK") ("N1")) in
  let g5 := MkGraph [(MkTriple (MkNode (NOther "BLANK") ("N1")) ("http://www.w3.org/1999/02/22-rdf-syntax-ns#type") (MkNode NIri ("http://spdx.org/rdf/terms#ExternalRef")));
    (MkTriple (MkNode (NOther "BLANK") ("N1")) ("http://spdx.org/rdf/terms#referenceLocator") (MkNode (NOther "LITERAL") ("cpe:2.3:a:pivotal_software:spring_framework:4.1.0:*:*:*:*:*:*:*")));
    (MkTriple (MkNode (NOther "BLANK") ("N1")) ("http://spdx.org/rdf/terms#referenceType") (MkNode NIri ("http://spdx.org/rdf/references/cpe23Type")));
    (MkTriple (MkNode NIri ("http://spdx.org/rdf/references/cpe23Type")) ("http://www.w3.org/1999/02/22-rdf-syntax-ns#type") (MkNode NIri ("http://spdx.org/rdf/terms#ReferenceType")));
    (MkTriple (MkNode (NOther "BLANK") ("N1")) ("http://spdx.org/rdf/terms#referenceCategory") (MkNode (NOther "RESOURCELITERAL") ("http://spdx.org/rdf/terms#referenceCategory_security")));
    (MkTriple (MkNode (NOther "BLANK") ("N1")) ("http://www.w3.org/2000/01/rdf-schema#comment") (MkNode (NOther "LITERAL") ("comment")))] [(MkNode (NOther "BLANK") ("N1"))] test_uri in
  let r6 := external_ref_from_node g5 (MkNode (NOther "BLANK") ("N1")) in
  let g7 := MkGraph [(MkTriple (MkNode (NOther "BLANK") ("N1")) ("http://www.w3.org/1999/02/22-rdf-syntax-ns#type") (MkNode NIri ("http://spdx.org/rdf/terms#ExternalRef")));
    (MkTriple (MkNode (NOther "BLANK") ("N1")) ("http://spdx.org/rdf/terms#referenceLocator") (MkNode (NOther "LITERAL") ("cpe:2.3:a:pivotal_software:spring_framework:4.1.0:*:*:*:*:*:*:*")));
    (MkTriple (MkNode (NOther "BLANK") ("N1")) ("http://spdx.org/rdf/terms#referenceType") (MkNode NIri ("http://spdx.org/rdf/references/cpe23Type")));
    (MkTriple (MkNode NIri ("http://spdx.org/rdf/references/cpe23Type")) ("http://www.w3.org/1999/02/22-rdf-syntax-ns#type") (MkNode NIri ("http://spdx.org/rdf/terms#ReferenceType")));
    (MkTriple (MkNode (NOther "BLANK") ("N1")) ("http://spdx.org/rdf/terms#referenceCategory") (MkNode (NOther "RESOURCELITERAL") ("http://spdx.org/rdf/terms#referenceCategory_packageManager")));
    (MkTriple (MkNode (NOther "BLANK") ("N1")) ("http://www.w3.org/2000/01/rdf-schema#comment") (MkNode (NOther "LITERAL") ("comment")))] [(MkNode (NOther "BLANK") ("N1"))] test_uri in
  let r8 := external_ref_from_node g7 (MkNode (NOther "BLANK") ("N1")) in
  let g9 := MkGraph [(MkTriple (MkNode (NOther "BLANK") ("N1")) ("http://www.w3.org/1999/02/22-rdf-syntax-ns#type") (MkNode NIri ("http://spdx.org/rdf/terms#ExternalRef")));
    (MkTriple (MkNode (NOther "BLANK") ("N1")) ("http://spdx.org/rdf/terms#referenceLocator") (MkNode (NOther "LITERAL") ("cpe:2.3:a:pivotal_software:spring_framework:4.1.0:*:*:*:*:*:*:*")));
    (MkTriple (MkNode (NOther "BLANK") ("N1")) ("http://spdx.org/rdf/terms#referenceType") (MkNode NIri ("http://spdx.org/rdf/references/cpe23Type")));
    (MkTriple (MkNode NIri ("http://spdx.org/rdf/references/cpe23Type")) ("http://www.w3.org/1999/02/22-rdf-syntax-ns#type") (MkNode NIri ("http://spdx.org/rdf/terms#ReferenceType")));
    (MkTriple (MkNode (NOther "BLANK") ("N1")) ("http://spdx.org/rdf/terms#referenceCategory") (MkNode (NOther "RESOURCELITERAL") ("http://spdx.org/rdf/terms#referenceCategory_other")));
    (MkTriple (MkNode (NOther "BLANK") ("N1")) ("http://www.w3.org/2000/01/rdf-schema#comment") (MkNode (NOther "LITERAL") ("comment")))] [(MkNode (NOther "BLANK") ("N1"))] test_uri in
  let r10 := external_ref_from_node g9 (MkNode (NOther "BLANK") ("N1")) in
  [(olift Bool.eqb (failed r2) (Some false));
   (olift Bool.eqb (failed r4) (Some false));
   (option_map negb (olift Bool.eqb (failed r6) (Some false)));
   (option_map negb (olift Bool.eqb (failed r8) (Some false)));
   (option_map negb (olift Bool.eqb (failed r10) (Some false)))]) = true.
Proof. vm_compute. reflexivity. Qed.
(** /repo/spdx/v2/v2_3/rdf/reader/parse_package_test.go 306 *)
Example v23_Test_rdfParser2_3_getPrimaryPackagePurpose : forallb is_false (
  [(option_map negb (olift String.eqb (Some (primary_purpose ("packagePurpose_container"))) (Some ("CONTAINER"))));
   (option_map negb (olift String.eqb (Some (primary_purpose ("packagePurpose_operating_system"))) (Some ("OPERATING-SYSTEM"))));
   (option_map negb (olift String.eqb (Some (primary_purpose ("packagePurpose_invalid"))) (Some (""))))]) = true.
Proof. vm_compute. reflexivity. Qed.
(** /repo/spdx/v2/v2_3/rdf/reader/parse_package_test.go 326 *)
Example v23_Test_rdfParser2_3_getPackageFromNode : forallb is_false (
  let g1 := MkGraph [(MkTriple (MkNode NIri ("http://anupam-VirtualBox/repo/SPDX2_time-1.9#upload2")) ("http://www.w3.org/1999/02/22-rdf-syntax-ns#type") (MkNode NIri ("http://spdx.org/rdf/terms#Package")));
    (MkTriple (MkNode NIri ("http://anupam-VirtualBox/repo/SPDX2_time-1.9#upload2")) ("http://spdx.org/rdf/terms#name") (MkNode (NOther "LITERAL") ("time-1.9.tar.gz")))] [(MkNode NIri ("http://anupam-VirtualBox/repo/SPDX2_time-1.9#upload2"))] test_uri in
  let r2 := get_package V23 g1 (MkNode NIri ("http://anupam-VirtualBox/repo/SPDX2_time-1.9#upload2")) init_state in
  let s3 := match r2 with Ok x => snd x | _ => init_state end in
  let g4 := MkGraph [(MkTriple (MkNode NIri ("http://anupam-VirtualBox/repo/SPDX2_time-1.9#SPDXRef-upload2")) ("http://www.w3.org/1999/02/22-rdf-syntax-ns#type") (MkNode NIri ("http://spdx.org/rdf/terms#Package")));
    (MkTriple (MkNode NIri ("http://anupam-VirtualBox/repo/SPDX2_time-1.9#SPDXRef-upload2")) ("http://spdx.org/rdf/terms#licenseConcluded") (MkNode (NOther "RESOURCELITERAL") ("http://spdx.org/licenses/IPL-3.0")))] [(MkNode NIri ("http://anupam-VirtualBox/repo/SPDX2_time-1.9#SPDXRef-upload2"))] test_uri in
  let r5 := get_package V23 g4 (MkNode NIri ("http://anupam-VirtualBox/repo/SPDX2_time-1.9#SPDXRef-upload2")) init_state in
  let s6 := match r5 with Ok x => snd x | _ => init_state end in
  let g7 := MkGraph [(MkTriple (MkNode NIri ("http://anupam-VirtualBox/repo/SPDX2_time-1.9#SPDXRef-upload2")) ("http://www.w3.org/1999/02/22-rdf-syntax-ns#type") (MkNode NIri ("http://spdx.org/rdf/terms#Package")));
    (MkTriple (MkNode NIri ("http://anupam-VirtualBox/repo/SPDX2_time-1.9#SPDXRef-upload2")) ("http://spdx.org/rdf/terms#licenseDeclared") (MkNode (NOther "RESOURCELITERAL") ("http://spdx.org/licenses/IPL-3.0")))] [(MkNode NIri ("http://anupam-VirtualBox/repo/SPDX2_time-1.9#SPDXRef-upload2"))] test_uri in
  let r8 := get_package V23 g7 (MkNode NIri ("http://anupam-VirtualBox/repo/SPDX2_time-1.9#SPDXRef-upload2")) init_state in
  let s9 := match r8 with Ok x => snd x | _ => init_state end in
  let g10 := MkGraph [(MkTriple (MkNode NIri ("http://anupam-VirtualBox/repo/SPDX2_time-1.9#SPDXRef-upload2")) ("http://www.w3.org/1999/02/22-rdf-syntax-ns#type") (MkNode NIri ("http://spdx.org/rdf/terms#Package")));
    (MkTriple (MkNode NIri ("http://anupam-VirtualBox/repo/SPDX2_time-1.9#SPDXRef-upload2")) ("http://spdx.org/rdf/terms#externalRef") (MkNode (NOther "BLANK") ("N1")));
    (MkTriple (MkNode (NOther "BLANK") ("N1")) ("http://www.w3.org/1999/02/22-rdf-syntax-ns#type") (MkNode NIri ("http://spdx.org/rdf/terms#ExternalRef")));
    (MkTriple (MkNode (NOther "BLANK") ("N1")) ("http://spdx.org/rdf/terms#referenceLocator") (MkNode (NOther "LITERAL") ("cpe:2.3:a:pivotal_software:spring_framework:4.1.0:*:*:*:*:*:*:*")));
    (MkTriple (MkNode (NOther "BLANK") ("N1")) ("http://spdx.org/rdf/terms#referenceType") (MkNode NIri ("http://spdx.org/rdf/references/cpe23Type")));
    (MkTriple (MkNode NIri ("http://spdx.org/rdf/references/cpe23Type")) ("http://www.w3.org/1999/02/22-rdf-syntax-ns#type") (MkNode NIri ("http://spdx.org/rdf/terms#ReferenceType")));
    (MkTriple (MkNode (NOther "BLANK") ("N1")) ("http://spdx.org/rdf/terms#referenceCategory") (MkNode (NOther "RESOURCELITERAL") ("http://spdx.org/rdf/terms#referenceCategory_invalid")))] [(MkNode NIri ("http://anupam-VirtualBox/repo/SPDX2_time-1.9#SPDXRef-upload2"))] test_uri in
  let r11 := get_package V23 g10 (MkNode NIri ("http://anupam-VirtualBox/repo/SPDX2_time-1.9#SPDXRef-upload2")) init_state in
  let s12 := match r11 with Ok x => snd x | _ => init_state end in
  let g13 := MkGraph [(MkTriple (MkNode NIri ("http://anupam-VirtualBox/repo/SPDX2_time-1.9#SPDXRef-upload2")) ("http://www.w3.org/1999/02/22-rdf-syntax-ns#type") (MkNode NIri ("http://spdx.org/rdf/terms#Package")));
    (MkTriple (MkNode NIri ("http://anupam-VirtualBox/repo/SPDX2_time-1.9#SPDXRef-upload2")) ("http://spdx.org/rdf/terms#hasFile") (MkNode NIri ("http://anupam-VirtualBox/repo/SPDX2_time-1.9.tar.gz_1535120734-spdx.rdf#item8")));
    (MkTriple (MkNode NIri ("http://anupam-VirtualBox/repo/SPDX2_time-1.9.tar.gz_1535120734-spdx.rdf#item8")) ("http://www.w3.org/1999/02/22-rdf-syntax-ns#type") (MkNode NIri ("http://spdx.org/rdf/terms#File")))] [(MkNode NIri ("http://anupam-VirtualBox/repo/SPDX2_time-1.9#SPDXRef-upload2"))] test_uri in
  let r14 := get_package V23 g13 (MkNode NIri ("http://anupam-VirtualBox/repo/SPDX2_time-1.9#SPDXRef-upload2")) init_state in
  let s15 := match r14 with Ok x => snd x | _ => init_state end in
  let g16 := MkGraph [(MkTriple (MkNode NIri ("http://anupam-VirtualBox/repo/SPDX2_time-1.9#SPDXRef-upload2")) ("http://www.w3.org/1999/02/22-rdf-syntax-ns#type") (MkNode NIri ("http://spdx.org/rdf/terms#Package")));
    (MkTriple (MkNode NIri ("http://anupam-VirtualBox/repo/SPDX2_time-1.9#SPDXRef-upload2")) ("http://spdx.org/rdf/terms#hasFiles") (MkNode NIri ("http://anupam-VirtualBox/repo/SPDX2_time-1.9.tar.gz_1535120734-spdx.rdf#item8")));
    (MkTriple (MkNode NIri ("http://anupam-VirtualBox/repo/SPDX2_time-1.9.tar.gz_1535120734-spdx.rdf#item8")) ("http://www.w3.org/1999/02/22-rdf-syntax-ns#type") (MkNode NIri ("http://spdx.org/rdf/terms#File")))] [(MkNode NIri ("http://anupam-VirtualBox/repo/SPDX2_time-1.9#SPDXRef-upload2"))] test_uri in
  let r17 := get_package V23 g16 (MkNode NIri ("http://anupam-VirtualBox/repo/SPDX2_time-1.9#SPDXRef-upload2")) init_state in
  let s18 := match r17 with Ok x => snd x | _ => init_state end in
  let g19 := MkGraph [(MkTriple (MkNode NIri ("http://anupam-VirtualBox/repo/SPDX2_time-1.9#SPDXRef-upload2")) ("http://www.w3.org/1999/02/22-rdf-syntax-ns#type") (MkNode NIri ("http://spdx.org/rdf/terms#Package")));
    (MkTriple (MkNode NIri ("http://anupam-VirtualBox/repo/SPDX2_time-1.9#SPDXRef-upload2")) ("http://spdx.org/rdf/terms#annotation") (MkNode (NOther "BLANK") ("N1")));
    (MkTriple (MkNode (NOther "BLANK") ("N1")) ("http://www.w3.org/1999/02/22-rdf-syntax-ns#type") (MkNode NIri ("http://spdx.org/rdf/terms#Annotation")));
    (MkTriple (MkNode (NOther "BLANK") ("N1")) ("http://spdx.org/rdf/terms#unknownAttribute") (MkNode (NOther "LITERAL") ("")))] [(MkNode NIri ("http://anupam-VirtualBox/repo/SPDX2_time-1.9#SPDXRef-upload2"))] test_uri in
  let r20 := get_package V23 g19 (MkNode NIri ("http://anupam-VirtualBox/repo/SPDX2_time-1.9#SPDXRef-upload2")) init_state in
  let s21 := match r20 with Ok x => snd x | _ => init_state end in
  let g22 := MkGraph [(MkTriple (MkNode NIri ("http://anupam-VirtualBox/repo/SPDX2_time-1.9#SPDXRef-upload2")) ("http://www.w3.org/1999/02/22-rdf-syntax-ns#type") (MkNode NIri ("http://spdx.org/rdf/terms#Package")));
    (MkTriple (MkNode NIri ("http://anupam-VirtualBox/repo/SPDX2_time-1.9#SPDXRef-upload2")) ("http://usefulinc.com/ns/doap#homepage") (MkNode (NOther "LITERAL") ("u r i")))] [(MkNode NIri ("http://anupam-VirtualBox/repo/SPDX2_time-1.9#SPDXRef-upload2"))] test_uri in
  let r23 := get_package V23 g22 (MkNode NIri ("http://anupam-VirtualBox/repo/SPDX2_time-1.9#SPDXRef-upload2")) init_state in
  let s24 := match r23 with Ok x => snd x | _ => init_state end in
  let g25 := MkGraph [(MkTriple (MkNode NIri ("http://anupam-VirtualBox/repo/SPDX2_time-1.9#SPDXRef-upload2")) ("http://www.w3.org/1999/02/22-rdf-syntax-ns#type") (MkNode NIri ("http://spdx.org/rdf/terms#Package")));
    (MkTriple (MkNode NIri ("http://anupam-VirtualBox/repo/SPDX2_time-1.9#SPDXRef-upload2")) ("http://spdx.org/rdf/terms#name") (MkNode (NOther "LITERAL") ("Test Package")))] [(MkNode NIri ("http://anupam-VirtualBox/repo/SPDX2_time-1.9#SPDXRef-upload2"))] test_uri in
  let r26 := get_package V23 g25 (MkNode NIri ("http://anupam-VirtualBox/repo/SPDX2_time-1.9#SPDXRef-upload2")) init_state in
  let s27 := match r26 with Ok x => snd x | _ => init_state end in
  [(olift Bool.eqb (failed r2) (Some false));
   (olift Bool.eqb (failed r5) (Some false));
   (olift Bool.eqb (failed r8) (Some false));
   (olift Bool.eqb (failed r11) (Some false));
   (olift Bool.eqb (failed r14) (Some false));
   (olift Bool.eqb (failed r17) (Some false));
   (olift Bool.eqb (failed r20) (Some false));
   (olift Bool.eqb (failed r23) (Some false));
   (option_map negb (olift Bool.eqb (failed r26) (Some false)))]) = true.
Proof. vm_compute. reflexivity. Qed.
(** /repo/spdx/v2/v2_3/rdf/reader/parse_package_test.go 605 *)
Example v23_Test_rdfParser2_3_setPackageChecksum : forallb is_false (
  let g1 := MkGraph [(MkTriple (MkNode (NOther "BLANK") ("N1")) ("http://www.w3.org/1999/02/22-rdf-syntax-ns#type") (MkNode NIri ("http://spdx.org/rdf/terms#Checksum")));
    (MkTriple (MkNode (NOther "BLANK") ("N1")) ("http://spdx.org/rdf/terms#checksumValue") (MkNode (NOther "LITERAL") ("2fd4e1c67a2d28fced849ee1bb76e7391b93eb12")));
    (MkTriple (MkNode (NOther "BLANK") ("N1")) ("http://spdx.org/rdf/terms#algorithm") (MkNode (NOther "RESOURCELITERAL") ("http://spdx.org/rdf/terms#checksumAlgorithm_sha999")))] [(MkNode (NOther "BLANK") ("N1"))] test_uri in
  let r2 := element_checksum V23 g1 (MkNode (NOther "BLANK") ("N1")) in
  let g3 := MkGraph [(MkTriple (MkNode (NOther "BLANK") ("N1")) ("http://www.w3.org/1999/02/22-rdf-syntax-ns#type") (MkNode NIri ("http://spdx.org/rdf/terms#Checksum")));
    (MkTriple (MkNode (NOther "BLANK") ("N1")) ("http://spdx.org/rdf/terms#checksumValue") (MkNode (NOther "LITERAL") ("2fd4e1c67a2d28fced849ee1bb76e7391b93eb12")));
    (MkTriple (MkNode (NOther "BLANK") ("N1")) ("http://spdx.org/rdf/terms#algorithm") (MkNode (NOther "RESOURCELITERAL") ("http://spdx.org/rdf/terms#checksumAlgorithm_sha2000")))] [(MkNode (NOther "BLANK") ("N1"))] test_uri in
  let r4 := element_checksum V23 g3 (MkNode (NOther "BLANK") ("N1")) in
  let g5 := MkGraph [(MkTriple (MkNode (NOther "BLANK") ("N1")) ("http://www.w3.org/1999/02/22-rdf-syntax-ns#type") (MkNode NIri ("http://spdx.org/rdf/terms#Checksum")));
    (MkTriple (MkNode (NOther "BLANK") ("N1")) ("http://spdx.org/rdf/terms#checksumValue") (MkNode (NOther "LITERAL") ("2fd4e1c67a2d28fced849ee1bb76e7391b93eb12")));
    (MkTriple (MkNode (NOther "BLANK") ("N1")) ("http://spdx.org/rdf/terms#algorithm") (MkNode (NOther "RESOURCELITERAL") ("http://spdx.org/rdf/terms#checksumAlgorithm_sha1")))] [(MkNode (NOther "BLANK") ("N1"))] test_uri in
  let r6 := element_checksum V23 g5 (MkNode (NOther "BLANK") ("N1")) in
  [(olift Bool.eqb (failed r2) (Some false));
   (olift Bool.eqb (failed r4) (Some false));
   (option_map negb (olift Bool.eqb (failed r6) (Some false)))]) = true.
Proof. vm_compute. reflexivity. Qed.
(** /repo/spdx/v2/v2_3/rdf/reader/parse_package_test.go 765 *)
Example v23_Test_setFilesAnalyzed : forallb is_false (
  let r1 := bool_from_string ("no") in
  let r2 := bool_from_string ("true") in
  [(olift Bool.eqb (failed r1) (Some false));
   (option_map negb (olift Bool.eqb (failed r2) (Some false)));
   (option_map negb (option_map (fun x => x) (value r2)))]) = true.
Proof. vm_compute. reflexivity. Qed.
(** /repo/spdx/v2/v2_3/rdf/reader/parse_relationship_test.go 14 *)
Example v23_Test_getReferenceFromURI : forallb is_false (
  let r1 := reference_from_uri ("http://spdx.org/rdf/terms#NOASSERTION") in
  let r2 := reference_from_uri ("http://spdx.org/rdf/terms#NONE") in
  let r3 := reference_from_uri ("http://spdx.org/rdf/terms#SPDXRef-item1") in
  let r4 := reference_from_uri ("http://spdx.org/rdf/terms#item1") in
  [(option_map negb (olift Bool.eqb (failed r1) (Some false)));
   (option_map negb (olift String.eqb (option_map (fun x => de_DocumentRefID x) (value r1)) (Some (""))));
   (option_map negb (olift String.eqb (option_map (fun x => de_ElementRefID x) (value r1)) (Some ("NOASSERTION"))));
   (option_map negb (olift Bool.eqb (failed r2) (Some false)));
   (option_map negb (olift String.eqb (option_map (fun x => de_DocumentRefID x) (value r2)) (Some (""))));
   (option_map negb (olift String.eqb (option_map (fun x => de_ElementRefID x) (value r2)) (Some ("NONE"))));
   (option_map negb (olift Bool.eqb (failed r3) (Some false)));
   (option_map negb (olift String.eqb (option_map (fun x => de_DocumentRefID x) (value r3)) (Some (""))));
   (option_map negb (olift String.eqb (option_map (fun x => de_ElementRefID x) (value r3)) (Some ("item1"))));
   (olift Bool.eqb (failed r4) (Some false))]) = true.
Proof. vm_compute. reflexivity. Qed.
(** /repo/spdx/v2/v2_3/rdf/reader/parse_relationship_test.go 58 *)
Example v23_Test_getRelationshipTypeFromURI : forallb is_false (
  let r1 := relationship_type_from_uri ("http://spdx.org/rdf/terms#relationshipType_expandedFromArchive") in
  let r2 := relationship_type_from_uri ("http://spdx.org/rdf/terms#relationshipType_invalidRelationship") in
  [(option_map negb (olift Bool.eqb (failed r1) (Some false)));
   (option_map negb (olift String.eqb (value r1) (Some ("expandedFromArchive"))));
   (olift Bool.eqb (failed r2) (Some false))]) = true.
Proof. vm_compute. reflexivity. Qed.
(** /repo/spdx/v2/v2_3/rdf/reader/parse_relationship_test.go 77 *)
Example v23_Test_rdfParser2_3_parseRelatedElementFromTriple : forallb is_false (
  let g1 := MkGraph [(MkTriple (MkNode (NOther "BLANK") ("N1")) ("http://www.w3.org/1999/02/22-rdf-syntax-ns#type") (MkNode NIri ("http://spdx.org/rdf/terms#Relationship")));
    (MkTriple (MkNode (NOther "BLANK") ("N1")) ("http://spdx.org/rdf/terms#relatedSpdxElement") (MkNode NIri ("http://spdx.org/spdxdocs/spdx-example-444504E0-4F89-41D3-9A0C-0305E82C3301#SPDXRef-Saxon")));
    (MkTriple (MkNode NIri ("http://spdx.org/spdxdocs/spdx-example-444504E0-4F89-41D3-9A0C-0305E82C3301#SPDXRef-Saxon")) ("http://www.w3.org/1999/02/22-rdf-syntax-ns#type") (MkNode NIri ("http://spdx.org/rdf/terms#Package")))] [(MkNode (NOther "BLANK") ("N1"))] test_uri in
  let r2 := related_element ( go V23 g1 ( enough g1 ) ) (MkTriple (MkNode NIri ("http://spdx.org/spdxdocs/spdx-example-444504E0-4F89-41D3-9A0C-0305E82C3301#SPDXRef-Saxon")) ("http://www.w3.org/1999/02/22-rdf-syntax-ns#type") (MkNode NIri ("http://spdx.org/rdf/terms#Package"))) zero_Relationship init_state in
  let s3 := match r2 with Ok x => snd x | _ => init_state end in
  let g4 := MkGraph [(MkTriple (MkNode (NOther "BLANK") ("N1")) ("http://www.w3.org/1999/02/22-rdf-syntax-ns#type") (MkNode NIri ("http://spdx.org/rdf/terms#Relationship")));
    (MkTriple (MkNode (NOther "BLANK") ("N1")) ("http://spdx.org/rdf/terms#relatedSpdxElement") (MkNode NIri ("http://spdx.org/spdxdocs/spdx-example-444504E0-4F89-41D3-9A0C-0305E82C3301#Saxon")));
    (MkTriple (MkNode NIri ("http://spdx.org/spdxdocs/spdx-example-444504E0-4F89-41D3-9A0C-0305E82C3301#Saxon")) ("http://www.w3.org/1999/02/22-rdf-syntax-ns#type") (MkNode NIri ("http://spdx.org/rdf/terms#Package")))] [(MkNode (NOther "BLANK") ("N1"))] test_uri in
  let r5 := related_element ( go V23 g4 ( enough g4 ) ) (MkTriple (MkNode NIri ("http://spdx.org/spdxdocs/spdx-example-444504E0-4F89-41D3-9A0C-0305E82C3301#Saxon")) ("http://www.w3.org/1999/02/22-rdf-syntax-ns#type") (MkNode NIri ("http://spdx.org/rdf/terms#Package"))) zero_Relationship init_state in
  let s6 := match r5 with Ok x => snd x | _ => init_state end in
  let g7 := MkGraph [(MkTriple (MkNode (NOther "BLANK") ("N1")) ("http://www.w3.org/1999/02/22-rdf-syntax-ns#type") (MkNode NIri ("http://spdx.org/rdf/terms#Relationship")));
    (MkTriple (MkNode (NOther "BLANK") ("N1")) ("http://spdx.org/rdf/terms#relatedSpdxElement") (MkNode NIri ("http://spdx.org/spdxdocs/spdx-example-444504E0-4F89-41D3-9A0C-0305E82C3301#SPDXRef-Saxon")));
    (MkTriple (MkNode NIri ("http://spdx.org/spdxdocs/spdx-example-444504E0-4F89-41D3-9A0C-0305E82C3301#SPDXRef-Saxon")) ("http://www.w3.org/1999/02/22-rdf-syntax-ns#type") (MkNode NIri ("http://spdx.org/rdf/terms#File")))] [(MkNode (NOther "BLANK") ("N1"))] test_uri in
  let r8 := related_element ( go V23 g7 ( enough g7 ) ) (MkTriple (MkNode NIri ("http://spdx.org/spdxdocs/spdx-example-444504E0-4F89-41D3-9A0C-0305E82C3301#SPDXRef-Saxon")) ("http://www.w3.org/1999/02/22-rdf-syntax-ns#type") (MkNode NIri ("http://spdx.org/rdf/terms#File"))) zero_Relationship init_state in
  let s9 := match r8 with Ok x => snd x | _ => init_state end in
  let g10 := MkGraph [(MkTriple (MkNode (NOther "BLANK") ("N1")) ("http://www.w3.org/1999/02/22-rdf-syntax-ns#type") (MkNode NIri ("http://spdx.org/rdf/terms#Relationship")));
    (MkTriple (MkNode (NOther "BLANK") ("N1")) ("http://spdx.org/rdf/terms#relatedSpdxElement") (MkNode NIri ("http://spdx.org/spdxdocs/spdx-example-444504E0-4F89-41D3-9A0C-0305E82C3301#Saxon")));
    (MkTriple (MkNode NIri ("http://spdx.org/spdxdocs/spdx-example-444504E0-4F89-41D3-9A0C-0305E82C3301#Saxon")) ("http://www.w3.org/1999/02/22-rdf-syntax-ns#type") (MkNode NIri ("http://spdx.org/rdf/terms#File")))] [(MkNode (NOther "BLANK") ("N1"))] test_uri in
  let r11 := related_element ( go V23 g10 ( enough g10 ) ) (MkTriple (MkNode NIri ("http://spdx.org/spdxdocs/spdx-example-444504E0-4F89-41D3-9A0C-0305E82C3301#Saxon")) ("http://www.w3.org/1999/02/22-rdf-syntax-ns#type") (MkNode NIri ("http://spdx.org/rdf/terms#File"))) zero_Relationship init_state in
  let s12 := match r11 with Ok x => snd x | _ => init_state end in
  let g13 := MkGraph [(MkTriple (MkNode (NOther "BLANK") ("N1")) ("http://www.w3.org/1999/02/22-rdf-syntax-ns#type") (MkNode NIri ("http://spdx.org/rdf/terms#Relationship")));
    (MkTriple (MkNode (NOther "BLANK") ("N1")) ("http://spdx.org/rdf/terms#relatedSpdxElement") (MkNode NIri ("http://spdx.org/spdxdocs/spdx-example-444504E0-4F89-41D3-9A0C-0305E82C3301#SPDXRef-File")));
    (MkTriple (MkNode NIri ("http://spdx.org/spdxdocs/spdx-example-444504E0-4F89-41D3-9A0C-0305E82C3301#SPDXRef-File")) ("http://www.w3.org/1999/02/22-rdf-syntax-ns#type") (MkNode NIri ("http://spdx.org/rdf/terms#SpdxElement")))] [(MkNode (NOther "BLANK") ("N1"))] test_uri in
  let r14 := related_element ( go V23 g13 ( enough g13 ) ) (MkTriple (MkNode NIri ("http://spdx.org/spdxdocs/spdx-example-444504E0-4F89-41D3-9A0C-0305E82C3301#SPDXRef-File")) ("http://www.w3.org/1999/02/22-rdf-syntax-ns#type") (MkNode NIri ("http://spdx.org/rdf/terms#SpdxElement"))) zero_Relationship init_state in
  let s15 := match r14 with Ok x => snd x | _ => init_state end in
  let g16 := MkGraph [(MkTriple (MkNode (NOther "BLANK") ("N1")) ("http://www.w3.org/1999/02/22-rdf-syntax-ns#type") (MkNode NIri ("http://spdx.org/rdf/terms#Relationship")));
    (MkTriple (MkNode (NOther "BLANK") ("N1")) ("http://spdx.org/rdf/terms#relatedSpdxElement") (MkNode NIri ("http://spdx.org/spdxdocs/spdx-example-444504E0-4F89-41D3-9A0C-0305E82C3301#SPDXRef-:File")));
    (MkTriple (MkNode NIri ("http://spdx.org/spdxdocs/spdx-example-444504E0-4F89-41D3-9A0C-0305E82C3301#SPDXRef-:File")) ("http://www.w3.org/1999/02/22-rdf-syntax-ns#type") (MkNode NIri ("http://spdx.org/rdf/terms#SpdxElement")))] [(MkNode (NOther "BLANK") ("N1"))] test_uri in
  let r17 := related_element ( go V23 g16 ( enough g16 ) ) (MkTriple (MkNode NIri ("http://spdx.org/spdxdocs/spdx-example-444504E0-4F89-41D3-9A0C-0305E82C3301#SPDXRef-:File")) ("http://www.w3.org/1999/02/22-rdf-syntax-ns#type") (MkNode NIri ("http://spdx.org/rdf/terms#SpdxElement"))) zero_Relationship init_state in
  let s18 := match r17 with Ok x => snd x | _ => init_state end in
  [(option_map negb (olift Bool.eqb (failed r2) (Some false)));
   (option_map negb (option_map (fun x => String.eqb (de_DocumentRefID x) ("") && String.eqb (de_ElementRefID x) ("") && String.eqb (de_SpecialID x) ("")) (option_map (fun x => r_RefA (fst x)) (value r2))));
   (option_map negb (option_map (fun x => String.eqb (de_DocumentRefID x) ("") && String.eqb (de_ElementRefID x) ("Saxon") && String.eqb (de_SpecialID x) ("")) (option_map (fun x => r_RefB (fst x)) (value r2))));
   (olift Bool.eqb (failed r5) (Some false));
   (option_map negb (olift Bool.eqb (failed r8) (Some false)));
   (option_map negb (option_map (fun x => String.eqb (de_DocumentRefID x) ("") && String.eqb (de_ElementRefID x) ("") && String.eqb (de_SpecialID x) ("")) (option_map (fun x => r_RefA (fst x)) (value r8))));
   (option_map negb (option_map (fun x => String.eqb (de_DocumentRefID x) ("") && String.eqb (de_ElementRefID x) ("Saxon") && String.eqb (de_SpecialID x) ("")) (option_map (fun x => r_RefB (fst x)) (value r8))));
   (olift Bool.eqb (failed r11) (Some false));
   (option_map negb (olift Bool.eqb (failed r14) (Some false)));
   (option_map negb (option_map (fun x => String.eqb (de_DocumentRefID x) ("") && String.eqb (de_ElementRefID x) ("") && String.eqb (de_SpecialID x) ("")) (option_map (fun x => r_RefA (fst x)) (value r14))));
   (option_map negb (option_map (fun x => String.eqb (de_DocumentRefID x) ("") && String.eqb (de_ElementRefID x) ("File") && String.eqb (de_SpecialID x) ("")) (option_map (fun x => r_RefB (fst x)) (value r14))));
   (olift Bool.eqb (failed r17) (Some false))]) = true.
Proof. vm_compute. reflexivity. Qed.
(** /repo/spdx/v2/v2_3/rdf/reader/parse_relationship_test.go 211 *)
Example v23_Test_rdfParser2_3_parseRelationship : forallb is_false (
  let g1 := MkGraph [(MkTriple (MkNode (NOther "BLANK") ("N1")) ("http://www.w3.org/1999/02/22-rdf-syntax-ns#type") (MkNode NIri ("http://spdx.org/rdf/terms#File")));
    (MkTriple (MkNode (NOther "BLANK") ("N1")) ("http://spdx.org/rdf/terms#relationship") (MkNode (NOther "BLANK") ("N2")));
    (MkTriple (MkNode (NOther "BLANK") ("N2")) ("http://www.w3.org/1999/02/22-rdf-syntax-ns#type") (MkNode NIri ("http://spdx.org/rdf/terms#Relationship")));
    (MkTriple (MkNode (NOther "BLANK") ("N2")) ("http://spdx.org/rdf/terms#relatedSpdxElement") (MkNode NIri ("http://spdx.org/spdxdocs/spdx-example-444504E0-4F89-41D3-9A0C-0305E82C3301#SPDXRef-Saxon")));
    (MkTriple (MkNode NIri ("http://spdx.org/spdxdocs/spdx-example-444504E0-4F89-41D3-9A0C-0305E82C3301#SPDXRef-Saxon")) ("http://www.w3.org/1999/02/22-rdf-syntax-ns#type") (MkNode NIri ("http://spdx.org/rdf/terms#Package")))] [(MkNode (NOther "BLANK") ("N1"))] test_uri in
  let r2 := parse_relationship V23 g1 (MkTriple (MkNode (NOther "BLANK") ("N1")) ("http://spdx.org/rdf/terms#relationship") (MkNode (NOther "BLANK") ("N2"))) init_state in
  let s3 := match r2 with Ok x => x | _ => init_state end in
  let g4 := MkGraph [(MkTriple (MkNode NIri ("http://spdx.org/spdxdocs/spdx-example-444504E0-4F89-41D3-9A0C-0305E82C3301#SPDXRef-File")) ("http://www.w3.org/1999/02/22-rdf-syntax-ns#type") (MkNode NIri ("http://spdx.org/rdf/terms#File")));
    (MkTriple (MkNode NIri ("http://spdx.org/spdxdocs/spdx-example-444504E0-4F89-41D3-9A0C-0305E82C3301#SPDXRef-File")) ("http://spdx.org/rdf/terms#relationship") (MkNode (NOther "BLANK") ("N1")));
    (MkTriple (MkNode (NOther "BLANK") ("N1")) ("http://www.w3.org/1999/02/22-rdf-syntax-ns#type") (MkNode NIri ("http://spdx.org/rdf/terms#Relationship")));
    (MkTriple (MkNode (NOther "BLANK") ("N1")) ("http://spdx.org/rdf/terms#relatedSpdxElement") (MkNode NIri ("http://spdx.org/spdxdocs/spdx-example-444504E0-4F89-41D3-9A0C-0305E82C3301#Saxon")));
    (MkTriple (MkNode NIri ("http://spdx.org/spdxdocs/spdx-example-444504E0-4F89-41D3-9A0C-0305E82C3301#Saxon")) ("http://www.w3.org/1999/02/22-rdf-syntax-ns#type") (MkNode NIri ("http://spdx.org/rdf/terms#Package")))] [(MkNode NIri ("http://spdx.org/spdxdocs/spdx-example-444504E0-4F89-41D3-9A0C-0305E82C3301#SPDXRef-File"))] test_uri in
  let r5 := parse_relationship V23 g4 (MkTriple (MkNode NIri ("http://spdx.org/spdxdocs/spdx-example-444504E0-4F89-41D3-9A0C-0305E82C3301#SPDXRef-File")) ("http://spdx.org/rdf/terms#relationship") (MkNode (NOther "BLANK") ("N1"))) init_state in
  let s6 := match r5 with Ok x => x | _ => init_state end in
  let g7 := MkGraph [(MkTriple (MkNode NIri ("http://spdx.org/spdxdocs/spdx-example-444504E0-4F89-41D3-9A0C-0305E82C3301#SPDXRef-File")) ("http://www.w3.org/1999/02/22-rdf-syntax-ns#type") (MkNode NIri ("http://spdx.org/rdf/terms#File")));
    (MkTriple (MkNode NIri ("http://spdx.org/spdxdocs/spdx-example-444504E0-4F89-41D3-9A0C-0305E82C3301#SPDXRef-File")) ("http://spdx.org/rdf/terms#relationship") (MkNode (NOther "BLANK") ("N1")));
    (MkTriple (MkNode (NOther "BLANK") ("N1")) ("http://www.w3.org/1999/02/22-rdf-syntax-ns#type") (MkNode NIri ("http://spdx.org/rdf/terms#Relationship")));
    (MkTriple (MkNode (NOther "BLANK") ("N1")) ("http://spdx.org/rdf/terms#relatedSpdxElement") (MkNode NIri ("http://spdx.org/spdxdocs/spdx-example-444504E0-4F89-41D3-9A0C-0305E82C3301#SPDXRef-Saxon")));
    (MkTriple (MkNode NIri ("http://spdx.org/spdxdocs/spdx-example-444504E0-4F89-41D3-9A0C-0305E82C3301#SPDXRef-Saxon")) ("http://www.w3.org/1999/02/22-rdf-syntax-ns#type") (MkNode NIri ("http://spdx.org/rdf/terms#Package")));
    (MkTriple (MkNode (NOther "BLANK") ("N1")) ("http://spdx.org/rdf/terms#relatedSpdxElement") (MkNode (NOther "BLANK") ("N2")));
    (MkTriple (MkNode (NOther "BLANK") ("N2")) ("http://www.w3.org/1999/02/22-rdf-syntax-ns#type") (MkNode NIri ("http://spdx.org/rdf/terms#File")))] [(MkNode NIri ("http://spdx.org/spdxdocs/spdx-example-444504E0-4F89-41D3-9A0C-0305E82C3301#SPDXRef-File"))] test_uri in
  let r8 := parse_relationship V23 g7 (MkTriple (MkNode NIri ("http://spdx.org/spdxdocs/spdx-example-444504E0-4F89-41D3-9A0C-0305E82C3301#SPDXRef-File")) ("http://spdx.org/rdf/terms#relationship") (MkNode (NOther "BLANK") ("N1"))) init_state in
  let s9 := match r8 with Ok x => x | _ => init_state end in
  let g10 := MkGraph [(MkTriple (MkNode NIri ("http://spdx.org/spdxdocs/spdx-example-444504E0-4F89-41D3-9A0C-0305E82C3301#SPDXRef-File")) ("http://www.w3.org/1999/02/22-rdf-syntax-ns#type") (MkNode NIri ("http://spdx.org/rdf/terms#File")));
    (MkTriple (MkNode NIri ("http://spdx.org/spdxdocs/spdx-example-444504E0-4F89-41D3-9A0C-0305E82C3301#SPDXRef-File")) ("http://spdx.org/rdf/terms#relationship") (MkNode (NOther "BLANK") ("N1")));
    (MkTriple (MkNode (NOther "BLANK") ("N1")) ("http://www.w3.org/1999/02/22-rdf-syntax-ns#type") (MkNode NIri ("http://spdx.org/rdf/terms#Relationship")));
    (MkTriple (MkNode (NOther "BLANK") ("N1")) ("http://spdx.org/rdf/terms#relatedSpdxElement") (MkNode NIri ("http://spdx.org/spdxdocs/spdx-example-444504E0-4F89-41D3-9A0C-0305E82C3301#SPDXRef-Saxon")));
    (MkTriple (MkNode NIri ("http://spdx.org/spdxdocs/spdx-example-444504E0-4F89-41D3-9A0C-0305E82C3301#SPDXRef-Saxon")) ("http://www.w3.org/1999/02/22-rdf-syntax-ns#type") (MkNode NIri ("http://spdx.org/rdf/terms#Unknown")))] [(MkNode NIri ("http://spdx.org/spdxdocs/spdx-example-444504E0-4F89-41D3-9A0C-0305E82C3301#SPDXRef-File"))] test_uri in
  let r11 := parse_relationship V23 g10 (MkTriple (MkNode NIri ("http://spdx.org/spdxdocs/spdx-example-444504E0-4F89-41D3-9A0C-0305E82C3301#SPDXRef-File")) ("http://spdx.org/rdf/terms#relationship") (MkNode (NOther "BLANK") ("N1"))) init_state in
  let s12 := match r11 with Ok x => x | _ => init_state end in
  let g13 := MkGraph [(MkTriple (MkNode NIri ("http://spdx.org/spdxdocs/spdx-example-444504E0-4F89-41D3-9A0C-0305E82C3301#SPDXRef-File")) ("http://www.w3.org/1999/02/22-rdf-syntax-ns#type") (MkNode NIri ("http://spdx.org/rdf/terms#File")));
    (MkTriple (MkNode NIri ("http://spdx.org/spdxdocs/spdx-example-444504E0-4F89-41D3-9A0C-0305E82C3301#SPDXRef-File")) ("http://spdx.org/rdf/terms#relationship") (MkNode (NOther "BLANK") ("N1")));
    (MkTriple (MkNode (NOther "BLANK") ("N1")) ("http://www.w3.org/1999/02/22-rdf-syntax-ns#type") (MkNode NIri ("http://spdx.org/rdf/terms#Relationship")));
    (MkTriple (MkNode (NOther "BLANK") ("N1")) ("http://spdx.org/rdf/terms#relatedSpdxElement") (MkNode NIri ("http://spdx.org/spdxdocs/spdx-example-444504E0-4F89-41D3-9A0C-0305E82C3301#SPDXRef-Saxon")));
    (MkTriple (MkNode NIri ("http://spdx.org/spdxdocs/spdx-example-444504E0-4F89-41D3-9A0C-0305E82C3301#SPDXRef-Saxon")) ("http://www.w3.org/1999/02/22-rdf-syntax-ns#type") (MkNode NIri ("http://spdx.org/rdf/terms#Package")));
    (MkTriple (MkNode NIri ("http://spdx.org/spdxdocs/spdx-example-444504E0-4F89-41D3-9A0C-0305E82C3301#SPDXRef-Saxon")) ("http://www.w3.org/1999/02/22-rdf-syntax-ns#type") (MkNode NIri ("http://spdx.org/rdf/terms#File")))] [(MkNode NIri ("http://spdx.org/spdxdocs/spdx-example-444504E0-4F89-41D3-9A0C-0305E82C3301#SPDXRef-File"))] test_uri in
  let r14 := parse_relationship V23 g13 (MkTriple (MkNode NIri ("http://spdx.org/spdxdocs/spdx-example-444504E0-4F89-41D3-9A0C-0305E82C3301#SPDXRef-File")) ("http://spdx.org/rdf/terms#relationship") (MkNode (NOther "BLANK") ("N1"))) init_state in
  let s15 := match r14 with Ok x => x | _ => init_state end in
  let g16 := MkGraph [(MkTriple (MkNode NIri ("http://spdx.org/spdxdocs/spdx-example-444504E0-4F89-41D3-9A0C-0305E82C3301#SPDXRef-File")) ("http://www.w3.org/1999/02/22-rdf-syntax-ns#type") (MkNode NIri ("http://spdx.org/rdf/terms#File")));
    (MkTriple (MkNode NIri ("http://spdx.org/spdxdocs/spdx-example-444504E0-4F89-41D3-9A0C-0305E82C3301#SPDXRef-File")) ("http://spdx.org/rdf/terms#relationship") (MkNode (NOther "BLANK") ("N1")));
    (MkTriple (MkNode (NOther "BLANK") ("N1")) ("http://www.w3.org/1999/02/22-rdf-syntax-ns#type") (MkNode NIri ("http://spdx.org/rdf/terms#Relationship")));
    (MkTriple (MkNode (NOther "BLANK") ("N1")) ("http://spdx.org/rdf/terms#relatedSpdxElement") (MkNode NIri ("http://spdx.org/spdxdocs/spdx-example-444504E0-4F89-41D3-9A0C-0305E82C3301#SPDXRef-Saxon")));
    (MkTriple (MkNode NIri ("http://spdx.org/spdxdocs/spdx-example-444504E0-4F89-41D3-9A0C-0305E82C3301#SPDXRef-Saxon")) ("http://www.w3.org/1999/02/22-rdf-syntax-ns#type") (MkNode NIri ("http://spdx.org/rdf/terms#Unknown")));
    (MkTriple (MkNode (NOther "BLANK") ("N1")) ("http://spdx.org/rdf/terms#unknownPredicate") (MkNode (NOther "LITERAL") ("")))] [(MkNode NIri ("http://spdx.org/spdxdocs/spdx-example-444504E0-4F89-41D3-9A0C-0305E82C3301#SPDXRef-File"))] test_uri in
  let r17 := parse_relationship V23 g16 (MkTriple (MkNode NIri ("http://spdx.org/spdxdocs/spdx-example-444504E0-4F89-41D3-9A0C-0305E82C3301#SPDXRef-File")) ("http://spdx.org/rdf/terms#relationship") (MkNode (NOther "BLANK") ("N1"))) init_state in
  let s18 := match r17 with Ok x => x | _ => init_state end in
  let g19 := MkGraph [(MkTriple (MkNode NIri ("http://spdx.org/spdxdocs/spdx-example-444504E0-4F89-41D3-9A0C-0305E82C3301#SPDXRef-File")) ("http://www.w3.org/1999/02/22-rdf-syntax-ns#type") (MkNode NIri ("http://spdx.org/rdf/terms#File")));
    (MkTriple (MkNode NIri ("http://spdx.org/spdxdocs/spdx-example-444504E0-4F89-41D3-9A0C-0305E82C3301#SPDXRef-File")) ("http://spdx.org/rdf/terms#relationship") (MkNode NIri ("http://spdx.org/spdxdocs/spdx-example-444504E0-4F89-41D3-9A0C-0305E82C3301#SPDXRef-reln")));
    (MkTriple (MkNode NIri ("http://spdx.org/spdxdocs/spdx-example-444504E0-4F89-41D3-9A0C-0305E82C3301#SPDXRef-reln")) ("http://www.w3.org/1999/02/22-rdf-syntax-ns#type") (MkNode NIri ("http://spdx.org/rdf/terms#Relationship")));
    (MkTriple (MkNode NIri ("http://spdx.org/spdxdocs/spdx-example-444504E0-4F89-41D3-9A0C-0305E82C3301#SPDXRef-reln")) ("http://spdx.org/rdf/terms#relationshipType") (MkNode (NOther "RESOURCELITERAL") ("http://spdx.org/rdf/terms#relationshipType_describes")));
    (MkTriple (MkNode NIri ("http://spdx.org/spdxdocs/spdx-example-444504E0-4F89-41D3-9A0C-0305E82C3301#SPDXRef-reln")) ("http://spdx.org/rdf/terms#relatedSpdxElement") (MkNode NIri ("http://spdx.org/spdxdocs/spdx-example-444504E0-4F89-41D3-9A0C-0305E82C3301#SPDXRef-Saxon")));
    (MkTriple (MkNode NIri ("http://spdx.org/spdxdocs/spdx-example-444504E0-4F89-41D3-9A0C-0305E82C3301#SPDXRef-Saxon")) ("http://www.w3.org/1999/02/22-rdf-syntax-ns#type") (MkNode NIri ("http://spdx.org/rdf/terms#Package")));
    (MkTriple (MkNode NIri ("http://spdx.org/spdxdocs/spdx-example-444504E0-4F89-41D3-9A0C-0305E82C3301#SPDXRef-Saxon")) ("http://spdx.org/rdf/terms#relationship") (MkNode NIri ("http://spdx.org/spdxdocs/spdx-example-444504E0-4F89-41D3-9A0C-0305E82C3301#SPDXRef-reln")));
    (MkTriple (MkNode NIri ("http://spdx.org/spdxdocs/spdx-example-444504E0-4F89-41D3-9A0C-0305E82C3301#SPDXRef-reln")) ("http://www.w3.org/1999/02/22-rdf-syntax-ns#type") (MkNode NIri ("http://spdx.org/rdf/terms#Relationship")));
    (MkTriple (MkNode NIri ("http://spdx.org/spdxdocs/spdx-example-444504E0-4F89-41D3-9A0C-0305E82C3301#SPDXRef-reln")) ("http://spdx.org/rdf/terms#relationshipType") (MkNode (NOther "RESOURCELITERAL") ("http://spdx.org/rdf/terms#relationshipType_describes")));
    (MkTriple (MkNode NIri ("http://spdx.org/spdxdocs/spdx-example-444504E0-4F89-41D3-9A0C-0305E82C3301#SPDXRef-reln")) ("http://spdx.org/rdf/terms#relatedSpdxElement") (MkNode (NOther "RESOURCELITERAL") ("http://spdx.org/spdxdocs/spdx-example-444504E0-4F89-41D3-9A0C-0305E82C3301#SPDXRef-File")))] [(MkNode NIri ("http://spdx.org/spdxdocs/spdx-example-444504E0-4F89-41D3-9A0C-0305E82C3301#SPDXRef-File"))] test_uri in
  let r20 := parse_relationship V23 g19 (MkTriple (MkNode NIri ("http://spdx.org/spdxdocs/spdx-example-444504E0-4F89-41D3-9A0C-0305E82C3301#SPDXRef-File")) ("http://spdx.org/rdf/terms#relationship") (MkNode NIri ("http://spdx.org/spdxdocs/spdx-example-444504E0-4F89-41D3-9A0C-0305E82C3301#SPDXRef-reln"))) init_state in
  let s21 := match r20 with Ok x => x | _ => init_state end in
  let g22 := MkGraph [(MkTriple (MkNode NIri ("http://spdx.org/spdxdocs/spdx-example-444504E0-4F89-41D3-9A0C-0305E82C3301#SPDXRef-File")) ("http://www.w3.org/1999/02/22-rdf-syntax-ns#type") (MkNode NIri ("http://spdx.org/rdf/terms#File")));
    (MkTriple (MkNode NIri ("http://spdx.org/spdxdocs/spdx-example-444504E0-4F89-41D3-9A0C-0305E82C3301#SPDXRef-File")) ("http://spdx.org/rdf/terms#relationship") (MkNode (NOther "BLANK") ("N1")));
    (MkTriple (MkNode (NOther "BLANK") ("N1")) ("http://www.w3.org/1999/02/22-rdf-syntax-ns#type") (MkNode NIri ("http://spdx.org/rdf/terms#Relationship")));
    (MkTriple (MkNode (NOther "BLANK") ("N1")) ("http://spdx.org/rdf/terms#relationshipType") (MkNode (NOther "RESOURCELITERAL") ("http://spdx.org/rdf/terms#relationshipType_describes")));
    (MkTriple (MkNode (NOther "BLANK") ("N1")) ("http://spdx.org/rdf/terms#relatedSpdxElement") (MkNode NIri ("http://spdx.org/spdxdocs/spdx-example-444504E0-4F89-41D3-9A0C-0305E82C3301#SPDXRef-Saxon")));
    (MkTriple (MkNode NIri ("http://spdx.org/spdxdocs/spdx-example-444504E0-4F89-41D3-9A0C-0305E82C3301#SPDXRef-Saxon")) ("http://www.w3.org/1999/02/22-rdf-syntax-ns#type") (MkNode NIri ("http://spdx.org/rdf/terms#Package")));
    (MkTriple (MkNode (NOther "BLANK") ("N1")) ("http://www.w3.org/2000/01/rdf-schema#comment") (MkNode (NOther "LITERAL") ("comment")))] [(MkNode NIri ("http://spdx.org/spdxdocs/spdx-example-444504E0-4F89-41D3-9A0C-0305E82C3301#SPDXRef-File"))] test_uri in
  let r23 := parse_relationship V23 g22 (MkTriple (MkNode NIri ("http://spdx.org/spdxdocs/spdx-example-444504E0-4F89-41D3-9A0C-0305E82C3301#SPDXRef-File")) ("http://spdx.org/rdf/terms#relationship") (MkNode (NOther "BLANK") ("N1"))) init_state in
  let s24 := match r23 with Ok x => x | _ => init_state end in
  [(olift Bool.eqb (failed r2) (Some false));
   (olift Bool.eqb (failed r5) (Some false));
   (olift Bool.eqb (failed r8) (Some false));
   (olift Bool.eqb (failed r11) (Some false));
   (olift Bool.eqb (failed r14) (Some false));
   (olift Bool.eqb (failed r17) (Some false));
   (option_map negb (olift Bool.eqb (failed r20) (Some false)));
   (option_map negb (olift Bool.eqb (failed r23) (Some false)));
   (option_map negb (olift Nat.eqb (option_map (@List.length _) (option_map (fun x => d_Relationships x) (Some (rs_doc s24)))) (Some 1)));
   (option_map negb (olift String.eqb (option_map (fun x => r_Relationship x) (obind (option_map (fun x => d_Relationships x) (Some (rs_doc s24))) (fun l => nth_error l 0))) (Some ("describes"))));
   (option_map negb (option_map (fun x => String.eqb (de_DocumentRefID x) ("") && String.eqb (de_ElementRefID x) ("File") && String.eqb (de_SpecialID x) ("")) (option_map (fun x => r_RefA x) (obind (option_map (fun x => d_Relationships x) (Some (rs_doc s24))) (fun l => nth_error l 0)))));
   (option_map negb (option_map (fun x => String.eqb (de_DocumentRefID x) ("") && String.eqb (de_ElementRefID x) ("Saxon") && String.eqb (de_SpecialID x) ("")) (option_map (fun x => r_RefB x) (obind (option_map (fun x => d_Relationships x) (Some (rs_doc s24))) (fun l => nth_error l 0)))));
   (option_map negb (olift String.eqb (option_map (fun x => r_Comment x) (obind (option_map (fun x => d_Relationships x) (Some (rs_doc s24))) (fun l => nth_error l 0))) (Some ("comment"))))]) = true.
Proof. vm_compute. reflexivity. Qed.
(** /repo/spdx/v2/v2_3/rdf/reader/parse_review_test.go 9 *)
Example v23_Test_rdfParser2_3_setReviewFromNode : forallb is_false (
  let g1 := MkGraph [(MkTriple (MkNode (NOther "BLANK") ("N1")) ("http://www.w3.org/1999/02/22-rdf-syntax-ns#type") (MkNode NIri ("http://spdx.org/rdf/terms#Review")));
    (MkTriple (MkNode (NOther "BLANK") ("N1")) ("http://www.w3.org/2000/01/rdf-schema#comment") (MkNode (NOther "LITERAL") ("Another example reviewer.")));
    (MkTriple (MkNode (NOther "BLANK") ("N1")) ("http://spdx.org/rdf/terms#reviewDate") (MkNode (NOther "LITERAL") ("2011-03-13T00:00:00Z")));
    (MkTriple (MkNode (NOther "BLANK") ("N1")) ("http://spdx.org/rdf/terms#reviewer") (MkNode (NOther "LITERAL") ("Person: Suzanne Reviewer")));
    (MkTriple (MkNode (NOther "BLANK") ("N1")) ("http://spdx.org/rdf/terms#unknown") (MkNode (NOther "LITERAL") ("")))] [(MkNode (NOther "BLANK") ("N1"))] test_uri in
  let r2 := set_review g1 (MkNode (NOther "BLANK") ("N1")) init_state in
  let s3 := match r2 with Ok x => x | _ => init_state end in
  let g4 := MkGraph [(MkTriple (MkNode (NOther "BLANK") ("N1")) ("http://www.w3.org/1999/02/22-rdf-syntax-ns#type") (MkNode NIri ("http://spdx.org/rdf/terms#Review")));
    (MkTriple (MkNode (NOther "BLANK") ("N1")) ("http://www.w3.org/2000/01/rdf-schema#comment") (MkNode (NOther "LITERAL") ("Another example reviewer.")));
    (MkTriple (MkNode (NOther "BLANK") ("N1")) ("http://spdx.org/rdf/terms#reviewDate") (MkNode (NOther "LITERAL") ("2011-03-13T00:00:00Z")));
    (MkTriple (MkNode (NOther "BLANK") ("N1")) ("http://spdx.org/rdf/terms#reviewer") (MkNode (NOther "LITERAL") ("Suzanne Reviewer")))] [(MkNode (NOther "BLANK") ("N1"))] test_uri in
  let r5 := set_review g4 (MkNode (NOther "BLANK") ("N1")) init_state in
  let s6 := match r5 with Ok x => x | _ => init_state end in
  let g7 := MkGraph [(MkTriple (MkNode (NOther "BLANK") ("N1")) ("http://www.w3.org/1999/02/22-rdf-syntax-ns#type") (MkNode NIri ("http://spdx.org/rdf/terms#Review")));
    (MkTriple (MkNode (NOther "BLANK") ("N1")) ("http://www.w3.org/2000/01/rdf-schema#comment") (MkNode (NOther "LITERAL") ("Another example reviewer.")));
    (MkTriple (MkNode (NOther "BLANK") ("N1")) ("http://spdx.org/rdf/terms#reviewDate") (MkNode (NOther "LITERAL") ("2011-03-13T00:00:00Z")));
    (MkTriple (MkNode (NOther "BLANK") ("N1")) ("http://spdx.org/rdf/terms#reviewer") (MkNode (NOther "LITERAL") ("Person: Suzanne")))] [(MkNode (NOther "BLANK") ("N1"))] test_uri in
  let r8 := set_review g7 (MkNode (NOther "BLANK") ("N1")) init_state in
  let s9 := match r8 with Ok x => x | _ => init_state end in
  [(olift Bool.eqb (failed r2) (Some false));
   (olift Bool.eqb (failed r5) (Some false));
   (option_map negb (olift Bool.eqb (failed r8) (Some false)));
   (option_map negb (olift Nat.eqb (option_map (@List.length _) (option_map (fun x => d_Reviews x) (Some (rs_doc s9)))) (Some 1)))]) = true.
Proof. vm_compute. reflexivity. Qed.
(** /repo/spdx/v2/v2_3/rdf/reader/parse_snippet_info_test.go 13 *)
Example v23_Test_rdfParser2_3_getSnippetInformationFromTriple2_3 : forallb is_false (
  let g1 := MkGraph [(MkTriple (MkNode NIri ("http://spdx.org/spdxdocs/spdx-example-444504E0-4F89-41D3-9A0C-0305E82C3301#Snippet")) ("http://www.w3.org/1999/02/22-rdf-syntax-ns#type") (MkNode NIri ("http://spdx.org/rdf/terms#Snippet")))] [(MkNode NIri ("http://spdx.org/spdxdocs/spdx-example-444504E0-4F89-41D3-9A0C-0305E82C3301#Snippet"))] test_uri in
  let r2 := snippet_from_node V23 g1 (MkNode NIri ("http://spdx.org/spdxdocs/spdx-example-444504E0-4F89-41D3-9A0C-0305E82C3301#Snippet")) init_state in
  let s3 := match r2 with Ok x => snd x | _ => init_state end in
  let g4 := MkGraph [(MkTriple (MkNode NIri ("http://spdx.org/spdxdocs/spdx-example-444504E0-4F89-41D3-9A0C-0305E82C3301#SPDXRef-Snippet")) ("http://www.w3.org/1999/02/22-rdf-syntax-ns#type") (MkNode NIri ("http://spdx.org/rdf/terms#Snippet")));
    (MkTriple (MkNode NIri ("http://spdx.org/spdxdocs/spdx-example-444504E0-4F89-41D3-9A0C-0305E82C3301#SPDXRef-Snippet")) ("http://spdx.org/rdf/terms#licenseInfoInSnippet") (MkNode (NOther "RESOURCELITERAL") ("http://spdx.org/licenses/Unknown")))] [(MkNode NIri ("http://spdx.org/spdxdocs/spdx-example-444504E0-4F89-41D3-9A0C-0305E82C3301#SPDXRef-Snippet"))] test_uri in
  let r5 := snippet_from_node V23 g4 (MkNode NIri ("http://spdx.org/spdxdocs/spdx-example-444504E0-4F89-41D3-9A0C-0305E82C3301#SPDXRef-Snippet")) init_state in
  let s6 := match r5 with Ok x => snd x | _ => init_state end in
  let g7 := MkGraph [(MkTriple (MkNode NIri ("http://spdx.org/spdxdocs/spdx-example-444504E0-4F89-41D3-9A0C-0305E82C3301#SPDXRef-Snippet")) ("http://www.w3.org/1999/02/22-rdf-syntax-ns#type") (MkNode NIri ("http://spdx.org/rdf/terms#Snippet")));
    (MkTriple (MkNode NIri ("http://spdx.org/spdxdocs/spdx-example-444504E0-4F89-41D3-9A0C-0305E82C3301#SPDXRef-Snippet")) ("http://spdx.org/rdf/terms#range") (MkNode (NOther "BLANK") ("N1")));
    (MkTriple (MkNode (NOther "BLANK") ("N1")) ("http://www.w3.org/1999/02/22-rdf-syntax-ns#type") (MkNode NIri ("http://spdx.org/rdf/terms#StartEndPointer")));
    (MkTriple (MkNode (NOther "BLANK") ("N1")) ("http://spdx.org/rdf/terms#unknownTag") (MkNode (NOther "LITERAL") ("")))] [(MkNode NIri ("http://spdx.org/spdxdocs/spdx-example-444504E0-4F89-41D3-9A0C-0305E82C3301#SPDXRef-Snippet"))] test_uri in
  let r8 := snippet_from_node V23 g7 (MkNode NIri ("http://spdx.org/spdxdocs/spdx-example-444504E0-4F89-41D3-9A0C-0305E82C3301#SPDXRef-Snippet")) init_state in
  let s9 := match r8 with Ok x => snd x | _ => init_state end in
  let g10 := MkGraph [(MkTriple (MkNode NIri ("http://spdx.org/spdxdocs/spdx-example-444504E0-4F89-41D3-9A0C-0305E82C3301#SPDXRef-Snippet")) ("http://www.w3.org/1999/02/22-rdf-syntax-ns#type") (MkNode NIri ("http://spdx.org/rdf/terms#Snippet")));
    (MkTriple (MkNode NIri ("http://spdx.org/spdxdocs/spdx-example-444504E0-4F89-41D3-9A0C-0305E82C3301#SPDXRef-Snippet")) ("http://spdx.org/rdf/terms#snippetFromFile") (MkNode (NOther "BLANK") ("N1")));
    (MkTriple (MkNode (NOther "BLANK") ("N1")) ("http://www.w3.org/1999/02/22-rdf-syntax-ns#type") (MkNode NIri ("http://spdx.org/rdf/terms#File")))] [(MkNode NIri ("http://spdx.org/spdxdocs/spdx-example-444504E0-4F89-41D3-9A0C-0305E82C3301#SPDXRef-Snippet"))] test_uri in
  let r11 := snippet_from_node V23 g10 (MkNode NIri ("http://spdx.org/spdxdocs/spdx-example-444504E0-4F89-41D3-9A0C-0305E82C3301#SPDXRef-Snippet")) init_state in
  let s12 := match r11 with Ok x => snd x | _ => init_state end in
  let g13 := MkGraph [(MkTriple (MkNode NIri ("http://spdx.org/spdxdocs/spdx-example-444504E0-4F89-41D3-9A0C-0305E82C3301#SPDXRef-Snippet")) ("http://www.w3.org/1999/02/22-rdf-syntax-ns#type") (MkNode NIri ("http://spdx.org/rdf/terms#Snippet")));
    (MkTriple (MkNode NIri ("http://spdx.org/spdxdocs/spdx-example-444504E0-4F89-41D3-9A0C-0305E82C3301#SPDXRef-Snippet")) ("http://spdx.org/rdf/terms#unknownPredicate") (MkNode (NOther "LITERAL") ("")))] [(MkNode NIri ("http://spdx.org/spdxdocs/spdx-example-444504E0-4F89-41D3-9A0C-0305E82C3301#SPDXRef-Snippet"))] test_uri in
  let r14 := snippet_from_node V23 g13 (MkNode NIri ("http://spdx.org/spdxdocs/spdx-example-444504E0-4F89-41D3-9A0C-0305E82C3301#SPDXRef-Snippet")) init_state in
  let s15 := match r14 with Ok x => snd x | _ => init_state end in
  let g16 := MkGraph [(MkTriple (MkNode NIri ("http://spdx.org/spdxdocs/spdx-example-444504E0-4F89-41D3-9A0C-0305E82C3301#SPDXRef-Snippet")) ("http://www.w3.org/1999/02/22-rdf-syntax-ns#type") (MkNode NIri ("http://spdx.org/rdf/terms#Snippet")));
    (MkTriple (MkNode NIri ("http://spdx.org/spdxdocs/spdx-example-444504E0-4F89-41D3-9A0C-0305E82C3301#SPDXRef-Snippet")) ("http://spdx.org/rdf/terms#licenseConcluded") (MkNode (NOther "RESOURCELITERAL") ("http://spdx.org/licenses/Unknown")))] [(MkNode NIri ("http://spdx.org/spdxdocs/spdx-example-444504E0-4F89-41D3-9A0C-0305E82C3301#SPDXRef-Snippet"))] test_uri in
  let r17 := snippet_from_node V23 g16 (MkNode NIri ("http://spdx.org/spdxdocs/spdx-example-444504E0-4F89-41D3-9A0C-0305E82C3301#SPDXRef-Snippet")) init_state in
  let s18 := match r17 with Ok x => snd x | _ => init_state end in
  let g19 := MkGraph [(MkTriple (MkNode NIri ("http://spdx.org/spdxdocs/spdx-example-444504E0-4F89-41D3-9A0C-0305E82C3301#SPDXRef-Snippet")) ("http://www.w3.org/1999/02/22-rdf-syntax-ns#type") (MkNode NIri ("http://spdx.org/rdf/terms#Snippet")));
    (MkTriple (MkNode NIri ("http://spdx.org/spdxdocs/spdx-example-444504E0-4F89-41D3-9A0C-0305E82C3301#SPDXRef-Snippet")) ("http://spdx.org/rdf/terms#snippetFromFile") (MkNode NIri ("http://spdx.org/spdxdocs/spdx-example-444504E0-4F89-41D3-9A0C-0305E82C3301#SPDXRef-File")));
    (MkTriple (MkNode NIri ("http://spdx.org/spdxdocs/spdx-example-444504E0-4F89-41D3-9A0C-0305E82C3301#SPDXRef-File")) ("http://www.w3.org/1999/02/22-rdf-syntax-ns#type") (MkNode NIri ("http://spdx.org/rdf/terms#File")));
    (MkTriple (MkNode NIri ("http://spdx.org/spdxdocs/spdx-example-444504E0-4F89-41D3-9A0C-0305E82C3301#SPDXRef-Snippet")) ("http://spdx.org/rdf/terms#range") (MkNode (NOther "BLANK") ("N1")));
    (MkTriple (MkNode (NOther "BLANK") ("N1")) ("http://www.w3.org/1999/02/22-rdf-syntax-ns#type") (MkNode NIri ("http://www.w3.org/2009/pointers#StartEndPointer")));
    (MkTriple (MkNode (NOther "BLANK") ("N1")) ("http://www.w3.org/2009/pointers#startPointer") (MkNode (NOther "BLANK") ("N2")));
    (MkTriple (MkNode (NOther "BLANK") ("N2")) ("http://www.w3.org/1999/02/22-rdf-syntax-ns#type") (MkNode NIri ("http://www.w3.org/2009/pointers#LineCharPointer")));
    (MkTriple (MkNode (NOther "BLANK") ("N2")) ("http://www.w3.org/2009/pointers#reference") (MkNode (NOther "RESOURCELITERAL") ("http://spdx.org/spdxdocs/spdx-example-444504E0-4F89-41D3-9A0C-0305E82C3301#SPDXRef-DoapSource")));
    (MkTriple (MkNode (NOther "BLANK") ("N2")) ("http://www.w3.org/2009/pointers#lineNumber") (MkNode (NOther "LITERAL") ("420")));
    (MkTriple (MkNode (NOther "BLANK") ("N1")) ("http://www.w3.org/2009/pointers#endPointer") (MkNode (NOther "BLANK") ("N3")));
    (MkTriple (MkNode (NOther "BLANK") ("N3")) ("http://www.w3.org/1999/02/22-rdf-syntax-ns#type") (MkNode NIri ("http://www.w3.org/2009/pointers#LineCharPointer")));
    (MkTriple (MkNode (NOther "BLANK") ("N3")) ("http://www.w3.org/2009/pointers#reference") (MkNode (NOther "RESOURCELITERAL") ("http://spdx.org/spdxdocs/spdx-example-444504E0-4F89-41D3-9A0C-0305E82C3301#SPDXRef-DoapSource")));
    (MkTriple (MkNode (NOther "BLANK") ("N3")) ("http://www.w3.org/2009/pointers#lineNumber") (MkNode (NOther "LITERAL") ("310")));
    (MkTriple (MkNode NIri ("http://spdx.org/spdxdocs/spdx-example-444504E0-4F89-41D3-9A0C-0305E82C3301#SPDXRef-Snippet")) ("http://spdx.org/rdf/terms#licenseInfoInSnippet") (MkNode (NOther "RESOURCELITERAL") ("http://spdx.org/rdf/terms#noassertion")));
    (MkTriple (MkNode NIri ("http://spdx.org/spdxdocs/spdx-example-444504E0-4F89-41D3-9A0C-0305E82C3301#SPDXRef-Snippet")) ("http://spdx.org/rdf/terms#name") (MkNode (NOther "LITERAL") ("snippet test")));
    (MkTriple (MkNode NIri ("http://spdx.org/spdxdocs/spdx-example-444504E0-4F89-41D3-9A0C-0305E82C3301#SPDXRef-Snippet")) ("http://spdx.org/rdf/terms#copyrightText") (MkNode (NOther "LITERAL") ("test")));
    (MkTriple (MkNode NIri ("http://spdx.org/spdxdocs/spdx-example-444504E0-4F89-41D3-9A0C-0305E82C3301#SPDXRef-Snippet")) ("http://spdx.org/rdf/terms#licenseComments") (MkNode (NOther "LITERAL") ("comments")));
    (MkTriple (MkNode NIri ("http://spdx.org/spdxdocs/spdx-example-444504E0-4F89-41D3-9A0C-0305E82C3301#SPDXRef-Snippet")) ("http://www.w3.org/2000/01/rdf-schema#comment") (MkNode (NOther "LITERAL") ("comments")));
    (MkTriple (MkNode NIri ("http://spdx.org/spdxdocs/spdx-example-444504E0-4F89-41D3-9A0C-0305E82C3301#SPDXRef-Snippet")) ("http://spdx.org/rdf/terms#licenseConcluded") (MkNode (NOther "RESOURCELITERAL") ("http://spdx.org/rdf/terms#noassertion")))] [(MkNode NIri ("http://spdx.org/spdxdocs/spdx-example-444504E0-4F89-41D3-9A0C-0305E82C3301#SPDXRef-Snippet"))] test_uri in
  let r20 := snippet_from_node V23 g19 (MkNode NIri ("http://spdx.org/spdxdocs/spdx-example-444504E0-4F89-41D3-9A0C-0305E82C3301#SPDXRef-Snippet")) init_state in
  let s21 := match r20 with Ok x => snd x | _ => init_state end in
  [(olift Bool.eqb (failed r2) (Some false));
   (olift Bool.eqb (failed r5) (Some false));
   (olift Bool.eqb (failed r8) (Some false));
   (olift Bool.eqb (failed r11) (Some false));
   (olift Bool.eqb (failed r14) (Some false));
   (olift Bool.eqb (failed r17) (Some false));
   (option_map negb (olift Bool.eqb (failed r20) (Some false)))]) = true.
Proof. vm_compute. reflexivity. Qed.
(** /repo/spdx/v2/v2_3/rdf/reader/parse_snippet_info_test.go 150 *)
Example v23_Test_rdfParser2_3_parseRangeReference : forallb is_false (
  let g1 := MkGraph [] [] test_uri in
  let r2 := range_reference V23 g1 (MkNode (NOther "RESOURCELITERAL") ("http://spdx.org/spdxdocs/spdx-example-444504E0-4F89-41D3-9A0C-0305E82C3301#SPDXRef-DoapSource")) init_state in
  let s3 := match r2 with Ok x => x | _ => init_state end in
  let g4 := MkGraph [(MkTriple (MkNode NIri ("http://spdx.org/spdxdocs/spdx-example-444504E0-4F89-41D3-9A0C-0305E82C3301#DoapSource")) ("http://www.w3.org/1999/02/22-rdf-syntax-ns#type") (MkNode NIri ("http://spdx.org/rdf/terms#File")));
    (MkTriple (MkNode NIri ("http://spdx.org/spdxdocs/spdx-example-444504E0-4F89-41D3-9A0C-0305E82C3301#DoapSource")) ("http://spdx.org/rdf/terms#fileName") (MkNode (NOther "LITERAL") (" test file ")))] [(MkNode NIri ("http://spdx.org/spdxdocs/spdx-example-444504E0-4F89-41D3-9A0C-0305E82C3301#DoapSource"))] test_uri in
  let r5 := range_reference V23 g4 (MkNode NIri ("http://spdx.org/spdxdocs/spdx-example-444504E0-4F89-41D3-9A0C-0305E82C3301#DoapSource")) init_state in
  let s6 := match r5 with Ok x => x | _ => init_state end in
  let g7 := MkGraph [(MkTriple (MkNode NIri ("http://spdx.org/spdxdocs/spdx-example-444504E0-4F89-41D3-9A0C-0305E82C3301#SPDXRef-DoapSource")) ("http://www.w3.org/1999/02/22-rdf-syntax-ns#type") (MkNode NIri ("http://spdx.org/rdf/terms#File")));
    (MkTriple (MkNode NIri ("http://spdx.org/spdxdocs/spdx-example-444504E0-4F89-41D3-9A0C-0305E82C3301#SPDXRef-DoapSource")) ("http://spdx.org/rdf/terms#fileName") (MkNode (NOther "LITERAL") (" test file ")))] [(MkNode NIri ("http://spdx.org/spdxdocs/spdx-example-444504E0-4F89-41D3-9A0C-0305E82C3301#SPDXRef-DoapSource"))] test_uri in
  let r8 := range_reference V23 g7 (MkNode NIri ("http://spdx.org/spdxdocs/spdx-example-444504E0-4F89-41D3-9A0C-0305E82C3301#SPDXRef-DoapSource")) init_state in
  let s9 := match r8 with Ok x => x | _ => init_state end in
  [(option_map negb (olift Bool.eqb (failed r2) (Some false)));
   (olift Bool.eqb (failed r5) (Some false));
   (option_map negb (olift Bool.eqb (failed r8) (Some false)))]) = true.
Proof. vm_compute. reflexivity. Qed.
(** /repo/spdx/v2/v2_3/rdf/reader/parse_snippet_info_test.go 198 *)
Example v23_Test_rdfParser2_3_getPointerFromNode : forallb is_false (
  let g1 := MkGraph [(MkTriple (MkNode (NOther "BLANK") ("N1")) ("http://www.w3.org/1999/02/22-rdf-syntax-ns#type") (MkNode NIri ("http://www.w3.org/2009/pointers#startPointer")));
    (MkTriple (MkNode (NOther "BLANK") ("N1")) ("http://www.w3.org/2009/pointers#LineCharPointer") (MkNode (NOther "BLANK") ("N2")));
    (MkTriple (MkNode (NOther "BLANK") ("N2")) ("http://www.w3.org/1999/02/22-rdf-syntax-ns#type") (MkNode NIri ("http://www.w3.org/2009/pointers#reference")));
    (MkTriple (MkNode (NOther "BLANK") ("N1")) ("http://www.w3.org/2009/pointers#LineCharPointer") (MkNode (NOther "BLANK") ("N3")));
    (MkTriple (MkNode (NOther "BLANK") ("N3")) ("http://www.w3.org/1999/02/22-rdf-syntax-ns#type") (MkNode NIri ("http://www.w3.org/2009/pointers#offset")))] [(MkNode (NOther "BLANK") ("N1"))] test_uri in
  let r2 := pointer_from_node V23 g1 (MkNode (NOther "BLANK") ("N1")) init_state in
  let s3 := match r2 with Ok x => snd x | _ => init_state end in
  let g4 := MkGraph [(MkTriple (MkNode (NOther "BLANK") ("N1")) ("http://www.w3.org/1999/02/22-rdf-syntax-ns#type") (MkNode NIri ("http://www.w3.org/2009/pointers#ByteOffsetPointer")));
    (MkTriple (MkNode (NOther "BLANK") ("N1")) ("http://www.w3.org/2009/pointers#reference") (MkNode (NOther "RESOURCELITERAL") ("http://spdx.org/spdxdocs/spdx-example-444504E0-4F89-41D3-9A0C-0305E82C3301#SPDXRef-DoapSource")));
    (MkTriple (MkNode (NOther "BLANK") ("N1")) ("http://www.w3.org/2009/pointers#offset") (MkNode (NOther "LITERAL") ("3-10")))] [(MkNode (NOther "BLANK") ("N1"))] test_uri in
  let r5 := pointer_from_node V23 g4 (MkNode (NOther "BLANK") ("N1")) init_state in
  let s6 := match r5 with Ok x => snd x | _ => init_state end in
  let g7 := MkGraph [(MkTriple (MkNode (NOther "BLANK") ("N1")) ("http://www.w3.org/1999/02/22-rdf-syntax-ns#type") (MkNode NIri ("http://www.w3.org/2009/pointers#ByteOffsetPointer")));
    (MkTriple (MkNode (NOther "BLANK") ("N1")) ("http://spdx.org/rdf/terms#invalidTag") (MkNode (NOther "LITERAL") ("")));
    (MkTriple (MkNode (NOther "BLANK") ("N1")) ("http://www.w3.org/2009/pointers#reference") (MkNode (NOther "RESOURCELITERAL") ("http://spdx.org/spdxdocs/spdx-example-444504E0-4F89-41D3-9A0C-0305E82C3301#SPDXRef-DoapSource")));
    (MkTriple (MkNode (NOther "BLANK") ("N1")) ("http://www.w3.org/2009/pointers#lineNumber") (MkNode (NOther "LITERAL") ("3-10")))] [(MkNode (NOther "BLANK") ("N1"))] test_uri in
  let r8 := pointer_from_node V23 g7 (MkNode (NOther "BLANK") ("N1")) init_state in
  let s9 := match r8 with Ok x => snd x | _ => init_state end in
  let g10 := MkGraph [(MkTriple (MkNode (NOther "BLANK") ("N1")) ("http://www.w3.org/1999/02/22-rdf-syntax-ns#type") (MkNode NIri ("http://www.w3.org/2009/pointers#ByteOffsetPointer")));
    (MkTriple (MkNode (NOther "BLANK") ("N1")) ("http://www.w3.org/2009/pointers#reference") (MkNode (NOther "RESOURCELITERAL") ("http://spdx.org/spdxdocs/spdx-example-444504E0-4F89-41D3-9A0C-0305E82C3301#SPDXRef-DoapSource")))] [(MkNode (NOther "BLANK") ("N1"))] test_uri in
  let r11 := pointer_from_node V23 g10 (MkNode (NOther "BLANK") ("N1")) init_state in
  let s12 := match r11 with Ok x => snd x | _ => init_state end in
  let g13 := MkGraph [(MkTriple (MkNode (NOther "BLANK") ("N1")) ("http://www.w3.org/1999/02/22-rdf-syntax-ns#type") (MkNode NIri ("http://www.w3.org/2009/pointers#ByteOffsetPointer")));
    (MkTriple (MkNode (NOther "BLANK") ("N1")) ("http://www.w3.org/2009/pointers#reference") (MkNode (NOther "RESOURCELITERAL") ("http://spdx.org/spdxdocs/spdx-example-444504E0-4F89-41D3-9A0C-0305E82C3301#SPDXRef-DoapSource")));
    (MkTriple (MkNode (NOther "BLANK") ("N1")) ("http://www.w3.org/2009/pointers#offset") (MkNode (NOther "LITERAL") ("310")))] [(MkNode (NOther "BLANK") ("N1"))] test_uri in
  let r14 := pointer_from_node V23 g13 (MkNode (NOther "BLANK") ("N1")) init_state in
  let s15 := match r14 with Ok x => snd x | _ => init_state end in
  [(olift Bool.eqb (failed r2) (Some false));
   (olift Bool.eqb (failed r5) (Some false));
   (olift Bool.eqb (failed r8) (Some false));
   (olift Bool.eqb (failed r11) (Some false));
   (option_map negb (olift Bool.eqb (failed r14) (Some false)));
   (option_map negb (olift Z.eqb (option_map (fun x => snd (fst x)) (value r14)) (Some 310%Z)))]) = true.
Proof. vm_compute. reflexivity. Qed.
(** /repo/spdx/v2/v2_3/rdf/reader/parse_snippet_info_test.go 280 *)
Example v23_Test_rdfParser2_3_setSnippetRangeFromNode : forallb is_false (
  let g1 := MkGraph [(MkTriple (MkNode (NOther "BLANK") ("N1")) ("http://www.w3.org/1999/02/22-rdf-syntax-ns#type") (MkNode NIri ("http://www.w3.org/2009/pointers#StartEndPointer")));
    (MkTriple (MkNode (NOther "BLANK") ("N1")) ("http://www.w3.org/2009/pointers#startPointer") (MkNode (NOther "BLANK") ("N2")));
    (MkTriple (MkNode (NOther "BLANK") ("N2")) ("http://www.w3.org/1999/02/22-rdf-syntax-ns#type") (MkNode NIri ("http://www.w3.org/2009/pointers#LineCharPointer")));
    (MkTriple (MkNode (NOther "BLANK") ("N2")) ("http://www.w3.org/2009/pointers#reference") (MkNode (NOther "RESOURCELITERAL") ("http://spdx.org/spdxdocs/spdx-example-444504E0-4F89-41D3-9A0C-0305E82C3301#SPDXRef-DoapSource")));
    (MkTriple (MkNode (NOther "BLANK") ("N2")) ("http://www.w3.org/2009/pointers#offset") (MkNode (NOther "LITERAL") ("310")))] [(MkNode (NOther "BLANK") ("N1"))] test_uri in
  let r2 := range_from_node V23 g1 (MkNode (NOther "BLANK") ("N1")) "" init_state in
  let s3 := match r2 with Ok x => snd x | _ => init_state end in
  let g4 := MkGraph [(MkTriple (MkNode (NOther "BLANK") ("N1")) ("http://www.w3.org/1999/02/22-rdf-syntax-ns#type") (MkNode NIri ("http://www.w3.org/2009/pointers#StartEndPointer")));
    (MkTriple (MkNode (NOther "BLANK") ("N1")) ("http://www.w3.org/2009/pointers#endPointer") (MkNode (NOther "BLANK") ("N2")));
    (MkTriple (MkNode (NOther "BLANK") ("N2")) ("http://www.w3.org/1999/02/22-rdf-syntax-ns#type") (MkNode NIri ("http://www.w3.org/2009/pointers#ByteOffsetPointer")));
    (MkTriple (MkNode (NOther "BLANK") ("N2")) ("http://www.w3.org/2009/pointers#reference") (MkNode (NOther "RESOURCELITERAL") ("http://spdx.org/spdxdocs/spdx-example-444504E0-4F89-41D3-9A0C-0305E82C3301#SPDXRef-DoapSource")));
    (MkTriple (MkNode (NOther "BLANK") ("N2")) ("http://www.w3.org/2009/pointers#offset") (MkNode (NOther "LITERAL") ("420")));
    (MkTriple (MkNode (NOther "BLANK") ("N1")) ("http://www.w3.org/2009/pointers#startPointer") (MkNode (NOther "BLANK") ("N3")));
    (MkTriple (MkNode (NOther "BLANK") ("N3")) ("http://www.w3.org/1999/02/22-rdf-syntax-ns#type") (MkNode NIri ("http://www.w3.org/2009/pointers#ByteOffsetPointer")));
    (MkTriple (MkNode (NOther "BLANK") ("N3")) ("http://www.w3.org/2009/pointers#reference") (MkNode (NOther "RESOURCELITERAL") ("http://spdx.org/spdxdocs/spdx-example-444504E0-4F89-41D3-9A0C-0305E82C3301#SPDXRef-DoapSource")));
    (MkTriple (MkNode (NOther "BLANK") ("N3")) ("http://www.w3.org/2009/pointers#offset") (MkNode (NOther "LITERAL") ("310")))] [(MkNode (NOther "BLANK") ("N1"))] test_uri in
  [(olift Bool.eqb (failed r2) (Some false))]) = true.
Proof. vm_compute. reflexivity. Qed.
(** /repo/spdx/v2/v2_3/rdf/reader/parse_spdx_document_test.go 11 *)
Example v23_Test_rdfParser2_3_getExternalDocumentRefFromNode : forallb is_false (
  let g1 := MkGraph [(MkTriple (MkNode (NOther "BLANK") ("N1")) ("http://www.w3.org/1999/02/22-rdf-syntax-ns#type") (MkNode NIri ("http://spdx.org/rdf/terms#ExternalDocumentRef")));
    (MkTriple (MkNode (NOther "BLANK") ("N1")) ("http://spdx.org/rdf/terms#externalDocumentId") (MkNode (NOther "LITERAL") ("DocumentRef-spdx-tool-1.2")));
    (MkTriple (MkNode (NOther "BLANK") ("N1")) ("http://spdx.org/rdf/terms#checksum") (MkNode (NOther "BLANK") ("N2")));
    (MkTriple (MkNode (NOther "BLANK") ("N2")) ("http://www.w3.org/1999/02/22-rdf-syntax-ns#type") (MkNode NIri ("http://spdx.org/rdf/terms#Checksum")));
    (MkTriple (MkNode (NOther "BLANK") ("N2")) ("http://spdx.org/rdf/terms#checksumValue") (MkNode (NOther "LITERAL") ("d6a770ba38583ed4bb4525bd96e50461655d2759")));
    (MkTriple (MkNode (NOther "BLANK") ("N2")) ("http://spdx.org/rdf/terms#algorithm") (MkNode (NOther "RESOURCELITERAL") ("http://spdx.org/rdf/terms#checksumAlgorithm_sha999")));
    (MkTriple (MkNode (NOther "BLANK") ("N1")) ("http://spdx.org/rdf/terms#spdxDocument") (MkNode (NOther "RESOURCELITERAL") ("http://spdx.org/spdxdocs/spdx-tools-v1.2-3F2504E0-4F89-41D3-9A0C-0305E82C3301")))] [(MkNode (NOther "BLANK") ("N1"))] test_uri in
  let r2 := external_document_from_node g1 (MkNode (NOther "BLANK") ("N1")) in
  let g3 := MkGraph [(MkTriple (MkNode (NOther "BLANK") ("N1")) ("http://www.w3.org/1999/02/22-rdf-syntax-ns#type") (MkNode NIri ("http://spdx.org/rdf/terms#ExternalDocumentRef")));
    (MkTriple (MkNode (NOther "BLANK") ("N1")) ("http://spdx.org/rdf/terms#unknownTag") (MkNode (NOther "LITERAL") ("")))] [(MkNode (NOther "BLANK") ("N1"))] test_uri in
  let r4 := external_document_from_node g3 (MkNode (NOther "BLANK") ("N1")) in
  let g5 := MkGraph [(MkTriple (MkNode (NOther "BLANK") ("N1")) ("http://www.w3.org/1999/02/22-rdf-syntax-ns#type") (MkNode NIri ("http://spdx.org/rdf/terms#ExternalDocumentRef")));
    (MkTriple (MkNode (NOther "BLANK") ("N1")) ("http://spdx.org/rdf/terms#externalDocumentId") (MkNode (NOther "LITERAL") ("DocumentRef-spdx-tool-1.2")));
    (MkTriple (MkNode (NOther "BLANK") ("N1")) ("http://spdx.org/rdf/terms#checksum") (MkNode (NOther "BLANK") ("N2")));
    (MkTriple (MkNode (NOther "BLANK") ("N2")) ("http://www.w3.org/1999/02/22-rdf-syntax-ns#type") (MkNode NIri ("http://spdx.org/rdf/terms#Checksum")));
    (MkTriple (MkNode (NOther "BLANK") ("N2")) ("http://spdx.org/rdf/terms#checksumValue") (MkNode (NOther "LITERAL") ("d6a770ba38583ed4bb4525bd96e50461655d2759")));
    (MkTriple (MkNode (NOther "BLANK") ("N2")) ("http://spdx.org/rdf/terms#algorithm") (MkNode (NOther "RESOURCELITERAL") ("http://spdx.org/rdf/terms#checksumAlgorithm_sha256")));
    (MkTriple (MkNode (NOther "BLANK") ("N1")) ("http://spdx.org/rdf/terms#spdxDocument") (MkNode (NOther "RESOURCELITERAL") ("http://spdx.org/spdxdocs/spdx-tools-v1.2-3F2504E0-4F89-41D3-9A0C-0305E82C3301")))] [(MkNode (NOther "BLANK") ("N1"))] test_uri in
  let r6 := external_document_from_node g5 (MkNode (NOther "BLANK") ("N1")) in
  [(olift Bool.eqb (failed r2) (Some false));
   (olift Bool.eqb (failed r4) (Some false));
   (option_map negb (olift Bool.eqb (failed r6) (Some false)))]) = true.
Proof. vm_compute. reflexivity. Qed.
(** /repo/spdx/v2/v2_3/rdf/reader/parse_spdx_document_test.go 67 *)
Example v23_Test_rdfParser2_3_parseSpdxDocumentNode : forallb is_false (
  let g1 := MkGraph [(MkTriple (MkNode NIri ("http://spdx.org/spdxdocs/spdx-example-444504E0-4F89-41D3-9A0C-0305E82C3301/Document")) ("http://www.w3.org/1999/02/22-rdf-syntax-ns#type") (MkNode NIri ("http://spdx.org/rdf/terms#SpdxDocument")))] [(MkNode NIri ("http://spdx.org/spdxdocs/spdx-example-444504E0-4F89-41D3-9A0C-0305E82C3301/Document"))] test_uri in
  let r2 := parse_document_node V23 g1 (MkNode NIri ("http://spdx.org/spdxdocs/spdx-example-444504E0-4F89-41D3-9A0C-0305E82C3301/Document")) init_state in
  let s3 := match r2 with Ok x => x | _ => init_state end in
  let g4 := MkGraph [(MkTriple (MkNode NIri ("http://spdx.org/spdxdocs/spdx-example-444504E0-4F89-41D3-9A0C-0305E82C3301#SPDXRef-Document")) ("http://www.w3.org/1999/02/22-rdf-syntax-ns#type") (MkNode NIri ("http://spdx.org/rdf/terms#SpdxDocument")));
    (MkTriple (MkNode NIri ("http://spdx.org/spdxdocs/spdx-example-444504E0-4F89-41D3-9A0C-0305E82C3301#SPDXRef-Document")) ("http://spdx.org/rdf/terms#dataLicense") (MkNode (NOther "RESOURCELITERAL") ("http://spdx.org/rdf/terms#Unknown")))] [(MkNode NIri ("http://spdx.org/spdxdocs/spdx-example-444504E0-4F89-41D3-9A0C-0305E82C3301#SPDXRef-Document"))] test_uri in
  let r5 := parse_document_node V23 g4 (MkNode NIri ("http://spdx.org/spdxdocs/spdx-example-444504E0-4F89-41D3-9A0C-0305E82C3301#SPDXRef-Document")) init_state in
  let s6 := match r5 with Ok x => x | _ => init_state end in
  let g7 := MkGraph [(MkTriple (MkNode NIri ("http://spdx.org/spdxdocs/spdx-example-444504E0-4F89-41D3-9A0C-0305E82C3301#SPDXRef-Document")) ("http://www.w3.org/1999/02/22-rdf-syntax-ns#type") (MkNode NIri ("http://spdx.org/rdf/terms#SpdxDocument")));
    (MkTriple (MkNode NIri ("http://spdx.org/spdxdocs/spdx-example-444504E0-4F89-41D3-9A0C-0305E82C3301#SPDXRef-Document")) ("http://spdx.org/rdf/terms#externalDocumentRef") (MkNode (NOther "BLANK") ("N1")));
    (MkTriple (MkNode (NOther "BLANK") ("N1")) ("http://www.w3.org/1999/02/22-rdf-syntax-ns#type") (MkNode NIri ("http://spdx.org/rdf/terms#ExternalDocumentRef")));
    (MkTriple (MkNode (NOther "BLANK") ("N1")) ("http://spdx.org/rdf/terms#externalDocumentId") (MkNode (NOther "LITERAL") ("DocumentRef-spdx-tool-1.2")));
    (MkTriple (MkNode (NOther "BLANK") ("N1")) ("http://spdx.org/rdf/terms#checksum") (MkNode (NOther "BLANK") ("N2")));
    (MkTriple (MkNode (NOther "BLANK") ("N2")) ("http://www.w3.org/1999/02/22-rdf-syntax-ns#type") (MkNode NIri ("http://spdx.org/rdf/terms#Checksum")));
    (MkTriple (MkNode (NOther "BLANK") ("N2")) ("http://spdx.org/rdf/terms#checksumValue") (MkNode (NOther "LITERAL") ("d6a770ba38583ed4bb4525bd96e50461655d2759")));
    (MkTriple (MkNode (NOther "BLANK") ("N2")) ("http://spdx.org/rdf/terms#algorithm") (MkNode (NOther "RESOURCELITERAL") ("http://spdx.org/rdf/terms#checksumAlgorithm_sha999")));
    (MkTriple (MkNode (NOther "BLANK") ("N1")) ("http://spdx.org/rdf/terms#spdxDocument") (MkNode (NOther "RESOURCELITERAL") ("http://spdx.org/spdxdocs/spdx-tools-v1.2-3F2504E0-4F89-41D3-9A0C-0305E82C3301")))] [(MkNode NIri ("http://spdx.org/spdxdocs/spdx-example-444504E0-4F89-41D3-9A0C-0305E82C3301#SPDXRef-Document"))] test_uri in
  let r8 := parse_document_node V23 g7 (MkNode NIri ("http://spdx.org/spdxdocs/spdx-example-444504E0-4F89-41D3-9A0C-0305E82C3301#SPDXRef-Document")) init_state in
  let s9 := match r8 with Ok x => x | _ => init_state end in
  let g10 := MkGraph [(MkTriple (MkNode NIri ("http://spdx.org/spdxdocs/spdx-example-444504E0-4F89-41D3-9A0C-0305E82C3301#SPDXRef-Document")) ("http://www.w3.org/1999/02/22-rdf-syntax-ns#type") (MkNode NIri ("http://spdx.org/rdf/terms#SpdxDocument")));
    (MkTriple (MkNode NIri ("http://spdx.org/spdxdocs/spdx-example-444504E0-4F89-41D3-9A0C-0305E82C3301#SPDXRef-Document")) ("http://spdx.org/rdf/terms#describesPackage") (MkNode NIri ("http://www.spdx.org/spdxdocs/8f141b09-1138-4fc5-aecb-fc10d9ac1eed#SPDX-1")));
    (MkTriple (MkNode NIri ("http://www.spdx.org/spdxdocs/8f141b09-1138-4fc5-aecb-fc10d9ac1eed#SPDX-1")) ("http://www.w3.org/1999/02/22-rdf-syntax-ns#type") (MkNode NIri ("http://spdx.org/rdf/terms#Package")))] [(MkNode NIri ("http://spdx.org/spdxdocs/spdx-example-444504E0-4F89-41D3-9A0C-0305E82C3301#SPDXRef-Document"))] test_uri in
  let r11 := parse_document_node V23 g10 (MkNode NIri ("http://spdx.org/spdxdocs/spdx-example-444504E0-4F89-41D3-9A0C-0305E82C3301#SPDXRef-Document")) init_state in
  let s12 := match r11 with Ok x => x | _ => init_state end in
  let g13 := MkGraph [(MkTriple (MkNode NIri ("http://spdx.org/spdxdocs/spdx-example-444504E0-4F89-41D3-9A0C-0305E82C3301#SPDXRef-Document")) ("http://www.w3.org/1999/02/22-rdf-syntax-ns#type") (MkNode NIri ("http://spdx.org/rdf/terms#SpdxDocument")));
    (MkTriple (MkNode NIri ("http://spdx.org/spdxdocs/spdx-example-444504E0-4F89-41D3-9A0C-0305E82C3301#SPDXRef-Document")) ("http://spdx.org/rdf/terms#hasExtractedLicensingInfo") (MkNode NIri ("http://spdx.org/spdxdocs/spdx-example-444504E0-4F89-41D3-9A0C-0305E82C3301#LicenseRef-Freeware")));
    (MkTriple (MkNode NIri ("http://spdx.org/spdxdocs/spdx-example-444504E0-4F89-41D3-9A0C-0305E82C3301#LicenseRef-Freeware")) ("http://www.w3.org/1999/02/22-rdf-syntax-ns#type") (MkNode NIri ("http://spdx.org/rdf/terms#ExtractedLicensingInfo")));
    (MkTriple (MkNode NIri ("http://spdx.org/spdxdocs/spdx-example-444504E0-4F89-41D3-9A0C-0305E82C3301#LicenseRef-Freeware")) ("http://spdx.org/rdf/terms#invalidTag") (MkNode (NOther "LITERAL") ("")));
    (MkTriple (MkNode NIri ("http://spdx.org/spdxdocs/spdx-example-444504E0-4F89-41D3-9A0C-0305E82C3301#LicenseRef-Freeware")) ("http://spdx.org/rdf/terms#licenseId") (MkNode (NOther "LITERAL") ("LicenseRef-Freeware")));
    (MkTriple (MkNode NIri ("http://spdx.org/spdxdocs/spdx-example-444504E0-4F89-41D3-9A0C-0305E82C3301#LicenseRef-Freeware")) ("http://spdx.org/rdf/terms#name") (MkNode (NOther "LITERAL") ("freeware")));
    (MkTriple (MkNode NIri ("http://spdx.org/spdxdocs/spdx-example-444504E0-4F89-41D3-9A0C-0305E82C3301#LicenseRef-Freeware")) ("http://spdx.org/rdf/terms#extractedText") (MkNode (NOther "LITERAL") ("
Software classified as freeware is licensed at no cost and is either fully functional for an unlimited time; or has only basic functions enabled with a fully functional version available commercially or as shareware.[8] In contrast to free software, the author usually restricts one or more rights of the user, including the rights to use, copy, distribute, modify and make derivative works of the software or extract the source code.[1][2][9][10] The software license may impose various additional restrictions on the type of use, e.g. only for personal use, private use, individual use, non-profit use, non-commercial use, academic use, educational use, use in charity or humanitarian organizations, non-military use, use by public authorities or various other combinations of these type of restrictions.[11] For instance, the license may be ""free for private, non-commercial use"". The software license may also impose various other restrictions, such as restricted use over a network, restricted use on a server, restricted use in a combination with some types of other software or with some hardware devices, prohibited distribution over the Internet other than linking to author's website, restricted distribution without author's consent, restricted number of copies, etc.
					")))] [(MkNode NIri ("http://spdx.org/spdxdocs/spdx-example-444504E0-4F89-41D3-9A0C-0305E82C3301#SPDXRef-Document"))] test_uri in
  let r14 := parse_document_node V23 g13 (MkNode NIri ("http://spdx.org/spdxdocs/spdx-example-444504E0-4F89-41D3-9A0C-0305E82C3301#SPDXRef-Document")) init_state in
  let s15 := match r14 with Ok x => x | _ => init_state end in
  let g16 := MkGraph [(MkTriple (MkNode NIri ("http://spdx.org/spdxdocs/spdx-example-444504E0-4F89-41D3-9A0C-0305E82C3301#SPDXRef-Document")) ("http://www.w3.org/1999/02/22-rdf-syntax-ns#type") (MkNode NIri ("http://spdx.org/rdf/terms#SpdxDocument")));
    (MkTriple (MkNode NIri ("http://spdx.org/spdxdocs/spdx-example-444504E0-4F89-41D3-9A0C-0305E82C3301#SPDXRef-Document")) ("http://spdx.org/rdf/terms#annotation") (MkNode (NOther "BLANK") ("N1")));
    (MkTriple (MkNode (NOther "BLANK") ("N1")) ("http://www.w3.org/1999/02/22-rdf-syntax-ns#type") (MkNode NIri ("http://spdx.org/rdf/terms#Annotation")));
    (MkTriple (MkNode (NOther "BLANK") ("N1")) ("http://spdx.org/rdf/terms#unknownAttribute") (MkNode (NOther "LITERAL") ("")))] [(MkNode NIri ("http://spdx.org/spdxdocs/spdx-example-444504E0-4F89-41D3-9A0C-0305E82C3301#SPDXRef-Document"))] test_uri in
  let r17 := parse_document_node V23 g16 (MkNode NIri ("http://spdx.org/spdxdocs/spdx-example-444504E0-4F89-41D3-9A0C-0305E82C3301#SPDXRef-Document")) init_state in
  let s18 := match r17 with Ok x => x | _ => init_state end in
  let g19 := MkGraph [(MkTriple (MkNode NIri ("http://spdx.org/spdxdocs/spdx-example-444504E0-4F89-41D3-9A0C-0305E82C3301#SPDXRef-Document")) ("http://www.w3.org/1999/02/22-rdf-syntax-ns#type") (MkNode NIri ("http://spdx.org/rdf/terms#SpdxDocument")));
    (MkTriple (MkNode NIri ("http://spdx.org/spdxdocs/spdx-example-444504E0-4F89-41D3-9A0C-0305E82C3301#SPDXRef-Document")) ("http://spdx.org/rdf/terms#unknownTag") (MkNode (NOther "LITERAL") ("")))] [(MkNode NIri ("http://spdx.org/spdxdocs/spdx-example-444504E0-4F89-41D3-9A0C-0305E82C3301#SPDXRef-Document"))] test_uri in
  let r20 := parse_document_node V23 g19 (MkNode NIri ("http://spdx.org/spdxdocs/spdx-example-444504E0-4F89-41D3-9A0C-0305E82C3301#SPDXRef-Document")) init_state in
  let s21 := match r20 with Ok x => x | _ => init_state end in
  let g22 := MkGraph [(MkTriple (MkNode NIri ("http://spdx.org/spdxdocs/spdx-example-444504E0-4F89-41D3-9A0C-0305E82C3301#SPDXRef-Document")) ("http://www.w3.org/1999/02/22-rdf-syntax-ns#type") (MkNode NIri ("http://spdx.org/rdf/terms#SpdxDocument")));
    (MkTriple (MkNode NIri ("http://spdx.org/spdxdocs/spdx-example-444504E0-4F89-41D3-9A0C-0305E82C3301#SPDXRef-Document")) ("http://spdx.org/rdf/terms#specVersion") (MkNode (NOther "LITERAL") ("SPDX-2.1")));
    (MkTriple (MkNode NIri ("http://spdx.org/spdxdocs/spdx-example-444504E0-4F89-41D3-9A0C-0305E82C3301#SPDXRef-Document")) ("http://spdx.org/rdf/terms#dataLicense") (MkNode (NOther "RESOURCELITERAL") ("http://spdx.org/licenses/CC0-1.0")));
    (MkTriple (MkNode NIri ("http://spdx.org/spdxdocs/spdx-example-444504E0-4F89-41D3-9A0C-0305E82C3301#SPDXRef-Document")) ("http://spdx.org/rdf/terms#name") (MkNode (NOther "LITERAL") ("/test/example")));
    (MkTriple (MkNode NIri ("http://spdx.org/spdxdocs/spdx-example-444504E0-4F89-41D3-9A0C-0305E82C3301#SPDXRef-Document")) ("http://spdx.org/rdf/terms#externalDocumentRef") (MkNode (NOther "BLANK") ("N1")));
    (MkTriple (MkNode (NOther "BLANK") ("N1")) ("http://www.w3.org/1999/02/22-rdf-syntax-ns#type") (MkNode NIri ("http://spdx.org/rdf/terms#ExternalDocumentRef")));
    (MkTriple (MkNode (NOther "BLANK") ("N1")) ("http://spdx.org/rdf/terms#externalDocumentId") (MkNode (NOther "LITERAL") ("DocumentRef-spdx-tool-1.2")));
    (MkTriple (MkNode (NOther "BLANK") ("N1")) ("http://spdx.org/rdf/terms#checksum") (MkNode (NOther "BLANK") ("N2")));
    (MkTriple (MkNode (NOther "BLANK") ("N2")) ("http://www.w3.org/1999/02/22-rdf-syntax-ns#type") (MkNode NIri ("http://spdx.org/rdf/terms#Checksum")));
    (MkTriple (MkNode (NOther "BLANK") ("N2")) ("http://spdx.org/rdf/terms#checksumValue") (MkNode (NOther "LITERAL") ("d6a770ba38583ed4bb4525bd96e50461655d2759")));
    (MkTriple (MkNode (NOther "BLANK") ("N2")) ("http://spdx.org/rdf/terms#algorithm") (MkNode (NOther "RESOURCELITERAL") ("http://spdx.org/rdf/terms#checksumAlgorithm_sha1")));
    (MkTriple (MkNode (NOther "BLANK") ("N1")) ("http://spdx.org/rdf/terms#spdxDocument") (MkNode (NOther "RESOURCELITERAL") ("http://spdx.org/spdxdocs/spdx-tools-v1.2-3F2504E0-4F89-41D3-9A0C-0305E82C3301")));
    (MkTriple (MkNode NIri ("http://spdx.org/spdxdocs/spdx-example-444504E0-4F89-41D3-9A0C-0305E82C3301#SPDXRef-Document")) ("http://spdx.org/rdf/terms#creationInfo") (MkNode (NOther "BLANK") ("N3")));
    (MkTriple (MkNode (NOther "BLANK") ("N3")) ("http://www.w3.org/1999/02/22-rdf-syntax-ns#type") (MkNode NIri ("http://spdx.org/rdf/terms#CreationInfo")));
    (MkTriple (MkNode (NOther "BLANK") ("N3")) ("http://spdx.org/rdf/terms#licenseListVersion") (MkNode (NOther "LITERAL") ("2.6")));
    (MkTriple (MkNode (NOther "BLANK") ("N3")) ("http://spdx.org/rdf/terms#creator") (MkNode (NOther "LITERAL") ("Person: spdx (y)")));
    (MkTriple (MkNode (NOther "BLANK") ("N3")) ("http://spdx.org/rdf/terms#creator") (MkNode (NOther "LITERAL") ("Organization: ")));
    (MkTriple (MkNode (NOther "BLANK") ("N3")) ("http://spdx.org/rdf/terms#creator") (MkNode (NOther "LITERAL") ("Tool: spdx2")));
    (MkTriple (MkNode (NOther "BLANK") ("N3")) ("http://spdx.org/rdf/terms#created") (MkNode (NOther "LITERAL") ("2018-08-24T19:55:34Z")));
    (MkTriple (MkNode NIri ("http://spdx.org/spdxdocs/spdx-example-444504E0-4F89-41D3-9A0C-0305E82C3301#SPDXRef-Document")) ("http://www.w3.org/2000/01/rdf-schema#comment") (MkNode (NOther "LITERAL") ("test")));
    (MkTriple (MkNode NIri ("http://spdx.org/spdxdocs/spdx-example-444504E0-4F89-41D3-9A0C-0305E82C3301#SPDXRef-Document")) ("http://spdx.org/rdf/terms#reviewed") (MkNode (NOther "BLANK") ("N4")));
    (MkTriple (MkNode (NOther "BLANK") ("N4")) ("http://www.w3.org/1999/02/22-rdf-syntax-ns#type") (MkNode NIri ("http://spdx.org/rdf/terms#Review")));
    (MkTriple (MkNode (NOther "BLANK") ("N4")) ("http://www.w3.org/2000/01/rdf-schema#comment") (MkNode (NOther "LITERAL") ("Another example reviewer.")));
    (MkTriple (MkNode (NOther "BLANK") ("N4")) ("http://spdx.org/rdf/terms#reviewDate") (MkNode (NOther "LITERAL") ("2011-03-13T00:00:00Z")));
    (MkTriple (MkNode (NOther "BLANK") ("N4")) ("http://spdx.org/rdf/terms#reviewer") (MkNode (NOther "LITERAL") ("Person: Suzanne Reviewer")));
    (MkTriple (MkNode NIri ("http://spdx.org/spdxdocs/spdx-example-444504E0-4F89-41D3-9A0C-0305E82C3301#SPDXRef-Document")) ("http://spdx.org/rdf/terms#describesPackage") (MkNode NIri ("http://spdx.org/spdxdocs/spdx-example-444504E0-4F89-41D3-9A0C-0305E82C3301#SPDXRef-1")));
    (MkTriple (MkNode NIri ("http://spdx.org/spdxdocs/spdx-example-444504E0-4F89-41D3-9A0C-0305E82C3301#SPDXRef-1")) ("http://www.w3.org/1999/02/22-rdf-syntax-ns#type") (MkNode NIri ("http://spdx.org/rdf/terms#Package")));
    (MkTriple (MkNode NIri ("http://spdx.org/spdxdocs/spdx-example-444504E0-4F89-41D3-9A0C-0305E82C3301#SPDXRef-Document")) ("http://spdx.org/rdf/terms#hasExtractedLicensingInfo") (MkNode (NOther "RESOURCELITERAL") ("http://spdx.org/licenses/CC0-1.0")));
    (MkTriple (MkNode NIri ("http://spdx.org/spdxdocs/spdx-example-444504E0-4F89-41D3-9A0C-0305E82C3301#SPDXRef-Document")) ("http://spdx.org/rdf/terms#relationship") (MkNode (NOther "BLANK") ("N5")));
    (MkTriple (MkNode (NOther "BLANK") ("N5")) ("http://www.w3.org/1999/02/22-rdf-syntax-ns#type") (MkNode NIri ("http://spdx.org/rdf/terms#Relationship")));
    (MkTriple (MkNode (NOther "BLANK") ("N5")) ("http://spdx.org/rdf/terms#relationshipType") (MkNode (NOther "RESOURCELITERAL") ("http://spdx.org/rdf/terms#relationshipType_containedBy")));
    (MkTriple (MkNode (NOther "BLANK") ("N5")) ("http://spdx.org/rdf/terms#relatedSpdxElement") (MkNode (NOther "RESOURCELITERAL") ("http://spdx.org/documents/spdx-toolsv2.1.7-SNAPSHOT#SPDXRef-1")));
    (MkTriple (MkNode (NOther "BLANK") ("N5")) ("http://www.w3.org/2000/01/rdf-schema#comment") (MkNode (NOther "LITERAL") ("")));
    (MkTriple (MkNode NIri ("http://spdx.org/spdxdocs/spdx-example-444504E0-4F89-41D3-9A0C-0305E82C3301#SPDXRef-Document")) ("http://spdx.org/rdf/terms#annotation") (MkNode (NOther "BLANK") ("N6")));
    (MkTriple (MkNode (NOther "BLANK") ("N6")) ("http://www.w3.org/1999/02/22-rdf-syntax-ns#type") (MkNode NIri ("http://spdx.org/rdf/terms#Annotation")));
    (MkTriple (MkNode (NOther "BLANK") ("N6")) ("http://spdx.org/rdf/terms#annotationDate") (MkNode (NOther "LITERAL") ("2011-01-29T18:30:22Z")));
    (MkTriple (MkNode (NOther "BLANK") ("N6")) ("http://www.w3.org/2000/01/rdf-schema#comment") (MkNode (NOther "LITERAL") ("test annotation")));
    (MkTriple (MkNode (NOther "BLANK") ("N6")) ("http://spdx.org/rdf/terms#annotator") (MkNode (NOther "LITERAL") ("Person: Rishabh Bhatnagar")));
    (MkTriple (MkNode (NOther "BLANK") ("N6")) ("http://spdx.org/rdf/terms#annotationType") (MkNode (NOther "RESOURCELITERAL") ("http://spdx.org/rdf/terms#annotationType_other")))] [(MkNode NIri ("http://spdx.org/spdxdocs/spdx-example-444504E0-4F89-41D3-9A0C-0305E82C3301#SPDXRef-Document"))] test_uri in
  let r23 := parse_document_node V23 g22 (MkNode NIri ("http://spdx.org/spdxdocs/spdx-example-444504E0-4F89-41D3-9A0C-0305E82C3301#SPDXRef-Document")) init_state in
  let s24 := match r23 with Ok x => x | _ => init_state end in
  [(olift Bool.eqb (failed r2) (Some false));
   (olift Bool.eqb (failed r5) (Some false));
   (olift Bool.eqb (failed r8) (Some false));
   (olift Bool.eqb (failed r11) (Some false));
   (olift Bool.eqb (failed r14) (Some false));
   (olift Bool.eqb (failed r17) (Some false));
   (olift Bool.eqb (failed r20) (Some false));
   (option_map negb (olift Bool.eqb (failed r23) (Some false)))]) = true.
Proof. vm_compute. reflexivity. Qed.
(** /repo/spdx/v2/v2_3/rdf/reader/parser_test.go 32 *)
Example v23_TestLoadFromGoRDFParser : forallb is_false (
  let g1 := MkGraph [] [] test_uri in
  let r2 := load V23 g1 ( fun l => l ) in
  let g3 := MkGraph [(MkTriple (MkNode NIri ("http://spdx.org/spdxdocs/spdx-example-444504E0-4F89-41D3-9A0C-0305E82C3301/Document")) ("http://www.w3.org/1999/02/22-rdf-syntax-ns#type") (MkNode NIri ("http://spdx.org/rdf/terms#SpdxDocument")));
    (MkTriple (MkNode NIri ("http://spdx.org/spdxdocs/spdx-example-444504E0-4F89-41D3-9A0C-0305E82C3301/Document")) ("http://spdx.org/rdf/terms#invalidTag") (MkNode (NOther "LITERAL") ("")))] [(MkNode NIri ("http://spdx.org/spdxdocs/spdx-example-444504E0-4F89-41D3-9A0C-0305E82C3301/Document"))] test_uri in
  let r4 := load V23 g3 ( fun l => l ) in
  let g5 := MkGraph [(MkTriple (MkNode NIri ("http://spdx.org/spdxdocs/spdx-example-444504E0-4F89-41D3-9A0C-0305E82C3301#SPDXRef-Document")) ("http://www.w3.org/1999/02/22-rdf-syntax-ns#type") (MkNode NIri ("http://spdx.org/rdf/terms#SpdxDocument")));
    (MkTriple (MkNode NIri ("http://spdx.org/spdxdocs/spdx-example-444504E0-4F89-41D3-9A0C-0305E82C3301#Snippet")) ("http://www.w3.org/1999/02/22-rdf-syntax-ns#type") (MkNode NIri ("http://spdx.org/rdf/terms#Snippet")));
    (MkTriple (MkNode NIri ("http://spdx.org/spdxdocs/spdx-example-444504E0-4F89-41D3-9A0C-0305E82C3301#Snippet")) ("http://www.w3.org/1999/02/22-rdf-syntax-ns#type") (MkNode NIri ("http://spdx.org/rdf/terms#CreationInfo")))] [(MkNode NIri ("http://spdx.org/spdxdocs/spdx-example-444504E0-4F89-41D3-9A0C-0305E82C3301#SPDXRef-Document")); (MkNode NIri ("http://spdx.org/spdxdocs/spdx-example-444504E0-4F89-41D3-9A0C-0305E82C3301#Snippet"))] test_uri in
  let r6 := load V23 g5 ( fun l => l ) in
  let g7 := MkGraph [(MkTriple (MkNode NIri ("http://spdx.org/spdxdocs/spdx-example-444504E0-4F89-41D3-9A0C-0305E82C3301#SPDXRef-Document")) ("http://www.w3.org/1999/02/22-rdf-syntax-ns#type") (MkNode NIri ("http://spdx.org/rdf/terms#SpdxDocument")));
    (MkTriple (MkNode NIri ("http://spdx.org/spdxdocs/spdx-example-444504E0-4F89-41D3-9A0C-0305E82C3301#Snippet")) ("http://www.w3.org/1999/02/22-rdf-syntax-ns#type") (MkNode NIri ("http://spdx.org/rdf/terms#Snippet")))] [(MkNode NIri ("http://spdx.org/spdxdocs/spdx-example-444504E0-4F89-41D3-9A0C-0305E82C3301#SPDXRef-Document")); (MkNode NIri ("http://spdx.org/spdxdocs/spdx-example-444504E0-4F89-41D3-9A0C-0305E82C3301#Snippet"))] test_uri in
  let r8 := load V23 g7 ( fun l => l ) in
  let g9 := MkGraph [(MkTriple (MkNode NIri ("http://spdx.org/spdxdocs/spdx-example-444504E0-4F89-41D3-9A0C-0305E82C3301#SPDXRef-Document")) ("http://www.w3.org/1999/02/22-rdf-syntax-ns#type") (MkNode NIri ("http://spdx.org/rdf/terms#SpdxDocument")));
    (MkTriple (MkNode NIri ("http://spdx.org/spdxdocs/spdx-example-444504E0-4F89-41D3-9A0C-0305E82C3301#SPDXRef-Snippet")) ("http://www.w3.org/1999/02/22-rdf-syntax-ns#type") (MkNode NIri ("http://spdx.org/rdf/terms#Snippet")))] [(MkNode NIri ("http://spdx.org/spdxdocs/spdx-example-444504E0-4F89-41D3-9A0C-0305E82C3301#SPDXRef-Document")); (MkNode NIri ("http://spdx.org/spdxdocs/spdx-example-444504E0-4F89-41D3-9A0C-0305E82C3301#SPDXRef-Snippet"))] test_uri in
  let r10 := load V23 g9 ( fun l => l ) in
  let g11 := MkGraph [(MkTriple (MkNode NIri ("http://spdx.org/spdxdocs/spdx-example-444504E0-4F89-41D3-9A0C-0305E82C3301#SPDXRef-Document")) ("http://www.w3.org/1999/02/22-rdf-syntax-ns#type") (MkNode NIri ("http://spdx.org/rdf/terms#SpdxDocument")));
    (MkTriple (MkNode (NOther "BLANK") ("N1")) ("http://www.w3.org/1999/02/22-rdf-syntax-ns#type") (MkNode NIri ("http://spdx.org/rdf/terms#review")))] [(MkNode NIri ("http://spdx.org/spdxdocs/spdx-example-444504E0-4F89-41D3-9A0C-0305E82C3301#SPDXRef-Document")); (MkNode (NOther "BLANK") ("N1"))] test_uri in
  let r12 := load V23 g11 ( fun l => l ) in
  let g13 := MkGraph [(MkTriple (MkNode NIri ("http://spdx.org/spdxdocs/spdx-example-444504E0-4F89-41D3-9A0C-0305E82C3301#SPDXRef-Document")) ("http://www.w3.org/1999/02/22-rdf-syntax-ns#type") (MkNode NIri ("http://spdx.org/rdf/terms#SpdxDocument")));
    (MkTriple (MkNode NIri ("http://spdx.org/spdxdocs/spdx-example-444504E0-4F89-41D3-9A0C-0305E82C3301#SPDXRef-Snippet")) ("http://www.w3.org/1999/02/22-rdf-syntax-ns#type") (MkNode NIri ("http://spdx.org/rdf/terms#Snippet")));
    (MkTriple (MkNode NIri ("http://spdx.org/spdxdocs/spdx-example-444504E0-4F89-41D3-9A0C-0305E82C3301#SPDXRef-Snippet")) ("http://spdx.org/rdf/terms#name") (MkNode (NOther "LITERAL") ("from linux kernel")));
    (MkTriple (MkNode NIri ("http://spdx.org/spdxdocs/spdx-example-444504E0-4F89-41D3-9A0C-0305E82C3301#SPDXRef-Snippet")) ("http://spdx.org/rdf/terms#copyrightText") (MkNode (NOther "LITERAL") ("Copyright 2008-2010 John Smith")));
    (MkTriple (MkNode NIri ("http://spdx.org/spdxdocs/spdx-example-444504E0-4F89-41D3-9A0C-0305E82C3301#SPDXRef-Snippet")) ("http://spdx.org/rdf/terms#licenseComments") (MkNode (NOther "LITERAL") ("The concluded license was taken from package xyz, from which the snippet was copied into the current file. The concluded license information was found in the COPYING.txt file in package xyz.")));
    (MkTriple (MkNode NIri ("http://spdx.org/spdxdocs/spdx-example-444504E0-4F89-41D3-9A0C-0305E82C3301#SPDXRef-Snippet")) ("http://spdx.org/rdf/terms#snippetFromFile") (MkNode NIri ("http://spdx.org/spdxdocs/spdx-example-444504E0-4F89-41D3-9A0C-0305E82C3301#SPDXRef-DoapSource")));
    (MkTriple (MkNode NIri ("http://spdx.org/spdxdocs/spdx-example-444504E0-4F89-41D3-9A0C-0305E82C3301#SPDXRef-DoapSource")) ("http://www.w3.org/1999/02/22-rdf-syntax-ns#type") (MkNode NIri ("http://spdx.org/rdf/terms#File")));
    (MkTriple (MkNode NIri ("http://spdx.org/spdxdocs/spdx-example-444504E0-4F89-41D3-9A0C-0305E82C3301#SPDXRef-DoapSource")) ("http://spdx.org/rdf/terms#copyrightText") (MkNode (NOther "LITERAL") ("Copyright 2010, 2011 Source Auditor Inc.")));
    (MkTriple (MkNode NIri ("http://spdx.org/spdxdocs/spdx-example-444504E0-4F89-41D3-9A0C-0305E82C3301#SPDXRef-DoapSource")) ("http://spdx.org/rdf/terms#fileContributor") (MkNode (NOther "LITERAL") ("Open Logic Inc.")));
    (MkTriple (MkNode NIri ("http://spdx.org/spdxdocs/spdx-example-444504E0-4F89-41D3-9A0C-0305E82C3301#SPDXRef-DoapSource")) ("http://spdx.org/rdf/terms#fileName") (MkNode (NOther "LITERAL") ("./src/org/spdx/parser/DOAPProject.java")));
    (MkTriple (MkNode NIri ("http://spdx.org/spdxdocs/spdx-example-444504E0-4F89-41D3-9A0C-0305E82C3301#SPDXRef-DoapSource")) ("http://spdx.org/rdf/terms#fileContributor") (MkNode (NOther "LITERAL") ("Black Duck Software In.c")));
    (MkTriple (MkNode NIri ("http://spdx.org/spdxdocs/spdx-example-444504E0-4F89-41D3-9A0C-0305E82C3301#SPDXRef-DoapSource")) ("http://spdx.org/rdf/terms#fileType") (MkNode (NOther "RESOURCELITERAL") ("http://spdx.org/rdf/terms#fileType_source")));
    (MkTriple (MkNode NIri ("http://spdx.org/spdxdocs/spdx-example-444504E0-4F89-41D3-9A0C-0305E82C3301#SPDXRef-DoapSource")) ("http://spdx.org/rdf/terms#licenseInfoInFile") (MkNode (NOther "RESOURCELITERAL") ("http://spdx.org/licenses/Apache-2.0")))] [(MkNode NIri ("http://spdx.org/spdxdocs/spdx-example-444504E0-4F89-41D3-9A0C-0305E82C3301#SPDXRef-Document")); (MkNode NIri ("http://spdx.org/spdxdocs/spdx-example-444504E0-4F89-41D3-9A0C-0305E82C3301#SPDXRef-Snippet"))] test_uri in
  let r14 := load V23 g13 ( fun l => l ) in
  [(olift Bool.eqb (failed r2) (Some false));
   (olift Bool.eqb (failed r4) (Some false));
   (olift Bool.eqb (failed r6) (Some false));
   (olift Bool.eqb (failed r8) (Some false));
   (olift Bool.eqb (failed r10) (Some false));
   (option_map negb (olift Bool.eqb (failed r12) (Some false)));
   (option_map negb (olift Bool.eqb (failed r14) (Some false)))]) = true.
Proof. vm_compute. reflexivity. Qed.
(** /repo/spdx/v2/v2_3/rdf/reader/parser_test.go 120 *)
Example v23_Test_rdfParser2_3_getSpdxDocNode : forallb is_false (
  let g1 := MkGraph [(MkTriple (MkNode NIri ("http://spdx.org/spdxdocs/spdx-example-444504E0-4F89-41D3-9A0C-0305E82C3301#SPDXRef-Document")) ("http://www.w3.org/1999/02/22-rdf-syntax-ns#type") (MkNode NIri ("http://spdx.org/rdf/terms#SpdxDocument")));
    (MkTriple (MkNode NIri ("http://spdx.org/spdxdocs/spdx-example-444504E0-4F89-41D3-9A0C-0305E82C3301#SPDXRef-Document")) ("http://www.w3.org/1999/02/22-rdf-syntax-ns#type") (MkNode NIri ("http://spdx.org/rdf/terms#Snippet")))] [(MkNode NIri ("http://spdx.org/spdxdocs/spdx-example-444504E0-4F89-41D3-9A0C-0305E82C3301#SPDXRef-Document"))] test_uri in
  let r2 := get_doc_node g1 in
  let g3 := MkGraph [(MkTriple (MkNode NIri ("http://spdx.org/spdxdocs/spdx-example-444504E0-4F89-41D3-9A0C-0305E82C3301#SPDXRef-Document")) ("http://www.w3.org/1999/02/22-rdf-syntax-ns#type") (MkNode NIri ("http://spdx.org/rdf/terms#SpdxDocument")));
    (MkTriple (MkNode NIri ("http://spdx.org/spdxdocs/spdx-example-444504E0-4F89-41D3-9A0C-0305E82C3301#SPDXRef-Document")) ("http://www.w3.org/1999/02/22-rdf-syntax-ns#type") (MkNode NIri ("http://spdx.org/rdf/terms#Snippet")));
    (MkTriple (MkNode NIri ("http://spdx.org/spdxdocs/spdx-example-444504E0-4F89-41D3-9A0C-0305E82C3301#SPDXRef-DoapSource")) ("http://www.w3.org/1999/02/22-rdf-syntax-ns#type") (MkNode NIri ("http://spdx.org/rdf/terms#File")))] [(MkNode NIri ("http://spdx.org/spdxdocs/spdx-example-444504E0-4F89-41D3-9A0C-0305E82C3301#SPDXRef-Document")); (MkNode NIri ("http://spdx.org/spdxdocs/spdx-example-444504E0-4F89-41D3-9A0C-0305E82C3301#SPDXRef-DoapSource"))] test_uri in
  let r4 := get_doc_node g3 in
  let g5 := MkGraph [(MkTriple (MkNode NIri ("http://spdx.org/spdxdocs/spdx-example-444504E0-4F89-41D3-9A0C-0305E82C3301#SPDXRef-Document-1")) ("http://www.w3.org/1999/02/22-rdf-syntax-ns#type") (MkNode NIri ("http://spdx.org/rdf/terms#SpdxDocument")));
    (MkTriple (MkNode NIri ("http://spdx.org/spdxdocs/spdx-example-444504E0-4F89-41D3-9A0C-0305E82C3301#SPDXRef-Document-2")) ("http://www.w3.org/1999/02/22-rdf-syntax-ns#type") (MkNode NIri ("http://spdx.org/rdf/terms#SpdxDocument")))] [(MkNode NIri ("http://spdx.org/spdxdocs/spdx-example-444504E0-4F89-41D3-9A0C-0305E82C3301#SPDXRef-Document-1")); (MkNode NIri ("http://spdx.org/spdxdocs/spdx-example-444504E0-4F89-41D3-9A0C-0305E82C3301#SPDXRef-Document-2"))] test_uri in
  let r6 := get_doc_node g5 in
  let g7 := MkGraph [] [] test_uri in
  let r8 := get_doc_node g7 in
  let g9 := MkGraph [(MkTriple (MkNode NIri ("http://spdx.org/spdxdocs/spdx-example-444504E0-4F89-41D3-9A0C-0305E82C3301#SPDXRef-Document-1")) ("http://www.w3.org/1999/02/22-rdf-syntax-ns#type") (MkNode NIri ("http://spdx.org/rdf/terms#SpdxDocument")))] [(MkNode NIri ("http://spdx.org/spdxdocs/spdx-example-444504E0-4F89-41D3-9A0C-0305E82C3301#SPDXRef-Document-1"))] test_uri in
  let r10 := get_doc_node g9 in
  [(olift Bool.eqb (failed r2) (Some false));
   (olift Bool.eqb (failed r4) (Some false));
   (olift Bool.eqb (failed r6) (Some false));
   (olift Bool.eqb (failed r8) (Some false));
   (option_map negb (olift Bool.eqb (failed r10) (Some false)))]) = true.
Proof. vm_compute. reflexivity. Qed.
(** /repo/spdx/v2/v2_3/rdf/reader/utils_test.go 13 *)
Example v23_Test_getLastPartOfURI : forallb is_false (
  [(option_map negb (olift String.eqb (Some (last_part ("baseFragment#fragment"))) (Some ("fragment"))));
   (option_map negb (olift String.eqb (Some (last_part ("baseFragment/subFragment"))) (Some ("subFragment"))));
   (option_map negb (olift String.eqb (Some (last_part ("www.github.com"))) (Some ("www.github.com"))))]) = true.
Proof. vm_compute. reflexivity. Qed.
(** /repo/spdx/v2/v2_3/rdf/reader/utils_test.go 39 *)
Example v23_Test_isUriValid : forallb is_false (
  [(option_map negb (Some (test_uri ("https://www.github.com"))));
   (Some (test_uri ("http\:www.github.com")))]) = true.
Proof. vm_compute. reflexivity. Qed.
(** /repo/spdx/v2/v2_3/rdf/reader/utils_test.go 93 *)
Example v23_Test_boolFromString : forallb is_false (
  let r1 := bool_from_string ("true") in
  let r2 := bool_from_string ("false") in
  let r3 := bool_from_string ("") in
  [(option_map negb (olift Bool.eqb (failed r1) (Some false)));
   (option_map negb (olift Bool.eqb (value r1) (Some true)));
   (option_map negb (olift Bool.eqb (failed r2) (Some false)));
   (option_map negb (olift Bool.eqb (value r2) (Some false)));
   (olift Bool.eqb (failed r3) (Some false))]) = true.
Proof. vm_compute. reflexivity. Qed.
(** /repo/spdx/v2/v2_3/rdf/reader/utils_test.go 272 *)
Example v23_TestCanExtractSubvalues : forallb is_false (
  let r1 := extract_subs_sep ("SHA1: abc123") (":") in
  [(option_map negb (olift Bool.eqb (failed r1) (Some false)));
   (option_map negb (olift String.eqb (option_map fst (value r1)) (Some ("SHA1"))));
   (option_map negb (olift String.eqb (option_map snd (value r1)) (Some ("abc123"))))]) = true.
Proof. vm_compute. reflexivity. Qed.
(** /repo/spdx/v2/v2_3/rdf/reader/utils_test.go 285 *)
Example v23_TestReturnsErrorForInvalidSubvalueFormat : forallb is_false (
  let r1 := extract_subs_sep ("blah") (":") in
  [(olift Bool.eqb (failed r1) (Some false))]) = true.
Proof. vm_compute. reflexivity. Qed.
(** /repo/examples/sample-docs/rdf/SPDXRdfExample-v2.2.spdx.rdf *)
Definition sample : graph := MkGraph [(MkTriple (MkNode NIri ("http://spdx.org/spdxdocs/spdx-example-444504E0-4F89-41D3-9A0C-0305E82C3301#SPDXRef-Snippet")) ("http://www.w3.org/1999/02/22-rdf-syntax-ns#type") (MkNode NIri ("http://spdx.org/rdf/terms#Snippet")));
    (MkTriple (MkNode NIri ("http://spdx.org/spdxdocs/spdx-example-444504E0-4F89-41D3-9A0C-0305E82C3301#SPDXRef-Snippet")) ("http://spdx.org/rdf/terms#name") (MkNode (NOther "LITERAL") ("from linux kernel")));
    (MkTriple (MkNode NIri ("http://spdx.org/spdxdocs/spdx-example-444504E0-4F89-41D3-9A0C-0305E82C3301#SPDXRef-Snippet")) ("http://spdx.org/rdf/terms#copyrightText") (MkNode (NOther "LITERAL") ("Copyright 2008-2010 John Smith")));
    (MkTriple (MkNode NIri ("http://spdx.org/spdxdocs/spdx-example-444504E0-4F89-41D3-9A0C-0305E82C3301#SPDXRef-Snippet")) ("http://spdx.org/rdf/terms#licenseComments") (MkNode (NOther "LITERAL") ("The concluded license was taken from package xyz, from which the snippet was copied into the current file. The concluded license information was found in the COPYING.txt file in package xyz.")));
    (MkTriple (MkNode NIri ("http://spdx.org/spdxdocs/spdx-example-444504E0-4F89-41D3-9A0C-0305E82C3301#SPDXRef-Snippet")) ("http://spdx.org/rdf/terms#range") (MkNode (NOther "BLANK") ("N1")));
    (MkTriple (MkNode (NOther "BLANK") ("N1")) ("http://www.w3.org/1999/02/22-rdf-syntax-ns#type") (MkNode NIri ("http://www.w3.org/2009/pointers#StartEndPointer")));
    (MkTriple (MkNode (NOther "BLANK") ("N1")) ("http://www.w3.org/2009/pointers#endPointer") (MkNode (NOther "BLANK") ("N2")));
    (MkTriple (MkNode (NOther "BLANK") ("N2")) ("http://www.w3.org/1999/02/22-rdf-syntax-ns#type") (MkNode NIri ("http://www.w3.org/2009/pointers#ByteOffsetPointer")));
    (MkTriple (MkNode (NOther "BLANK") ("N2")) ("http://www.w3.org/2009/pointers#reference") (MkNode NIri ("http://spdx.org/spdxdocs/spdx-example-444504E0-4F89-41D3-9A0C-0305E82C3301#SPDXRef-DoapSource")));
    (MkTriple (MkNode NIri ("http://spdx.org/spdxdocs/spdx-example-444504E0-4F89-41D3-9A0C-0305E82C3301#SPDXRef-DoapSource")) ("http://www.w3.org/1999/02/22-rdf-syntax-ns#type") (MkNode NIri ("http://spdx.org/rdf/terms#File")));
    (MkTriple (MkNode NIri ("http://spdx.org/spdxdocs/spdx-example-444504E0-4F89-41D3-9A0C-0305E82C3301#SPDXRef-DoapSource")) ("http://spdx.org/rdf/terms#copyrightText") (MkNode (NOther "LITERAL") ("Copyright 2010, 2011 Source Auditor Inc.")));
    (MkTriple (MkNode NIri ("http://spdx.org/spdxdocs/spdx-example-444504E0-4F89-41D3-9A0C-0305E82C3301#SPDXRef-DoapSource")) ("http://spdx.org/rdf/terms#fileContributor") (MkNode (NOther "LITERAL") ("Open Logic Inc.")));
    (MkTriple (MkNode NIri ("http://spdx.org/spdxdocs/spdx-example-444504E0-4F89-41D3-9A0C-0305E82C3301#SPDXRef-DoapSource")) ("http://spdx.org/rdf/terms#fileName") (MkNode (NOther "LITERAL") ("./src/org/spdx/parser/DOAPProject.java")));
    (MkTriple (MkNode NIri ("http://spdx.org/spdxdocs/spdx-example-444504E0-4F89-41D3-9A0C-0305E82C3301#SPDXRef-DoapSource")) ("http://spdx.org/rdf/terms#fileContributor") (MkNode (NOther "LITERAL") ("Black Duck Software In.c")));
    (MkTriple (MkNode NIri ("http://spdx.org/spdxdocs/spdx-example-444504E0-4F89-41D3-9A0C-0305E82C3301#SPDXRef-DoapSource")) ("http://spdx.org/rdf/terms#checksum") (MkNode (NOther "BLANK") ("N3")));
    (MkTriple (MkNode (NOther "BLANK") ("N3")) ("http://www.w3.org/1999/02/22-rdf-syntax-ns#type") (MkNode NIri ("http://spdx.org/rdf/terms#Checksum")));
    (MkTriple (MkNode (NOther "BLANK") ("N3")) ("http://spdx.org/rdf/terms#checksumValue") (MkNode (NOther "LITERAL") ("2fd4e1c67a2d28fced849ee1bb76e7391b93eb12")));
    (MkTriple (MkNode (NOther "BLANK") ("N3")) ("http://spdx.org/rdf/terms#algorithm") (MkNode (NOther "RESOURCELITERAL") ("http://spdx.org/rdf/terms#checksumAlgorithm_sha1")));
    (MkTriple (MkNode NIri ("http://spdx.org/spdxdocs/spdx-example-444504E0-4F89-41D3-9A0C-0305E82C3301#SPDXRef-DoapSource")) ("http://spdx.org/rdf/terms#fileContributor") (MkNode (NOther "LITERAL") ("Source Auditor Inc.")));
    (MkTriple (MkNode NIri ("http://spdx.org/spdxdocs/spdx-example-444504E0-4F89-41D3-9A0C-0305E82C3301#SPDXRef-DoapSource")) ("http://spdx.org/rdf/terms#fileContributor") (MkNode (NOther "LITERAL") ("SPDX Technical Team Members")));
    (MkTriple (MkNode NIri ("http://spdx.org/spdxdocs/spdx-example-444504E0-4F89-41D3-9A0C-0305E82C3301#SPDXRef-DoapSource")) ("http://spdx.org/rdf/terms#licenseConcluded") (MkNode NIri ("http://spdx.org/licenses/Apache-2.0")));
    (MkTriple (MkNode NIri ("http://spdx.org/licenses/Apache-2.0")) ("http://www.w3.org/1999/02/22-rdf-syntax-ns#type") (MkNode NIri ("http://spdx.org/rdf/terms#License")));
    (MkTriple (MkNode NIri ("http://spdx.org/licenses/Apache-2.0")) ("http://www.w3.org/2000/01/rdf-schema#comment") (MkNode (NOther "LITERAL") ("This license was released January 2004")));
    (MkTriple (MkNode NIri ("http://spdx.org/licenses/Apache-2.0")) ("http://spdx.org/rdf/terms#name") (MkNode (NOther "LITERAL") ("Apache License 2.0")));
    (MkTriple (MkNode NIri ("http://spdx.org/licenses/Apache-2.0")) ("http://spdx.org/rdf/terms#licenseText") (MkNode (NOther "LITERAL") ("Apache License Version 2.0, January 2004 http://www.apache.org/licenses/ TERMS AND CONDITIONS FOR USE, REPRODUCTION, AND DISTRIBUTION 1. Definitions. ""License"" shall mean the terms and conditions for use, reproduction, and distribution as defined by Sections 1 through 9 of this document. ""Licensor"" shall mean the copyright owner or entity authorized by the copyright owner that is granting the License. ""Legal Entity"" shall mean the union of the acting entity and all other entities that control, are controlled by, or are under common control with that entity. For the purposes of this definition, ""control"" means (i) the power, direct or indirect, to cause the direction or management of such entity, whether by contract or otherwise, or (ii) ownership of fifty percent (50%) or more of the outstanding shares, or (iii) beneficial ownership of such entity. ""You"" (or ""Your"") shall mean an individual or Legal Entity exercising permissions granted by this License. ""Source"" form shall mean the preferred form for making modifications, including but not limited to software source code, documentation source, and configuration files. ""Object"" form shall mean any form resulting from mechanical transformation or translation of a Source form, including but not limited to compiled object code, generated documentation, and conversions to other media types. ""Work"" shall mean the work of authorship, whether in Source or Object form, made available under the License, as indicated by a copyright notice that is included in or attached to the work (an example is provided in the Appendix below). ""Derivative Works"" shall mean any work, whether in Source or Object form, that is based on (or derived from) the Work and for which the editorial revisions, annotations, elaborations, or other modifications represent, as a whole, an original work of authorship. For the purposes of this License, Derivative Works shall not include works that remain separable from, or merely link (or bind by name) to the interfaces of, the Work and Derivative Works thereof. ""Contribution"" shall mean any work of authorship, including the original version of the Work and any modifications or additions to that Work or Derivative Works thereof, that is intentionally submitted to Licensor for inclusion in the Work by the copyright owner or by an individual or Legal Entity authorized to submit on behalf of the copyright owner. For the purposes of this definition, ""submitted"" means any form of electronic, verbal, or written communication sent to the Licensor or its representatives, including but not limited to communication on electronic mailing lists, source code control systems, and issue tracking systems that are managed by, or on behalf of, the Licensor for the purpose of discussing and improving the Work, but excluding communication that is conspicuously marked or otherwise designated in writing by the copyright owner as ""Not a Contribution."" ""Contributor"" shall mean Licensor and any individual or Legal Entity on behalf of whom a Contribution has been received by Licensor and subsequently incorporated within the Work. 2. Grant of Copyright License. Subject to the terms and conditions of this License, each Contributor hereby grants to You a perpetual, worldwide, non-exclusive, no-charge, royalty-free, irrevocable copyright license to reproduce, prepare Derivative Works of, publicly display, publicly perform, sublicense, and distribute the Work and such Derivative Works in Source or Object form. 3. Grant of Patent License. Subject to the terms and conditions of this License, each Contributor hereby grants to You a perpetual, worldwide, non-exclusive, no-charge, royalty-free, irrevocable (except as stated in this section) patent license to make, have made, use, offer to sell, sell, import, and otherwise transfer the Work, where such license applies only to those patent claims licensable by such Contributor that are necessarily infringed by their Contribution(s) alone or by combination of their Contribution(s) with the Work to which such Contribution(s) was submitted. If You institute patent litigation against any entity (including a cross-claim or counterclaim in a lawsuit) alleging that the Work or a Contribution incorporated within the Work constitutes direct or contributory patent infringement, then any patent licenses granted to You under this License for that Work shall terminate as of the date such litigation is filed. 4. Redistribution. You may reproduce and distribute copies of the Work or Derivative Works thereof in any medium, with or without modifications, and in Source or Object form, provided that You meet the following conditions: (a) You must give any other recipients of the Work or Derivative Works a copy of this License; and (b) You must cause any modified files to carry prominent notices stating that You changed the files; and (c) You must retain, in the Source form of any Derivative Works that You distribute, all copyright, patent, trademark, and attribution notices from the Source form of the Work, excluding those notices that do not pertain to any part of the Derivative Works; and (d) If the Work includes a ""NOTICE"" text file as part of its distribution, then any Derivative Works that You distribute must include a readable copy of the attribution notices contained within such NOTICE file, excluding those notices that do not pertain to any part of the Derivative Works, in at least one of the following places: within a NOTICE text file distributed as part of the Derivative Works; within the Source form or documentation, if provided along with the Derivative Works; or, within a display generated by the Derivative Works, if and wherever such third-party notices normally appear. The contents of the NOTICE file are for informational purposes only and do not modify the License. You may add Your own attribution notices within Derivative Works that You distribute, alongside or as an addendum to the NOTICE text from the Work, provided that such additional attribution notices cannot be construed as modifying the License. You may add Your own copyright statement to Your modifications and may provide additional or different license terms and conditions for use, reproduction, or distribution of Your modifications, or for any such Derivative Works as a whole, provided Your use, reproduction, and distribution of the Work otherwise complies with the conditions stated in this License. 5. Submission of Contributions. Unless You explicitly state otherwise, any Contribution intentionally submitted for inclusion in the Work by You to the Licensor shall be under the terms and conditions of this License, without any additional terms or conditions. Notwithstanding the above, nothing herein shall supersede or modify the terms of any separate license agreement you may have executed with Licensor regarding such Contributions. 6. Trademarks. This License does not grant permission to use the trade names, trademarks, service marks, or product names of the Licensor, except as required for reasonable and customary use in describing the origin of the Work and reproducing the content of the NOTICE file. 7. Disclaimer of Warranty. Unless required by applicable law or agreed to in writing, Licensor provides the Work (and each Contributor provides its Contributions) on an ""AS IS"" BASIS, WITHOUT WARRANTIES OR CONDITIONS OF ANY KIND, either express or implied, including, without limitation, any warranties or conditions of TITLE, NON-INFRINGEMENT, MERCHANTABILITY, or FITNESS FOR A PARTICULAR PURPOSE. You are solely responsible for determining the appropriateness of using or redistributing the Work and assume any risks associated with Your exercise of permissions under this License. 8. Limitation of Liability. In no event and under no legal theory, whether in tort (including negligence), contract, or otherwise, unless required by applicable law (such as deliberate and grossly negligent acts) or agreed to in writing, shall any Contributor be liable to You for damages, including any direct, indirect, special, incidental, or consequential damages of any character arising as a result of this License or out of the use or inability to use the Work (including but not limited to damages for loss of goodwill, work stoppage, computer failure or malfunction, or any and all other commercial damages or losses), even if such Contributor has been advised of the possibility of such damages. 9. Accepting Warranty or Additional Liability. While redistributing the Work or Derivative Works thereof, You may choose to offer, and charge a fee for, acceptance of support, warranty, indemnity, or other liability obligations and/or rights consistent with this License. However, in accepting such obligations, You may act only on Your own behalf and on Your sole responsibility, not on behalf of any other Contributor, and only if You agree to indemnify, defend, and hold each Contributor harmless for any liability incurred by, or claims asserted against, such Contributor by reason of your accepting any such warranty or additional liability. END OF TERMS AND CONDITIONS APPENDIX: How to apply the Apache License to your work. To apply the Apache License to your work, attach the following boilerplate notice, with the fields enclosed by brackets ""[]"" replaced with your own identifying information. (Don't include the brackets!) The text should be enclosed in the appropriate comment syntax for the file format. We also recommend that a file or class name and description of purpose be included on the same ""printed page"" as the copyright notice for easier identification within third-party archives. Copyright [yyyy] [name of copyright owner] Licensed under the Apache License, Version 2.0 (the ""License""); you may not use this file except in compliance with the License. You may obtain a copy of the License at http://www.apache.org/licenses/LICENSE-2.0 Unless required by applicable law or agreed to in writing, software distributed under the License is distributed on an ""AS IS"" BASIS, WITHOUT WARRANTIES OR CONDITIONS OF ANY KIND, either express or implied. See the License for the specific language governing permissions and limitations under the License.")));
    (MkTriple (MkNode NIri ("http://spdx.org/licenses/Apache-2.0")) ("http://spdx.org/rdf/terms#standardLicenseHeader") (MkNode (NOther "LITERAL") ("Copyright [yyyy] [name of copyright owner]

Licensed under the Apache License, Version 2.0 (the ""License"");

you may not use this file except in compliance with the License.

You may obtain a copy of the License at

http://www.apache.org/licenses/LICENSE-2.0

Unless required by applicable law or agreed to in writing, software

distributed under the License is distributed on an ""AS IS"" BASIS,

WITHOUT WARRANTIES OR CONDITIONS OF ANY KIND, either express or implied.

See the License for the specific language governing permissions and

limitations under the License.")));
    (MkTriple (MkNode NIri ("http://spdx.org/licenses/Apache-2.0")) ("http://spdx.org/rdf/terms#isFsfLibre") (MkNode (NOther "LITERAL") ("true")));
    (MkTriple (MkNode NIri ("http://spdx.org/licenses/Apache-2.0")) ("http://spdx.org/rdf/terms#standardLicenseTemplate") (MkNode (NOther "LITERAL") ("<<beginOptional>> Apache License

Version 2.0, January 2004

http://www.apache.org/licenses/<<endOptional>><<beginOptional>> TERMS AND CONDITIONS FOR USE, REPRODUCTION, AND DISTRIBUTION<<endOptional>>

   <<var;name=""bullet"";original=""1."";match="".{0,20}"">> Definitions.



      ""License"" shall mean the terms and conditions for use, reproduction, and distribution as defined by Sections 1 through 9 of this document.



      ""Licensor"" shall mean the copyright owner or entity authorized by the copyright owner that is granting the License.



      ""Legal Entity"" shall mean the union of the acting entity and all other entities that control, are controlled by, or are under common control with that entity. For the purposes of this definition, ""control"" means (i) the power, direct or indirect, to cause the direction or management of such entity, whether by contract or otherwise, or (ii) ownership of fifty percent (50%) or more of the outstanding shares, or (iii) beneficial ownership of such entity.



      ""You"" (or ""Your"") shall mean an individual or Legal Entity exercising permissions granted by this License.



      ""Source"" form shall mean the preferred form for making modifications, including but not limited to software source code, documentation source, and configuration files.



      ""Object"" form shall mean any form resulting from mechanical transformation or translation of a Source form, including but not limited to compiled object code, generated documentation, and conversions to other media types.



      ""Work"" shall mean the work of authorship, whether in Source or Object form, made available under the License, as indicated by a copyright notice that is included in or attached to the work (an example is provided in the Appendix below).



      ""Derivative Works"" shall mean any work, whether in Source or Object form, that is based on (or derived from) the Work and for which the editorial revisions, annotations, elaborations, or other modifications represent, as a whole, an original work of authorship. For the purposes of this License, Derivative Works shall not include works that remain separable from, or merely link (or bind by name) to the interfaces of, the Work and Derivative Works thereof.



      ""Contribution"" shall mean any work of authorship, including the original version of the Work and any modifications or additions to that Work or Derivative Works thereof, that is intentionally submitted to Licensor for inclusion in the Work by the copyright owner or by an individual or Legal Entity authorized to submit on behalf of the copyright owner. For the purposes of this definition, ""submitted"" means any form of electronic, verbal, or written communication sent to the Licensor or its representatives, including but not limited to communication on electronic mailing lists, source code control systems, and issue tracking systems that are managed by, or on behalf of, the Licensor for the purpose of discussing and improving the Work, but excluding communication that is conspicuously marked or otherwise designated in writing by the copyright owner as ""Not a Contribution.""



      ""Contributor"" shall mean Licensor and any individual or Legal Entity on behalf of whom a Contribution has been received by Licensor and subsequently incorporated within the Work.

   <<var;name=""bullet"";original=""2."";match="".{0,20}"">> Grant of Copyright License. Subject to the terms and conditions of this License, each Contributor hereby grants to You a perpetual, worldwide, non-exclusive, no-charge, royalty-free, irrevocable copyright license to reproduce, prepare Derivative Works of, publicly display, publicly perform, sublicense, and distribute the Work and such Derivative Works in Source or Object form.

   <<var;name=""bullet"";original=""3."";match="".{0,20}"">> Grant of Patent License. Subject to the terms and conditions of this License, each Contributor hereby grants to You a perpetual, worldwide, non-exclusive, no-charge, royalty-free, irrevocable (except as stated in this section) patent license to make, have made, use, offer to sell, sell, import, and otherwise transfer the Work, where such license applies only to those patent claims licensable by such Contributor that are necessarily infringed by their Contribution(s) alone or by combination of their Contribution(s) with the Work to which such Contribution(s) was submitted. If You institute patent litigation against any entity (including a cross-claim or counterclaim in a lawsuit) alleging that the Work or a Contribution incorporated within the Work constitutes direct or contributory patent infringement, then any patent licenses granted to You under this License for that Work shall terminate as of the date such litigation is filed.

   <<var;name=""bullet"";original=""4."";match="".{0,20}"">> Redistribution. You may reproduce and distribute copies of the Work or Derivative Works thereof in any medium, with or without modifications, and in Source or Object form, provided that You meet the following conditions:

      <<var;name=""bullet"";original=""(a)"";match="".{0,20}"">> You must give any other recipients of the Work or Derivative Works a copy of this License; and

      <<var;name=""bullet"";original=""(b)"";match="".{0,20}"">> You must cause any modified files to carry prominent notices stating that You changed the files; and

      <<var;name=""bullet"";original=""(c)"";match="".{0,20}"">> You must retain, in the Source form of any Derivative Works that You distribute, all copyright, patent, trademark, and attribution notices from the Source form of the Work, excluding those notices that do not pertain to any part of the Derivative Works; and

      <<var;name=""bullet"";original=""(d)"";match="".{0,20}"">> If the Work includes a ""NOTICE"" text file as part of its distribution, then any Derivative Works that You distribute must include a readable copy of the attribution notices contained within such NOTICE file, excluding those notices that do not pertain to any part of the Derivative Works, in at least one of the following places: within a NOTICE text file distributed as part of the Derivative Works; within the Source form or documentation, if provided along with the Derivative Works; or, within a display generated by the Derivative Works, if and wherever such third-party notices normally appear. The contents of the NOTICE file are for informational purposes only and do not modify the License. You may add Your own attribution notices within Derivative Works that You distribute, alongside or as an addendum to the NOTICE text from the Work, provided that such additional attribution notices cannot be construed as modifying the License.

      You may add Your own copyright statement to Your modifications and may provide additional or different license terms and conditions for use, reproduction, or distribution of Your modifications, or for any such Derivative Works as a whole, provided Your use, reproduction, and distribution of the Work otherwise complies with the conditions stated in this License.

   <<var;name=""bullet"";original=""5."";match="".{0,20}"">> Submission of Contributions. Unless You explicitly state otherwise, any Contribution intentionally submitted for inclusion in the Work by You to the Licensor shall be under the terms and conditions of this License, without any additional terms or conditions. Notwithstanding the above, nothing herein shall supersede or modify the terms of any separate license agreement you may have executed with Licensor regarding such Contributions.

   <<var;name=""bullet"";original=""6."";match="".{0,20}"">> Trademarks. This License does not grant permission to use the trade names, trademarks, service marks, or product names of the Licensor, except as required for reasonable and customary use in describing the origin of the Work and reproducing the content of the NOTICE file.

   <<var;name=""bullet"";original=""7."";match="".{0,20}"">> Disclaimer of Warranty. Unless required by applicable law or agreed to in writing, Licensor provides the Work (and each Contributor provides its Contributions) on an ""AS IS"" BASIS, WITHOUT WARRANTIES OR CONDITIONS OF ANY KIND, either express or implied, including, without limitation, any warranties or conditions of TITLE, NON-INFRINGEMENT, MERCHANTABILITY, or FITNESS FOR A PARTICULAR PURPOSE. You are solely responsible for determining the appropriateness of using or redistributing the Work and assume any risks associated with Your exercise of permissions under this License.

   <<var;name=""bullet"";original=""8."";match="".{0,20}"">> Limitation of Liability. In no event and under no legal theory, whether in tort (including negligence), contract, or otherwise, unless required by applicable law (such as deliberate and grossly negligent acts) or agreed to in writing, shall any Contributor be liable to You for damages, including any direct, indirect, special, incidental, or consequential damages of any character arising as a result of this License or out of the use or inability to use the Work (including but not limited to damages for loss of goodwill, work stoppage, computer failure or malfunction, or any and all other commercial damages or losses), even if such Contributor has been advised of the possibility of such damages.

   <<var;name=""bullet"";original=""9."";match="".{0,20}"">> Accepting Warranty or Additional Liability. While redistributing the Work or Derivative Works thereof, You may choose to offer, and charge a fee for, acceptance of support, warranty, indemnity, or other liability obligations and/or rights consistent with this License. However, in accepting such obligations, You may act only on Your own behalf and on Your sole responsibility, not on behalf of any other Contributor, and only if You agree to indemnify, defend, and hold each Contributor harmless for any liability incurred by, or claims asserted against, such Contributor by reason of your accepting any such warranty or additional liability.<<beginOptional>> END OF TERMS AND CONDITIONS

APPENDIX: How to apply the Apache License to your work.

To apply the Apache License to your work, attach the following boilerplate notice, with the fields enclosed by brackets ""[]"" replaced with your own identifying information. (Don't include the brackets!) The text should be enclosed in the appropriate comment syntax for the file format. We also recommend that a file or class name and description of purpose be included on the same ""printed page"" as the copyright notice for easier identification within third-party archives.

Copyright <<var;name=""copyright"";original=""[yyyy] [name of copyright owner]"";match="".+"">>

Licensed under the Apache License, Version 2.0 (the ""License"");

you may not use this file except in compliance with the License.

You may obtain a copy of the License at

http://www.apache.org/licenses/LICENSE-2.0

Unless required by applicable law or agreed to in writing, software

distributed under the License is distributed on an ""AS IS"" BASIS,

WITHOUT WARRANTIES OR CONDITIONS OF ANY KIND, either express or implied.

See the License for the specific language governing permissions and

limitations under the License.<<endOptional>>")));
    (MkTriple (MkNode NIri ("http://spdx.org/licenses/Apache-2.0")) ("http://www.w3.org/2000/01/rdf-schema#seeAlso") (MkNode (NOther "LITERAL") ("https://opensource.org/licenses/Apache-2.0")));
    (MkTriple (MkNode NIri ("http://spdx.org/licenses/Apache-2.0")) ("http://www.w3.org/2000/01/rdf-schema#seeAlso") (MkNode (NOther "LITERAL") ("http://www.apache.org/licenses/LICENSE-2.0")));
    (MkTriple (MkNode NIri ("http://spdx.org/licenses/Apache-2.0")) ("http://spdx.org/rdf/terms#standardLicenseHeaderTemplate") (MkNode (NOther "LITERAL") ("Copyright <<var;name=""copyright"";original=""[yyyy] [name of copyright owner]"";match="".+"">>

Licensed under the Apache License, Version 2.0 (the ""License"");

you may not use this file except in compliance with the License.

You may obtain a copy of the License at

http://www.apache.org/licenses/LICENSE-2.0

Unless required by applicable law or agreed to in writing, software

distributed under the License is distributed on an ""AS IS"" BASIS,

WITHOUT WARRANTIES OR CONDITIONS OF ANY KIND, either express or implied.

See the License for the specific language governing permissions and

limitations under the License.")));
    (MkTriple (MkNode NIri ("http://spdx.org/licenses/Apache-2.0")) ("http://spdx.org/rdf/terms#licenseId") (MkNode (NOther "LITERAL") ("Apache-2.0")));
    (MkTriple (MkNode NIri ("http://spdx.org/licenses/Apache-2.0")) ("http://spdx.org/rdf/terms#isOsiApproved") (MkNode (NOther "LITERAL") ("true")));
    (MkTriple (MkNode NIri ("http://spdx.org/spdxdocs/spdx-example-444504E0-4F89-41D3-9A0C-0305E82C3301#SPDXRef-DoapSource")) ("http://spdx.org/rdf/terms#fileContributor") (MkNode (NOther "LITERAL") ("Protecode Inc.")));
    (MkTriple (MkNode NIri ("http://spdx.org/spdxdocs/spdx-example-444504E0-4F89-41D3-9A0C-0305E82C3301#SPDXRef-DoapSource")) ("http://spdx.org/rdf/terms#fileType") (MkNode (NOther "RESOURCELITERAL") ("http://spdx.org/rdf/terms#fileType_source")));
    (MkTriple (MkNode NIri ("http://spdx.org/spdxdocs/spdx-example-444504E0-4F89-41D3-9A0C-0305E82C3301#SPDXRef-DoapSource")) ("http://spdx.org/rdf/terms#licenseInfoInFile") (MkNode (NOther "RESOURCELITERAL") ("http://spdx.org/licenses/Apache-2.0")));
    (MkTriple (MkNode NIri ("http://spdx.org/spdxdocs/spdx-example-444504E0-4F89-41D3-9A0C-0305E82C3301#SPDXRef-DoapSource")) ("http://spdx.org/rdf/terms#fileDependency") (MkNode NIri ("http://spdx.org/spdxdocs/spdx-example-444504E0-4F89-41D3-9A0C-0305E82C3301#SPDXRef-JenaLib")));
    (MkTriple (MkNode NIri ("http://spdx.org/spdxdocs/spdx-example-444504E0-4F89-41D3-9A0C-0305E82C3301#SPDXRef-JenaLib")) ("http://www.w3.org/1999/02/22-rdf-syntax-ns#type") (MkNode NIri ("http://spdx.org/rdf/terms#File")));
    (MkTriple (MkNode NIri ("http://spdx.org/spdxdocs/spdx-example-444504E0-4F89-41D3-9A0C-0305E82C3301#SPDXRef-JenaLib")) ("http://spdx.org/rdf/terms#artifactOf") (MkNode (NOther "BLANK") ("N4")));
    (MkTriple (MkNode (NOther "BLANK") ("N4")) ("http://www.w3.org/1999/02/22-rdf-syntax-ns#type") (MkNode NIri ("http://usefulinc.com/ns/doap#Project")));
    (MkTriple (MkNode (NOther "BLANK") ("N4")) ("http://usefulinc.com/ns/doap#homepage") (MkNode (NOther "LITERAL") ("http://www.openjena.org/")));
    (MkTriple (MkNode (NOther "BLANK") ("N4")) ("http://usefulinc.com/ns/doap#name") (MkNode (NOther "LITERAL") ("Jena")));
    (MkTriple (MkNode NIri ("http://spdx.org/spdxdocs/spdx-example-444504E0-4F89-41D3-9A0C-0305E82C3301#SPDXRef-JenaLib")) ("http://spdx.org/rdf/terms#licenseConcluded") (MkNode NIri ("http://spdx.org/spdxdocs/spdx-example-444504E0-4F89-41D3-9A0C-0305E82C3301#LicenseRef-1")));
    (MkTriple (MkNode NIri ("http://spdx.org/spdxdocs/spdx-example-444504E0-4F89-41D3-9A0C-0305E82C3301#LicenseRef-1")) ("http://www.w3.org/1999/02/22-rdf-syntax-ns#type") (MkNode NIri ("http://spdx.org/rdf/terms#ExtractedLicensingInfo")));
    (MkTriple (MkNode NIri ("http://spdx.org/spdxdocs/spdx-example-444504E0-4F89-41D3-9A0C-0305E82C3301#LicenseRef-1")) ("http://spdx.org/rdf/terms#extractedText") (MkNode (NOther "LITERAL") ("/*
 * (c) Copyright 2000, 2001, 2002, 2003, 2004, 2005, 2006, 2007, 2008, 2009 Hewlett-Packard Development Company, LP
 * All rights reserved.
 *
 * Redistribution and use in source and binary forms, with or without
 * modification, are permitted provided that the following conditions
 * are met:
 * 1. Redistributions of source code must retain the above copyright
 *    notice, this list of conditions and the following disclaimer.
 * 2. Redistributions in binary form must reproduce the above copyright
 *    notice, this list of conditions and the following disclaimer in the
 *    documentation and/or other materials provided with the distribution.
 * 3. The name of the author may not be used to endorse or promote products
 *    derived from this software without specific prior written permission.
 *
 * THIS SOFTWARE IS PROVIDED BY THE AUTHOR ``AS IS'' AND ANY EXPRESS OR
 * IMPLIED WARRANTIES, INCLUDING, BUT NOT LIMITED TO, THE IMPLIED WARRANTIES
 * OF MERCHANTABILITY AND FITNESS FOR A PARTICULAR PURPOSE ARE DISCLAIMED.
 * IN NO EVENT SHALL THE AUTHOR BE LIABLE FOR ANY DIRECT, INDIRECT,
 * INCIDENTAL, SPECIAL, EXEMPLARY, OR CONSEQUENTIAL DAMAGES (INCLUDING, BUT
 * NOT LIMITED TO, PROCUREMENT OF SUBSTITUTE GOODS OR SERVICES; LOSS OF USE,
 * DATA, OR PROFITS; OR BUSINESS INTERRUPTION) HOWEVER CAUSED AND ON ANY
 * THEORY OF LIABILITY, WHETHER IN CONTRACT, STRICT LIABILITY, OR TORT
 * (INCLUDING NEGLIGENCE OR OTHERWISE) ARISING IN ANY WAY OUT OF THE USE OF
 * THIS SOFTWARE, EVEN IF ADVISED OF THE POSSIBILITY OF SUCH DAMAGE.
*/")));
    (MkTriple (MkNode NIri ("http://spdx.org/spdxdocs/spdx-example-444504E0-4F89-41D3-9A0C-0305E82C3301#LicenseRef-1")) ("http://spdx.org/rdf/terms#licenseId") (MkNode (NOther "LITERAL") ("LicenseRef-1")));
    (MkTriple (MkNode NIri ("http://spdx.org/spdxdocs/spdx-example-444504E0-4F89-41D3-9A0C-0305E82C3301#SPDXRef-JenaLib")) ("http://spdx.org/rdf/terms#licenseComments") (MkNode (NOther "LITERAL") ("This license is used by Jena")));
    (MkTriple (MkNode NIri ("http://spdx.org/spdxdocs/spdx-example-444504E0-4F89-41D3-9A0C-0305E82C3301#SPDXRef-JenaLib")) ("http://spdx.org/rdf/terms#fileContributor") (MkNode (NOther "LITERAL") ("Hewlett Packard Inc.")));
    (MkTriple (MkNode NIri ("http://spdx.org/spdxdocs/spdx-example-444504E0-4F89-41D3-9A0C-0305E82C3301#SPDXRef-JenaLib")) ("http://spdx.org/rdf/terms#fileType") (MkNode (NOther "RESOURCELITERAL") ("http://spdx.org/rdf/terms#fileType_archive")));
    (MkTriple (MkNode NIri ("http://spdx.org/spdxdocs/spdx-example-444504E0-4F89-41D3-9A0C-0305E82C3301#SPDXRef-JenaLib")) ("http://spdx.org/rdf/terms#copyrightText") (MkNode (NOther "LITERAL") ("(c) Copyright 2000, 2001, 2002, 2003, 2004, 2005, 2006, 2007, 2008, 2009 Hewlett-Packard Development Company, LP")));
    (MkTriple (MkNode NIri ("http://spdx.org/spdxdocs/spdx-example-444504E0-4F89-41D3-9A0C-0305E82C3301#SPDXRef-JenaLib")) ("http://spdx.org/rdf/terms#checksum") (MkNode (NOther "BLANK") ("N5")));
    (MkTriple (MkNode (NOther "BLANK") ("N5")) ("http://www.w3.org/1999/02/22-rdf-syntax-ns#type") (MkNode NIri ("http://spdx.org/rdf/terms#Checksum")));
    (MkTriple (MkNode (NOther "BLANK") ("N5")) ("http://spdx.org/rdf/terms#checksumValue") (MkNode (NOther "LITERAL") ("3ab4e1c67a2d28fced849ee1bb76e7391b93f125")));
    (MkTriple (MkNode (NOther "BLANK") ("N5")) ("http://spdx.org/rdf/terms#algorithm") (MkNode (NOther "RESOURCELITERAL") ("http://spdx.org/rdf/terms#checksumAlgorithm_sha1")));
    (MkTriple (MkNode NIri ("http://spdx.org/spdxdocs/spdx-example-444504E0-4F89-41D3-9A0C-0305E82C3301#SPDXRef-JenaLib")) ("http://spdx.org/rdf/terms#fileContributor") (MkNode (NOther "LITERAL") ("Apache Software Foundation")));
    (MkTriple (MkNode NIri ("http://spdx.org/spdxdocs/spdx-example-444504E0-4F89-41D3-9A0C-0305E82C3301#SPDXRef-JenaLib")) ("http://spdx.org/rdf/terms#licenseInfoInFile") (MkNode (NOther "RESOURCELITERAL") ("http://spdx.org/spdxdocs/spdx-example-444504E0-4F89-41D3-9A0C-0305E82C3301#LicenseRef-1")));
    (MkTriple (MkNode NIri ("http://spdx.org/spdxdocs/spdx-example-444504E0-4F89-41D3-9A0C-0305E82C3301#SPDXRef-JenaLib")) ("http://spdx.org/rdf/terms#fileDependency") (MkNode NIri ("http://spdx.org/spdxdocs/spdx-example-444504E0-4F89-41D3-9A0C-0305E82C3301#SPDXRef-CommonsLangSrc")));
    (MkTriple (MkNode NIri ("http://spdx.org/spdxdocs/spdx-example-444504E0-4F89-41D3-9A0C-0305E82C3301#SPDXRef-CommonsLangSrc")) ("http://www.w3.org/1999/02/22-rdf-syntax-ns#type") (MkNode NIri ("http://spdx.org/rdf/terms#File")));
    (MkTriple (MkNode NIri ("http://spdx.org/spdxdocs/spdx-example-444504E0-4F89-41D3-9A0C-0305E82C3301#SPDXRef-CommonsLangSrc")) ("http://spdx.org/rdf/terms#noticeText") (MkNode (NOther "LITERAL") ("Apache Commons Lang
Copyright 2001-2011 The Apache Software Foundation

This product includes software developed by
The Apache Software Foundation (http://www.apache.org/).

This product includes software from the Spring Framework,
under the Apache License 2.0 (see: StringUtils.containsWhitespace())")));
    (MkTriple (MkNode NIri ("http://spdx.org/spdxdocs/spdx-example-444504E0-4F89-41D3-9A0C-0305E82C3301#SPDXRef-CommonsLangSrc")) ("http://spdx.org/rdf/terms#licenseConcluded") (MkNode (NOther "RESOURCELITERAL") ("http://spdx.org/licenses/Apache-2.0")));
    (MkTriple (MkNode NIri ("http://spdx.org/spdxdocs/spdx-example-444504E0-4F89-41D3-9A0C-0305E82C3301#SPDXRef-CommonsLangSrc")) ("http://spdx.org/rdf/terms#licenseInfoInFile") (MkNode (NOther "RESOURCELITERAL") ("http://spdx.org/licenses/Apache-2.0")));
    (MkTriple (MkNode NIri ("http://spdx.org/spdxdocs/spdx-example-444504E0-4F89-41D3-9A0C-0305E82C3301#SPDXRef-CommonsLangSrc")) ("http://spdx.org/rdf/terms#fileContributor") (MkNode (NOther "LITERAL") ("Apache Software Foundation")));
    (MkTriple (MkNode NIri ("http://spdx.org/spdxdocs/spdx-example-444504E0-4F89-41D3-9A0C-0305E82C3301#SPDXRef-CommonsLangSrc")) ("http://spdx.org/rdf/terms#checksum") (MkNode (NOther "BLANK") ("N6")));
    (MkTriple (MkNode (NOther "BLANK") ("N6")) ("http://www.w3.org/1999/02/22-rdf-syntax-ns#type") (MkNode NIri ("http://spdx.org/rdf/terms#Checksum")));
    (MkTriple (MkNode (NOther "BLANK") ("N6")) ("http://spdx.org/rdf/terms#checksumValue") (MkNode (NOther "LITERAL") ("c2b4e1c67a2d28fced849ee1bb76e7391b93f125")));
    (MkTriple (MkNode (NOther "BLANK") ("N6")) ("http://spdx.org/rdf/terms#algorithm") (MkNode (NOther "RESOURCELITERAL") ("http://spdx.org/rdf/terms#checksumAlgorithm_sha1")));
    (MkTriple (MkNode NIri ("http://spdx.org/spdxdocs/spdx-example-444504E0-4F89-41D3-9A0C-0305E82C3301#SPDXRef-CommonsLangSrc")) ("http://spdx.org/rdf/terms#fileName") (MkNode (NOther "LITERAL") ("./lib-source/commons-lang3-3.1-sources.jar")));
    (MkTriple (MkNode NIri ("http://spdx.org/spdxdocs/spdx-example-444504E0-4F89-41D3-9A0C-0305E82C3301#SPDXRef-CommonsLangSrc")) ("http://spdx.org/rdf/terms#copyrightText") (MkNode (NOther "LITERAL") ("Copyright 2001-2011 The Apache Software Foundation")));
    (MkTriple (MkNode NIri ("http://spdx.org/spdxdocs/spdx-example-444504E0-4F89-41D3-9A0C-0305E82C3301#SPDXRef-CommonsLangSrc")) ("http://www.w3.org/2000/01/rdf-schema#comment") (MkNode (NOther "LITERAL") ("This file is used by Jena")));
    (MkTriple (MkNode NIri ("http://spdx.org/spdxdocs/spdx-example-444504E0-4F89-41D3-9A0C-0305E82C3301#SPDXRef-CommonsLangSrc")) ("http://spdx.org/rdf/terms#artifactOf") (MkNode (NOther "BLANK") ("N7")));
    (MkTriple (MkNode (NOther "BLANK") ("N7")) ("http://www.w3.org/1999/02/22-rdf-syntax-ns#type") (MkNode NIri ("http://usefulinc.com/ns/doap#Project")));
    (MkTriple (MkNode (NOther "BLANK") ("N7")) ("http://usefulinc.com/ns/doap#homepage") (MkNode (NOther "LITERAL") ("http://commons.apache.org/proper/commons-lang/")));
    (MkTriple (MkNode (NOther "BLANK") ("N7")) ("http://usefulinc.com/ns/doap#name") (MkNode (NOther "LITERAL") ("Apache Commons Lang")));
    (MkTriple (MkNode NIri ("http://spdx.org/spdxdocs/spdx-example-444504E0-4F89-41D3-9A0C-0305E82C3301#SPDXRef-CommonsLangSrc")) ("http://spdx.org/rdf/terms#fileType") (MkNode (NOther "RESOURCELITERAL") ("http://spdx.org/rdf/terms#fileType_archive")));
    (MkTriple (MkNode NIri ("http://spdx.org/spdxdocs/spdx-example-444504E0-4F89-41D3-9A0C-0305E82C3301#SPDXRef-JenaLib")) ("http://www.w3.org/2000/01/rdf-schema#comment") (MkNode (NOther "LITERAL") ("This file belongs to Jena")));
    (MkTriple (MkNode NIri ("http://spdx.org/spdxdocs/spdx-example-444504E0-4F89-41D3-9A0C-0305E82C3301#SPDXRef-JenaLib")) ("http://spdx.org/rdf/terms#relationship") (MkNode (NOther "BLANK") ("N8")));
    (MkTriple (MkNode (NOther "BLANK") ("N8")) ("http://www.w3.org/1999/02/22-rdf-syntax-ns#type") (MkNode NIri ("http://spdx.org/rdf/terms#Relationship")));
    (MkTriple (MkNode (NOther "BLANK") ("N8")) ("http://spdx.org/rdf/terms#relationshipType") (MkNode (NOther "RESOURCELITERAL") ("http://spdx.org/rdf/terms#relationshipType_dynamicLink")));
    (MkTriple (MkNode (NOther "BLANK") ("N8")) ("http://spdx.org/rdf/terms#relatedSpdxElement") (MkNode NIri ("http://spdx.org/spdxdocs/spdx-example-444504E0-4F89-41D3-9A0C-0305E82C3301#SPDXRef-Package")));
    (MkTriple (MkNode NIri ("http://spdx.org/spdxdocs/spdx-example-444504E0-4F89-41D3-9A0C-0305E82C3301#SPDXRef-Package")) ("http://www.w3.org/1999/02/22-rdf-syntax-ns#type") (MkNode NIri ("http://spdx.org/rdf/terms#Package")));
    (MkTriple (MkNode NIri ("http://spdx.org/spdxdocs/spdx-example-444504E0-4F89-41D3-9A0C-0305E82C3301#SPDXRef-Package")) ("http://spdx.org/rdf/terms#licenseConcluded") (MkNode (NOther "BLANK") ("N9")));
    (MkTriple (MkNode (NOther "BLANK") ("N9")) ("http://www.w3.org/1999/02/22-rdf-syntax-ns#type") (MkNode NIri ("http://spdx.org/rdf/terms#DisjunctiveLicenseSet")));
    (MkTriple (MkNode (NOther "BLANK") ("N9")) ("http://spdx.org/rdf/terms#member") (MkNode NIri ("http://spdx.org/licenses/LGPL-2.0-only")));
    (MkTriple (MkNode NIri ("http://spdx.org/licenses/LGPL-2.0-only")) ("http://www.w3.org/1999/02/22-rdf-syntax-ns#type") (MkNode NIri ("http://spdx.org/rdf/terms#License")));
    (MkTriple (MkNode NIri ("http://spdx.org/licenses/LGPL-2.0-only")) ("http://spdx.org/rdf/terms#licenseId") (MkNode (NOther "LITERAL") ("LGPL-2.0-only")));
    (MkTriple (MkNode NIri ("http://spdx.org/licenses/LGPL-2.0-only")) ("http://www.w3.org/2000/01/rdf-schema#seeAlso") (MkNode (NOther "LITERAL") ("https://www.gnu.org/licenses/old-licenses/lgpl-2.0-standalone.html")));
    (MkTriple (MkNode NIri ("http://spdx.org/licenses/LGPL-2.0-only")) ("http://spdx.org/rdf/terms#standardLicenseTemplate") (MkNode (NOther "LITERAL") ("<<beginOptional>> GNU LIBRARY GENERAL PUBLIC LICENSE

Version 2, June 1991<<endOptional>> <<var;name=""copyright"";original=""Copyright (C) 1991 Free Software Foundation, Inc.

51 Franklin St, Fifth Floor, Boston, MA 02110-1301, USA"";match="".{0,1000}"">>

Everyone is permitted to copy and distribute verbatim copies of this license document, but changing it is not allowed.

[This is the first released version of the library GPL. It is numbered 2 because it goes with version 2 of the ordinary GPL.]

Preamble

The licenses for most software are designed to take away your freedom to share and change it. By contrast, the GNU General Public Licenses are intended to guarantee your freedom to share and change free software--to make sure the software is free for all its users.

This license, the Library General Public License, applies to some specially designated Free Software Foundation software, and to any other libraries whose authors decide to use it. You can use it for your libraries, too.

When we speak of free software, we are referring to freedom, not price. Our General Public Licenses are designed to make sure that you have the freedom to distribute copies of free software (and charge for this service if you wish), that you receive source code or can get it if you want it, that you can change the software or use pieces of it in new free programs; and that you know you can do these things.

To protect your rights, we need to make restrictions that forbid anyone to deny you these rights or to ask you to surrender the rights. These restrictions translate to certain responsibilities for you if you distribute copies of the library, or if you modify it.

For example, if you distribute copies of the library, whether gratis or for a fee, you must give the recipients all the rights that we gave you. You must make sure that they, too, receive or can get the source code. If you link a program with the library, you must provide complete object files to the recipients so that they can relink them with the library, after making changes to the library and recompiling it. And you must show them these terms so they know their rights.

Our method of protecting your rights has two steps: (1) copyright the library, and (2) offer you this license which gives you legal permission to copy, distribute and/or modify the library.

Also, for each distributor's protection, we want to make certain that everyone understands that there is no warranty for this free library. If the library is modified by someone else and passed on, we want its recipients to know that what they have is not the original version, so that any problems introduced by others will not reflect on the original authors' reputations.

Finally, any free program is threatened constantly by software patents. We wish to avoid the danger that companies distributing free software will individually obtain patent licenses, thus in effect transforming the program into proprietary software. To prevent this, we have made it clear that any patent must be licensed for everyone's free use or not licensed at all.

Most GNU software, including some libraries, is covered by the ordinary GNU General Public License, which was designed for utility programs. This license, the GNU Library General Public License, applies to certain designated libraries. This license is quite different from the ordinary one; be sure to read it in full, and don't assume that anything in it is the same as in the ordinary license.

The reason we have a separate public license for some libraries is that they blur the distinction we usually make between modifying or adding to a program and simply using it. Linking a program with a library, without changing the library, is in some sense simply using the library, and is analogous to running a utility program or application program. However, in a textual and legal sense, the linked executable is a combined work, a derivative of the original library, and the ordinary General Public License treats it as such.

Because of this blurred distinction, using the ordinary General Public License for libraries did not effectively promote software sharing, because most developers did not use the libraries. We concluded that weaker conditions might promote sharing better.

However, unrestricted linking of non-free programs would deprive the users of those programs of all benefit from the free status of the libraries themselves. This Library General Public License is intended to permit developers of non-free programs to use free libraries, while preserving your freedom as a user of such programs to change the free libraries that are incorporated in them. (We have not seen how to achieve this as regards changes in header files, but we have achieved it as regards changes in the actual functions of the Library.) The hope is that this will lead to faster development of free libraries.

The precise terms and conditions for copying, distribution and modification follow. Pay close attention to the difference between a ""work based on the library"" and a ""work that uses the library"". The former contains code derived from the library, while the latter only works together with the library.

Note that it is possible for a library to be covered by the ordinary General Public License rather than by this special one.

TERMS AND CONDITIONS FOR COPYING, DISTRIBUTION AND MODIFICATION

   <<var;name=""bullet"";original=""0."";match="".{0,20}"">> This License Agreement applies to any software library which contains a notice placed by the copyright holder or other authorized party saying it may be distributed under the terms of this Library General Public License (also called ""this License""). Each licensee is addressed as ""you"".

   A ""library"" means a collection of software functions and/or data prepared so as to be conveniently linked with application programs (which use some of those functions and data) to form executables.

   The ""Library"", below, refers to any such software library or work which has been distributed under these terms. A ""work based on the Library"" means either the Library or any derivative work under copyright law: that is to say, a work containing the Library or a portion of it, either verbatim or with modifications and/or translated straightforwardly into another language. (Hereinafter, translation is included without limitation in the term ""modification"".)

   ""Source code"" for a work means the preferred form of the work for making modifications to it. For a library, complete source code means all the source code for all modules it contains, plus any associated interface definition files, plus the scripts used to control compilation and installation of the library.

   Activities other than copying, distribution and modification are not covered by this License; they are outside its scope. The act of running a program using the Library is not restricted, and output from such a program is covered only if its contents constitute a work based on the Library (independent of the use of the Library in a tool for writing it). Whether that is true depends on what the Library does and what the program that uses the Library does.

   <<var;name=""bullet"";original=""1."";match="".{0,20}"">> You may copy and distribute verbatim copies of the Library's complete source code as you receive it, in any medium, provided that you conspicuously and appropriately publish on each copy an appropriate copyright notice and disclaimer of warranty; keep intact all the notices that refer to this License and to the absence of any warranty; and distribute a copy of this License along with the Library.

   You may charge a fee for the physical act of transferring a copy, and you may at your option offer warranty protection in exchange for a fee.

   <<var;name=""bullet"";original=""2."";match="".{0,20}"">> You may modify your copy or copies of the Library or any portion of it, thus forming a work based on the Library, and copy and distribute such modifications or work under the terms of Section 1 above, provided that you also meet all of these conditions:

      <<var;name=""bullet"";original=""a)"";match="".{0,20}"">> The modified work must itself be a software library.

      <<var;name=""bullet"";original=""b)"";match="".{0,20}"">> You must cause the files modified to carry prominent notices stating that you changed the files and the date of any change.

      <<var;name=""bullet"";original=""c)"";match="".{0,20}"">> You must cause the whole of the work to be licensed at no charge to all third parties under the terms of this License.

      <<var;name=""bullet"";original=""d)"";match="".{0,20}"">> If a facility in the modified Library refers to a function or a table of data to be supplied by an application program that uses the facility, other than as an argument passed when the facility is invoked, then you must make a good faith effort to ensure that, in the event an application does not supply such function or table, the facility still operates, and performs whatever part of its purpose remains meaningful.

      (For example, a function in a library to compute square roots has a purpose that is entirely well-defined independent of the application. Therefore, Subsection 2d requires that any application-supplied function or table used by this function must be optional: if the application does not supply it, the square root function must still compute square roots.)

   These requirements apply to the modified work as a whole. If identifiable sections of that work are not derived from the Library, and can be reasonably considered independent and separate works in themselves, then this License, and its terms, do not apply to those sections when you distribute them as separate works. But when you distribute the same sections as part of a whole which is a work based on the Library, the distribution of the whole must be on the terms of this License, whose permissions for other licensees extend to the entire whole, and thus to each and every part regardless of who wrote it.

   Thus, it is not the intent of this section to claim rights or contest your rights to work written entirely by you; rather, the intent is to exercise the right to control the distribution of derivative or collective works based on the Library.

   In addition, mere aggregation of another work not based on the Library with the Library (or with a work based on the Library) on a volume of a storage or distribution medium does not bring the other work under the scope of this License.

   <<var;name=""bullet"";original=""3."";match="".{0,20}"">> You may opt to apply the terms of the ordinary GNU General Public License instead of this License to a given copy of the Library. To do this, you must alter all the notices that refer to this License, so that they refer to the ordinary GNU General Public License, version 2, instead of to this License. (If a newer version than version 2 of the ordinary GNU General Public License has appeared, then you can specify that version instead if you wish.) Do not make any other change in these notices.

   Once this change is made in a given copy, it is irreversible for that copy, so the ordinary GNU General Public License applies to all subsequent copies and derivative works made from that copy.

   This option is useful when you wish to copy part of the code of the Library into a program that is not a library.

   <<var;name=""bullet"";original=""4."";match="".{0,20}"">> You may copy and distribute the Library (or a portion or derivative of it, under Section 2) in object code or executable form under the terms of Sections 1 and 2 above provided that you accompany it with the complete corresponding machine-readable source code, which must be distributed under the terms of Sections 1 and 2 above on a medium customarily used for software interchange.

   If distribution of object code is made by offering access to copy from a designated place, then offering equivalent access to copy the source code from the same place satisfies the requirement to distribute the source code, even though third parties are not compelled to copy the source along with the object code.

   <<var;name=""bullet"";original=""5."";match="".{0,20}"">> A program that contains no derivative of any portion of the Library, but is designed to work with the Library by being compiled or linked with it, is called a ""work that uses the Library"". Such a work, in isolation, is not a derivative work of the Library, and therefore falls outside the scope of this License.

   However, linking a ""work that uses the Library"" with the Library creates an executable that is a derivative of the Library (because it contains portions of the Library), rather than a ""work that uses the library"". The executable is therefore covered by this License. Section 6 states terms for distribution of such executables.

   When a ""work that uses the Library"" uses material from a header file that is part of the Library, the object code for the work may be a derivative work of the Library even though the source code is not. Whether this is true is especially significant if the work can be linked without the Library, or if the work is itself a library. The threshold for this to be true is not precisely defined by law.

   If such an object file uses only numerical parameters, data structure layouts and accessors, and small macros and small inline functions (ten lines or less in length), then the use of the object file is unrestricted, regardless of whether it is legally a derivative work. (Executables containing this object code plus portions of the Library will still fall under Section 6.)

   Otherwise, if the work is a derivative of the Library, you may distribute the object code for the work under the terms of Section 6. Any executables containing that work also fall under Section 6, whether or not they are linked directly with the Library itself.

   <<var;name=""bullet"";original=""6."";match="".{0,20}"">> As an exception to the Sections above, you may also compile or link a ""work that uses the Library"" with the Library to produce a work containing portions of the Library, and distribute that work under terms of your choice, provided that the terms permit modification of the work for the customer's own use and reverse engineering for debugging such modifications.

   You must give prominent notice with each copy of the work that the Library is used in it and that the Library and its use are covered by this License. You must supply a copy of this License. If the work during execution displays copyright notices, you must include the copyright notice for the Library among them, as well as a reference directing the user to the copy of this License. Also, you must do one of these things:

      <<var;name=""bullet"";original=""a)"";match="".{0,20}"">> Accompany the work with the complete corresponding machine-readable source code for the Library including whatever changes were used in the work (which must be distributed under Sections 1 and 2 above); and, if the work is an executable linked with the Library, with the complete machine-readable ""work that uses the Library"", as object code and/or source code, so that the user can modify the Library and then relink to produce a modified executable containing the modified Library. (It is understood that the user who changes the contents of definitions files in the Library will not necessarily be able to recompile the application to use the modified definitions.)

      <<var;name=""bullet"";original=""b)"";match="".{0,20}"">> Accompany the work with a written offer, valid for at least three years, to give the same user the materials specified in Subsection 6a, above, for a charge no more than the cost of performing this distribution.

      <<var;name=""bullet"";original=""c)"";match="".{0,20}"">> If distribution of the work is made by offering access to copy from a designated place, offer equivalent access to copy the above specified materials from the same place.

      <<var;name=""bullet"";original=""d)"";match="".{0,20}"">> Verify that the user has already received a copy of these materials or that you have already sent this user a copy.

   For an executable, the required form of the ""work that uses the Library"" must include any data and utility programs needed for reproducing the executable from it. However, as a special exception, the source code distributed need not include anything that is normally distributed (in either source or binary form) with the major components (compiler, kernel, and so on) of the operating system on which the executable runs, unless that component itself accompanies the executable.

   It may happen that this requirement contradicts the license restrictions of other proprietary libraries that do not normally accompany the operating system. Such a contradiction means you cannot use both them and the Library together in an executable that you distribute.

   <<var;name=""bullet"";original=""7."";match="".{0,20}"">> You may place library facilities that are a work based on the Library side-by-side in a single library together with other library facilities not covered by this License, and distribute such a combined library, provided that the separate distribution of the work based on the Library and of the other library facilities is otherwise permitted, and provided that you do these two things:

      <<var;name=""bullet"";original=""a)"";match="".{0,20}"">> Accompany the combined library with a copy of the same work based on the Library, uncombined with any other library facilities. This must be distributed under the terms of the Sections above.

      <<var;name=""bullet"";original=""b)"";match="".{0,20}"">> Give prominent notice with the combined library of the fact that part of it is a work based on the Library, and explaining where to find the accompanying uncombined form of the same work.

   <<var;name=""bullet"";original=""8."";match="".{0,20}"">> You may not copy, modify, sublicense, link with, or distribute the Library except as expressly provided under this License. Any attempt otherwise to copy, modify, sublicense, link with, or distribute the Library is void, and will automatically terminate your rights under this License. However, parties who have received copies, or rights, from you under this License will not have their licenses terminated so long as such parties remain in full compliance.

   <<var;name=""bullet"";original=""9."";match="".{0,20}"">> You are not required to accept this License, since you have not signed it. However, nothing else grants you permission to modify or distribute the Library or its derivative works. These actions are prohibited by law if you do not accept this License. Therefore, by modifying or distributing the Library (or any work based on the Library), you indicate your acceptance of this License to do so, and all its terms and conditions for copying, distributing or modifying the Library or works based on it.

   <<var;name=""bullet"";original=""10."";match="".{0,20}"">> Each time you redistribute the Library (or any work based on the Library), the recipient automatically receives a license from the original licensor to copy, distribute, link with or modify the Library subject to these terms and conditions. You may not impose any further restrictions on the recipients' exercise of the rights granted herein. You are not responsible for enforcing compliance by third parties to this License.

   <<var;name=""bullet"";original=""11."";match="".{0,20}"">> If, as a consequence of a court judgment or allegation of patent infringement or for any other reason (not limited to patent issues), conditions are imposed on you (whether by court order, agreement or otherwise) that contradict the conditions of this License, they do not excuse you from the conditions of this License. If you cannot distribute so as to satisfy simultaneously your obligations under this License and any other pertinent obligations, then as a consequence you may not distribute the Library at all. For example, if a patent license would not permit royalty-free redistribution of the Library by all those who receive copies directly or indirectly through you, then the only way you could satisfy both it and this License would be to refrain entirely from distribution of the Library.

   If any portion of this section is held invalid or unenforceable under any particular circumstance, the balance of the section is intended to apply, and the section as a whole is intended to apply in other circumstances.

   It is not the purpose of this section to induce you to infringe any patents or other property right claims or to contest validity of any such claims; this section has the sole purpose of protecting the integrity of the free software distribution system which is implemented by public license practices. Many people have made generous contributions to the wide range of software distributed through that system in reliance on consistent application of that system; it is up to the author/donor to decide if he or she is willing to distribute software through any other system and a licensee cannot impose that choice.

   This section is intended to make thoroughly clear what is believed to be a consequence of the rest of this License.

   <<var;name=""bullet"";original=""12."";match="".{0,20}"">> If the distribution and/or use of the Library is restricted in certain countries either by patents or by copyrighted interfaces, the original copyright holder who places the Library under this License may add an explicit geographical distribution limitation excluding those countries, so that distribution is permitted only in or among countries not thus excluded. In such case, this License incorporates the limitation as if written in the body of this License.

   <<var;name=""bullet"";original=""13."";match="".{0,20}"">> The Free Software Foundation may publish revised and/or new versions of the Library General Public License from time to time. Such new versions will be similar in spirit to the present version, but may differ in detail to address new problems or concerns.

   Each version is given a distinguishing version number. If the Library specifies a version number of this License which applies to it and ""any later version"", you have the option of following the terms and conditions either of that version or of any later version published by the Free Software Foundation. If the Library does not specify a license version number, you may choose any version ever published by the Free Software Foundation.

   <<var;name=""bullet"";original=""14."";match="".{0,20}"">> If you wish to incorporate parts of the Library into other free programs whose distribution conditions are incompatible with these, write to the author to ask for permission. For software which is copyrighted by the Free Software Foundation, write to the Free Software Foundation; we sometimes make exceptions for this. Our decision will be guided by the two goals of preserving the free status of all derivatives of our free software and of promoting the sharing and reuse of software generally.

   NO WARRANTY

   <<var;name=""bullet"";original=""15."";match="".{0,20}"">> BECAUSE THE LIBRARY IS LICENSED FREE OF CHARGE, THERE IS NO WARRANTY FOR THE LIBRARY, TO THE EXTENT PERMITTED BY APPLICABLE LAW. EXCEPT WHEN OTHERWISE STATED IN WRITING THE COPYRIGHT HOLDERS AND/OR OTHER PARTIES PROVIDE THE LIBRARY ""AS IS"" WITHOUT WARRANTY OF ANY KIND, EITHER EXPRESSED OR IMPLIED, INCLUDING, BUT NOT LIMITED TO, THE IMPLIED WARRANTIES OF MERCHANTABILITY AND FITNESS FOR A PARTICULAR PURPOSE. THE ENTIRE RISK AS TO THE QUALITY AND PERFORMANCE OF THE LIBRARY IS WITH YOU. SHOULD THE LIBRARY PROVE DEFECTIVE, YOU ASSUME THE COST OF ALL NECESSARY SERVICING, REPAIR OR CORRECTION.

   <<var;name=""bullet"";original=""16."";match="".{0,20}"">> IN NO EVENT UNLESS REQUIRED BY APPLICABLE LAW OR AGREED TO IN WRITING WILL ANY COPYRIGHT HOLDER, OR ANY OTHER PARTY WHO MAY MODIFY AND/OR REDISTRIBUTE THE LIBRARY AS PERMITTED ABOVE, BE LIABLE TO YOU FOR DAMAGES, INCLUDING ANY GENERAL, SPECIAL, INCIDENTAL OR CONSEQUENTIAL DAMAGES ARISING OUT OF THE USE OR INABILITY TO USE THE LIBRARY (INCLUDING BUT NOT LIMITED TO LOSS OF DATA OR DATA BEING RENDERED INACCURATE OR LOSSES SUSTAINED BY YOU OR THIRD PARTIES OR A FAILURE OF THE LIBRARY TO OPERATE WITH ANY OTHER SOFTWARE), EVEN IF SUCH HOLDER OR OTHER PARTY HAS BEEN ADVISED OF THE POSSIBILITY OF SUCH DAMAGES.<<beginOptional>> END OF TERMS AND CONDITIONS

How to Apply These Terms to Your New Libraries

If you develop a new library, and you want it to be of the greatest possible use to the public, we recommend making it free software that everyone can redistribute and change. You can do so by permitting redistribution under these terms (or, alternatively, under the terms of the ordinary General Public License).

To apply these terms, attach the following notices to the library. It is safest to attach them to the start of each source file to most effectively convey the exclusion of warranty; and each file should have at least the ""copyright"" line and a pointer to where the full notice is found.

one line to give the library's name and an idea of what it does.

Copyright (C) year name of author

This library is free software; you can redistribute it and/or modify it under the terms of the GNU Library General Public License as published by the Free Software Foundation; either version 2 of the License, or (at your option) any later version.

This library is distributed in the hope that it will be useful, but WITHOUT ANY WARRANTY; without even the implied warranty of MERCHANTABILITY or FITNESS FOR A PARTICULAR PURPOSE. See the GNU Library General Public License for more details.

You should have received a copy of the GNU Library General Public License along with this library; if not, write to the Free Software Foundation, Inc., 51 Franklin St, Fifth Floor, Boston, MA 02110-1301, USA.

Also add information on how to contact you by electronic and paper mail.

You should also get your employer (if you work as a programmer) or your school, if any, to sign a ""copyright disclaimer"" for the library, if necessary. Here is a sample; alter the names:

Yoyodyne, Inc., hereby disclaims all copyright interest in

the library `Frob' (a library for tweaking knobs) written

by James Random Hacker.

signature of Ty Coon, 1 April 1990

Ty Coon, President of Vice

That's all there is to it!<<endOptional>>")));
    (MkTriple (MkNode NIri ("http://spdx.org/licenses/LGPL-2.0-only")) ("http://spdx.org/rdf/terms#standardLicenseHeaderTemplate") (MkNode (NOther "LITERAL") ("Copyright (C) <<var;name=""copyright"";original=""year name of author"";match="".+"">>

This library is free software; you can redistribute it and/or modify it under the terms of the GNU Library General Public License as published by the Free Software Foundation; version 2.

This library is distributed in the hope that it will be useful, but WITHOUT ANY WARRANTY; without even the implied warranty of MERCHANTABILITY or FITNESS FOR A PARTICULAR PURPOSE. See the GNU Library General Public License for more details.

You should have received a copy of the GNU Library General Public License along with this library; if not, write to the Free Software Foundation, Inc., 51 Franklin St, Fifth Floor, Boston, MA 02110-1301, USA.")));
    (MkTriple (MkNode NIri ("http://spdx.org/licenses/LGPL-2.0-only")) ("http://spdx.org/rdf/terms#standardLicenseHeader") (MkNode (NOther "LITERAL") ("Copyright (C) year name of author

This library is free software; you can redistribute it and/or modify it under the terms of the GNU Library General Public License as published by the Free Software Foundation; version 2.

This library is distributed in the hope that it will be useful, but WITHOUT ANY WARRANTY; without even the implied warranty of MERCHANTABILITY or FITNESS FOR A PARTICULAR PURPOSE. See the GNU Library General Public License for more details.

You should have received a copy of the GNU Library General Public License along with this library; if not, write to the Free Software Foundation, Inc., 51 Franklin St, Fifth Floor, Boston, MA 02110-1301, USA.")));
    (MkTriple (MkNode NIri ("http://spdx.org/licenses/LGPL-2.0-only")) ("http://spdx.org/rdf/terms#licenseText") (MkNode (NOther "LITERAL") ("GNU LIBRARY GENERAL PUBLIC LICENSE Version 2, June 1991 Copyright (C) 1991 Free Software Foundation, Inc. 51 Franklin St, Fifth Floor, Boston, MA 02110-1301, USA Everyone is permitted to copy and distribute verbatim copies of this license document, but changing it is not allowed. [This is the first released version of the library GPL. It is numbered 2 because it goes with version 2 of the ordinary GPL.] Preamble The licenses for most software are designed to take away your freedom to share and change it. By contrast, the GNU General Public Licenses are intended to guarantee your freedom to share and change free software--to make sure the software is free for all its users. This license, the Library General Public License, applies to some specially designated Free Software Foundation software, and to any other libraries whose authors decide to use it. You can use it for your libraries, too. When we speak of free software, we are referring to freedom, not price. Our General Public Licenses are designed to make sure that you have the freedom to distribute copies of free software (and charge for this service if you wish), that you receive source code or can get it if you want it, that you can change the software or use pieces of it in new free programs; and that you know you can do these things. To protect your rights, we need to make restrictions that forbid anyone to deny you these rights or to ask you to surrender the rights. These restrictions translate to certain responsibilities for you if you distribute copies of the library, or if you modify it. For example, if you distribute copies of the library, whether gratis or for a fee, you must give the recipients all the rights that we gave you. You must make sure that they, too, receive or can get the source code. If you link a program with the library, you must provide complete object files to the recipients so that they can relink them with the library, after making changes to the library and recompiling it. And you must show them these terms so they know their rights. Our method of protecting your rights has two steps: (1) copyright the library, and (2) offer you this license which gives you legal permission to copy, distribute and/or modify the library. Also, for each distributor's protection, we want to make certain that everyone understands that there is no warranty for this free library. If the library is modified by someone else and passed on, we want its recipients to know that what they have is not the original version, so that any problems introduced by others will not reflect on the original authors' reputations. Finally, any free program is threatened constantly by software patents. We wish to avoid the danger that companies distributing free software will individually obtain patent licenses, thus in effect transforming the program into proprietary software. To prevent this, we have made it clear that any patent must be licensed for everyone's free use or not licensed at all. Most GNU software, including some libraries, is covered by the ordinary GNU General Public License, which was designed for utility programs. This license, the GNU Library General Public License, applies to certain designated libraries. This license is quite different from the ordinary one; be sure to read it in full, and don't assume that anything in it is the same as in the ordinary license. The reason we have a separate public license for some libraries is that they blur the distinction we usually make between modifying or adding to a program and simply using it. Linking a program with a library, without changing the library, is in some sense simply using the library, and is analogous to running a utility program or application program. However, in a textual and legal sense, the linked executable is a combined work, a derivative of the original library, and the ordinary General Public License treats it as such. Because of this blurred distinction, using the ordinary General Public License for libraries did not effectively promote software sharing, because most developers did not use the libraries. We concluded that weaker conditions might promote sharing better. However, unrestricted linking of non-free programs would deprive the users of those programs of all benefit from the free status of the libraries themselves. This Library General Public License is intended to permit developers of non-free programs to use free libraries, while preserving your freedom as a user of such programs to change the free libraries that are incorporated in them. (We have not seen how to achieve this as regards changes in header files, but we have achieved it as regards changes in the actual functions of the Library.) The hope is that this will lead to faster development of free libraries. The precise terms and conditions for copying, distribution and modification follow. Pay close attention to the difference between a ""work based on the library"" and a ""work that uses the library"". The former contains code derived from the library, while the latter only works together with the library. Note that it is possible for a library to be covered by the ordinary General Public License rather than by this special one. TERMS AND CONDITIONS FOR COPYING, DISTRIBUTION AND MODIFICATION 0. This License Agreement applies to any software library which contains a notice placed by the copyright holder or other authorized party saying it may be distributed under the terms of this Library General Public License (also called ""this License""). Each licensee is addressed as ""you"". A ""library"" means a collection of software functions and/or data prepared so as to be conveniently linked with application programs (which use some of those functions and data) to form executables. The ""Library"", below, refers to any such software library or work which has been distributed under these terms. A ""work based on the Library"" means either the Library or any derivative work under copyright law: that is to say, a work containing the Library or a portion of it, either verbatim or with modifications and/or translated straightforwardly into another language. (Hereinafter, translation is included without limitation in the term ""modification"".) ""Source code"" for a work means the preferred form of the work for making modifications to it. For a library, complete source code means all the source code for all modules it contains, plus any associated interface definition files, plus the scripts used to control compilation and installation of the library. Activities other than copying, distribution and modification are not covered by this License; they are outside its scope. The act of running a program using the Library is not restricted, and output from such a program is covered only if its contents constitute a work based on the Library (independent of the use of the Library in a tool for writing it). Whether that is true depends on what the Library does and what the program that uses the Library does. 1. You may copy and distribute verbatim copies of the Library's complete source code as you receive it, in any medium, provided that you conspicuously and appropriately publish on each copy an appropriate copyright notice and disclaimer of warranty; keep intact all the notices that refer to this License and to the absence of any warranty; and distribute a copy of this License along with the Library. You may charge a fee for the physical act of transferring a copy, and you may at your option offer warranty protection in exchange for a fee. 2. You may modify your copy or copies of the Library or any portion of it, thus forming a work based on the Library, and copy and distribute such modifications or work under the terms of Section 1 above, provided that you also meet all of these conditions: a) The modified work must itself be a software library. b) You must cause the files modified to carry prominent notices stating that you changed the files and the date of any change. c) You must cause the whole of the work to be licensed at no charge to all third parties under the terms of this License. d) If a facility in the modified Library refers to a function or a table of data to be supplied by an application program that uses the facility, other than as an argument passed when the facility is invoked, then you must make a good faith effort to ensure that, in the event an application does not supply such function or table, the facility still operates, and performs whatever part of its purpose remains meaningful. (For example, a function in a library to compute square roots has a purpose that is entirely well-defined independent of the application. Therefore, Subsection 2d requires that any application-supplied function or table used by this function must be optional: if the application does not supply it, the square root function must still compute square roots.) These requirements apply to the modified work as a whole. If identifiable sections of that work are not derived from the Library, and can be reasonably considered independent and separate works in themselves, then this License, and its terms, do not apply to those sections when you distribute them as separate works. But when you distribute the same sections as part of a whole which is a work based on the Library, the distribution of the whole must be on the terms of this License, whose permissions for other licensees extend to the entire whole, and thus to each and every part regardless of who wrote it. Thus, it is not the intent of this section to claim rights or contest your rights to work written entirely by you; rather, the intent is to exercise the right to control the distribution of derivative or collective works based on the Library. In addition, mere aggregation of another work not based on the Library with the Library (or with a work based on the Library) on a volume of a storage or distribution medium does not bring the other work under the scope of this License. 3. You may opt to apply the terms of the ordinary GNU General Public License instead of this License to a given copy of the Library. To do this, you must alter all the notices that refer to this License, so that they refer to the ordinary GNU General Public License, version 2, instead of to this License. (If a newer version than version 2 of the ordinary GNU General Public License has appeared, then you can specify that version instead if you wish.) Do not make any other change in these notices. Once this change is made in a given copy, it is irreversible for that copy, so the ordinary GNU General Public License applies to all subsequent copies and derivative works made from that copy. This option is useful when you wish to copy part of the code of the Library into a program that is not a library. 4. You may copy and distribute the Library (or a portion or derivative of it, under Section 2) in object code or executable form under the terms of Sections 1 and 2 above provided that you accompany it with the complete corresponding machine-readable source code, which must be distributed under the terms of Sections 1 and 2 above on a medium customarily used for software interchange. If distribution of object code is made by offering access to copy from a designated place, then offering equivalent access to copy the source code from the same place satisfies the requirement to distribute the source code, even though third parties are not compelled to copy the source along with the object code. 5. A program that contains no derivative of any portion of the Library, but is designed to work with the Library by being compiled or linked with it, is called a ""work that uses the Library"". Such a work, in isolation, is not a derivative work of the Library, and therefore falls outside the scope of this License. However, linking a ""work that uses the Library"" with the Library creates an executable that is a derivative of the Library (because it contains portions of the Library), rather than a ""work that uses the library"". The executable is therefore covered by this License. Section 6 states terms for distribution of such executables. When a ""work that uses the Library"" uses material from a header file that is part of the Library, the object code for the work may be a derivative work of the Library even though the source code is not. Whether this is true is especially significant if the work can be linked without the Library, or if the work is itself a library. The threshold for this to be true is not precisely defined by law. If such an object file uses only numerical parameters, data structure layouts and accessors, and small macros and small inline functions (ten lines or less in length), then the use of the object file is unrestricted, regardless of whether it is legally a derivative work. (Executables containing this object code plus portions of the Library will still fall under Section 6.) Otherwise, if the work is a derivative of the Library, you may distribute the object code for the work under the terms of Section 6. Any executables containing that work also fall under Section 6, whether or not they are linked directly with the Library itself. 6. As an exception to the Sections above, you may also compile or link a ""work that uses the Library"" with the Library to produce a work containing portions of the Library, and distribute that work under terms of your choice, provided that the terms permit modification of the work for the customer's own use and reverse engineering for debugging such modifications. You must give prominent notice with each copy of the work that the Library is used in it and that the Library and its use are covered by this License. You must supply a copy of this License. If the work during execution displays copyright notices, you must include the copyright notice for the Library among them, as well as a reference directing the user to the copy of this License. Also, you must do one of these things: a) Accompany the work with the complete corresponding machine-readable source code for the Library including whatever changes were used in the work (which must be distributed under Sections 1 and 2 above); and, if the work is an executable linked with the Library, with the complete machine-readable ""work that uses the Library"", as object code and/or source code, so that the user can modify the Library and then relink to produce a modified executable containing the modified Library. (It is understood that the user who changes the contents of definitions files in the Library will not necessarily be able to recompile the application to use the modified definitions.) b) Accompany the work with a written offer, valid for at least three years, to give the same user the materials specified in Subsection 6a, above, for a charge no more than the cost of performing this distribution. c) If distribution of the work is made by offering access to copy from a designated place, offer equivalent access to copy the above specified materials from the same place. d) Verify that the user has already received a copy of these materials or that you have already sent this user a copy. For an executable, the required form of the ""work that uses the Library"" must include any data and utility programs needed for reproducing the executable from it. However, as a special exception, the source code distributed need not include anything that is normally distributed (in either source or binary form) with the major components (compiler, kernel, and so on) of the operating system on which the executable runs, unless that component itself accompanies the executable. It may happen that this requirement contradicts the license restrictions of other proprietary libraries that do not normally accompany the operating system. Such a contradiction means you cannot use both them and the Library together in an executable that you distribute. 7. You may place library facilities that are a work based on the Library side-by-side in a single library together with other library facilities not covered by this License, and distribute such a combined library, provided that the separate distribution of the work based on the Library and of the other library facilities is otherwise permitted, and provided that you do these two things: a) Accompany the combined library with a copy of the same work based on the Library, uncombined with any other library facilities. This must be distributed under the terms of the Sections above. b) Give prominent notice with the combined library of the fact that part of it is a work based on the Library, and explaining where to find the accompanying uncombined form of the same work. 8. You may not copy, modify, sublicense, link with, or distribute the Library except as expressly provided under this License. Any attempt otherwise to copy, modify, sublicense, link with, or distribute the Library is void, and will automatically terminate your rights under this License. However, parties who have received copies, or rights, from you under this License will not have their licenses terminated so long as such parties remain in full compliance. 9. You are not required to accept this License, since you have not signed it. However, nothing else grants you permission to modify or distribute the Library or its derivative works. These actions are prohibited by law if you do not accept this License. Therefore, by modifying or distributing the Library (or any work based on the Library), you indicate your acceptance of this License to do so, and all its terms and conditions for copying, distributing or modifying the Library or works based on it. 10. Each time you redistribute the Library (or any work based on the Library), the recipient automatically receives a license from the original licensor to copy, distribute, link with or modify the Library subject to these terms and conditions. You may not impose any further restrictions on the recipients' exercise of the rights granted herein. You are not responsible for enforcing compliance by third parties to this License. 11. If, as a consequence of a court judgment or allegation of patent infringement or for any other reason (not limited to patent issues), conditions are imposed on you (whether by court order, agreement or otherwise) that contradict the conditions of this License, they do not excuse you from the conditions of this License. If you cannot distribute so as to satisfy simultaneously your obligations under this License and any other pertinent obligations, then as a consequence you may not distribute the Library at all. For example, if a patent license would not permit royalty-free redistribution of the Library by all those who receive copies directly or indirectly through you, then the only way you could satisfy both it and this License would be to refrain entirely from distribution of the Library. If any portion of this section is held invalid or unenforceable under any particular circumstance, the balance of the section is intended to apply, and the section as a whole is intended to apply in other circumstances. It is not the purpose of this section to induce you to infringe any patents or other property right claims or to contest validity of any such claims; this section has the sole purpose of protecting the integrity of the free software distribution system which is implemented by public license practices. Many people have made generous contributions to the wide range of software distributed through that system in reliance on consistent application of that system; it is up to the author/donor to decide if he or she is willing to distribute software through any other system and a licensee cannot impose that choice. This section is intended to make thoroughly clear what is believed to be a consequence of the rest of this License. 12. If the distribution and/or use of the Library is restricted in certain countries either by patents or by copyrighted interfaces, the original copyright holder who places the Library under this License may add an explicit geographical distribution limitation excluding those countries, so that distribution is permitted only in or among countries not thus excluded. In such case, this License incorporates the limitation as if written in the body of this License. 13. The Free Software Foundation may publish revised and/or new versions of the Library General Public License from time to time. Such new versions will be similar in spirit to the present version, but may differ in detail to address new problems or concerns. Each version is given a distinguishing version number. If the Library specifies a version number of this License which applies to it and ""any later version"", you have the option of following the terms and conditions either of that version or of any later version published by the Free Software Foundation. If the Library does not specify a license version number, you may choose any version ever published by the Free Software Foundation. 14. If you wish to incorporate parts of the Library into other free programs whose distribution conditions are incompatible with these, write to the author to ask for permission. For software which is copyrighted by the Free Software Foundation, write to the Free Software Foundation; we sometimes make exceptions for this. Our decision will be guided by the two goals of preserving the free status of all derivatives of our free software and of promoting the sharing and reuse of software generally. NO WARRANTY 15. BECAUSE THE LIBRARY IS LICENSED FREE OF CHARGE, THERE IS NO WARRANTY FOR THE LIBRARY, TO THE EXTENT PERMITTED BY APPLICABLE LAW. EXCEPT WHEN OTHERWISE STATED IN WRITING THE COPYRIGHT HOLDERS AND/OR OTHER PARTIES PROVIDE THE LIBRARY ""AS IS"" WITHOUT WARRANTY OF ANY KIND, EITHER EXPRESSED OR IMPLIED, INCLUDING, BUT NOT LIMITED TO, THE IMPLIED WARRANTIES OF MERCHANTABILITY AND FITNESS FOR A PARTICULAR PURPOSE. THE ENTIRE RISK AS TO THE QUALITY AND PERFORMANCE OF THE LIBRARY IS WITH YOU. SHOULD THE LIBRARY PROVE DEFECTIVE, YOU ASSUME THE COST OF ALL NECESSARY SERVICING, REPAIR OR CORRECTION. 16. IN NO EVENT UNLESS REQUIRED BY APPLICABLE LAW OR AGREED TO IN WRITING WILL ANY COPYRIGHT HOLDER, OR ANY OTHER PARTY WHO MAY MODIFY AND/OR REDISTRIBUTE THE LIBRARY AS PERMITTED ABOVE, BE LIABLE TO YOU FOR DAMAGES, INCLUDING ANY GENERAL, SPECIAL, INCIDENTAL OR CONSEQUENTIAL DAMAGES ARISING OUT OF THE USE OR INABILITY TO USE THE LIBRARY (INCLUDING BUT NOT LIMITED TO LOSS OF DATA OR DATA BEING RENDERED INACCURATE OR LOSSES SUSTAINED BY YOU OR THIRD PARTIES OR A FAILURE OF THE LIBRARY TO OPERATE WITH ANY OTHER SOFTWARE), EVEN IF SUCH HOLDER OR OTHER PARTY HAS BEEN ADVISED OF THE POSSIBILITY OF SUCH DAMAGES. END OF TERMS AND CONDITIONS How to Apply These Terms to Your New Libraries If you develop a new library, and you want it to be of the greatest possible use to the public, we recommend making it free software that everyone can redistribute and change. You can do so by permitting redistribution under these terms (or, alternatively, under the terms of the ordinary General Public License). To apply these terms, attach the following notices to the library. It is safest to attach them to the start of each source file to most effectively convey the exclusion of warranty; and each file should have at least the ""copyright"" line and a pointer to where the full notice is found. one line to give the library's name and an idea of what it does. Copyright (C) year name of author This library is free software; you can redistribute it and/or modify it under the terms of the GNU Library General Public License as published by the Free Software Foundation; either version 2 of the License, or (at your option) any later version. This library is distributed in the hope that it will be useful, but WITHOUT ANY WARRANTY; without even the implied warranty of MERCHANTABILITY or FITNESS FOR A PARTICULAR PURPOSE. See the GNU Library General Public License for more details. You should have received a copy of the GNU Library General Public License along with this library; if not, write to the Free Software Foundation, Inc., 51 Franklin St, Fifth Floor, Boston, MA 02110-1301, USA. Also add information on how to contact you by electronic and paper mail. You should also get your employer (if you work as a programmer) or your school, if any, to sign a ""copyright disclaimer"" for the library, if necessary. Here is a sample; alter the names: Yoyodyne, Inc., hereby disclaims all copyright interest in the library `Frob' (a library for tweaking knobs) written by James Random Hacker. signature of Ty Coon, 1 April 1990 Ty Coon, President of Vice That's all there is to it!")));
    (MkTriple (MkNode NIri ("http://spdx.org/licenses/LGPL-2.0-only")) ("http://www.w3.org/2000/01/rdf-schema#comment") (MkNode (NOther "LITERAL") ("This license was released: June 1991. This license has been superseded by LGPL-2.1. This license identifier refers to the choice to use the code under LGPL-2.0-only, as distinguished from use of code under LGPL-2.0-or-later (i.e., LGPL-2.0 or some later version). The license notice (as seen in the Standard License Header field below) states which of these applies to the code in the file. The example in the exhibit to the license shows the license notice for the ""or later"" approach.")));
    (MkTriple (MkNode NIri ("http://spdx.org/licenses/LGPL-2.0-only")) ("http://spdx.org/rdf/terms#isOsiApproved") (MkNode (NOther "LITERAL") ("true")));
    (MkTriple (MkNode NIri ("http://spdx.org/licenses/LGPL-2.0-only")) ("http://spdx.org/rdf/terms#name") (MkNode (NOther "LITERAL") ("GNU Library General Public License v2 only")));
    (MkTriple (MkNode (NOther "BLANK") ("N9")) ("http://spdx.org/rdf/terms#member") (MkNode NIri ("http://spdx.org/spdxdocs/spdx-example-444504E0-4F89-41D3-9A0C-0305E82C3301#LicenseRef-3")));
    (MkTriple (MkNode NIri ("http://spdx.org/spdxdocs/spdx-example-444504E0-4F89-41D3-9A0C-0305E82C3301#LicenseRef-3")) ("http://www.w3.org/1999/02/22-rdf-syntax-ns#type") (MkNode NIri ("http://spdx.org/rdf/terms#ExtractedLicensingInfo")));
    (MkTriple (MkNode NIri ("http://spdx.org/spdxdocs/spdx-example-444504E0-4F89-41D3-9A0C-0305E82C3301#LicenseRef-3")) ("http://www.w3.org/2000/01/rdf-schema#comment") (MkNode (NOther "LITERAL") ("This is tye CyperNeko License")));
    (MkTriple (MkNode NIri ("http://spdx.org/spdxdocs/spdx-example-444504E0-4F89-41D3-9A0C-0305E82C3301#LicenseRef-3")) ("http://www.w3.org/2000/01/rdf-schema#seeAlso") (MkNode (NOther "LITERAL") ("http://justasample.url.com")));
    (MkTriple (MkNode NIri ("http://spdx.org/spdxdocs/spdx-example-444504E0-4F89-41D3-9A0C-0305E82C3301#LicenseRef-3")) ("http://www.w3.org/2000/01/rdf-schema#seeAlso") (MkNode (NOther "LITERAL") ("http://people.apache.org/~andyc/neko/LICENSE")));
    (MkTriple (MkNode NIri ("http://spdx.org/spdxdocs/spdx-example-444504E0-4F89-41D3-9A0C-0305E82C3301#LicenseRef-3")) ("http://spdx.org/rdf/terms#name") (MkNode (NOther "LITERAL") ("CyberNeko License")));
    (MkTriple (MkNode NIri ("http://spdx.org/spdxdocs/spdx-example-444504E0-4F89-41D3-9A0C-0305E82C3301#LicenseRef-3")) ("http://spdx.org/rdf/terms#extractedText") (MkNode (NOther "LITERAL") ("The CyberNeko Software License, Version 1.0


(C) Copyright 2002-2005, Andy Clark.  All rights reserved.

Redistribution and use in source and binary forms, with or without
modification, are permitted provided that the following conditions
are met:

1. Redistributions of source code must retain the above copyright
   notice, this list of conditions and the following disclaimer.

2. Redistributions in binary form must reproduce the above copyright
   notice, this list of conditions and the following disclaimer in
   the documentation and/or other materials provided with the
   distribution.

3. The end-user documentation included with the redistribution,
   if any, must include the following acknowledgment:
     ""This product includes software developed by Andy Clark.""
   Alternately, this acknowledgment may appear in the software itself,
   if and wherever such third-party acknowledgments normally appear.

4. The names ""CyberNeko"" and ""NekoHTML"" must not be used to endorse
   or promote products derived from this software without prior
   written permission. For written permission, please contact
   andyc@cyberneko.net.

5. Products derived from this software may not be called ""CyberNeko"",
   nor may ""CyberNeko"" appear in their name, without prior written
   permission of the author.

THIS SOFTWARE IS PROVIDED ``AS IS'' AND ANY EXPRESSED OR IMPLIED
WARRANTIES, INCLUDING, BUT NOT LIMITED TO, THE IMPLIED WARRANTIES
OF MERCHANTABILITY AND FITNESS FOR A PARTICULAR PURPOSE ARE
DISCLAIMED.  IN NO EVENT SHALL THE AUTHOR OR OTHER CONTRIBUTORS
BE LIABLE FOR ANY DIRECT, INDIRECT, INCIDENTAL, SPECIAL, EXEMPLARY,
OR CONSEQUENTIAL DAMAGES (INCLUDING, BUT NOT LIMITED TO, PROCUREMENT
OF SUBSTITUTE GOODS OR SERVICES; LOSS OF USE, DATA, OR PROFITS; OR
BUSINESS INTERRUPTION) HOWEVER CAUSED AND ON ANY THEORY OF LIABILITY,
WHETHER IN CONTRACT, STRICT LIABILITY, OR TORT (INCLUDING NEGLIGENCE
OR OTHERWISE) ARISING IN ANY WAY OUT OF THE USE OF THIS SOFTWARE,
EVEN IF ADVISED OF THE POSSIBILITY OF SUCH DAMAGE.")));
    (MkTriple (MkNode NIri ("http://spdx.org/spdxdocs/spdx-example-444504E0-4F89-41D3-9A0C-0305E82C3301#LicenseRef-3")) ("http://spdx.org/rdf/terms#licenseId") (MkNode (NOther "LITERAL") ("LicenseRef-3")));
    (MkTriple (MkNode NIri ("http://spdx.org/spdxdocs/spdx-example-444504E0-4F89-41D3-9A0C-0305E82C3301#SPDXRef-Package")) ("http://spdx.org/rdf/terms#downloadLocation") (MkNode (NOther "LITERAL") ("http://ftp.gnu.org/gnu/glibc/glibc-ports-2.15.tar.gz")));
    (MkTriple (MkNode NIri ("http://spdx.org/spdxdocs/spdx-example-444504E0-4F89-41D3-9A0C-0305E82C3301#SPDXRef-Package")) ("http://spdx.org/rdf/terms#checksum") (MkNode (NOther "BLANK") ("N10")));
    (MkTriple (MkNode (NOther "BLANK") ("N10")) ("http://www.w3.org/1999/02/22-rdf-syntax-ns#type") (MkNode NIri ("http://spdx.org/rdf/terms#Checksum")));
    (MkTriple (MkNode (NOther "BLANK") ("N10")) ("http://spdx.org/rdf/terms#checksumValue") (MkNode (NOther "LITERAL") ("11b6d3ee554eedf79299905a98f9b9a04e498210b59f15094c916c91d150efcd")));
    (MkTriple (MkNode (NOther "BLANK") ("N10")) ("http://spdx.org/rdf/terms#algorithm") (MkNode (NOther "RESOURCELITERAL") ("http://spdx.org/rdf/terms#checksumAlgorithm_sha256")));
    (MkTriple (MkNode NIri ("http://spdx.org/spdxdocs/spdx-example-444504E0-4F89-41D3-9A0C-0305E82C3301#SPDXRef-Package")) ("http://spdx.org/rdf/terms#checksum") (MkNode (NOther "NODEIDLITERAL") ("A0")));
    (MkTriple (MkNode (NOther "NODEIDLITERAL") ("A0")) ("http://www.w3.org/1999/02/22-rdf-syntax-ns#type") (MkNode NIri ("http://spdx.org/rdf/terms#Checksum")));
    (MkTriple (MkNode (NOther "NODEIDLITERAL") ("A0")) ("http://spdx.org/rdf/terms#checksumValue") (MkNode (NOther "LITERAL") ("624c1abb3664f4b35547e7c73864ad24")));
    (MkTriple (MkNode (NOther "NODEIDLITERAL") ("A0")) ("http://spdx.org/rdf/terms#algorithm") (MkNode (NOther "RESOURCELITERAL") ("http://spdx.org/rdf/terms#checksumAlgorithm_md5")));
    (MkTriple (MkNode NIri ("http://spdx.org/spdxdocs/spdx-example-444504E0-4F89-41D3-9A0C-0305E82C3301#SPDXRef-Package")) ("http://spdx.org/rdf/terms#versionInfo") (MkNode (NOther "LITERAL") ("2.11.1")));
    (MkTriple (MkNode NIri ("http://spdx.org/spdxdocs/spdx-example-444504E0-4F89-41D3-9A0C-0305E82C3301#SPDXRef-Package")) ("http://spdx.org/rdf/terms#licenseInfoFromFiles") (MkNode NIri ("http://spdx.org/licenses/GPL-2.0-only")));
    (MkTriple (MkNode NIri ("http://spdx.org/licenses/GPL-2.0-only")) ("http://www.w3.org/1999/02/22-rdf-syntax-ns#type") (MkNode NIri ("http://spdx.org/rdf/terms#License")));
    (MkTriple (MkNode NIri ("http://spdx.org/licenses/GPL-2.0-only")) ("http://spdx.org/rdf/terms#standardLicenseHeader") (MkNode (NOther "LITERAL") ("Copyright (C) yyyy name of author

This program is free software; you can redistribute it and/or modify it under the terms of the GNU General Public License as published by the Free Software Foundation; version 2.

This program is distributed in the hope that it will be useful, but WITHOUT ANY WARRANTY; without even the implied warranty of MERCHANTABILITY or FITNESS FOR A PARTICULAR PURPOSE. See the GNU General Public License for more details.

You should have received a copy of the GNU General Public License along with this program; if not, write to the Free Software Foundation, Inc., 51 Franklin Street, Fifth Floor, Boston, MA 02110-1301, USA.")));
    (MkTriple (MkNode NIri ("http://spdx.org/licenses/GPL-2.0-only")) ("http://spdx.org/rdf/terms#isOsiApproved") (MkNode (NOther "LITERAL") ("true")));
    (MkTriple (MkNode NIri ("http://spdx.org/licenses/GPL-2.0-only")) ("http://www.w3.org/2000/01/rdf-schema#seeAlso") (MkNode (NOther "LITERAL") ("https://opensource.org/licenses/GPL-2.0")));
    (MkTriple (MkNode NIri ("http://spdx.org/licenses/GPL-2.0-only")) ("http://spdx.org/rdf/terms#isFsfLibre") (MkNode (NOther "LITERAL") ("true")));
    (MkTriple (MkNode NIri ("http://spdx.org/licenses/GPL-2.0-only")) ("http://www.w3.org/2000/01/rdf-schema#seeAlso") (MkNode (NOther "LITERAL") ("https://www.gnu.org/licenses/old-licenses/gpl-2.0-standalone.html")));
    (MkTriple (MkNode NIri ("http://spdx.org/licenses/GPL-2.0-only")) ("http://www.w3.org/2000/01/rdf-schema#comment") (MkNode (NOther "LITERAL") ("This license was released: June 1991. This license identifier refers to the choice to use the code under GPL-2.0-only, as distinguished from use of code under GPL-2.0-or-later (i.e., GPL-2.0 or some later version). The license notice (as seen in the Standard License Header field below) states which of these applies to the code in the file. The example in the exhibit to the license shows the license notice for the ""or later"" approach.")));
    (MkTriple (MkNode NIri ("http://spdx.org/licenses/GPL-2.0-only")) ("http://spdx.org/rdf/terms#licenseId") (MkNode (NOther "LITERAL") ("GPL-2.0-only")));
    (MkTriple (MkNode NIri ("http://spdx.org/licenses/GPL-2.0-only")) ("http://spdx.org/rdf/terms#standardLicenseTemplate") (MkNode (NOther "LITERAL") ("<<beginOptional>> GNU GENERAL PUBLIC LICENSE

Version 2, June 1991<<endOptional>>

Copyright (C) 1989, 1991 Free Software Foundation, Inc. <<var;name=""incComma"";original="""";match="",|"">>

51 Franklin Street, Fifth Floor, Boston, MA 02110-1301<<beginOptional>>, <<endOptional>> USA

Everyone is permitted to copy and distribute verbatim copies of this license document, but changing it is not allowed.

Preamble

The licenses for most software are designed to take away your freedom to share and change it. By contrast, the GNU General Public License is intended to guarantee your freedom to share and change free software--to make sure the software is free for all its users. This General Public License applies to most of the Free Software Foundation's software and to any other program whose authors commit to using it. (Some other Free Software Foundation software is covered by the GNU Lesser General Public License instead.) You can apply it to your programs, too.

When we speak of free software, we are referring to freedom, not price. Our General Public Licenses are designed to make sure that you have the freedom to distribute copies of free software (and charge for this service if you wish), that you receive source code or can get it if you want it, that you can change the software or use pieces of it in new free programs; and that you know you can do these things.

To protect your rights, we need to make restrictions that forbid anyone to deny you these rights or to ask you to surrender the rights. These restrictions translate to certain responsibilities for you if you distribute copies of the software, or if you modify it.

For example, if you distribute copies of such a program, whether gratis or for a fee, you must give the recipients all the rights that you have. You must make sure that they, too, receive or can get the source code. And you must show them these terms so they know their rights.

We protect your rights with two steps: (1) copyright the software, and (2) offer you this license which gives you legal permission to copy, distribute and/or modify the software.

Also, for each author's protection and ours, we want to make certain that everyone understands that there is no warranty for this free software. If the software is modified by someone else and passed on, we want its recipients to know that what they have is not the original, so that any problems introduced by others will not reflect on the original authors' reputations.

Finally, any free program is threatened constantly by software patents. We wish to avoid the danger that redistributors of a free program will individually obtain patent licenses, in effect making the program proprietary. To prevent this, we have made it clear that any patent must be licensed for everyone's free use or not licensed at all.

The precise terms and conditions for copying, distribution and modification follow.

<<var;name=""termsTitle"";original="""";match=""GNU GENERAL PUBLIC LICENSE|"">> TERMS AND CONDITIONS FOR COPYING, DISTRIBUTION AND MODIFICATION

   <<var;name=""bullet"";original=""0."";match="".{0,20}"">> This License applies to any program or other work which contains a notice placed by the copyright holder saying it may be distributed under the terms of this General Public License. The ""Program"", below, refers to any such program or work, and a ""work based on the Program"" means either the Program or any derivative work under copyright law: that is to say, a work containing the Program or a portion of it, either verbatim or with modifications and/or translated into another language. (Hereinafter, translation is included without limitation in the term ""modification"".) Each licensee is addressed as ""you"".

   Activities other than copying, distribution and modification are not covered by this License; they are outside its scope. The act of running the Program is not restricted, and the output from the Program is covered only if its contents constitute a work based on the Program (independent of having been made by running the Program). Whether that is true depends on what the Program does.

   <<var;name=""bullet"";original=""1."";match="".{0,20}"">> You may copy and distribute verbatim copies of the Program's source code as you receive it, in any medium, provided that you conspicuously and appropriately publish on each copy an appropriate copyright notice and disclaimer of warranty; keep intact all the notices that refer to this License and to the absence of any warranty; and give any other recipients of the Program a copy of this License along with the Program.

   You may charge a fee for the physical act of transferring a copy, and you may at your option offer warranty protection in exchange for a fee.

   <<var;name=""bullet"";original=""2."";match="".{0,20}"">> You may modify your copy or copies of the Program or any portion of it, thus forming a work based on the Program, and copy and distribute such modifications or work under the terms of Section 1 above, provided that you also meet all of these conditions:

      <<var;name=""bullet"";original=""a)"";match="".{0,20}"">> You must cause the modified files to carry prominent notices stating that you changed the files and the date of any change.

      <<var;name=""bullet"";original=""b)"";match="".{0,20}"">> You must cause any work that you distribute or publish, that in whole or in part contains or is derived from the Program or any part thereof, to be licensed as a whole at no charge to all third parties under the terms of this License.

      <<var;name=""bullet"";original=""c)"";match="".{0,20}"">> If the modified program normally reads commands interactively when run, you must cause it, when started running for such interactive use in the most ordinary way, to print or display an announcement including an appropriate copyright notice and a notice that there is no warranty (or else, saying that you provide a warranty) and that users may redistribute the program under these conditions, and telling the user how to view a copy of this License. (Exception: if the Program itself is interactive but does not normally print such an announcement, your work based on the Program is not required to print an announcement.)

   These requirements apply to the modified work as a whole. If identifiable sections of that work are not derived from the Program, and can be reasonably considered independent and separate works in themselves, then this License, and its terms, do not apply to those sections when you distribute them as separate works. But when you distribute the same sections as part of a whole which is a work based on the Program, the distribution of the whole must be on the terms of this License, whose permissions for other licensees extend to the entire whole, and thus to each and every part regardless of who wrote it.

   Thus, it is not the intent of this section to claim rights or contest your rights to work written entirely by you; rather, the intent is to exercise the right to control the distribution of derivative or collective works based on the Program.

   In addition, mere aggregation of another work not based on the Program with the Program (or with a work based on the Program) on a volume of a storage or distribution medium does not bring the other work under the scope of this License.

   <<var;name=""bullet"";original=""3."";match="".{0,20}"">> You may copy and distribute the Program (or a work based on it, under Section 2) in object code or executable form under the terms of Sections 1 and 2 above provided that you also do one of the following:

      <<var;name=""bullet"";original=""a)"";match="".{0,20}"">> Accompany it with the complete corresponding machine-readable source code, which must be distributed under the terms of Sections 1 and 2 above on a medium customarily used for software interchange; or,

      <<var;name=""bullet"";original=""b)"";match="".{0,20}"">> Accompany it with a written offer, valid for at least three years, to give any third party, for a charge no more than your cost of physically performing source distribution, a complete machine-readable copy of the corresponding source code, to be distributed under the terms of Sections 1 and 2 above on a medium customarily used for software interchange; or,

      <<var;name=""bullet"";original=""c)"";match="".{0,20}"">> Accompany it with the information you received as to the offer to distribute corresponding source code. (This alternative is allowed only for noncommercial distribution and only if you received the program in object code or executable form with such an offer, in accord with Subsection b above.)

   The source code for a work means the preferred form of the work for making modifications to it. For an executable work, complete source code means all the source code for all modules it contains, plus any associated interface definition files, plus the scripts used to control compilation and installation of the executable. However, as a special exception, the source code distributed need not include anything that is normally distributed (in either source or binary form) with the major components (compiler, kernel, and so on) of the operating system on which the executable runs, unless that component itself accompanies the executable.

   If distribution of executable or object code is made by offering access to copy from a designated place, then offering equivalent access to copy the source code from the same place counts as distribution of the source code, even though third parties are not compelled to copy the source along with the object code.

   <<var;name=""bullet"";original=""4."";match="".{0,20}"">> You may not copy, modify, sublicense, or distribute the Program except as expressly provided under this License. Any attempt otherwise to copy, modify, sublicense or distribute the Program is void, and will automatically terminate your rights under this License. However, parties who have received copies, or rights, from you under this License will not have their licenses terminated so long as such parties remain in full compliance.

   <<var;name=""bullet"";original=""5."";match="".{0,20}"">> You are not required to accept this License, since you have not signed it. However, nothing else grants you permission to modify or distribute the Program or its derivative works. These actions are prohibited by law if you do not accept this License. Therefore, by modifying or distributing the Program (or any work based on the Program), you indicate your acceptance of this License to do so, and all its terms and conditions for copying, distributing or modifying the Program or works based on it.

   <<var;name=""bullet"";original=""6."";match="".{0,20}"">> Each time you redistribute the Program (or any work based on the Program), the recipient automatically receives a license from the original licensor to copy, distribute or modify the Program subject to these terms and conditions. You may not impose any further restrictions on the recipients' exercise of the rights granted herein. You are not responsible for enforcing compliance by third parties to this License.

   <<var;name=""bullet"";original=""7."";match="".{0,20}"">> If, as a consequence of a court judgment or allegation of patent infringement or for any other reason (not limited to patent issues), conditions are imposed on you (whether by court order, agreement or otherwise) that contradict the conditions of this License, they do not excuse you from the conditions of this License. If you cannot distribute so as to satisfy simultaneously your obligations under this License and any other pertinent obligations, then as a consequence you may not distribute the Program at all. For example, if a patent license would not permit royalty-free redistribution of the Program by all those who receive copies directly or indirectly through you, then the only way you could satisfy both it and this License would be to refrain entirely from distribution of the Program.

   If any portion of this section is held invalid or unenforceable under any particular circumstance, the balance of the section is intended to apply and the section as a whole is intended to apply in other circumstances.

   It is not the purpose of this section to induce you to infringe any patents or other property right claims or to contest validity of any such claims; this section has the sole purpose of protecting the integrity of the free software distribution system, which is implemented by public license practices. Many people have made generous contributions to the wide range of software distributed through that system in reliance on consistent application of that system; it is up to the author/donor to decide if he or she is willing to distribute software through any other system and a licensee cannot impose that choice.

   This section is intended to make thoroughly clear what is believed to be a consequence of the rest of this License.

   <<var;name=""bullet"";original=""8."";match="".{0,20}"">> If the distribution and/or use of the Program is restricted in certain countries either by patents or by copyrighted interfaces, the original copyright holder who places the Program under this License may add an explicit geographical distribution limitation excluding those countries, so that distribution is permitted only in or among countries not thus excluded. In such case, this License incorporates the limitation as if written in the body of this License.

   <<var;name=""bullet"";original=""9."";match="".{0,20}"">> The Free Software Foundation may publish revised and/or new versions of the General Public License from time to time. Such new versions will be similar in spirit to the present version, but may differ in detail to address new problems or concerns.

   Each version is given a distinguishing version number. If the Program specifies a version number of this License which applies to it and ""any later version"", you have the option of following the terms and conditions either of that version or of any later version published by the Free Software Foundation. If the Program does not specify a version number of this License, you may choose any version ever published by the Free Software Foundation.

   <<var;name=""bullet"";original=""10."";match="".{0,20}"">> If you wish to incorporate parts of the Program into other free programs whose distribution conditions are different, write to the author to ask for permission. For software which is copyrighted by the Free Software Foundation, write to the Free Software Foundation; we sometimes make exceptions for this. Our decision will be guided by the two goals of preserving the free status of all derivatives of our free software and of promoting the sharing and reuse of software generally.

   NO WARRANTY

   <<var;name=""bullet"";original=""11."";match="".{0,20}"">> BECAUSE THE PROGRAM IS LICENSED FREE OF CHARGE, THERE IS NO WARRANTY FOR THE PROGRAM, TO THE EXTENT PERMITTED BY APPLICABLE LAW. EXCEPT WHEN OTHERWISE STATED IN WRITING THE COPYRIGHT HOLDERS AND/OR OTHER PARTIES PROVIDE THE PROGRAM ""AS IS"" WITHOUT WARRANTY OF ANY KIND, EITHER EXPRESSED OR IMPLIED, INCLUDING, BUT NOT LIMITED TO, THE IMPLIED WARRANTIES OF MERCHANTABILITY AND FITNESS FOR A PARTICULAR PURPOSE. THE ENTIRE RISK AS TO THE QUALITY AND PERFORMANCE OF THE PROGRAM IS WITH YOU. SHOULD THE PROGRAM PROVE DEFECTIVE, YOU ASSUME THE COST OF ALL NECESSARY SERVICING, REPAIR OR CORRECTION.

   <<var;name=""bullet"";original=""12."";match="".{0,20}"">> IN NO EVENT UNLESS REQUIRED BY APPLICABLE LAW OR AGREED TO IN WRITING WILL ANY COPYRIGHT HOLDER, OR ANY OTHER PARTY WHO MAY MODIFY AND/OR REDISTRIBUTE THE PROGRAM AS PERMITTED ABOVE, BE LIABLE TO YOU FOR DAMAGES, INCLUDING ANY GENERAL, SPECIAL, INCIDENTAL OR CONSEQUENTIAL DAMAGES ARISING OUT OF THE USE OR INABILITY TO USE THE PROGRAM (INCLUDING BUT NOT LIMITED TO LOSS OF DATA OR DATA BEING RENDERED INACCURATE OR LOSSES SUSTAINED BY YOU OR THIRD PARTIES OR A FAILURE OF THE PROGRAM TO OPERATE WITH ANY OTHER PROGRAMS), EVEN IF SUCH HOLDER OR OTHER PARTY HAS BEEN ADVISED OF THE POSSIBILITY OF SUCH DAMAGES.<<beginOptional>> END OF TERMS AND CONDITIONS

How to Apply These Terms to Your New Programs

If you develop a new program, and you want it to be of the greatest possible use to the public, the best way to achieve this is to make it free software which everyone can redistribute and change under these terms.

To do so, attach the following notices to the program. It is safest to attach them to the start of each source file to most effectively convey the exclusion of warranty; and each file should have at least the ""copyright"" line and a pointer to where the full notice is found.

<<beginOptional>><<<endOptional>>one line to give the program's name and <<var;name=""ideaArticle"";original=""an"";match=""a brief|an"">> idea of what it does.<<beginOptional>>><<endOptional>>

Copyright (C)<<beginOptional>><<<endOptional>> <<var;name=""templateYear"";original=""yyyy"";match=""yyyy|year"">><<beginOptional>>> <<endOptional>><<beginOptional>> <<<endOptional>>name of author<<beginOptional>>><<endOptional>>

This program is free software; you can redistribute it and/or modify it under the terms of the GNU General Public License as published by the Free Software Foundation; either version 2 of the License, or (at your option) any later version.

This program is distributed in the hope that it will be useful, but WITHOUT ANY WARRANTY; without even the implied warranty of MERCHANTABILITY or FITNESS FOR A PARTICULAR PURPOSE. See the GNU General Public License for more details.

You should have received a copy of the GNU General Public License along with this program; if not, write to the Free Software Foundation, Inc., 51 Franklin Street, Fifth Floor, Boston, MA 02110-1301<<beginOptional>>, <<endOptional>> USA.

Also add information on how to contact you by electronic and paper mail.

If the program is interactive, make it output a short notice like this when it starts in an interactive mode:

Gnomovision version 69, Copyright (C) year name of author Gnomovision comes with ABSOLUTELY NO WARRANTY; for details type `show w'. This is free software, and you are welcome to redistribute it under certain conditions; type `show c' for details.

The hypothetical commands `show w' and `show c' should show the appropriate parts of the General Public License. Of course, the commands you use may be called something other than `show w' and `show c'; they could even be mouse-clicks or menu items--whatever suits your program.

You should also get your employer (if you work as a programmer) or your school, if any, to sign a ""copyright disclaimer"" for the program, if necessary. Here is a sample; alter the names:

Yoyodyne, Inc., hereby disclaims all copyright interest in the program `Gnomovision' (which makes passes at compilers) written by James Hacker.

<<beginOptional>><<<endOptional>>signature of Ty Coon<<beginOptional>> ><<endOptional>>, 1 April 1989 Ty Coon, President of Vice<<endOptional>><<beginOptional>> This General Public License does not permit incorporating your program into proprietary programs. If your program is a subroutine library, you may consider it more useful to permit linking proprietary applications with the library. If this is what you want to do, use the GNU Lesser General Public License instead of this License.<<endOptional>>")));
    (MkTriple (MkNode NIri ("http://spdx.org/licenses/GPL-2.0-only")) ("http://spdx.org/rdf/terms#licenseText") (MkNode (NOther "LITERAL") ("GNU GENERAL PUBLIC LICENSE Version 2, June 1991 Copyright (C) 1989, 1991 Free Software Foundation, Inc. 51 Franklin Street, Fifth Floor, Boston, MA 02110-1301, USA Everyone is permitted to copy and distribute verbatim copies of this license document, but changing it is not allowed. Preamble The licenses for most software are designed to take away your freedom to share and change it. By contrast, the GNU General Public License is intended to guarantee your freedom to share and change free software--to make sure the software is free for all its users. This General Public License applies to most of the Free Software Foundation's software and to any other program whose authors commit to using it. (Some other Free Software Foundation software is covered by the GNU Lesser General Public License instead.) You can apply it to your programs, too. When we speak of free software, we are referring to freedom, not price. Our General Public Licenses are designed to make sure that you have the freedom to distribute copies of free software (and charge for this service if you wish), that you receive source code or can get it if you want it, that you can change the software or use pieces of it in new free programs; and that you know you can do these things. To protect your rights, we need to make restrictions that forbid anyone to deny you these rights or to ask you to surrender the rights. These restrictions translate to certain responsibilities for you if you distribute copies of the software, or if you modify it. For example, if you distribute copies of such a program, whether gratis or for a fee, you must give the recipients all the rights that you have. You must make sure that they, too, receive or can get the source code. And you must show them these terms so they know their rights. We protect your rights with two steps: (1) copyright the software, and (2) offer you this license which gives you legal permission to copy, distribute and/or modify the software. Also, for each author's protection and ours, we want to make certain that everyone understands that there is no warranty for this free software. If the software is modified by someone else and passed on, we want its recipients to know that what they have is not the original, so that any problems introduced by others will not reflect on the original authors' reputations. Finally, any free program is threatened constantly by software patents. We wish to avoid the danger that redistributors of a free program will individually obtain patent licenses, in effect making the program proprietary. To prevent this, we have made it clear that any patent must be licensed for everyone's free use or not licensed at all. The precise terms and conditions for copying, distribution and modification follow. TERMS AND CONDITIONS FOR COPYING, DISTRIBUTION AND MODIFICATION 0. This License applies to any program or other work which contains a notice placed by the copyright holder saying it may be distributed under the terms of this General Public License. The ""Program"", below, refers to any such program or work, and a ""work based on the Program"" means either the Program or any derivative work under copyright law: that is to say, a work containing the Program or a portion of it, either verbatim or with modifications and/or translated into another language. (Hereinafter, translation is included without limitation in the term ""modification"".) Each licensee is addressed as ""you"". Activities other than copying, distribution and modification are not covered by this License; they are outside its scope. The act of running the Program is not restricted, and the output from the Program is covered only if its contents constitute a work based on the Program (independent of having been made by running the Program). Whether that is true depends on what the Program does. 1. You may copy and distribute verbatim copies of the Program's source code as you receive it, in any medium, provided that you conspicuously and appropriately publish on each copy an appropriate copyright notice and disclaimer of warranty; keep intact all the notices that refer to this License and to the absence of any warranty; and give any other recipients of the Program a copy of this License along with the Program. You may charge a fee for the physical act of transferring a copy, and you may at your option offer warranty protection in exchange for a fee. 2. You may modify your copy or copies of the Program or any portion of it, thus forming a work based on the Program, and copy and distribute such modifications or work under the terms of Section 1 above, provided that you also meet all of these conditions: a) You must cause the modified files to carry prominent notices stating that you changed the files and the date of any change. b) You must cause any work that you distribute or publish, that in whole or in part contains or is derived from the Program or any part thereof, to be licensed as a whole at no charge to all third parties under the terms of this License. c) If the modified program normally reads commands interactively when run, you must cause it, when started running for such interactive use in the most ordinary way, to print or display an announcement including an appropriate copyright notice and a notice that there is no warranty (or else, saying that you provide a warranty) and that users may redistribute the program under these conditions, and telling the user how to view a copy of this License. (Exception: if the Program itself is interactive but does not normally print such an announcement, your work based on the Program is not required to print an announcement.) These requirements apply to the modified work as a whole. If identifiable sections of that work are not derived from the Program, and can be reasonably considered independent and separate works in themselves, then this License, and its terms, do not apply to those sections when you distribute them as separate works. But when you distribute the same sections as part of a whole which is a work based on the Program, the distribution of the whole must be on the terms of this License, whose permissions for other licensees extend to the entire whole, and thus to each and every part regardless of who wrote it. Thus, it is not the intent of this section to claim rights or contest your rights to work written entirely by you; rather, the intent is to exercise the right to control the distribution of derivative or collective works based on the Program. In addition, mere aggregation of another work not based on the Program with the Program (or with a work based on the Program) on a volume of a storage or distribution medium does not bring the other work under the scope of this License. 3. You may copy and distribute the Program (or a work based on it, under Section 2) in object code or executable form under the terms of Sections 1 and 2 above provided that you also do one of the following: a) Accompany it with the complete corresponding machine-readable source code, which must be distributed under the terms of Sections 1 and 2 above on a medium customarily used for software interchange; or, b) Accompany it with a written offer, valid for at least three years, to give any third party, for a charge no more than your cost of physically performing source distribution, a complete machine-readable copy of the corresponding source code, to be distributed under the terms of Sections 1 and 2 above on a medium customarily used for software interchange; or, c) Accompany it with the information you received as to the offer to distribute corresponding source code. (This alternative is allowed only for noncommercial distribution and only if you received the program in object code or executable form with such an offer, in accord with Subsection b above.) The source code for a work means the preferred form of the work for making modifications to it. For an executable work, complete source code means all the source code for all modules it contains, plus any associated interface definition files, plus the scripts used to control compilation and installation of the executable. However, as a special exception, the source code distributed need not include anything that is normally distributed (in either source or binary form) with the major components (compiler, kernel, and so on) of the operating system on which the executable runs, unless that component itself accompanies the executable. If distribution of executable or object code is made by offering access to copy from a designated place, then offering equivalent access to copy the source code from the same place counts as distribution of the source code, even though third parties are not compelled to copy the source along with the object code. 4. You may not copy, modify, sublicense, or distribute the Program except as expressly provided under this License. Any attempt otherwise to copy, modify, sublicense or distribute the Program is void, and will automatically terminate your rights under this License. However, parties who have received copies, or rights, from you under this License will not have their licenses terminated so long as such parties remain in full compliance. 5. You are not required to accept this License, since you have not signed it. However, nothing else grants you permission to modify or distribute the Program or its derivative works. These actions are prohibited by law if you do not accept this License. Therefore, by modifying or distributing the Program (or any work based on the Program), you indicate your acceptance of this License to do so, and all its terms and conditions for copying, distributing or modifying the Program or works based on it. 6. Each time you redistribute the Program (or any work based on the Program), the recipient automatically receives a license from the original licensor to copy, distribute or modify the Program subject to these terms and conditions. You may not impose any further restrictions on the recipients' exercise of the rights granted herein. You are not responsible for enforcing compliance by third parties to this License. 7. If, as a consequence of a court judgment or allegation of patent infringement or for any other reason (not limited to patent issues), conditions are imposed on you (whether by court order, agreement or otherwise) that contradict the conditions of this License, they do not excuse you from the conditions of this License. If you cannot distribute so as to satisfy simultaneously your obligations under this License and any other pertinent obligations, then as a consequence you may not distribute the Program at all. For example, if a patent license would not permit royalty-free redistribution of the Program by all those who receive copies directly or indirectly through you, then the only way you could satisfy both it and this License would be to refrain entirely from distribution of the Program. If any portion of this section is held invalid or unenforceable under any particular circumstance, the balance of the section is intended to apply and the section as a whole is intended to apply in other circumstances. It is not the purpose of this section to induce you to infringe any patents or other property right claims or to contest validity of any such claims; this section has the sole purpose of protecting the integrity of the free software distribution system, which is implemented by public license practices. Many people have made generous contributions to the wide range of software distributed through that system in reliance on consistent application of that system; it is up to the author/donor to decide if he or she is willing to distribute software through any other system and a licensee cannot impose that choice. This section is intended to make thoroughly clear what is believed to be a consequence of the rest of this License. 8. If the distribution and/or use of the Program is restricted in certain countries either by patents or by copyrighted interfaces, the original copyright holder who places the Program under this License may add an explicit geographical distribution limitation excluding those countries, so that distribution is permitted only in or among countries not thus excluded. In such case, this License incorporates the limitation as if written in the body of this License. 9. The Free Software Foundation may publish revised and/or new versions of the General Public License from time to time. Such new versions will be similar in spirit to the present version, but may differ in detail to address new problems or concerns. Each version is given a distinguishing version number. If the Program specifies a version number of this License which applies to it and ""any later version"", you have the option of following the terms and conditions either of that version or of any later version published by the Free Software Foundation. If the Program does not specify a version number of this License, you may choose any version ever published by the Free Software Foundation. 10. If you wish to incorporate parts of the Program into other free programs whose distribution conditions are different, write to the author to ask for permission. For software which is copyrighted by the Free Software Foundation, write to the Free Software Foundation; we sometimes make exceptions for this. Our decision will be guided by the two goals of preserving the free status of all derivatives of our free software and of promoting the sharing and reuse of software generally. NO WARRANTY 11. BECAUSE THE PROGRAM IS LICENSED FREE OF CHARGE, THERE IS NO WARRANTY FOR THE PROGRAM, TO THE EXTENT PERMITTED BY APPLICABLE LAW. EXCEPT WHEN OTHERWISE STATED IN WRITING THE COPYRIGHT HOLDERS AND/OR OTHER PARTIES PROVIDE THE PROGRAM ""AS IS"" WITHOUT WARRANTY OF ANY KIND, EITHER EXPRESSED OR IMPLIED, INCLUDING, BUT NOT LIMITED TO, THE IMPLIED WARRANTIES OF MERCHANTABILITY AND FITNESS FOR A PARTICULAR PURPOSE. THE ENTIRE RISK AS TO THE QUALITY AND PERFORMANCE OF THE PROGRAM IS WITH YOU. SHOULD THE PROGRAM PROVE DEFECTIVE, YOU ASSUME THE COST OF ALL NECESSARY SERVICING, REPAIR OR CORRECTION. 12. IN NO EVENT UNLESS REQUIRED BY APPLICABLE LAW OR AGREED TO IN WRITING WILL ANY COPYRIGHT HOLDER, OR ANY OTHER PARTY WHO MAY MODIFY AND/OR REDISTRIBUTE THE PROGRAM AS PERMITTED ABOVE, BE LIABLE TO YOU FOR DAMAGES, INCLUDING ANY GENERAL, SPECIAL, INCIDENTAL OR CONSEQUENTIAL DAMAGES ARISING OUT OF THE USE OR INABILITY TO USE THE PROGRAM (INCLUDING BUT NOT LIMITED TO LOSS OF DATA OR DATA BEING RENDERED INACCURATE OR LOSSES SUSTAINED BY YOU OR THIRD PARTIES OR A FAILURE OF THE PROGRAM TO OPERATE WITH ANY OTHER PROGRAMS), EVEN IF SUCH HOLDER OR OTHER PARTY HAS BEEN ADVISED OF THE POSSIBILITY OF SUCH DAMAGES. END OF TERMS AND CONDITIONS How to Apply These Terms to Your New Programs If you develop a new program, and you want it to be of the greatest possible use to the public, the best way to achieve this is to make it free software which everyone can redistribute and change under these terms. To do so, attach the following notices to the program. It is safest to attach them to the start of each source file to most effectively convey the exclusion of warranty; and each file should have at least the ""copyright"" line and a pointer to where the full notice is found. Copyright (C)< yyyy> This program is free software; you can redistribute it and/or modify it under the terms of the GNU General Public License as published by the Free Software Foundation; either version 2 of the License, or (at your option) any later version. This program is distributed in the hope that it will be useful, but WITHOUT ANY WARRANTY; without even the implied warranty of MERCHANTABILITY or FITNESS FOR A PARTICULAR PURPOSE. See the GNU General Public License for more details. You should have received a copy of the GNU General Public License along with this program; if not, write to the Free Software Foundation, Inc., 51 Franklin Street, Fifth Floor, Boston, MA 02110-1301, USA. Also add information on how to contact you by electronic and paper mail. If the program is interactive, make it output a short notice like this when it starts in an interactive mode: Gnomovision version 69, Copyright (C) year name of author Gnomovision comes with ABSOLUTELY NO WARRANTY; for details type `show w'. This is free software, and you are welcome to redistribute it under certain conditions; type `show c' for details. The hypothetical commands `show w' and `show c' should show the appropriate parts of the General Public License. Of course, the commands you use may be called something other than `show w' and `show c'; they could even be mouse-clicks or menu items--whatever suits your program. You should also get your employer (if you work as a programmer) or your school, if any, to sign a ""copyright disclaimer"" for the program, if necessary. Here is a sample; alter the names: Yoyodyne, Inc., hereby disclaims all copyright interest in the program `Gnomovision' (which makes passes at compilers) written by James Hacker. , 1 April 1989 Ty Coon, President of Vice This General Public License does not permit incorporating your program into proprietary programs. If your program is a subroutine library, you may consider it more useful to permit linking proprietary applications with the library. If this is what you want to do, use the GNU Lesser General Public License instead of this License.")));
    (MkTriple (MkNode NIri ("http://spdx.org/licenses/GPL-2.0-only")) ("http://spdx.org/rdf/terms#name") (MkNode (NOther "LITERAL") ("GNU General Public License v2.0 only")));
    (MkTriple (MkNode NIri ("http://spdx.org/licenses/GPL-2.0-only")) ("http://spdx.org/rdf/terms#standardLicenseHeaderTemplate") (MkNode (NOther "LITERAL") ("Copyright (C) <<var;name=""copyright"";original=""yyyy name of author"";match="".+"">>

This program is free software; you can redistribute it and/or modify it under the terms of the GNU General Public License as published by the Free Software Foundation; version 2.

This program is distributed in the hope that it will be useful, but WITHOUT ANY WARRANTY; without even the implied warranty of MERCHANTABILITY or FITNESS FOR A PARTICULAR PURPOSE. See the GNU General Public License for more details.

You should have received a copy of the GNU General Public License along with this program; if not, write to the Free Software Foundation, Inc., 51 Franklin Street, Fifth Floor, Boston, MA 02110-1301<<beginOptional>>, <<endOptional>> USA.")));
    (MkTriple (MkNode NIri ("http://spdx.org/spdxdocs/spdx-example-444504E0-4F89-41D3-9A0C-0305E82C3301#SPDXRef-Package")) ("http://spdx.org/rdf/terms#licenseComments") (MkNode (NOther "LITERAL") ("The license for this project changed with the release of version x.y.  The version of the project included here post-dates the license change.")));
    (MkTriple (MkNode NIri ("http://spdx.org/spdxdocs/spdx-example-444504E0-4F89-41D3-9A0C-0305E82C3301#SPDXRef-Package")) ("http://spdx.org/rdf/terms#relationship") (MkNode (NOther "BLANK") ("N11")));
    (MkTriple (MkNode (NOther "BLANK") ("N11")) ("http://www.w3.org/1999/02/22-rdf-syntax-ns#type") (MkNode NIri ("http://spdx.org/rdf/terms#Relationship")));
    (MkTriple (MkNode (NOther "BLANK") ("N11")) ("http://spdx.org/rdf/terms#relationshipType") (MkNode (NOther "RESOURCELITERAL") ("http://spdx.org/rdf/terms#relationshipType_contains")));
    (MkTriple (MkNode (NOther "BLANK") ("N11")) ("http://spdx.org/rdf/terms#relatedSpdxElement") (MkNode (NOther "RESOURCELITERAL") ("http://spdx.org/spdxdocs/spdx-example-444504E0-4F89-41D3-9A0C-0305E82C3301#SPDXRef-JenaLib")));
    (MkTriple (MkNode NIri ("http://spdx.org/spdxdocs/spdx-example-444504E0-4F89-41D3-9A0C-0305E82C3301#SPDXRef-Package")) ("http://spdx.org/rdf/terms#externalRef") (MkNode (NOther "BLANK") ("N12")));
    (MkTriple (MkNode (NOther "BLANK") ("N12")) ("http://www.w3.org/1999/02/22-rdf-syntax-ns#type") (MkNode NIri ("http://spdx.org/rdf/terms#ExternalRef")));
    (MkTriple (MkNode (NOther "BLANK") ("N12")) ("http://www.w3.org/2000/01/rdf-schema#comment") (MkNode (NOther "LITERAL") ("This is the external ref for Acme")));
    (MkTriple (MkNode (NOther "BLANK") ("N12")) ("http://spdx.org/rdf/terms#referenceLocator") (MkNode (NOther "LITERAL") ("acmecorp/acmenator/4.1.3-alpha")));
    (MkTriple (MkNode (NOther "BLANK") ("N12")) ("http://spdx.org/rdf/terms#referenceType") (MkNode NIri ("http://spdx.org/spdxdocs/spdx-example-444504E0-4F89-41D3-9A0C-0305E82C3301#LocationRef-acmeforge")));
    (MkTriple (MkNode NIri ("http://spdx.org/spdxdocs/spdx-example-444504E0-4F89-41D3-9A0C-0305E82C3301#LocationRef-acmeforge")) ("http://www.w3.org/1999/02/22-rdf-syntax-ns#type") (MkNode NIri ("http://spdx.org/rdf/terms#ReferenceType")));
    (MkTriple (MkNode (NOther "BLANK") ("N12")) ("http://spdx.org/rdf/terms#referenceCategory") (MkNode (NOther "RESOURCELITERAL") ("http://spdx.org/rdf/terms#referenceCategory_other")));
    (MkTriple (MkNode NIri ("http://spdx.org/spdxdocs/spdx-example-444504E0-4F89-41D3-9A0C-0305E82C3301#SPDXRef-Package")) ("http://spdx.org/rdf/terms#packageVerificationCode") (MkNode (NOther "BLANK") ("N13")));
    (MkTriple (MkNode (NOther "BLANK") ("N13")) ("http://www.w3.org/1999/02/22-rdf-syntax-ns#type") (MkNode NIri ("http://spdx.org/rdf/terms#PackageVerificationCode")));
    (MkTriple (MkNode (NOther "BLANK") ("N13")) ("http://spdx.org/rdf/terms#packageVerificationCodeValue") (MkNode (NOther "LITERAL") ("d6a770ba38583ed4bb4525bd96e50461655d2758")));
    (MkTriple (MkNode (NOther "BLANK") ("N13")) ("http://spdx.org/rdf/terms#packageVerificationCodeExcludedFile") (MkNode (NOther "LITERAL") ("excludes: ./package.spdx")));
    (MkTriple (MkNode NIri ("http://spdx.org/spdxdocs/spdx-example-444504E0-4F89-41D3-9A0C-0305E82C3301#SPDXRef-Package")) ("http://spdx.org/rdf/terms#licenseDeclared") (MkNode (NOther "BLANK") ("N14")));
    (MkTriple (MkNode (NOther "BLANK") ("N14")) ("http://www.w3.org/1999/02/22-rdf-syntax-ns#type") (MkNode NIri ("http://spdx.org/rdf/terms#ConjunctiveLicenseSet")));
    (MkTriple (MkNode (NOther "BLANK") ("N14")) ("http://spdx.org/rdf/terms#member") (MkNode (NOther "RESOURCELITERAL") ("http://spdx.org/licenses/LGPL-2.0-only")));
    (MkTriple (MkNode (NOther "BLANK") ("N14")) ("http://spdx.org/rdf/terms#member") (MkNode (NOther "RESOURCELITERAL") ("http://spdx.org/spdxdocs/spdx-example-444504E0-4F89-41D3-9A0C-0305E82C3301#LicenseRef-3")));
    (MkTriple (MkNode NIri ("http://spdx.org/spdxdocs/spdx-example-444504E0-4F89-41D3-9A0C-0305E82C3301#SPDXRef-Package")) ("http://spdx.org/rdf/terms#licenseInfoFromFiles") (MkNode (NOther "RESOURCELITERAL") ("http://spdx.org/spdxdocs/spdx-example-444504E0-4F89-41D3-9A0C-0305E82C3301#LicenseRef-1")));
    (MkTriple (MkNode NIri ("http://spdx.org/spdxdocs/spdx-example-444504E0-4F89-41D3-9A0C-0305E82C3301#SPDXRef-Package")) ("http://usefulinc.com/ns/doap#homepage") (MkNode (NOther "LITERAL") ("http://ftp.gnu.org/gnu/glibc")));
    (MkTriple (MkNode NIri ("http://spdx.org/spdxdocs/spdx-example-444504E0-4F89-41D3-9A0C-0305E82C3301#SPDXRef-Package")) ("http://spdx.org/rdf/terms#name") (MkNode (NOther "LITERAL") ("glibc")));
    (MkTriple (MkNode NIri ("http://spdx.org/spdxdocs/spdx-example-444504E0-4F89-41D3-9A0C-0305E82C3301#SPDXRef-Package")) ("http://spdx.org/rdf/terms#supplier") (MkNode (NOther "LITERAL") ("Person: Jane Doe (jane.doe@example.com)")));
    (MkTriple (MkNode NIri ("http://spdx.org/spdxdocs/spdx-example-444504E0-4F89-41D3-9A0C-0305E82C3301#SPDXRef-Package")) ("http://spdx.org/rdf/terms#originator") (MkNode (NOther "LITERAL") ("Organization: ExampleCodeInspect (contact@example.com)")));
    (MkTriple (MkNode NIri ("http://spdx.org/spdxdocs/spdx-example-444504E0-4F89-41D3-9A0C-0305E82C3301#SPDXRef-Package")) ("http://spdx.org/rdf/terms#hasFile") (MkNode (NOther "RESOURCELITERAL") ("http://spdx.org/spdxdocs/spdx-example-444504E0-4F89-41D3-9A0C-0305E82C3301#SPDXRef-DoapSource")));
    (MkTriple (MkNode NIri ("http://spdx.org/spdxdocs/spdx-example-444504E0-4F89-41D3-9A0C-0305E82C3301#SPDXRef-Package")) ("http://spdx.org/rdf/terms#licenseInfoFromFiles") (MkNode NIri ("http://spdx.org/spdxdocs/spdx-example-444504E0-4F89-41D3-9A0C-0305E82C3301#LicenseRef-2")));
    (MkTriple (MkNode NIri ("http://spdx.org/spdxdocs/spdx-example-444504E0-4F89-41D3-9A0C-0305E82C3301#LicenseRef-2")) ("http://www.w3.org/1999/02/22-rdf-syntax-ns#type") (MkNode NIri ("http://spdx.org/rdf/terms#ExtractedLicensingInfo")));
    (MkTriple (MkNode NIri ("http://spdx.org/spdxdocs/spdx-example-444504E0-4F89-41D3-9A0C-0305E82C3301#LicenseRef-2")) ("http://spdx.org/rdf/terms#extractedText") (MkNode (NOther "LITERAL") ("This package includes the GRDDL parser developed by Hewlett Packard under the following license:
� Copyright 2007 Hewlett-Packard Development Company, LP

Redistribution and use in source and binary forms, with or without modification, are permitted provided that the following conditions are met:

Redistributions of source code must retain the above copyright notice, this list of conditions and the following disclaimer.
Redistributions in binary form must reproduce the above copyright notice, this list of conditions and the following disclaimer in the documentation and/or other materials provided with the distribution.
The name of the author may not be used to endorse or promote products derived from this software without specific prior written permission.
THIS SOFTWARE IS PROVIDED BY THE AUTHOR ``AS IS'' AND ANY EXPRESS OR IMPLIED WARRANTIES, INCLUDING, BUT NOT LIMITED TO, THE IMPLIED WARRANTIES OF MERCHANTABILITY AND FITNESS FOR A PARTICULAR PURPOSE ARE DISCLAIMED. IN NO EVENT SHALL THE AUTHOR BE LIABLE FOR ANY DIRECT, INDIRECT, INCIDENTAL, SPECIAL, EXEMPLARY, OR CONSEQUENTIAL DAMAGES (INCLUDING, BUT NOT LIMITED TO, PROCUREMENT OF SUBSTITUTE GOODS OR SERVICES; LOSS OF USE, DATA, OR PROFITS; OR BUSINESS INTERRUPTION) HOWEVER CAUSED AND ON ANY THEORY OF LIABILITY, WHETHER IN CONTRACT, STRICT LIABILITY, OR TORT (INCLUDING NEGLIGENCE OR OTHERWISE) ARISING IN ANY WAY OUT OF THE USE OF THIS SOFTWARE, EVEN IF ADVISED OF THE POSSIBILITY OF SUCH DAMAGE.")));
    (MkTriple (MkNode NIri ("http://spdx.org/spdxdocs/spdx-example-444504E0-4F89-41D3-9A0C-0305E82C3301#LicenseRef-2")) ("http://spdx.org/rdf/terms#licenseId") (MkNode (NOther "LITERAL") ("LicenseRef-2")));
    (MkTriple (MkNode NIri ("http://spdx.org/spdxdocs/spdx-example-444504E0-4F89-41D3-9A0C-0305E82C3301#SPDXRef-Package")) ("http://spdx.org/rdf/terms#hasFile") (MkNode (NOther "RESOURCELITERAL") ("http://spdx.org/spdxdocs/spdx-example-444504E0-4F89-41D3-9A0C-0305E82C3301#SPDXRef-JenaLib")));
    (MkTriple (MkNode NIri ("http://spdx.org/spdxdocs/spdx-example-444504E0-4F89-41D3-9A0C-0305E82C3301#SPDXRef-Package")) ("http://spdx.org/rdf/terms#annotation") (MkNode (NOther "BLANK") ("N15")));
    (MkTriple (MkNode (NOther "BLANK") ("N15")) ("http://www.w3.org/1999/02/22-rdf-syntax-ns#type") (MkNode NIri ("http://spdx.org/rdf/terms#Annotation")));
    (MkTriple (MkNode (NOther "BLANK") ("N15")) ("http://spdx.org/rdf/terms#annotationDate") (MkNode (NOther "LITERAL") ("2011-01-29T18:30:22Z")));
    (MkTriple (MkNode (NOther "BLANK") ("N15")) ("http://www.w3.org/2000/01/rdf-schema#comment") (MkNode (NOther "LITERAL") ("Package level annotation")));
    (MkTriple (MkNode (NOther "BLANK") ("N15")) ("http://spdx.org/rdf/terms#annotator") (MkNode (NOther "LITERAL") ("Person: Package Commenter")));
    (MkTriple (MkNode (NOther "BLANK") ("N15")) ("http://spdx.org/rdf/terms#annotationType") (MkNode (NOther "RESOURCELITERAL") ("http://spdx.org/rdf/terms#annotationType_other")));
    (MkTriple (MkNode NIri ("http://spdx.org/spdxdocs/spdx-example-444504E0-4F89-41D3-9A0C-0305E82C3301#SPDXRef-Package")) ("http://spdx.org/rdf/terms#hasFile") (MkNode (NOther "RESOURCELITERAL") ("http://spdx.org/spdxdocs/spdx-example-444504E0-4F89-41D3-9A0C-0305E82C3301#SPDXRef-CommonsLangSrc")));
    (MkTriple (MkNode NIri ("http://spdx.org/spdxdocs/spdx-example-444504E0-4F89-41D3-9A0C-0305E82C3301#SPDXRef-Package")) ("http://spdx.org/rdf/terms#externalRef") (MkNode (NOther "BLANK") ("N16")));
    (MkTriple (MkNode (NOther "BLANK") ("N16")) ("http://www.w3.org/1999/02/22-rdf-syntax-ns#type") (MkNode NIri ("http://spdx.org/rdf/terms#ExternalRef")));
    (MkTriple (MkNode (NOther "BLANK") ("N16")) ("http://spdx.org/rdf/terms#referenceLocator") (MkNode (NOther "LITERAL") ("cpe:2.3:a:pivotal_software:spring_framework:4.1.0:*:*:*:*:*:*:*")));
    (MkTriple (MkNode (NOther "BLANK") ("N16")) ("http://spdx.org/rdf/terms#referenceType") (MkNode NIri ("http://spdx.org/rdf/references/cpe23Type")));
    (MkTriple (MkNode NIri ("http://spdx.org/rdf/references/cpe23Type")) ("http://www.w3.org/1999/02/22-rdf-syntax-ns#type") (MkNode NIri ("http://spdx.org/rdf/terms#ReferenceType")));
    (MkTriple (MkNode (NOther "BLANK") ("N16")) ("http://spdx.org/rdf/terms#referenceCategory") (MkNode (NOther "RESOURCELITERAL") ("http://spdx.org/rdf/terms#referenceCategory_security")));
    (MkTriple (MkNode NIri ("http://spdx.org/spdxdocs/spdx-example-444504E0-4F89-41D3-9A0C-0305E82C3301#SPDXRef-Package")) ("http://spdx.org/rdf/terms#checksum") (MkNode (NOther "NODEIDLITERAL") ("A1")));
    (MkTriple (MkNode (NOther "NODEIDLITERAL") ("A1")) ("http://www.w3.org/1999/02/22-rdf-syntax-ns#type") (MkNode NIri ("http://spdx.org/rdf/terms#Checksum")));
    (MkTriple (MkNode (NOther "NODEIDLITERAL") ("A1")) ("http://spdx.org/rdf/terms#checksumValue") (MkNode (NOther "LITERAL") ("85ed0817af83a24ad8da68c2b5094de69833983c")));
    (MkTriple (MkNode (NOther "NODEIDLITERAL") ("A1")) ("http://spdx.org/rdf/terms#algorithm") (MkNode (NOther "RESOURCELITERAL") ("http://spdx.org/rdf/terms#checksumAlgorithm_sha1")));
    (MkTriple (MkNode NIri ("http://spdx.org/spdxdocs/spdx-example-444504E0-4F89-41D3-9A0C-0305E82C3301#SPDXRef-Package")) ("http://spdx.org/rdf/terms#sourceInfo") (MkNode (NOther "LITERAL") ("uses glibc-2_11-branch from git://sourceware.org/git/glibc.git.")));
    (MkTriple (MkNode NIri ("http://spdx.org/spdxdocs/spdx-example-444504E0-4F89-41D3-9A0C-0305E82C3301#SPDXRef-Package")) ("http://spdx.org/rdf/terms#packageFileName") (MkNode (NOther "LITERAL") ("glibc-2.11.1.tar.gz")));
    (MkTriple (MkNode NIri ("http://spdx.org/spdxdocs/spdx-example-444504E0-4F89-41D3-9A0C-0305E82C3301#SPDXRef-Package")) ("http://spdx.org/rdf/terms#summary") (MkNode (NOther "LITERAL") ("GNU C library.")));
    (MkTriple (MkNode NIri ("http://spdx.org/spdxdocs/spdx-example-444504E0-4F89-41D3-9A0C-0305E82C3301#SPDXRef-Package")) ("http://spdx.org/rdf/terms#filesAnalyzed") (MkNode (NOther "LITERAL") ("true")));
    (MkTriple (MkNode NIri ("http://spdx.org/spdxdocs/spdx-example-444504E0-4F89-41D3-9A0C-0305E82C3301#SPDXRef-Package")) ("http://spdx.org/rdf/terms#relationship") (MkNode (NOther "BLANK") ("N17")));
    (MkTriple (MkNode (NOther "BLANK") ("N17")) ("http://www.w3.org/1999/02/22-rdf-syntax-ns#type") (MkNode NIri ("http://spdx.org/rdf/terms#Relationship")));
    (MkTriple (MkNode (NOther "BLANK") ("N17")) ("http://spdx.org/rdf/terms#relationshipType") (MkNode (NOther "RESOURCELITERAL") ("http://spdx.org/rdf/terms#relationshipType_dynamicLink")));
    (MkTriple (MkNode (NOther "BLANK") ("N17")) ("http://spdx.org/rdf/terms#relatedSpdxElement") (MkNode NIri ("http://spdx.org/spdxdocs/spdx-example-444504E0-4F89-41D3-9A0C-0305E82C3301#SPDXRef-Saxon")));
    (MkTriple (MkNode NIri ("http://spdx.org/spdxdocs/spdx-example-444504E0-4F89-41D3-9A0C-0305E82C3301#SPDXRef-Saxon")) ("http://www.w3.org/1999/02/22-rdf-syntax-ns#type") (MkNode NIri ("http://spdx.org/rdf/terms#Package")));
    (MkTriple (MkNode NIri ("http://spdx.org/spdxdocs/spdx-example-444504E0-4F89-41D3-9A0C-0305E82C3301#SPDXRef-Saxon")) ("http://spdx.org/rdf/terms#name") (MkNode (NOther "LITERAL") ("Saxon")));
    (MkTriple (MkNode NIri ("http://spdx.org/spdxdocs/spdx-example-444504E0-4F89-41D3-9A0C-0305E82C3301#SPDXRef-Saxon")) ("http://spdx.org/rdf/terms#description") (MkNode (NOther "LITERAL") ("The Saxon package is a collection of tools for processing XML documents.")));
    (MkTriple (MkNode NIri ("http://spdx.org/spdxdocs/spdx-example-444504E0-4F89-41D3-9A0C-0305E82C3301#SPDXRef-Saxon")) ("http://usefulinc.com/ns/doap#homepage") (MkNode (NOther "LITERAL") ("http://saxon.sourceforge.net/")));
    (MkTriple (MkNode NIri ("http://spdx.org/spdxdocs/spdx-example-444504E0-4F89-41D3-9A0C-0305E82C3301#SPDXRef-Saxon")) ("http://spdx.org/rdf/terms#checksum") (MkNode (NOther "NODEIDLITERAL") ("A1")));
    (MkTriple (MkNode NIri ("http://spdx.org/spdxdocs/spdx-example-444504E0-4F89-41D3-9A0C-0305E82C3301#SPDXRef-Saxon")) ("http://spdx.org/rdf/terms#versionInfo") (MkNode (NOther "LITERAL") ("8.8")));
    (MkTriple (MkNode NIri ("http://spdx.org/spdxdocs/spdx-example-444504E0-4F89-41D3-9A0C-0305E82C3301#SPDXRef-Saxon")) ("http://spdx.org/rdf/terms#licenseComments") (MkNode (NOther "LITERAL") ("Other versions available for a commercial license")));
    (MkTriple (MkNode NIri ("http://spdx.org/spdxdocs/spdx-example-444504E0-4F89-41D3-9A0C-0305E82C3301#SPDXRef-Saxon")) ("http://spdx.org/rdf/terms#downloadLocation") (MkNode (NOther "LITERAL") ("https://sourceforge.net/projects/saxon/files/Saxon-B/8.8.0.7/saxonb8-8-0-7j.zip/download")));
    (MkTriple (MkNode NIri ("http://spdx.org/spdxdocs/spdx-example-444504E0-4F89-41D3-9A0C-0305E82C3301#SPDXRef-Saxon")) ("http://spdx.org/rdf/terms#packageFileName") (MkNode (NOther "LITERAL") ("saxonB-8.8.zip")));
    (MkTriple (MkNode NIri ("http://spdx.org/spdxdocs/spdx-example-444504E0-4F89-41D3-9A0C-0305E82C3301#SPDXRef-Saxon")) ("http://spdx.org/rdf/terms#filesAnalyzed") (MkNode (NOther "LITERAL") ("false")));
    (MkTriple (MkNode NIri ("http://spdx.org/spdxdocs/spdx-example-444504E0-4F89-41D3-9A0C-0305E82C3301#SPDXRef-Saxon")) ("http://spdx.org/rdf/terms#licenseConcluded") (MkNode NIri ("http://spdx.org/licenses/MPL-1.0")));
    (MkTriple (MkNode NIri ("http://spdx.org/licenses/MPL-1.0")) ("http://www.w3.org/1999/02/22-rdf-syntax-ns#type") (MkNode NIri ("http://spdx.org/rdf/terms#License")));
    (MkTriple (MkNode NIri ("http://spdx.org/licenses/MPL-1.0")) ("http://www.w3.org/2000/01/rdf-schema#seeAlso") (MkNode (NOther "LITERAL") ("https://opensource.org/licenses/MPL-1.0")));
    (MkTriple (MkNode NIri ("http://spdx.org/licenses/MPL-1.0")) ("http://www.w3.org/2000/01/rdf-schema#seeAlso") (MkNode (NOther "LITERAL") ("http://www.mozilla.org/MPL/MPL-1.0.html")));
    (MkTriple (MkNode NIri ("http://spdx.org/licenses/MPL-1.0")) ("http://www.w3.org/2000/01/rdf-schema#comment") (MkNode (NOther "LITERAL") ("This license has been superseded by v1.1")));
    (MkTriple (MkNode NIri ("http://spdx.org/licenses/MPL-1.0")) ("http://spdx.org/rdf/terms#licenseText") (MkNode (NOther "LITERAL") ("MOZILLA PUBLIC LICENSE Version 1.0 1. Definitions. 1.1. ""Contributor"" means each entity that creates or contributes to the creation of Modifications. 1.2. ""Contributor Version"" means the combination of the Original Code, prior Modifications used by a Contributor, and the Modifications made by that particular Contributor. 1.3. ""Covered Code"" means the Original Code or Modifications or the combination of the Original Code and Modifications, in each case including portions thereof. 1.4. ""Electronic Distribution Mechanism"" means a mechanism generally accepted in the software development community for the electronic transfer of data. 1.5. ""Executable"" means Covered Code in any form other than Source Code. 1.6. ""Initial Developer"" means the individual or entity identified as the Initial Developer in the Source Code notice required by Exhibit A. 1.7. ""Larger Work"" means a work which combines Covered Code or portions thereof with code not governed by the terms of this License. 1.8. ""License"" means this document. 1.9. ""Modifications"" means any addition to or deletion from the substance or structure of either the Original Code or any previous Modifications. When Covered Code is released as a series of files, a Modification is: A. Any addition to or deletion from the contents of a file containing Original Code or previous Modifications. B. Any new file that contains any part of the Original Code or previous Modifications. 1.10. ""Original Code"" means Source Code of computer software code which is described in the Source Code notice required by Exhibit A as Original Code, and which, at the time of its release under this License is not already Covered Code governed by this License. 1.11. ""Source Code"" means the preferred form of the Covered Code for making modifications to it, including all modules it contains, plus any associated interface definition files, scripts used to control compilation and installation of an Executable, or a list of source code differential comparisons against either the Original Code or another well known, available Covered Code of the Contributor's choice. The Source Code can be in a compressed or archival form, provided the appropriate decompression or de-archiving software is widely available for no charge. 1.12. ""You"" means an individual or a legal entity exercising rights under, and complying with all of the terms of, this License or a future version of this License issued under Section 6.1. For legal entities, ""You"" includes any entity which controls, is controlled by, or is under common control with You. For purposes of this definition, ""control"" means (a) the power, direct or indirect, to cause the direction or management of such entity, whether by contract or otherwise, or (b) ownership of fifty percent (50%) or more of the outstanding shares or beneficial ownership of such entity. 2. Source Code License. 2.1. The Initial Developer Grant. The Initial Developer hereby grants You a world-wide, royalty-free, non-exclusive license, subject to third party intellectual property claims: (a) to use, reproduce, modify, display, perform, sublicense and distribute the Original Code (or portions thereof) with or without Modifications, or as part of a Larger Work; and (b) under patents now or hereafter owned or controlled by Initial Developer, to make, have made, use and sell (""Utilize"") the Original Code (or portions thereof), but solely to the extent that any such patent is reasonably necessary to enable You to Utilize the Original Code (or portions thereof) and not to any greater extent that may be necessary to Utilize further Modifications or combinations. 2.2. Contributor Grant. Each Contributor hereby grants You a world-wide, royalty-free, non-exclusive license, subject to third party intellectual property claims: (a) to use, reproduce, modify, display, perform, sublicense and distribute the Modifications created by such Contributor (or portions thereof) either on an unmodified basis, with other Modifications, as Covered Code or as part of a Larger Work; and (b) under patents now or hereafter owned or controlled by Contributor, to Utilize the Contributor Version (or portions thereof), but solely to the extent that any such patent is reasonably necessary to enable You to Utilize the Contributor Version (or portions thereof), and not to any greater extent that may be necessary to Utilize further Modifications or combinations. 3. Distribution Obligations. 3.1. Application of License. The Modifications which You create or to which You contribute are governed by the terms of this License, including without limitation Section 2.2. The Source Code version of Covered Code may be distributed only under the terms of this License or a future version of this License released under Section 6.1, and You must include a copy of this License with every copy of the Source Code You distribute. You may not offer or impose any terms on any Source Code version that alters or restricts the applicable version of this License or the recipients' rights hereunder. However, You may include an additional document offering the additional rights described in Section 3.5. 3.2. Availability of Source Code. Any Modification which You create or to which You contribute must be made available in Source Code form under the terms of this License either on the same media as an Executable version or via an accepted Electronic Distribution Mechanism to anyone to whom you made an Executable version available; and if made available via Electronic Distribution Mechanism, must remain available for at least twelve (12) months after the date it initially became available, or at least six (6) months after a subsequent version of that particular Modification has been made available to such recipients. You are responsible for ensuring that the Source Code version remains available even if the Electronic Distribution Mechanism is maintained by a third party. 3.3. Description of Modifications. You must cause all Covered Code to which you contribute to contain a file documenting the changes You made to create that Covered Code and the date of any change. You must include a prominent statement that the Modification is derived, directly or indirectly, from Original Code provided by the Initial Developer and including the name of the Initial Developer in (a) the Source Code, and (b) in any notice in an Executable version or related documentation in which You describe the origin or ownership of the Covered Code. 3.4. Intellectual Property Matters (a) Third Party Claims. If You have knowledge that a party claims an intellectual property right in particular functionality or code (or its utilization under this License), you must include a text file with the source code distribution titled ""LEGAL"" which describes the claim and the party making the claim in sufficient detail that a recipient will know whom to contact. If you obtain such knowledge after You make Your Modification available as described in Section 3.2, You shall promptly modify the LEGAL file in all copies You make available thereafter and shall take other steps (such as notifying appropriate mailing lists or newsgroups) reasonably calculated to inform those who received the Covered Code that new knowledge has been obtained. (b) Contributor APIs. If Your Modification is an application programming interface and You own or control patents which are reasonably necessary to implement that API, you must also include this information in the LEGAL file. 3.5. Required Notices. You must duplicate the notice in Exhibit A in each file of the Source Code, and this License in any documentation for the Source Code, where You describe recipients' rights relating to Covered Code. If You created one or more Modification(s), You may add your name as a Contributor to the notice described in Exhibit A. If it is not possible to put such notice in a particular Source Code file due to its structure, then you must include such notice in a location (such as a relevant directory file) where a user would be likely to look for such a notice. You may choose to offer, and to charge a fee for, warranty, support, indemnity or liability obligations to one or more recipients of Covered Code. However, You may do so only on Your own behalf, and not on behalf of the Initial Developer or any Contributor. You must make it absolutely clear than any such warranty, support, indemnity or liability obligation is offered by You alone, and You hereby agree to indemnify the Initial Developer and every Contributor for any liability incurred by the Initial Developer or such Contributor as a result of warranty, support, indemnity or liability terms You offer. 3.6. Distribution of Executable Versions. You may distribute Covered Code in Executable form only if the requirements of Section 3.1-3.5 have been met for that Covered Code, and if You include a notice stating that the Source Code version of the Covered Code is available under the terms of this License, including a description of how and where You have fulfilled the obligations of Section 3.2. The notice must be conspicuously included in any notice in an Executable version, related documentation or collateral in which You describe recipients' rights relating to the Covered Code. You may distribute the Executable version of Covered Code under a license of Your choice, which may contain terms different from this License, provided that You are in compliance with the terms of this License and that the license for the Executable version does not attempt to limit or alter the recipient's rights in the Source Code version from the rights set forth in this License. If You distribute the Executable version under a different license You must make it absolutely clear that any terms which differ from this License are offered by You alone, not by the Initial Developer or any Contributor. You hereby agree to indemnify the Initial Developer and every Contributor for any liability incurred by the Initial Developer or such Contributor as a result of any such terms You offer. 3.7. Larger Works. You may create a Larger Work by combining Covered Code with other code not governed by the terms of this License and distribute the Larger Work as a single product. In such a case, You must make sure the requirements of this License are fulfilled for the Covered Code. 4. Inability to Comply Due to Statute or Regulation. If it is impossible for You to comply with any of the terms of this License with respect to some or all of the Covered Code due to statute or regulation then You must: (a) comply with the terms of this License to the maximum extent possible; and (b) describe the limitations and the code they affect. Such description must be included in the LEGAL file described in Section 3.4 and must be included with all distributions of the Source Code. Except to the extent prohibited by statute or regulation, such description must be sufficiently detailed for a recipient of ordinary skill to be able to understand it. 5. Application of this License. This License applies to code to which the Initial Developer has attached the notice in Exhibit A, and to related Covered Code. 6. Versions of the License. 6.1. New Versions. Netscape Communications Corporation (""Netscape"") may publish revised and/or new versions of the License from time to time. Each version will be given a distinguishing version number. 6.2. Effect of New Versions. Once Covered Code has been published under a particular version of the License, You may always continue to use it under the terms of that version. You may also choose to use such Covered Code under the terms of any subsequent version of the License published by Netscape. No one other than Netscape has the right to modify the terms applicable to Covered Code created under this License. 6.3. Derivative Works. If you create or use a modified version of this License (which you may only do in order to apply it to code which is not already Covered Code governed by this License), you must (a) rename Your license so that the phrases ""Mozilla"", ""MOZILLAPL"", ""MOZPL"", ""Netscape"", ""NPL"" or any confusingly similar phrase do not appear anywhere in your license and (b) otherwise make it clear that your version of the license contains terms which differ from the Mozilla Public License and Netscape Public License. (Filling in the name of the Initial Developer, Original Code or Contributor in the notice described in Exhibit A shall not of themselves be deemed to be modifications of this License.) 7. DISCLAIMER OF WARRANTY. COVERED CODE IS PROVIDED UNDER THIS LICENSE ON AN ""AS IS"" BASIS, WITHOUT WARRANTY OF ANY KIND, EITHER EXPRESSED OR IMPLIED, INCLUDING, WITHOUT LIMITATION, WARRANTIES THAT THE COVERED CODE IS FREE OF DEFECTS, MERCHANTABLE, FIT FOR A PARTICULAR PURPOSE OR NON-INFRINGING. THE ENTIRE RISK AS TO THE QUALITY AND PERFORMANCE OF THE COVERED CODE IS WITH YOU. SHOULD ANY COVERED CODE PROVE DEFECTIVE IN ANY RESPECT, YOU (NOT THE INITIAL DEVELOPER OR ANY OTHER CONTRIBUTOR) ASSUME THE COST OF ANY NECESSARY SERVICING, REPAIR OR CORRECTION. THIS DISCLAIMER OF WARRANTY CONSTITUTES AN ESSENTIAL PART OF THIS LICENSE. NO USE OF ANY COVERED CODE IS AUTHORIZED HEREUNDER EXCEPT UNDER THIS DISCLAIMER. 8. TERMINATION. This License and the rights granted hereunder will terminate automatically if You fail to comply with terms herein and fail to cure such breach within 30 days of becoming aware of the breach. All sublicenses to the Covered Code which are properly granted shall survive any termination of this License. Provisions which, by their nature, must remain in effect beyond the termination of this License shall survive. 9. LIMITATION OF LIABILITY. UNDER NO CIRCUMSTANCES AND UNDER NO LEGAL THEORY, WHETHER TORT (INCLUDING NEGLIGENCE), CONTRACT, OR OTHERWISE, SHALL THE INITIAL DEVELOPER, ANY OTHER CONTRIBUTOR, OR ANY DISTRIBUTOR OF COVERED CODE, OR ANY SUPPLIER OF ANY OF SUCH PARTIES, BE LIABLE TO YOU OR ANY OTHER PERSON FOR ANY INDIRECT, SPECIAL, INCIDENTAL, OR CONSEQUENTIAL DAMAGES OF ANY CHARACTER INCLUDING, WITHOUT LIMITATION, DAMAGES FOR LOSS OF GOODWILL, WORK STOPPAGE, COMPUTER FAILURE OR MALFUNCTION, OR ANY AND ALL OTHER COMMERCIAL DAMAGES OR LOSSES, EVEN IF SUCH PARTY SHALL HAVE BEEN INFORMED OF THE POSSIBILITY OF SUCH DAMAGES. THIS LIMITATION OF LIABILITY SHALL NOT APPLY TO LIABILITY FOR DEATH OR PERSONAL INJURY RESULTING FROM SUCH PARTY'S NEGLIGENCE TO THE EXTENT APPLICABLE LAW PROHIBITS SUCH LIMITATION. SOME JURISDICTIONS DO NOT ALLOW THE EXCLUSION OR LIMITATION OF INCIDENTAL OR CONSEQUENTIAL DAMAGES, SO THAT EXCLUSION AND LIMITATION MAY NOT APPLY TO YOU. 10. U.S. GOVERNMENT END USERS. The Covered Code is a ""commercial item,"" as that term is defined in 48 C.F.R. 2.101 (Oct. 1995), consisting of ""commercial computer software"" and ""commercial computer software documentation,"" as such terms are used in 48 C.F.R. 12.212 (Sept. 1995). Consistent with 48 C.F.R. 12.212 and 48 C.F.R. 227.7202-1 through 227.7202-4 (June 1995), all U.S. Government End Users acquire Covered Code with only those rights set forth herein. 11. MISCELLANEOUS. This License represents the complete agreement concerning subject matter hereof. If any provision of this License is held to be unenforceable, such provision shall be reformed only to the extent necessary to make it enforceable. This License shall be governed by California law provisions (except to the extent applicable law, if any, provides otherwise), excluding its conflict-of-law provisions. With respect to disputes in which at least one party is a citizen of, or an entity chartered or registered to do business in, the United States of America: (a) unless otherwise agreed in writing, all disputes relating to this License (excepting any dispute relating to intellectual property rights) shall be subject to final and binding arbitration, with the losing party paying all costs of arbitration; (b) any arbitration relating to this Agreement shall be held in Santa Clara County, California, under the auspices of JAMS/EndDispute; and (c) any litigation relating to this Agreement shall be subject to the jurisdiction of the Federal Courts of the Northern District of California, with venue lying in Santa Clara County, California, with the losing party responsible for costs, including without limitation, court costs and reasonable attorneys fees and expenses. The application of the United Nations Convention on Contracts for the International Sale of Goods is expressly excluded. Any law or regulation which provides that the language of a contract shall be construed against the drafter shall not apply to this License. 12. RESPONSIBILITY FOR CLAIMS. Except in cases where another Contributor has failed to comply with Section 3.4, You are responsible for damages arising, directly or indirectly, out of Your utilization of rights under this License, based on the number of copies of Covered Code you made available, the revenues you received from utilizing such rights, and other relevant factors. You agree to work with affected parties to distribute responsibility on an equitable basis. EXHIBIT A. ""The contents of this file are subject to the Mozilla Public License Version 1.0 (the ""License""); you may not use this file except in compliance with the License. You may obtain a copy of the License at http://www.mozilla.org/MPL/ Software distributed under the License is distributed on an ""AS IS"" basis, WITHOUT WARRANTY OF ANY KIND, either express or implied. See the License for the specific language governing rights and limitations under the License. The Original Code is _____ . The Initial Developer of the Original Code is _____ . Portions created by _____ are Copyright (C) _____ . All Rights Reserved. Contributor(s): _____ .""")));
    (MkTriple (MkNode NIri ("http://spdx.org/licenses/MPL-1.0")) ("http://spdx.org/rdf/terms#name") (MkNode (NOther "LITERAL") ("Mozilla Public License 1.0")));
    (MkTriple (MkNode NIri ("http://spdx.org/licenses/MPL-1.0")) ("http://spdx.org/rdf/terms#standardLicenseHeaderTemplate") (MkNode (NOther "LITERAL") ("<<beginOptional>>""<<endOptional>>The contents of this file are subject to the Mozilla Public License Version 1.0 (the ""License""); you may not use this file except in compliance with the License. You may obtain a copy of the License at http://www.mozilla.org/MPL/

Software distributed under the License is distributed on an ""AS IS"" basis, WITHOUT WARRANTY OF ANY KIND, either express or implied. See the License for the specific language governing rights and limitations under the License.

The Original Code is <<var;name=""code"";original=""_____"";match="".+"">> . The Initial Developer of the Original Code is <<var;name=""InitialDeveloper"";original=""_____"";match="".+"">> . Portions created by <<var;name=""createdby"";original=""_____"";match="".+"">> are Copyright (C) <<var;name=""copyright"";original=""_____"";match="".+"">> . All Rights Reserved. Contributor(s): <<var;name=""contributor"";original=""_____"";match="".+"">> .<<beginOptional>>""<<endOptional>>")));
    (MkTriple (MkNode NIri ("http://spdx.org/licenses/MPL-1.0")) ("http://spdx.org/rdf/terms#standardLicenseTemplate") (MkNode (NOther "LITERAL") ("<<beginOptional>> MOZILLA PUBLIC LICENSE

Version 1.0<<endOptional>>

   <<var;name=""bullet"";original=""1."";match="".{0,20}"">> Definitions.

      <<var;name=""bullet"";original=""1.1."";match="".{0,20}"">> ""Contributor"" means each entity that creates or contributes to the creation of Modifications.

      <<var;name=""bullet"";original=""1.2."";match="".{0,20}"">> ""Contributor Version"" means the combination of the Original Code, prior Modifications used by a Contributor, and the Modifications made by that particular Contributor.

      <<var;name=""bullet"";original=""1.3."";match="".{0,20}"">> ""Covered Code"" means the Original Code or Modifications or the combination of the Original Code and Modifications, in each case including portions thereof.

      <<var;name=""bullet"";original=""1.4."";match="".{0,20}"">> ""Electronic Distribution Mechanism"" means a mechanism generally accepted in the software development community for the electronic transfer of data.

      <<var;name=""bullet"";original=""1.5."";match="".{0,20}"">> ""Executable"" means Covered Code in any form other than Source Code.

      <<var;name=""bullet"";original=""1.6."";match="".{0,20}"">> ""Initial Developer"" means the individual or entity identified as the Initial Developer in the Source Code notice required by Exhibit A.

      <<var;name=""bullet"";original=""1.7."";match="".{0,20}"">> ""Larger Work"" means a work which combines Covered Code or portions thereof with code not governed by the terms of this License.

      <<var;name=""bullet"";original=""1.8."";match="".{0,20}"">> ""License"" means this document.

      <<var;name=""bullet"";original=""1.9."";match="".{0,20}"">> ""Modifications"" means any addition to or deletion from the substance or structure of either the Original Code or any previous Modifications. When Covered Code is released as a series of files, a Modification is:

         <<var;name=""bullet"";original=""A."";match="".{0,20}"">> Any addition to or deletion from the contents of a file containing Original Code or previous Modifications.

         <<var;name=""bullet"";original=""B."";match="".{0,20}"">> Any new file that contains any part of the Original Code or previous Modifications.

      <<var;name=""bullet"";original=""1.10."";match="".{0,20}"">> ""Original Code"" means Source Code of computer software code which is described in the Source Code notice required by Exhibit A as Original Code, and which, at the time of its release under this License is not already Covered Code governed by this License.

      <<var;name=""bullet"";original=""1.11."";match="".{0,20}"">> ""Source Code"" means the preferred form of the Covered Code for making modifications to it, including all modules it contains, plus any associated interface definition files, scripts used to control compilation and installation of an Executable, or a list of source code differential comparisons against either the Original Code or another well known, available Covered Code of the Contributor's choice. The Source Code can be in a compressed or archival form, provided the appropriate decompression or de-archiving software is widely available for no charge.

      <<var;name=""bullet"";original=""1.12."";match="".{0,20}"">> ""You"" means an individual or a legal entity exercising rights under, and complying with all of the terms of, this License or a future version of this License issued under Section 6.1. For legal entities, ""You"" includes any entity which controls, is controlled by, or is under common control with You. For purposes of this definition, ""control"" means (a) the power, direct or indirect, to cause the direction or management of such entity, whether by contract or otherwise, or (b) ownership of fifty percent (50%) or more of the outstanding shares or beneficial ownership of such entity.

   <<var;name=""bullet"";original=""2."";match="".{0,20}"">> Source Code License.

      <<var;name=""bullet"";original=""2.1."";match="".{0,20}"">> The Initial Developer Grant.

      The Initial Developer hereby grants You a world-wide, royalty-free, non-exclusive license, subject to third party intellectual property claims:

         <<var;name=""bullet"";original=""(a)"";match="".{0,20}"">> to use, reproduce, modify, display, perform, sublicense and distribute the Original Code (or portions thereof) with or without Modifications, or as part of a Larger Work; and

         <<var;name=""bullet"";original=""(b)"";match="".{0,20}"">> under patents now or hereafter owned or controlled by Initial Developer, to make, have made, use and sell (""Utilize"") the Original Code (or portions thereof), but solely to the extent that any such patent is reasonably necessary to enable You to Utilize the Original Code (or portions thereof) and not to any greater extent that may be necessary to Utilize further Modifications or combinations.

      <<var;name=""bullet"";original=""2.2."";match="".{0,20}"">> Contributor Grant.

      Each Contributor hereby grants You a world-wide, royalty-free, non-exclusive license, subject to third party intellectual property claims:

         <<var;name=""bullet"";original=""(a)"";match="".{0,20}"">> to use, reproduce, modify, display, perform, sublicense and distribute the Modifications created by such Contributor (or portions thereof) either on an unmodified basis, with other Modifications, as Covered Code or as part of a Larger Work; and

         <<var;name=""bullet"";original=""(b)"";match="".{0,20}"">> under patents now or hereafter owned or controlled by Contributor, to Utilize the Contributor Version (or portions thereof), but solely to the extent that any such patent is reasonably necessary to enable You to Utilize the Contributor Version (or portions thereof), and not to any greater extent that may be necessary to Utilize further Modifications or combinations.

   <<var;name=""bullet"";original=""3."";match="".{0,20}"">> Distribution Obligations.

      <<var;name=""bullet"";original=""3.1."";match="".{0,20}"">> Application of License.

      The Modifications which You create or to which You contribute are governed by the terms of this License, including without limitation Section 2.2. The Source Code version of Covered Code may be distributed only under the terms of this License or a future version of this License released under Section 6.1, and You must include a copy of this License with every copy of the Source Code You distribute. You may not offer or impose any terms on any Source Code version that alters or restricts the applicable version of this License or the recipients' rights hereunder. However, You may include an additional document offering the additional rights described in Section 3.5.

      <<var;name=""bullet"";original=""3.2."";match="".{0,20}"">> Availability of Source Code.

      Any Modification which You create or to which You contribute must be made available in Source Code form under the terms of this License either on the same media as an Executable version or via an accepted Electronic Distribution Mechanism to anyone to whom you made an Executable version available; and if made available via Electronic Distribution Mechanism, must remain available for at least twelve (12) months after the date it initially became available, or at least six (6) months after a subsequent version of that particular Modification has been made available to such recipients. You are responsible for ensuring that the Source Code version remains available even if the Electronic Distribution Mechanism is maintained by a third party.

      <<var;name=""bullet"";original=""3.3."";match="".{0,20}"">> Description of Modifications.

      You must cause all Covered Code to which you contribute to contain a file documenting the changes You made to create that Covered Code and the date of any change. You must include a prominent statement that the Modification is derived, directly or indirectly, from Original Code provided by the Initial Developer and including the name of the Initial Developer in (a) the Source Code, and (b) in any notice in an Executable version or related documentation in which You describe the origin or ownership of the Covered Code.

      <<var;name=""bullet"";original=""3.4."";match="".{0,20}"">> Intellectual Property Matters

         <<var;name=""bullet"";original=""(a)"";match="".{0,20}"">> Third Party Claims.

         If You have knowledge that a party claims an intellectual property right in particular functionality or code (or its utilization under this License), you must include a text file with the source code distribution titled ""LEGAL"" which describes the claim and the party making the claim in sufficient detail that a recipient will know whom to contact. If you obtain such knowledge after You make Your Modification available as described in Section 3.2, You shall promptly modify the LEGAL file in all copies You make available thereafter and shall take other steps (such as notifying appropriate mailing lists or newsgroups) reasonably calculated to inform those who received the Covered Code that new knowledge has been obtained.

         <<var;name=""bullet"";original=""(b)"";match="".{0,20}"">> Contributor APIs.

         If Your Modification is an application programming interface and You own or control patents which are reasonably necessary to implement that API, you must also include this information in the LEGAL file.

      <<var;name=""bullet"";original=""3.5."";match="".{0,20}"">> Required Notices.

      You must duplicate the notice in Exhibit A in each file of the Source Code, and this License in any documentation for the Source Code, where You describe recipients' rights relating to Covered Code. If You created one or more Modification(s), You may add your name as a Contributor to the notice described in Exhibit A. If it is not possible to put such notice in a particular Source Code file due to its structure, then you must include such notice in a location (such as a relevant directory file) where a user would be likely to look for such a notice. You may choose to offer, and to charge a fee for, warranty, support, indemnity or liability obligations to one or more recipients of Covered Code. However, You may do so only on Your own behalf, and not on behalf of the Initial Developer or any Contributor. You must make it absolutely clear than any such warranty, support, indemnity or liability obligation is offered by You alone, and You hereby agree to indemnify the Initial Developer and every Contributor for any liability incurred by the Initial Developer or such Contributor as a result of warranty, support, indemnity or liability terms You offer.

      <<var;name=""bullet"";original=""3.6."";match="".{0,20}"">> Distribution of Executable Versions.

      You may distribute Covered Code in Executable form only if the requirements of Section 3.1-3.5 have been met for that Covered Code, and if You include a notice stating that the Source Code version of the Covered Code is available under the terms of this License, including a description of how and where You have fulfilled the obligations of Section 3.2. The notice must be conspicuously included in any notice in an Executable version, related documentation or collateral in which You describe recipients' rights relating to the Covered Code. You may distribute the Executable version of Covered Code under a license of Your choice, which may contain terms different from this License, provided that You are in compliance with the terms of this License and that the license for the Executable version does not attempt to limit or alter the recipient's rights in the Source Code version from the rights set forth in this License. If You distribute the Executable version under a different license You must make it absolutely clear that any terms which differ from this License are offered by You alone, not by the Initial Developer or any Contributor. You hereby agree to indemnify the Initial Developer and every Contributor for any liability incurred by the Initial Developer or such Contributor as a result of any such terms You offer.

      <<var;name=""bullet"";original=""3.7."";match="".{0,20}"">> Larger Works.

      You may create a Larger Work by combining Covered Code with other code not governed by the terms of this License and distribute the Larger Work as a single product. In such a case, You must make sure the requirements of this License are fulfilled for the Covered Code.

   <<var;name=""bullet"";original=""4."";match="".{0,20}"">> Inability to Comply Due to Statute or Regulation.

   If it is impossible for You to comply with any of the terms of this License with respect to some or all of the Covered Code due to statute or regulation then You must: (a) comply with the terms of this License to the maximum extent possible; and (b) describe the limitations and the code they affect. Such description must be included in the LEGAL file described in Section 3.4 and must be included with all distributions of the Source Code. Except to the extent prohibited by statute or regulation, such description must be sufficiently detailed for a recipient of ordinary skill to be able to understand it.

   <<var;name=""bullet"";original=""5."";match="".{0,20}"">> Application of this License.

   This License applies to code to which the Initial Developer has attached the notice in Exhibit A, and to related Covered Code.

   <<var;name=""bullet"";original=""6."";match="".{0,20}"">> Versions of the License.

      <<var;name=""bullet"";original=""6.1."";match="".{0,20}"">> New Versions.

      Netscape Communications Corporation (""Netscape"") may publish revised and/or new versions of the License from time to time. Each version will be given a distinguishing version number.

      <<var;name=""bullet"";original=""6.2."";match="".{0,20}"">> Effect of New Versions.

      Once Covered Code has been published under a particular version of the License, You may always continue to use it under the terms of that version. You may also choose to use such Covered Code under the terms of any subsequent version of the License published by Netscape. No one other than Netscape has the right to modify the terms applicable to Covered Code created under this License.

      <<var;name=""bullet"";original=""6.3."";match="".{0,20}"">> Derivative Works.

      If you create or use a modified version of this License (which you may only do in order to apply it to code which is not already Covered Code governed by this License), you must (a) rename Your license so that the phrases ""Mozilla"", ""MOZILLAPL"", ""MOZPL"", ""Netscape"", ""NPL"" or any confusingly similar phrase do not appear anywhere in your license and (b) otherwise make it clear that your version of the license contains terms which differ from the Mozilla Public License and Netscape Public License. (Filling in the name of the Initial Developer, Original Code or Contributor in the notice described in Exhibit A shall not of themselves be deemed to be modifications of this License.)

   <<var;name=""bullet"";original=""7."";match="".{0,20}"">> DISCLAIMER OF WARRANTY.

   COVERED CODE IS PROVIDED UNDER THIS LICENSE ON AN ""AS IS"" BASIS, WITHOUT WARRANTY OF ANY KIND, EITHER EXPRESSED OR IMPLIED, INCLUDING, WITHOUT LIMITATION, WARRANTIES THAT THE COVERED CODE IS FREE OF DEFECTS, MERCHANTABLE, FIT FOR A PARTICULAR PURPOSE OR NON-INFRINGING. THE ENTIRE RISK AS TO THE QUALITY AND PERFORMANCE OF THE COVERED CODE IS WITH YOU. SHOULD ANY COVERED CODE PROVE DEFECTIVE IN ANY RESPECT, YOU (NOT THE INITIAL DEVELOPER OR ANY OTHER CONTRIBUTOR) ASSUME THE COST OF ANY NECESSARY SERVICING, REPAIR OR CORRECTION. THIS DISCLAIMER OF WARRANTY CONSTITUTES AN ESSENTIAL PART OF THIS LICENSE. NO USE OF ANY COVERED CODE IS AUTHORIZED HEREUNDER EXCEPT UNDER THIS DISCLAIMER.

   <<var;name=""bullet"";original=""8."";match="".{0,20}"">> TERMINATION.

   This License and the rights granted hereunder will terminate automatically if You fail to comply with terms herein and fail to cure such breach within 30 days of becoming aware of the breach. All sublicenses to the Covered Code which are properly granted shall survive any termination of this License. Provisions which, by their nature, must remain in effect beyond the termination of this License shall survive.

   <<var;name=""bullet"";original=""9."";match="".{0,20}"">> LIMITATION OF LIABILITY.

   UNDER NO CIRCUMSTANCES AND UNDER NO LEGAL THEORY, WHETHER TORT (INCLUDING NEGLIGENCE), CONTRACT, OR OTHERWISE, SHALL THE INITIAL DEVELOPER, ANY OTHER CONTRIBUTOR, OR ANY DISTRIBUTOR OF COVERED CODE, OR ANY SUPPLIER OF ANY OF SUCH PARTIES, BE LIABLE TO YOU OR ANY OTHER PERSON FOR ANY INDIRECT, SPECIAL, INCIDENTAL, OR CONSEQUENTIAL DAMAGES OF ANY CHARACTER INCLUDING, WITHOUT LIMITATION, DAMAGES FOR LOSS OF GOODWILL, WORK STOPPAGE, COMPUTER FAILURE OR MALFUNCTION, OR ANY AND ALL OTHER COMMERCIAL DAMAGES OR LOSSES, EVEN IF SUCH PARTY SHALL HAVE BEEN INFORMED OF THE POSSIBILITY OF SUCH DAMAGES. THIS LIMITATION OF LIABILITY SHALL NOT APPLY TO LIABILITY FOR DEATH OR PERSONAL INJURY RESULTING FROM SUCH PARTY'S NEGLIGENCE TO THE EXTENT APPLICABLE LAW PROHIBITS SUCH LIMITATION. SOME JURISDICTIONS DO NOT ALLOW THE EXCLUSION OR LIMITATION OF INCIDENTAL OR CONSEQUENTIAL DAMAGES, SO THAT EXCLUSION AND LIMITATION MAY NOT APPLY TO YOU.

   <<var;name=""bullet"";original=""10."";match="".{0,20}"">> U.S. GOVERNMENT END USERS.

   The Covered Code is a ""commercial item,"" as that term is defined in 48 C.F.R. 2.101 (Oct. 1995), consisting of ""commercial computer software"" and ""commercial computer software documentation,"" as such terms are used in 48 C.F.R. 12.212 (Sept. 1995). Consistent with 48 C.F.R. 12.212 and 48 C.F.R. 227.7202-1 through 227.7202-4 (June 1995), all U.S. Government End Users acquire Covered Code with only those rights set forth herein.

   <<var;name=""bullet"";original=""11."";match="".{0,20}"">> MISCELLANEOUS.

   This License represents the complete agreement concerning subject matter hereof. If any provision of this License is held to be unenforceable, such provision shall be reformed only to the extent necessary to make it enforceable. This License shall be governed by California law provisions (except to the extent applicable law, if any, provides otherwise), excluding its conflict-of-law provisions. With respect to disputes in which at least one party is a citizen of, or an entity chartered or registered to do business in, the United States of America: (a) unless otherwise agreed in writing, all disputes relating to this License (excepting any dispute relating to intellectual property rights) shall be subject to final and binding arbitration, with the losing party paying all costs of arbitration; (b) any arbitration relating to this Agreement shall be held in Santa Clara County, California, under the auspices of JAMS/EndDispute; and (c) any litigation relating to this Agreement shall be subject to the jurisdiction of the Federal Courts of the Northern District of California, with venue lying in Santa Clara County, California, with the losing party responsible for costs, including without limitation, court costs and reasonable attorneys fees and expenses. The application of the United Nations Convention on Contracts for the International Sale of Goods is expressly excluded. Any law or regulation which provides that the language of a contract shall be construed against the drafter shall not apply to this License.

   <<var;name=""bullet"";original=""12."";match="".{0,20}"">> RESPONSIBILITY FOR CLAIMS.

   Except in cases where another Contributor has failed to comply with Section 3.4, You are responsible for damages arising, directly or indirectly, out of Your utilization of rights under this License, based on the number of copies of Covered Code you made available, the revenues you received from utilizing such rights, and other relevant factors. You agree to work with affected parties to distribute responsibility on an equitable basis.<<beginOptional>> EXHIBIT A.

<<beginOptional>>""<<endOptional>>The contents of this file are subject to the Mozilla Public License Version 1.0 (the ""License""); you may not use this file except in compliance with the License. You may obtain a copy of the License at http://www.mozilla.org/MPL/

Software distributed under the License is distributed on an ""AS IS"" basis, WITHOUT WARRANTY OF ANY KIND, either express or implied. See the License for the specific language governing rights and limitations under the License.

The Original Code is <<var;name=""code"";original=""_____"";match="".+"">> . The Initial Developer of the Original Code is <<var;name=""InitialDeveloper"";original=""_____"";match="".+"">> . Portions created by <<var;name=""createdby"";original=""_____"";match="".+"">> are Copyright (C) <<var;name=""copyright"";original=""_____"";match="".+"">> . All Rights Reserved. Contributor(s): <<var;name=""contributor"";original=""_____"";match="".+"">> .<<beginOptional>>""<<endOptional>><<endOptional>>")));
    (MkTriple (MkNode NIri ("http://spdx.org/licenses/MPL-1.0")) ("http://spdx.org/rdf/terms#licenseId") (MkNode (NOther "LITERAL") ("MPL-1.0")));
    (MkTriple (MkNode NIri ("http://spdx.org/licenses/MPL-1.0")) ("http://spdx.org/rdf/terms#standardLicenseHeader") (MkNode (NOther "LITERAL") ("""The contents of this file are subject to the Mozilla Public License Version 1.0 (the ""License""); you may not use this file except in compliance with the License. You may obtain a copy of the License at http://www.mozilla.org/MPL/

Software distributed under the License is distributed on an ""AS IS"" basis, WITHOUT WARRANTY OF ANY KIND, either express or implied. See the License for the specific language governing rights and limitations under the License.

The Original Code is _____ . The Initial Developer of the Original Code is _____ . Portions created by _____ are Copyright (C) _____ . All Rights Reserved. Contributor(s): _____ .""")));
    (MkTriple (MkNode NIri ("http://spdx.org/licenses/MPL-1.0")) ("http://spdx.org/rdf/terms#isOsiApproved") (MkNode (NOther "LITERAL") ("true")));
    (MkTriple (MkNode NIri ("http://spdx.org/spdxdocs/spdx-example-444504E0-4F89-41D3-9A0C-0305E82C3301#SPDXRef-Saxon")) ("http://spdx.org/rdf/terms#licenseDeclared") (MkNode (NOther "RESOURCELITERAL") ("http://spdx.org/licenses/MPL-1.0")));
    (MkTriple (MkNode NIri ("http://spdx.org/spdxdocs/spdx-example-444504E0-4F89-41D3-9A0C-0305E82C3301#SPDXRef-Package")) ("http://spdx.org/rdf/terms#copyrightText") (MkNode (NOther "LITERAL") ("Copyright 2008-2010 John Smith")));
    (MkTriple (MkNode NIri ("http://spdx.org/spdxdocs/spdx-example-444504E0-4F89-41D3-9A0C-0305E82C3301#SPDXRef-Package")) ("http://spdx.org/rdf/terms#description") (MkNode (NOther "LITERAL") ("The GNU C Library defines functions that are specified by the ISO C standard, as well as additional features specific to POSIX and other derivatives of the Unix operating system, and extensions specific to GNU systems.")));
    (MkTriple (MkNode NIri ("http://spdx.org/spdxdocs/spdx-example-444504E0-4F89-41D3-9A0C-0305E82C3301#SPDXRef-JenaLib")) ("http://spdx.org/rdf/terms#fileName") (MkNode (NOther "LITERAL") ("./lib-source/jena-2.6.3-sources.jar")));
    (MkTriple (MkNode NIri ("http://spdx.org/spdxdocs/spdx-example-444504E0-4F89-41D3-9A0C-0305E82C3301#SPDXRef-DoapSource")) ("http://spdx.org/rdf/terms#fileDependency") (MkNode (NOther "RESOURCELITERAL") ("http://spdx.org/spdxdocs/spdx-example-444504E0-4F89-41D3-9A0C-0305E82C3301#SPDXRef-CommonsLangSrc")));
    (MkTriple (MkNode (NOther "BLANK") ("N2")) ("http://www.w3.org/2009/pointers#offset") (MkNode (NOther "LITERAL") ("420")));
    (MkTriple (MkNode (NOther "BLANK") ("N1")) ("http://www.w3.org/2009/pointers#startPointer") (MkNode (NOther "BLANK") ("N18")));
    (MkTriple (MkNode (NOther "BLANK") ("N18")) ("http://www.w3.org/1999/02/22-rdf-syntax-ns#type") (MkNode NIri ("http://www.w3.org/2009/pointers#ByteOffsetPointer")));
    (MkTriple (MkNode (NOther "BLANK") ("N18")) ("http://www.w3.org/2009/pointers#reference") (MkNode (NOther "RESOURCELITERAL") ("http://spdx.org/spdxdocs/spdx-example-444504E0-4F89-41D3-9A0C-0305E82C3301#SPDXRef-DoapSource")));
    (MkTriple (MkNode (NOther "BLANK") ("N18")) ("http://www.w3.org/2009/pointers#offset") (MkNode (NOther "LITERAL") ("310")));
    (MkTriple (MkNode NIri ("http://spdx.org/spdxdocs/spdx-example-444504E0-4F89-41D3-9A0C-0305E82C3301#SPDXRef-Snippet")) ("http://spdx.org/rdf/terms#snippetFromFile") (MkNode (NOther "RESOURCELITERAL") ("http://spdx.org/spdxdocs/spdx-example-444504E0-4F89-41D3-9A0C-0305E82C3301#SPDXRef-DoapSource")));
    (MkTriple (MkNode NIri ("http://spdx.org/spdxdocs/spdx-example-444504E0-4F89-41D3-9A0C-0305E82C3301#SPDXRef-Snippet")) ("http://spdx.org/rdf/terms#licenseInfoInSnippet") (MkNode (NOther "RESOURCELITERAL") ("http://spdx.org/licenses/GPL-2.0-only")));
    (MkTriple (MkNode NIri ("http://spdx.org/spdxdocs/spdx-example-444504E0-4F89-41D3-9A0C-0305E82C3301#SPDXRef-Snippet")) ("http://spdx.org/rdf/terms#range") (MkNode (NOther "BLANK") ("N19")));
    (MkTriple (MkNode (NOther "BLANK") ("N19")) ("http://www.w3.org/1999/02/22-rdf-syntax-ns#type") (MkNode NIri ("http://www.w3.org/2009/pointers#StartEndPointer")));
    (MkTriple (MkNode (NOther "BLANK") ("N19")) ("http://www.w3.org/2009/pointers#endPointer") (MkNode (NOther "BLANK") ("N20")));
    (MkTriple (MkNode (NOther "BLANK") ("N20")) ("http://www.w3.org/1999/02/22-rdf-syntax-ns#type") (MkNode NIri ("http://www.w3.org/2009/pointers#LineCharPointer")));
    (MkTriple (MkNode (NOther "BLANK") ("N20")) ("http://www.w3.org/2009/pointers#reference") (MkNode (NOther "RESOURCELITERAL") ("http://spdx.org/spdxdocs/spdx-example-444504E0-4F89-41D3-9A0C-0305E82C3301#SPDXRef-DoapSource")));
    (MkTriple (MkNode (NOther "BLANK") ("N20")) ("http://www.w3.org/2009/pointers#lineNumber") (MkNode (NOther "LITERAL") ("23")));
    (MkTriple (MkNode (NOther "BLANK") ("N19")) ("http://www.w3.org/2009/pointers#startPointer") (MkNode (NOther "BLANK") ("N21")));
    (MkTriple (MkNode (NOther "BLANK") ("N21")) ("http://www.w3.org/1999/02/22-rdf-syntax-ns#type") (MkNode NIri ("http://www.w3.org/2009/pointers#LineCharPointer")));
    (MkTriple (MkNode (NOther "BLANK") ("N21")) ("http://www.w3.org/2009/pointers#reference") (MkNode (NOther "RESOURCELITERAL") ("http://spdx.org/spdxdocs/spdx-example-444504E0-4F89-41D3-9A0C-0305E82C3301#SPDXRef-DoapSource")));
    (MkTriple (MkNode (NOther "BLANK") ("N21")) ("http://www.w3.org/2009/pointers#lineNumber") (MkNode (NOther "LITERAL") ("5")));
    (MkTriple (MkNode NIri ("http://spdx.org/spdxdocs/spdx-example-444504E0-4F89-41D3-9A0C-0305E82C3301#SPDXRef-Snippet")) ("http://www.w3.org/2000/01/rdf-schema#comment") (MkNode (NOther "LITERAL") ("This snippet was identified as significant and highlighted in this Apache-2.0 file, when a commercial scanner identified it as being derived from file foo.c in package xyz which is licensed under GPL-2.0.")));
    (MkTriple (MkNode NIri ("http://spdx.org/spdxdocs/spdx-example-444504E0-4F89-41D3-9A0C-0305E82C3301#SPDXRef-Snippet")) ("http://spdx.org/rdf/terms#licenseConcluded") (MkNode NIri ("http://spdx.org/licenses/GPL-2.0")));
    (MkTriple (MkNode NIri ("http://spdx.org/licenses/GPL-2.0")) ("http://www.w3.org/1999/02/22-rdf-syntax-ns#type") (MkNode NIri ("http://spdx.org/rdf/terms#License")));
    (MkTriple (MkNode NIri ("http://spdx.org/licenses/GPL-2.0")) ("http://spdx.org/rdf/terms#standardLicenseTemplate") (MkNode (NOther "LITERAL") ("<<beginOptional>> GNU GENERAL PUBLIC LICENSE

Version 2, June 1991<<endOptional>>

Copyright (C) 1989, 1991 Free Software Foundation, Inc. <<var;name=""incComma"";original="""";match="",|"">>

51 Franklin Street, Fifth Floor, Boston, MA 02110-1301<<beginOptional>>, <<endOptional>> USA

Everyone is permitted to copy and distribute verbatim copies of this license document, but changing it is not allowed.

Preamble

The licenses for most software are designed to take away your freedom to share and change it. By contrast, the GNU General Public License is intended to guarantee your freedom to share and change free software--to make sure the software is free for all its users. This General Public License applies to most of the Free Software Foundation's software and to any other program whose authors commit to using it. (Some other Free Software Foundation software is covered by the GNU Lesser General Public License instead.) You can apply it to your programs, too.

When we speak of free software, we are referring to freedom, not price. Our General Public Licenses are designed to make sure that you have the freedom to distribute copies of free software (and charge for this service if you wish), that you receive source code or can get it if you want it, that you can change the software or use pieces of it in new free programs; and that you know you can do these things.

To protect your rights, we need to make restrictions that forbid anyone to deny you these rights or to ask you to surrender the rights. These restrictions translate to certain responsibilities for you if you distribute copies of the software, or if you modify it.

For example, if you distribute copies of such a program, whether gratis or for a fee, you must give the recipients all the rights that you have. You must make sure that they, too, receive or can get the source code. And you must show them these terms so they know their rights.

We protect your rights with two steps: (1) copyright the software, and (2) offer you this license which gives you legal permission to copy, distribute and/or modify the software.

Also, for each author's protection and ours, we want to make certain that everyone understands that there is no warranty for this free software. If the software is modified by someone else and passed on, we want its recipients to know that what they have is not the original, so that any problems introduced by others will not reflect on the original authors' reputations.

Finally, any free program is threatened constantly by software patents. We wish to avoid the danger that redistributors of a free program will individually obtain patent licenses, in effect making the program proprietary. To prevent this, we have made it clear that any patent must be licensed for everyone's free use or not licensed at all.

The precise terms and conditions for copying, distribution and modification follow.

<<var;name=""termsTitle"";original="""";match=""GNU GENERAL PUBLIC LICENSE|"">> TERMS AND CONDITIONS FOR COPYING, DISTRIBUTION AND MODIFICATION

   <<var;name=""bullet"";original=""0."";match="".{0,20}"">> This License applies to any program or other work which contains a notice placed by the copyright holder saying it may be distributed under the terms of this General Public License. The ""Program"", below, refers to any such program or work, and a ""work based on the Program"" means either the Program or any derivative work under copyright law: that is to say, a work containing the Program or a portion of it, either verbatim or with modifications and/or translated into another language. (Hereinafter, translation is included without limitation in the term ""modification"".) Each licensee is addressed as ""you"".

   Activities other than copying, distribution and modification are not covered by this License; they are outside its scope. The act of running the Program is not restricted, and the output from the Program is covered only if its contents constitute a work based on the Program (independent of having been made by running the Program). Whether that is true depends on what the Program does.

   <<var;name=""bullet"";original=""1."";match="".{0,20}"">> You may copy and distribute verbatim copies of the Program's source code as you receive it, in any medium, provided that you conspicuously and appropriately publish on each copy an appropriate copyright notice and disclaimer of warranty; keep intact all the notices that refer to this License and to the absence of any warranty; and give any other recipients of the Program a copy of this License along with the Program.

   You may charge a fee for the physical act of transferring a copy, and you may at your option offer warranty protection in exchange for a fee.

   <<var;name=""bullet"";original=""2."";match="".{0,20}"">> You may modify your copy or copies of the Program or any portion of it, thus forming a work based on the Program, and copy and distribute such modifications or work under the terms of Section 1 above, provided that you also meet all of these conditions:

      <<var;name=""bullet"";original=""a)"";match="".{0,20}"">> You must cause the modified files to carry prominent notices stating that you changed the files and the date of any change.

      <<var;name=""bullet"";original=""b)"";match="".{0,20}"">> You must cause any work that you distribute or publish, that in whole or in part contains or is derived from the Program or any part thereof, to be licensed as a whole at no charge to all third parties under the terms of this License.

      <<var;name=""bullet"";original=""c)"";match="".{0,20}"">> If the modified program normally reads commands interactively when run, you must cause it, when started running for such interactive use in the most ordinary way, to print or display an announcement including an appropriate copyright notice and a notice that there is no warranty (or else, saying that you provide a warranty) and that users may redistribute the program under these conditions, and telling the user how to view a copy of this License. (Exception: if the Program itself is interactive but does not normally print such an announcement, your work based on the Program is not required to print an announcement.)

   These requirements apply to the modified work as a whole. If identifiable sections of that work are not derived from the Program, and can be reasonably considered independent and separate works in themselves, then this License, and its terms, do not apply to those sections when you distribute them as separate works. But when you distribute the same sections as part of a whole which is a work based on the Program, the distribution of the whole must be on the terms of this License, whose permissions for other licensees extend to the entire whole, and thus to each and every part regardless of who wrote it.

   Thus, it is not the intent of this section to claim rights or contest your rights to work written entirely by you; rather, the intent is to exercise the right to control the distribution of derivative or collective works based on the Program.

   In addition, mere aggregation of another work not based on the Program with the Program (or with a work based on the Program) on a volume of a storage or distribution medium does not bring the other work under the scope of this License.

   <<var;name=""bullet"";original=""3."";match="".{0,20}"">> You may copy and distribute the Program (or a work based on it, under Section 2) in object code or executable form under the terms of Sections 1 and 2 above provided that you also do one of the following:

      <<var;name=""bullet"";original=""a)"";match="".{0,20}"">> Accompany it with the complete corresponding machine-readable source code, which must be distributed under the terms of Sections 1 and 2 above on a medium customarily used for software interchange; or,

      <<var;name=""bullet"";original=""b)"";match="".{0,20}"">> Accompany it with a written offer, valid for at least three years, to give any third party, for a charge no more than your cost of physically performing source distribution, a complete machine-readable copy of the corresponding source code, to be distributed under the terms of Sections 1 and 2 above on a medium customarily used for software interchange; or,

      <<var;name=""bullet"";original=""c)"";match="".{0,20}"">> Accompany it with the information you received as to the offer to distribute corresponding source code. (This alternative is allowed only for noncommercial distribution and only if you received the program in object code or executable form with such an offer, in accord with Subsection b above.)

   The source code for a work means the preferred form of the work for making modifications to it. For an executable work, complete source code means all the source code for all modules it contains, plus any associated interface definition files, plus the scripts used to control compilation and installation of the executable. However, as a special exception, the source code distributed need not include anything that is normally distributed (in either source or binary form) with the major components (compiler, kernel, and so on) of the operating system on which the executable runs, unless that component itself accompanies the executable.

   If distribution of executable or object code is made by offering access to copy from a designated place, then offering equivalent access to copy the source code from the same place counts as distribution of the source code, even though third parties are not compelled to copy the source along with the object code.

   <<var;name=""bullet"";original=""4."";match="".{0,20}"">> You may not copy, modify, sublicense, or distribute the Program except as expressly provided under this License. Any attempt otherwise to copy, modify, sublicense or distribute the Program is void, and will automatically terminate your rights under this License. However, parties who have received copies, or rights, from you under this License will not have their licenses terminated so long as such parties remain in full compliance.

   <<var;name=""bullet"";original=""5."";match="".{0,20}"">> You are not required to accept this License, since you have not signed it. However, nothing else grants you permission to modify or distribute the Program or its derivative works. These actions are prohibited by law if you do not accept this License. Therefore, by modifying or distributing the Program (or any work based on the Program), you indicate your acceptance of this License to do so, and all its terms and conditions for copying, distributing or modifying the Program or works based on it.

   <<var;name=""bullet"";original=""6."";match="".{0,20}"">> Each time you redistribute the Program (or any work based on the Program), the recipient automatically receives a license from the original licensor to copy, distribute or modify the Program subject to these terms and conditions. You may not impose any further restrictions on the recipients' exercise of the rights granted herein. You are not responsible for enforcing compliance by third parties to this License.

   <<var;name=""bullet"";original=""7."";match="".{0,20}"">> If, as a consequence of a court judgment or allegation of patent infringement or for any other reason (not limited to patent issues), conditions are imposed on you (whether by court order, agreement or otherwise) that contradict the conditions of this License, they do not excuse you from the conditions of this License. If you cannot distribute so as to satisfy simultaneously your obligations under this License and any other pertinent obligations, then as a consequence you may not distribute the Program at all. For example, if a patent license would not permit royalty-free redistribution of the Program by all those who receive copies directly or indirectly through you, then the only way you could satisfy both it and this License would be to refrain entirely from distribution of the Program.

   If any portion of this section is held invalid or unenforceable under any particular circumstance, the balance of the section is intended to apply and the section as a whole is intended to apply in other circumstances.

   It is not the purpose of this section to induce you to infringe any patents or other property right claims or to contest validity of any such claims; this section has the sole purpose of protecting the integrity of the free software distribution system, which is implemented by public license practices. Many people have made generous contributions to the wide range of software distributed through that system in reliance on consistent application of that system; it is up to the author/donor to decide if he or she is willing to distribute software through any other system and a licensee cannot impose that choice.

   This section is intended to make thoroughly clear what is believed to be a consequence of the rest of this License.

   <<var;name=""bullet"";original=""8."";match="".{0,20}"">> If the distribution and/or use of the Program is restricted in certain countries either by patents or by copyrighted interfaces, the original copyright holder who places the Program under this License may add an explicit geographical distribution limitation excluding those countries, so that distribution is permitted only in or among countries not thus excluded. In such case, this License incorporates the limitation as if written in the body of this License.

   <<var;name=""bullet"";original=""9."";match="".{0,20}"">> The Free Software Foundation may publish revised and/or new versions of the General Public License from time to time. Such new versions will be similar in spirit to the present version, but may differ in detail to address new problems or concerns.

   Each version is given a distinguishing version number. If the Program specifies a version number of this License which applies to it and ""any later version"", you have the option of following the terms and conditions either of that version or of any later version published by the Free Software Foundation. If the Program does not specify a version number of this License, you may choose any version ever published by the Free Software Foundation.

   <<var;name=""bullet"";original=""10."";match="".{0,20}"">> If you wish to incorporate parts of the Program into other free programs whose distribution conditions are different, write to the author to ask for permission. For software which is copyrighted by the Free Software Foundation, write to the Free Software Foundation; we sometimes make exceptions for this. Our decision will be guided by the two goals of preserving the free status of all derivatives of our free software and of promoting the sharing and reuse of software generally.

   NO WARRANTY

   <<var;name=""bullet"";original=""11."";match="".{0,20}"">> BECAUSE THE PROGRAM IS LICENSED FREE OF CHARGE, THERE IS NO WARRANTY FOR THE PROGRAM, TO THE EXTENT PERMITTED BY APPLICABLE LAW. EXCEPT WHEN OTHERWISE STATED IN WRITING THE COPYRIGHT HOLDERS AND/OR OTHER PARTIES PROVIDE THE PROGRAM ""AS IS"" WITHOUT WARRANTY OF ANY KIND, EITHER EXPRESSED OR IMPLIED, INCLUDING, BUT NOT LIMITED TO, THE IMPLIED WARRANTIES OF MERCHANTABILITY AND FITNESS FOR A PARTICULAR PURPOSE. THE ENTIRE RISK AS TO THE QUALITY AND PERFORMANCE OF THE PROGRAM IS WITH YOU. SHOULD THE PROGRAM PROVE DEFECTIVE, YOU ASSUME THE COST OF ALL NECESSARY SERVICING, REPAIR OR CORRECTION.

   <<var;name=""bullet"";original=""12."";match="".{0,20}"">> IN NO EVENT UNLESS REQUIRED BY APPLICABLE LAW OR AGREED TO IN WRITING WILL ANY COPYRIGHT HOLDER, OR ANY OTHER PARTY WHO MAY MODIFY AND/OR REDISTRIBUTE THE PROGRAM AS PERMITTED ABOVE, BE LIABLE TO YOU FOR DAMAGES, INCLUDING ANY GENERAL, SPECIAL, INCIDENTAL OR CONSEQUENTIAL DAMAGES ARISING OUT OF THE USE OR INABILITY TO USE THE PROGRAM (INCLUDING BUT NOT LIMITED TO LOSS OF DATA OR DATA BEING RENDERED INACCURATE OR LOSSES SUSTAINED BY YOU OR THIRD PARTIES OR A FAILURE OF THE PROGRAM TO OPERATE WITH ANY OTHER PROGRAMS), EVEN IF SUCH HOLDER OR OTHER PARTY HAS BEEN ADVISED OF THE POSSIBILITY OF SUCH DAMAGES.<<beginOptional>> END OF TERMS AND CONDITIONS

How to Apply These Terms to Your New Programs

If you develop a new program, and you want it to be of the greatest possible use to the public, the best way to achieve this is to make it free software which everyone can redistribute and change under these terms.

To do so, attach the following notices to the program. It is safest to attach them to the start of each source file to most effectively convey the exclusion of warranty; and each file should have at least the ""copyright"" line and a pointer to where the full notice is found.

<<beginOptional>><<<endOptional>>one line to give the program's name and <<var;name=""ideaArticle"";original=""an"";match=""a brief|an"">> idea of what it does.<<beginOptional>>><<endOptional>>

Copyright (C)<<beginOptional>> <<<endOptional>> <<var;name=""templateYear"";original=""yyyy"";match=""yyyy|year"">><<beginOptional>>> <<endOptional>><<beginOptional>> <<<endOptional>>name of author<<beginOptional>>><<endOptional>>

This program is free software; you can redistribute it and/or modify it under the terms of the GNU General Public License as published by the Free Software Foundation; either version 2 of the License, or (at your option) any later version.

This program is distributed in the hope that it will be useful, but WITHOUT ANY WARRANTY; without even the implied warranty of MERCHANTABILITY or FITNESS FOR A PARTICULAR PURPOSE. See the GNU General Public License for more details.

You should have received a copy of the GNU General Public License along with this program; if not, write to the Free Software Foundation, Inc., 51 Franklin Street, Fifth Floor, Boston, MA 02110-1301<<beginOptional>>, <<endOptional>> USA.

Also add information on how to contact you by electronic and paper mail.

If the program is interactive, make it output a short notice like this when it starts in an interactive mode:

Gnomovision version 69, Copyright (C) year name of author Gnomovision comes with ABSOLUTELY NO WARRANTY; for details type `show w'. This is free software, and you are welcome to redistribute it under certain conditions; type `show c' for details.

The hypothetical commands `show w' and `show c' should show the appropriate parts of the General Public License. Of course, the commands you use may be called something other than `show w' and `show c'; they could even be mouse-clicks or menu items--whatever suits your program.

You should also get your employer (if you work as a programmer) or your school, if any, to sign a ""copyright disclaimer"" for the program, if necessary. Here is a sample; alter the names:

Yoyodyne, Inc., hereby disclaims all copyright interest in the program `Gnomovision' (which makes passes at compilers) written by James Hacker.

<<beginOptional>><<<endOptional>>signature of Ty Coon<<beginOptional>>><<endOptional>>, 1 April 1989 Ty Coon, President of Vice<<endOptional>><<beginOptional>> This General Public License does not permit incorporating your program into proprietary programs. If your program is a subroutine library, you may consider it more useful to permit linking proprietary applications with the library. If this is what you want to do, use the GNU Lesser General Public License instead of this License.<<endOptional>>")));
    (MkTriple (MkNode NIri ("http://spdx.org/licenses/GPL-2.0")) ("http://spdx.org/rdf/terms#standardLicenseHeaderTemplate") (MkNode (NOther "LITERAL") ("Copyright (C) <<var;name=""copyright"";original=""yyyy name of author"";match="".+"">>

This program is free software; you can redistribute it and/or modify it under the terms of the GNU General Public License as published by the Free Software Foundation; version 2.

This program is distributed in the hope that it will be useful, but WITHOUT ANY WARRANTY; without even the implied warranty of MERCHANTABILITY or FITNESS FOR A PARTICULAR PURPOSE. See the GNU General Public License for more details.

You should have received a copy of the GNU General Public License along with this program; if not, write to the Free Software Foundation, Inc., 51 Franklin Street, Fifth Floor, Boston, MA 02110-1301<<beginOptional>>, <<endOptional>> USA.")));
    (MkTriple (MkNode NIri ("http://spdx.org/licenses/GPL-2.0")) ("http://www.w3.org/2000/01/rdf-schema#seeAlso") (MkNode (NOther "LITERAL") ("https://www.gnu.org/licenses/old-licenses/gpl-2.0-standalone.html")));
    (MkTriple (MkNode NIri ("http://spdx.org/licenses/GPL-2.0")) ("http://spdx.org/rdf/terms#licenseId") (MkNode (NOther "LITERAL") ("GPL-2.0")));
    (MkTriple (MkNode NIri ("http://spdx.org/licenses/GPL-2.0")) ("http://spdx.org/rdf/terms#standardLicenseHeader") (MkNode (NOther "LITERAL") ("Copyright (C) yyyy name of author

This program is free software; you can redistribute it and/or modify it under the terms of the GNU General Public License as published by the Free Software Foundation; version 2.

This program is distributed in the hope that it will be useful, but WITHOUT ANY WARRANTY; without even the implied warranty of MERCHANTABILITY or FITNESS FOR A PARTICULAR PURPOSE. See the GNU General Public License for more details.

You should have received a copy of the GNU General Public License along with this program; if not, write to the Free Software Foundation, Inc., 51 Franklin Street, Fifth Floor, Boston, MA 02110-1301, USA.")));
    (MkTriple (MkNode NIri ("http://spdx.org/licenses/GPL-2.0")) ("http://spdx.org/rdf/terms#name") (MkNode (NOther "LITERAL") ("GNU General Public License v2.0 only")));
    (MkTriple (MkNode NIri ("http://spdx.org/licenses/GPL-2.0")) ("http://spdx.org/rdf/terms#isFsfLibre") (MkNode (NOther "LITERAL") ("true")));
    (MkTriple (MkNode NIri ("http://spdx.org/licenses/GPL-2.0")) ("http://spdx.org/rdf/terms#isOsiApproved") (MkNode (NOther "LITERAL") ("true")));
    (MkTriple (MkNode NIri ("http://spdx.org/licenses/GPL-2.0")) ("http://spdx.org/rdf/terms#licenseText") (MkNode (NOther "LITERAL") ("GNU GENERAL PUBLIC LICENSE Version 2, June 1991 Copyright (C) 1989, 1991 Free Software Foundation, Inc. 51 Franklin Street, Fifth Floor, Boston, MA 02110-1301, USA Everyone is permitted to copy and distribute verbatim copies of this license document, but changing it is not allowed. Preamble The licenses for most software are designed to take away your freedom to share and change it. By contrast, the GNU General Public License is intended to guarantee your freedom to share and change free software--to make sure the software is free for all its users. This General Public License applies to most of the Free Software Foundation's software and to any other program whose authors commit to using it. (Some other Free Software Foundation software is covered by the GNU Lesser General Public License instead.) You can apply it to your programs, too. When we speak of free software, we are referring to freedom, not price. Our General Public Licenses are designed to make sure that you have the freedom to distribute copies of free software (and charge for this service if you wish), that you receive source code or can get it if you want it, that you can change the software or use pieces of it in new free programs; and that you know you can do these things. To protect your rights, we need to make restrictions that forbid anyone to deny you these rights or to ask you to surrender the rights. These restrictions translate to certain responsibilities for you if you distribute copies of the software, or if you modify it. For example, if you distribute copies of such a program, whether gratis or for a fee, you must give the recipients all the rights that you have. You must make sure that they, too, receive or can get the source code. And you must show them these terms so they know their rights. We protect your rights with two steps: (1) copyright the software, and (2) offer you this license which gives you legal permission to copy, distribute and/or modify the software. Also, for each author's protection and ours, we want to make certain that everyone understands that there is no warranty for this free software. If the software is modified by someone else and passed on, we want its recipients to know that what they have is not the original, so that any problems introduced by others will not reflect on the original authors' reputations. Finally, any free program is threatened constantly by software patents. We wish to avoid the danger that redistributors of a free program will individually obtain patent licenses, in effect making the program proprietary. To prevent this, we have made it clear that any patent must be licensed for everyone's free use or not licensed at all. The precise terms and conditions for copying, distribution and modification follow. TERMS AND CONDITIONS FOR COPYING, DISTRIBUTION AND MODIFICATION 0. This License applies to any program or other work which contains a notice placed by the copyright holder saying it may be distributed under the terms of this General Public License. The ""Program"", below, refers to any such program or work, and a ""work based on the Program"" means either the Program or any derivative work under copyright law: that is to say, a work containing the Program or a portion of it, either verbatim or with modifications and/or translated into another language. (Hereinafter, translation is included without limitation in the term ""modification"".) Each licensee is addressed as ""you"". Activities other than copying, distribution and modification are not covered by this License; they are outside its scope. The act of running the Program is not restricted, and the output from the Program is covered only if its contents constitute a work based on the Program (independent of having been made by running the Program). Whether that is true depends on what the Program does. 1. You may copy and distribute verbatim copies of the Program's source code as you receive it, in any medium, provided that you conspicuously and appropriately publish on each copy an appropriate copyright notice and disclaimer of warranty; keep intact all the notices that refer to this License and to the absence of any warranty; and give any other recipients of the Program a copy of this License along with the Program. You may charge a fee for the physical act of transferring a copy, and you may at your option offer warranty protection in exchange for a fee. 2. You may modify your copy or copies of the Program or any portion of it, thus forming a work based on the Program, and copy and distribute such modifications or work under the terms of Section 1 above, provided that you also meet all of these conditions: a) You must cause the modified files to carry prominent notices stating that you changed the files and the date of any change. b) You must cause any work that you distribute or publish, that in whole or in part contains or is derived from the Program or any part thereof, to be licensed as a whole at no charge to all third parties under the terms of this License. c) If the modified program normally reads commands interactively when run, you must cause it, when started running for such interactive use in the most ordinary way, to print or display an announcement including an appropriate copyright notice and a notice that there is no warranty (or else, saying that you provide a warranty) and that users may redistribute the program under these conditions, and telling the user how to view a copy of this License. (Exception: if the Program itself is interactive but does not normally print such an announcement, your work based on the Program is not required to print an announcement.) These requirements apply to the modified work as a whole. If identifiable sections of that work are not derived from the Program, and can be reasonably considered independent and separate works in themselves, then this License, and its terms, do not apply to those sections when you distribute them as separate works. But when you distribute the same sections as part of a whole which is a work based on the Program, the distribution of the whole must be on the terms of this License, whose permissions for other licensees extend to the entire whole, and thus to each and every part regardless of who wrote it. Thus, it is not the intent of this section to claim rights or contest your rights to work written entirely by you; rather, the intent is to exercise the right to control the distribution of derivative or collective works based on the Program. In addition, mere aggregation of another work not based on the Program with the Program (or with a work based on the Program) on a volume of a storage or distribution medium does not bring the other work under the scope of this License. 3. You may copy and distribute the Program (or a work based on it, under Section 2) in object code or executable form under the terms of Sections 1 and 2 above provided that you also do one of the following: a) Accompany it with the complete corresponding machine-readable source code, which must be distributed under the terms of Sections 1 and 2 above on a medium customarily used for software interchange; or, b) Accompany it with a written offer, valid for at least three years, to give any third party, for a charge no more than your cost of physically performing source distribution, a complete machine-readable copy of the corresponding source code, to be distributed under the terms of Sections 1 and 2 above on a medium customarily used for software interchange; or, c) Accompany it with the information you received as to the offer to distribute corresponding source code. (This alternative is allowed only for noncommercial distribution and only if you received the program in object code or executable form with such an offer, in accord with Subsection b above.) The source code for a work means the preferred form of the work for making modifications to it. For an executable work, complete source code means all the source code for all modules it contains, plus any associated interface definition files, plus the scripts used to control compilation and installation of the executable. However, as a special exception, the source code distributed need not include anything that is normally distributed (in either source or binary form) with the major components (compiler, kernel, and so on) of the operating system on which the executable runs, unless that component itself accompanies the executable. If distribution of executable or object code is made by offering access to copy from a designated place, then offering equivalent access to copy the source code from the same place counts as distribution of the source code, even though third parties are not compelled to copy the source along with the object code. 4. You may not copy, modify, sublicense, or distribute the Program except as expressly provided under this License. Any attempt otherwise to copy, modify, sublicense or distribute the Program is void, and will automatically terminate your rights under this License. However, parties who have received copies, or rights, from you under this License will not have their licenses terminated so long as such parties remain in full compliance. 5. You are not required to accept this License, since you have not signed it. However, nothing else grants you permission to modify or distribute the Program or its derivative works. These actions are prohibited by law if you do not accept this License. Therefore, by modifying or distributing the Program (or any work based on the Program), you indicate your acceptance of this License to do so, and all its terms and conditions for copying, distributing or modifying the Program or works based on it. 6. Each time you redistribute the Program (or any work based on the Program), the recipient automatically receives a license from the original licensor to copy, distribute or modify the Program subject to these terms and conditions. You may not impose any further restrictions on the recipients' exercise of the rights granted herein. You are not responsible for enforcing compliance by third parties to this License. 7. If, as a consequence of a court judgment or allegation of patent infringement or for any other reason (not limited to patent issues), conditions are imposed on you (whether by court order, agreement or otherwise) that contradict the conditions of this License, they do not excuse you from the conditions of this License. If you cannot distribute so as to satisfy simultaneously your obligations under this License and any other pertinent obligations, then as a consequence you may not distribute the Program at all. For example, if a patent license would not permit royalty-free redistribution of the Program by all those who receive copies directly or indirectly through you, then the only way you could satisfy both it and this License would be to refrain entirely from distribution of the Program. If any portion of this section is held invalid or unenforceable under any particular circumstance, the balance of the section is intended to apply and the section as a whole is intended to apply in other circumstances. It is not the purpose of this section to induce you to infringe any patents or other property right claims or to contest validity of any such claims; this section has the sole purpose of protecting the integrity of the free software distribution system, which is implemented by public license practices. Many people have made generous contributions to the wide range of software distributed through that system in reliance on consistent application of that system; it is up to the author/donor to decide if he or she is willing to distribute software through any other system and a licensee cannot impose that choice. This section is intended to make thoroughly clear what is believed to be a consequence of the rest of this License. 8. If the distribution and/or use of the Program is restricted in certain countries either by patents or by copyrighted interfaces, the original copyright holder who places the Program under this License may add an explicit geographical distribution limitation excluding those countries, so that distribution is permitted only in or among countries not thus excluded. In such case, this License incorporates the limitation as if written in the body of this License. 9. The Free Software Foundation may publish revised and/or new versions of the General Public License from time to time. Such new versions will be similar in spirit to the present version, but may differ in detail to address new problems or concerns. Each version is given a distinguishing version number. If the Program specifies a version number of this License which applies to it and ""any later version"", you have the option of following the terms and conditions either of that version or of any later version published by the Free Software Foundation. If the Program does not specify a version number of this License, you may choose any version ever published by the Free Software Foundation. 10. If you wish to incorporate parts of the Program into other free programs whose distribution conditions are different, write to the author to ask for permission. For software which is copyrighted by the Free Software Foundation, write to the Free Software Foundation; we sometimes make exceptions for this. Our decision will be guided by the two goals of preserving the free status of all derivatives of our free software and of promoting the sharing and reuse of software generally. NO WARRANTY 11. BECAUSE THE PROGRAM IS LICENSED FREE OF CHARGE, THERE IS NO WARRANTY FOR THE PROGRAM, TO THE EXTENT PERMITTED BY APPLICABLE LAW. EXCEPT WHEN OTHERWISE STATED IN WRITING THE COPYRIGHT HOLDERS AND/OR OTHER PARTIES PROVIDE THE PROGRAM ""AS IS"" WITHOUT WARRANTY OF ANY KIND, EITHER EXPRESSED OR IMPLIED, INCLUDING, BUT NOT LIMITED TO, THE IMPLIED WARRANTIES OF MERCHANTABILITY AND FITNESS FOR A PARTICULAR PURPOSE. THE ENTIRE RISK AS TO THE QUALITY AND PERFORMANCE OF THE PROGRAM IS WITH YOU. SHOULD THE PROGRAM PROVE DEFECTIVE, YOU ASSUME THE COST OF ALL NECESSARY SERVICING, REPAIR OR CORRECTION. 12. IN NO EVENT UNLESS REQUIRED BY APPLICABLE LAW OR AGREED TO IN WRITING WILL ANY COPYRIGHT HOLDER, OR ANY OTHER PARTY WHO MAY MODIFY AND/OR REDISTRIBUTE THE PROGRAM AS PERMITTED ABOVE, BE LIABLE TO YOU FOR DAMAGES, INCLUDING ANY GENERAL, SPECIAL, INCIDENTAL OR CONSEQUENTIAL DAMAGES ARISING OUT OF THE USE OR INABILITY TO USE THE PROGRAM (INCLUDING BUT NOT LIMITED TO LOSS OF DATA OR DATA BEING RENDERED INACCURATE OR LOSSES SUSTAINED BY YOU OR THIRD PARTIES OR A FAILURE OF THE PROGRAM TO OPERATE WITH ANY OTHER PROGRAMS), EVEN IF SUCH HOLDER OR OTHER PARTY HAS BEEN ADVISED OF THE POSSIBILITY OF SUCH DAMAGES. END OF TERMS AND CONDITIONS How to Apply These Terms to Your New Programs If you develop a new program, and you want it to be of the greatest possible use to the public, the best way to achieve this is to make it free software which everyone can redistribute and change under these terms. To do so, attach the following notices to the program. It is safest to attach them to the start of each source file to most effectively convey the exclusion of warranty; and each file should have at least the ""copyright"" line and a pointer to where the full notice is found. Copyright (C) < yyyy> This program is free software; you can redistribute it and/or modify it under the terms of the GNU General Public License as published by the Free Software Foundation; either version 2 of the License, or (at your option) any later version. This program is distributed in the hope that it will be useful, but WITHOUT ANY WARRANTY; without even the implied warranty of MERCHANTABILITY or FITNESS FOR A PARTICULAR PURPOSE. See the GNU General Public License for more details. You should have received a copy of the GNU General Public License along with this program; if not, write to the Free Software Foundation, Inc., 51 Franklin Street, Fifth Floor, Boston, MA 02110-1301, USA. Also add information on how to contact you by electronic and paper mail. If the program is interactive, make it output a short notice like this when it starts in an interactive mode: Gnomovision version 69, Copyright (C) year name of author Gnomovision comes with ABSOLUTELY NO WARRANTY; for details type `show w'. This is free software, and you are welcome to redistribute it under certain conditions; type `show c' for details. The hypothetical commands `show w' and `show c' should show the appropriate parts of the General Public License. Of course, the commands you use may be called something other than `show w' and `show c'; they could even be mouse-clicks or menu items--whatever suits your program. You should also get your employer (if you work as a programmer) or your school, if any, to sign a ""copyright disclaimer"" for the program, if necessary. Here is a sample; alter the names: Yoyodyne, Inc., hereby disclaims all copyright interest in the program `Gnomovision' (which makes passes at compilers) written by James Hacker. , 1 April 1989 Ty Coon, President of Vice This General Public License does not permit incorporating your program into proprietary programs. If your program is a subroutine library, you may consider it more useful to permit linking proprietary applications with the library. If this is what you want to do, use the GNU Lesser General Public License instead of this License.")));
    (MkTriple (MkNode NIri ("http://spdx.org/licenses/GPL-2.0")) ("http://www.w3.org/2000/01/rdf-schema#seeAlso") (MkNode (NOther "LITERAL") ("https://opensource.org/licenses/GPL-2.0")));
    (MkTriple (MkNode NIri ("http://spdx.org/licenses/GPL-2.0")) ("http://spdx.org/rdf/terms#isDeprecatedLicenseId") (MkNode (NOther "LITERAL") ("true")));
    (MkTriple (MkNode (NOther "BLANK") ("N22")) ("http://www.w3.org/1999/02/22-rdf-syntax-ns#type") (MkNode NIri ("http://spdx.org/rdf/terms#Review")));
    (MkTriple (MkNode (NOther "BLANK") ("N22")) ("http://www.w3.org/2000/01/rdf-schema#comment") (MkNode (NOther "LITERAL") ("Another example reviewer.")));
    (MkTriple (MkNode (NOther "BLANK") ("N22")) ("http://spdx.org/rdf/terms#reviewDate") (MkNode (NOther "LITERAL") ("2011-03-13T00:00:00Z")));
    (MkTriple (MkNode (NOther "BLANK") ("N22")) ("http://spdx.org/rdf/terms#reviewer") (MkNode (NOther "LITERAL") ("Person: Suzanne Reviewer")));
    (MkTriple (MkNode NIri ("http://spdx.org/spdxdocs/spdx-example-444504E0-4F89-41D3-9A0C-0305E82C3301#SPDXRef-DOCUMENT")) ("http://www.w3.org/1999/02/22-rdf-syntax-ns#type") (MkNode NIri ("http://spdx.org/rdf/terms#SpdxDocument")));
    (MkTriple (MkNode NIri ("http://spdx.org/spdxdocs/spdx-example-444504E0-4F89-41D3-9A0C-0305E82C3301#SPDXRef-DOCUMENT")) ("http://spdx.org/rdf/terms#specVersion") (MkNode (NOther "LITERAL") ("SPDX-2.2")));
    (MkTriple (MkNode NIri ("http://spdx.org/spdxdocs/spdx-example-444504E0-4F89-41D3-9A0C-0305E82C3301#SPDXRef-DOCUMENT")) ("http://spdx.org/rdf/terms#relationship") (MkNode (NOther "BLANK") ("N23")));
    (MkTriple (MkNode (NOther "BLANK") ("N23")) ("http://www.w3.org/1999/02/22-rdf-syntax-ns#type") (MkNode NIri ("http://spdx.org/rdf/terms#Relationship")));
    (MkTriple (MkNode (NOther "BLANK") ("N23")) ("http://spdx.org/rdf/terms#relationshipType") (MkNode (NOther "RESOURCELITERAL") ("http://spdx.org/rdf/terms#relationshipType_describes")));
    (MkTriple (MkNode (NOther "BLANK") ("N23")) ("http://spdx.org/rdf/terms#relatedSpdxElement") (MkNode NIri ("http://spdx.org/spdxdocs/spdx-example-444504E0-4F89-41D3-9A0C-0305E82C3301#SPDXRef-File")));
    (MkTriple (MkNode NIri ("http://spdx.org/spdxdocs/spdx-example-444504E0-4F89-41D3-9A0C-0305E82C3301#SPDXRef-File")) ("http://www.w3.org/1999/02/22-rdf-syntax-ns#type") (MkNode NIri ("http://spdx.org/rdf/terms#File")));
    (MkTriple (MkNode NIri ("http://spdx.org/spdxdocs/spdx-example-444504E0-4F89-41D3-9A0C-0305E82C3301#SPDXRef-File")) ("http://spdx.org/rdf/terms#fileName") (MkNode (NOther "LITERAL") ("./package/foo.c")));
    (MkTriple (MkNode NIri ("http://spdx.org/spdxdocs/spdx-example-444504E0-4F89-41D3-9A0C-0305E82C3301#SPDXRef-File")) ("http://spdx.org/rdf/terms#licenseComments") (MkNode (NOther "LITERAL") ("The concluded license was taken from the package level that the file was included in.")));
    (MkTriple (MkNode NIri ("http://spdx.org/spdxdocs/spdx-example-444504E0-4F89-41D3-9A0C-0305E82C3301#SPDXRef-File")) ("http://spdx.org/rdf/terms#annotation") (MkNode (NOther "BLANK") ("N24")));
    (MkTriple (MkNode (NOther "BLANK") ("N24")) ("http://www.w3.org/1999/02/22-rdf-syntax-ns#type") (MkNode NIri ("http://spdx.org/rdf/terms#Annotation")));
    (MkTriple (MkNode (NOther "BLANK") ("N24")) ("http://spdx.org/rdf/terms#annotationDate") (MkNode (NOther "LITERAL") ("2011-01-29T18:30:22Z")));
    (MkTriple (MkNode (NOther "BLANK") ("N24")) ("http://www.w3.org/2000/01/rdf-schema#comment") (MkNode (NOther "LITERAL") ("File level annotation")));
    (MkTriple (MkNode (NOther "BLANK") ("N24")) ("http://spdx.org/rdf/terms#annotator") (MkNode (NOther "LITERAL") ("Person: File Commenter")));
    (MkTriple (MkNode (NOther "BLANK") ("N24")) ("http://spdx.org/rdf/terms#annotationType") (MkNode (NOther "RESOURCELITERAL") ("http://spdx.org/rdf/terms#annotationType_other")));
    (MkTriple (MkNode NIri ("http://spdx.org/spdxdocs/spdx-example-444504E0-4F89-41D3-9A0C-0305E82C3301#SPDXRef-File")) ("http://spdx.org/rdf/terms#licenseInfoInFile") (MkNode (NOther "RESOURCELITERAL") ("http://spdx.org/spdxdocs/spdx-example-444504E0-4F89-41D3-9A0C-0305E82C3301#LicenseRef-2")));
    (MkTriple (MkNode NIri ("http://spdx.org/spdxdocs/spdx-example-444504E0-4F89-41D3-9A0C-0305E82C3301#SPDXRef-File")) ("http://spdx.org/rdf/terms#checksum") (MkNode (NOther "NODEIDLITERAL") ("A0")));
    (MkTriple (MkNode NIri ("http://spdx.org/spdxdocs/spdx-example-444504E0-4F89-41D3-9A0C-0305E82C3301#SPDXRef-File")) ("http://spdx.org/rdf/terms#licenseInfoInFile") (MkNode (NOther "RESOURCELITERAL") ("http://spdx.org/licenses/GPL-2.0-only")));
    (MkTriple (MkNode NIri ("http://spdx.org/spdxdocs/spdx-example-444504E0-4F89-41D3-9A0C-0305E82C3301#SPDXRef-File")) ("http://spdx.org/rdf/terms#copyrightText") (MkNode (NOther "LITERAL") ("Copyright 2008-2010 John Smith")));
    (MkTriple (MkNode NIri ("http://spdx.org/spdxdocs/spdx-example-444504E0-4F89-41D3-9A0C-0305E82C3301#SPDXRef-File")) ("http://spdx.org/rdf/terms#artifactOf") (MkNode NIri ("http://subversion.apache.org/doap.rdf")));
    (MkTriple (MkNode NIri ("http://subversion.apache.org/doap.rdf")) ("http://www.w3.org/1999/02/22-rdf-syntax-ns#type") (MkNode NIri ("http://usefulinc.com/ns/doap#Project")));
    (MkTriple (MkNode NIri ("http://subversion.apache.org/doap.rdf")) ("http://usefulinc.com/ns/doap#homepage") (MkNode (NOther "LITERAL") ("http://www.openjena.org/")));
    (MkTriple (MkNode NIri ("http://subversion.apache.org/doap.rdf")) ("http://usefulinc.com/ns/doap#name") (MkNode (NOther "LITERAL") ("Jena")));
    (MkTriple (MkNode NIri ("http://spdx.org/spdxdocs/spdx-example-444504E0-4F89-41D3-9A0C-0305E82C3301#SPDXRef-File")) ("http://spdx.org/rdf/terms#fileContributor") (MkNode (NOther "LITERAL") ("The Regents of the University of California")));
    (MkTriple (MkNode NIri ("http://spdx.org/spdxdocs/spdx-example-444504E0-4F89-41D3-9A0C-0305E82C3301#SPDXRef-File")) ("http://spdx.org/rdf/terms#noticeText") (MkNode (NOther "LITERAL") ("Copyright (c) 2001 Aaron Lehmann aaroni@vitelus.com

Permission is hereby granted, free of charge, to any person obtaining a copy of this software and associated documentation files (the �Software�), to deal in the Software without restriction, including without limitation the rights to use, copy, modify, merge, publish, distribute, sublicense, and/or sell copies of the Software, and to permit persons to whom the Software is furnished to do so, subject to the following conditions:
The above copyright notice and this permission notice shall be included in all copies or substantial portions of the Software.

THE SOFTWARE IS PROVIDED �AS IS', WITHOUT WARRANTY OF ANY KIND, EXPRESS OR IMPLIED, INCLUDING BUT NOT LIMITED TO THE WARRANTIES OF MERCHANTABILITY, FITNESS FOR A PARTICULAR PURPOSE AND NONINFRINGEMENT.  IN NO EVENT SHALL THE AUTHORS OR COPYRIGHT HOLDERS BE LIABLE FOR ANY CLAIM, DAMAGES OR OTHER LIABILITY, WHETHER IN AN ACTION OF CONTRACT, TORT OR OTHERWISE, ARISING FROM, OUT OF OR IN CONNECTION WITH THE SOFTWARE OR THE USE OR OTHER DEALINGS IN THE SOFTWARE.")));
    (MkTriple (MkNode NIri ("http://spdx.org/spdxdocs/spdx-example-444504E0-4F89-41D3-9A0C-0305E82C3301#SPDXRef-File")) ("http://spdx.org/rdf/terms#fileContributor") (MkNode (NOther "LITERAL") ("Modified by Paul Mundt lethal@linux-sh.org")));
    (MkTriple (MkNode NIri ("http://spdx.org/spdxdocs/spdx-example-444504E0-4F89-41D3-9A0C-0305E82C3301#SPDXRef-File")) ("http://spdx.org/rdf/terms#fileContributor") (MkNode (NOther "LITERAL") ("IBM Corporation")));
    (MkTriple (MkNode NIri ("http://spdx.org/spdxdocs/spdx-example-444504E0-4F89-41D3-9A0C-0305E82C3301#SPDXRef-File")) ("http://spdx.org/rdf/terms#fileType") (MkNode (NOther "RESOURCELITERAL") ("http://spdx.org/rdf/terms#fileType_source")));
    (MkTriple (MkNode NIri ("http://spdx.org/spdxdocs/spdx-example-444504E0-4F89-41D3-9A0C-0305E82C3301#SPDXRef-File")) ("http://spdx.org/rdf/terms#licenseConcluded") (MkNode (NOther "BLANK") ("N25")));
    (MkTriple (MkNode (NOther "BLANK") ("N25")) ("http://www.w3.org/1999/02/22-rdf-syntax-ns#type") (MkNode NIri ("http://spdx.org/rdf/terms#DisjunctiveLicenseSet")));
    (MkTriple (MkNode (NOther "BLANK") ("N25")) ("http://spdx.org/rdf/terms#member") (MkNode (NOther "RESOURCELITERAL") ("http://spdx.org/spdxdocs/spdx-example-444504E0-4F89-41D3-9A0C-0305E82C3301#LicenseRef-2")));
    (MkTriple (MkNode (NOther "BLANK") ("N25")) ("http://spdx.org/rdf/terms#member") (MkNode (NOther "RESOURCELITERAL") ("http://spdx.org/licenses/LGPL-2.0-only")));
    (MkTriple (MkNode NIri ("http://spdx.org/spdxdocs/spdx-example-444504E0-4F89-41D3-9A0C-0305E82C3301#SPDXRef-File")) ("http://spdx.org/rdf/terms#checksum") (MkNode (NOther "BLANK") ("N26")));
    (MkTriple (MkNode (NOther "BLANK") ("N26")) ("http://www.w3.org/1999/02/22-rdf-syntax-ns#type") (MkNode NIri ("http://spdx.org/rdf/terms#Checksum")));
    (MkTriple (MkNode (NOther "BLANK") ("N26")) ("http://spdx.org/rdf/terms#checksumValue") (MkNode (NOther "LITERAL") ("d6a770ba38583ed4bb4525bd96e50461655d2758")));
    (MkTriple (MkNode (NOther "BLANK") ("N26")) ("http://spdx.org/rdf/terms#algorithm") (MkNode (NOther "RESOURCELITERAL") ("http://spdx.org/rdf/terms#checksumAlgorithm_sha1")));
    (MkTriple (MkNode NIri ("http://spdx.org/spdxdocs/spdx-example-444504E0-4F89-41D3-9A0C-0305E82C3301#SPDXRef-File")) ("http://www.w3.org/2000/01/rdf-schema#comment") (MkNode (NOther "LITERAL") ("The concluded license was taken from the package level that the file was included in.
This information was found in the COPYING.txt file in the xyz directory.")));
    (MkTriple (MkNode NIri ("http://spdx.org/spdxdocs/spdx-example-444504E0-4F89-41D3-9A0C-0305E82C3301#SPDXRef-DOCUMENT")) ("http://spdx.org/rdf/terms#dataLicense") (MkNode NIri ("http://spdx.org/licenses/CC0-1.0")));
    (MkTriple (MkNode NIri ("http://spdx.org/licenses/CC0-1.0")) ("http://www.w3.org/1999/02/22-rdf-syntax-ns#type") (MkNode NIri ("http://spdx.org/rdf/terms#License")));
    (MkTriple (MkNode NIri ("http://spdx.org/licenses/CC0-1.0")) ("http://spdx.org/rdf/terms#standardLicenseTemplate") (MkNode (NOther "LITERAL") ("<<beginOptional>> <<beginOptional>> Creative Commons<<beginOptional>> Legal Code<<endOptional>><<endOptional>>

CC0 1.0 Universal<<endOptional>><<beginOptional>> CREATIVE COMMONS CORPORATION IS NOT A LAW FIRM AND DOES NOT PROVIDE LEGAL SERVICES. DISTRIBUTION OF THIS DOCUMENT DOES NOT CREATE AN ATTORNEY-CLIENT RELATIONSHIP. CREATIVE COMMONS PROVIDES THIS INFORMATION ON AN ""AS-IS"" BASIS. CREATIVE COMMONS MAKES NO WARRANTIES REGARDING THE USE OF THIS DOCUMENT OR THE INFORMATION OR WORKS PROVIDED HEREUNDER, AND DISCLAIMS LIABILITY FOR DAMAGES RESULTING FROM THE USE OF THIS DOCUMENT OR THE INFORMATION OR WORKS PROVIDED HEREUNDER.<<endOptional>>

Statement of Purpose

The laws of most jurisdictions throughout the world automatically confer exclusive Copyright and Related Rights (defined below) upon the creator and subsequent owner(s) (each and all, an ""owner"") of an original work of authorship and/or a database (each, a ""Work"").

Certain owners wish to permanently relinquish those rights to a Work for the purpose of contributing to a commons of creative, cultural and scientific works (""Commons"") that the public can reliably and without fear of later claims of infringement build upon, modify, incorporate in other works, reuse and redistribute as freely as possible in any form whatsoever and for any purposes, including without limitation commercial purposes. These owners may contribute to the Commons to promote the ideal of a free culture and the further production of creative, cultural and scientific works, or to gain reputation or greater distribution for their Work in part through the use and efforts of others.

For these and/or other purposes and motivations, and without any expectation of additional consideration or compensation, the person associating CC0 with a Work (the ""Affirmer""), to the extent that he or she is an owner of Copyright and Related Rights in the Work, voluntarily elects to apply CC0 to the Work and publicly distribute the Work under its terms, with knowledge of his or her Copyright and Related Rights in the Work and the meaning and intended legal effect of CC0 on those rights.

   <<var;name=""bullet"";original=""1."";match="".{0,20}"">> Copyright and Related Rights. A Work made available under CC0 may be protected by copyright and related or neighboring rights (""Copyright and Related Rights""). Copyright and Related Rights include, but are not limited to, the following:

      <<var;name=""bullet"";original=""i."";match="".{0,20}"">> the right to reproduce, adapt, distribute, perform, display, communicate, and translate a Work;

      <<var;name=""bullet"";original=""ii."";match="".{0,20}"">> moral rights retained by the original author(s) and/or performer(s);

      <<var;name=""bullet"";original=""iii."";match="".{0,20}"">> publicity and privacy rights pertaining to a person's image or likeness depicted in a Work;

      <<var;name=""bullet"";original=""iv."";match="".{0,20}"">> rights protecting against unfair competition in regards to a Work, subject to the limitations in paragraph 4(a), below;

      <<var;name=""bullet"";original=""v."";match="".{0,20}"">> rights protecting the extraction, dissemination, use and reuse of data in a Work;

      <<var;name=""bullet"";original=""vi."";match="".{0,20}"">> database rights (such as those arising under Directive 96/9/EC of the European Parliament and of the Council of 11 March 1996 on the legal protection of databases, and under any national implementation thereof, including any amended or successor version of such directive); and

      <<var;name=""bullet"";original=""vii."";match="".{0,20}"">> other similar, equivalent or corresponding rights throughout the world based on applicable law or treaty, and any national implementations thereof.

   <<var;name=""bullet"";original=""2."";match="".{0,20}"">> Waiver. To the greatest extent permitted by, but not in contravention of, applicable law, Affirmer hereby overtly, fully, permanently, irrevocably and unconditionally waives, abandons, and surrenders all of Affirmer's Copyright and Related Rights and associated claims and causes of action, whether now known or unknown (including existing as well as future claims and causes of action), in the Work (i) in all territories worldwide, (ii) for the maximum duration provided by applicable law or treaty (including future time extensions), (iii) in any current or future medium and for any number of copies, and (iv) for any purpose whatsoever, including without limitation commercial, advertising or promotional purposes (the ""Waiver""). Affirmer makes the Waiver for the benefit of each member of the public at large and to the detriment of Affirmer's heirs and successors, fully intending that such Waiver shall not be subject to revocation, rescission, cancellation, termination, or any other legal or equitable action to disrupt the quiet enjoyment of the Work by the public as contemplated by Affirmer's express Statement of Purpose.

   <<var;name=""bullet"";original=""3."";match="".{0,20}"">> Public License Fallback. Should any part of the Waiver for any reason be judged legally invalid or ineffective under applicable law, then the Waiver shall be preserved to the maximum extent permitted taking into account Affirmer's express Statement of Purpose. In addition, to the extent the Waiver is so judged Affirmer hereby grants to each affected person a royalty-free, non transferable, non sublicensable, non exclusive, irrevocable and unconditional license to exercise Affirmer's Copyright and Related Rights in the Work (i) in all territories worldwide, (ii) for the maximum duration provided by applicable law or treaty (including future time extensions), (iii) in any current or future medium and for any number of copies, and (iv) for any purpose whatsoever, including without limitation commercial, advertising or promotional purposes (the ""License""). The License shall be deemed effective as of the date CC0 was applied by Affirmer to the Work. Should any part of the License for any reason be judged legally invalid or ineffective under applicable law, such partial invalidity or ineffectiveness shall not invalidate the remainder of the License, and in such case Affirmer hereby affirms that he or she will not (i) exercise any of his or her remaining Copyright and Related Rights in the Work or (ii) assert any associated claims and causes of action with respect to the Work, in either case contrary to Affirmer's express Statement of Purpose.

   <<var;name=""bullet"";original=""4."";match="".{0,20}"">> Limitations and Disclaimers.

      <<var;name=""bullet"";original=""a."";match="".{0,20}"">> No trademark or patent rights held by Affirmer are waived, abandoned, surrendered, licensed or otherwise affected by this document.

      <<var;name=""bullet"";original=""b."";match="".{0,20}"">> Affirmer offers the Work as-is and makes no representations or warranties of any kind concerning the Work, express, implied, statutory or otherwise, including without limitation warranties of title, merchantability, fitness for a particular purpose, non infringement, or the absence of latent or other defects, accuracy, or the present or absence of errors, whether or not discoverable, all to the greatest extent permissible under applicable law.

      <<var;name=""bullet"";original=""c."";match="".{0,20}"">> Affirmer disclaims responsibility for clearing rights of other persons that may apply to the Work or any use thereof, including without limitation any person's Copyright and Related Rights in the Work. Further, Affirmer disclaims responsibility for obtaining any necessary consents, permissions or other rights required for any use of the Work.

      <<var;name=""bullet"";original=""d."";match="".{0,20}"">> Affirmer understands and acknowledges that Creative Commons is not a party to this document and has no duty or obligation with respect to this CC0 or use of the Work.<<beginOptional>> <<var;name=""upstreamLink"";original="""";match=""For more information, please see <http://creativecommons.org/publicdomain/zero/1.0/>"">><<endOptional>>")));
    (MkTriple (MkNode NIri ("http://spdx.org/licenses/CC0-1.0")) ("http://spdx.org/rdf/terms#licenseText") (MkNode (NOther "LITERAL") ("Creative Commons Legal Code CC0 1.0 Universal CREATIVE COMMONS CORPORATION IS NOT A LAW FIRM AND DOES NOT PROVIDE LEGAL SERVICES. DISTRIBUTION OF THIS DOCUMENT DOES NOT CREATE AN ATTORNEY-CLIENT RELATIONSHIP. CREATIVE COMMONS PROVIDES THIS INFORMATION ON AN ""AS-IS"" BASIS. CREATIVE COMMONS MAKES NO WARRANTIES REGARDING THE USE OF THIS DOCUMENT OR THE INFORMATION OR WORKS PROVIDED HEREUNDER, AND DISCLAIMS LIABILITY FOR DAMAGES RESULTING FROM THE USE OF THIS DOCUMENT OR THE INFORMATION OR WORKS PROVIDED HEREUNDER. Statement of Purpose The laws of most jurisdictions throughout the world automatically confer exclusive Copyright and Related Rights (defined below) upon the creator and subsequent owner(s) (each and all, an ""owner"") of an original work of authorship and/or a database (each, a ""Work""). Certain owners wish to permanently relinquish those rights to a Work for the purpose of contributing to a commons of creative, cultural and scientific works (""Commons"") that the public can reliably and without fear of later claims of infringement build upon, modify, incorporate in other works, reuse and redistribute as freely as possible in any form whatsoever and for any purposes, including without limitation commercial purposes. These owners may contribute to the Commons to promote the ideal of a free culture and the further production of creative, cultural and scientific works, or to gain reputation or greater distribution for their Work in part through the use and efforts of others. For these and/or other purposes and motivations, and without any expectation of additional consideration or compensation, the person associating CC0 with a Work (the ""Affirmer""), to the extent that he or she is an owner of Copyright and Related Rights in the Work, voluntarily elects to apply CC0 to the Work and publicly distribute the Work under its terms, with knowledge of his or her Copyright and Related Rights in the Work and the meaning and intended legal effect of CC0 on those rights. 1. Copyright and Related Rights. A Work made available under CC0 may be protected by copyright and related or neighboring rights (""Copyright and Related Rights""). Copyright and Related Rights include, but are not limited to, the following: i. the right to reproduce, adapt, distribute, perform, display, communicate, and translate a Work; ii. moral rights retained by the original author(s) and/or performer(s); iii. publicity and privacy rights pertaining to a person's image or likeness depicted in a Work; iv. rights protecting against unfair competition in regards to a Work, subject to the limitations in paragraph 4(a), below; v. rights protecting the extraction, dissemination, use and reuse of data in a Work; vi. database rights (such as those arising under Directive 96/9/EC of the European Parliament and of the Council of 11 March 1996 on the legal protection of databases, and under any national implementation thereof, including any amended or successor version of such directive); and vii. other similar, equivalent or corresponding rights throughout the world based on applicable law or treaty, and any national implementations thereof. 2. Waiver. To the greatest extent permitted by, but not in contravention of, applicable law, Affirmer hereby overtly, fully, permanently, irrevocably and unconditionally waives, abandons, and surrenders all of Affirmer's Copyright and Related Rights and associated claims and causes of action, whether now known or unknown (including existing as well as future claims and causes of action), in the Work (i) in all territories worldwide, (ii) for the maximum duration provided by applicable law or treaty (including future time extensions), (iii) in any current or future medium and for any number of copies, and (iv) for any purpose whatsoever, including without limitation commercial, advertising or promotional purposes (the ""Waiver""). Affirmer makes the Waiver for the benefit of each member of the public at large and to the detriment of Affirmer's heirs and successors, fully intending that such Waiver shall not be subject to revocation, rescission, cancellation, termination, or any other legal or equitable action to disrupt the quiet enjoyment of the Work by the public as contemplated by Affirmer's express Statement of Purpose. 3. Public License Fallback. Should any part of the Waiver for any reason be judged legally invalid or ineffective under applicable law, then the Waiver shall be preserved to the maximum extent permitted taking into account Affirmer's express Statement of Purpose. In addition, to the extent the Waiver is so judged Affirmer hereby grants to each affected person a royalty-free, non transferable, non sublicensable, non exclusive, irrevocable and unconditional license to exercise Affirmer's Copyright and Related Rights in the Work (i) in all territories worldwide, (ii) for the maximum duration provided by applicable law or treaty (including future time extensions), (iii) in any current or future medium and for any number of copies, and (iv) for any purpose whatsoever, including without limitation commercial, advertising or promotional purposes (the ""License""). The License shall be deemed effective as of the date CC0 was applied by Affirmer to the Work. Should any part of the License for any reason be judged legally invalid or ineffective under applicable law, such partial invalidity or ineffectiveness shall not invalidate the remainder of the License, and in such case Affirmer hereby affirms that he or she will not (i) exercise any of his or her remaining Copyright and Related Rights in the Work or (ii) assert any associated claims and causes of action with respect to the Work, in either case contrary to Affirmer's express Statement of Purpose. 4. Limitations and Disclaimers. a. No trademark or patent rights held by Affirmer are waived, abandoned, surrendered, licensed or otherwise affected by this document. b. Affirmer offers the Work as-is and makes no representations or warranties of any kind concerning the Work, express, implied, statutory or otherwise, including without limitation warranties of title, merchantability, fitness for a particular purpose, non infringement, or the absence of latent or other defects, accuracy, or the present or absence of errors, whether or not discoverable, all to the greatest extent permissible under applicable law. c. Affirmer disclaims responsibility for clearing rights of other persons that may apply to the Work or any use thereof, including without limitation any person's Copyright and Related Rights in the Work. Further, Affirmer disclaims responsibility for obtaining any necessary consents, permissions or other rights required for any use of the Work. d. Affirmer understands and acknowledges that Creative Commons is not a party to this document and has no duty or obligation with respect to this CC0 or use of the Work.")));
    (MkTriple (MkNode NIri ("http://spdx.org/licenses/CC0-1.0")) ("http://www.w3.org/2000/01/rdf-schema#seeAlso") (MkNode (NOther "LITERAL") ("https://creativecommons.org/publicdomain/zero/1.0/legalcode")));
    (MkTriple (MkNode NIri ("http://spdx.org/licenses/CC0-1.0")) ("http://spdx.org/rdf/terms#name") (MkNode (NOther "LITERAL") ("Creative Commons Zero v1.0 Universal")));
    (MkTriple (MkNode NIri ("http://spdx.org/licenses/CC0-1.0")) ("http://spdx.org/rdf/terms#licenseId") (MkNode (NOther "LITERAL") ("CC0-1.0")));
    (MkTriple (MkNode NIri ("http://spdx.org/licenses/CC0-1.0")) ("http://spdx.org/rdf/terms#isFsfLibre") (MkNode (NOther "LITERAL") ("true")));
    (MkTriple (MkNode NIri ("http://spdx.org/spdxdocs/spdx-example-444504E0-4F89-41D3-9A0C-0305E82C3301#SPDXRef-DOCUMENT")) ("http://spdx.org/rdf/terms#hasExtractedLicensingInfo") (MkNode (NOther "RESOURCELITERAL") ("http://spdx.org/spdxdocs/spdx-example-444504E0-4F89-41D3-9A0C-0305E82C3301#LicenseRef-3")));
    (MkTriple (MkNode NIri ("http://spdx.org/spdxdocs/spdx-example-444504E0-4F89-41D3-9A0C-0305E82C3301#SPDXRef-DOCUMENT")) ("http://spdx.org/rdf/terms#hasExtractedLicensingInfo") (MkNode NIri ("http://spdx.org/spdxdocs/spdx-example-444504E0-4F89-41D3-9A0C-0305E82C3301#LicenseRef-Beerware-4.2")));
    (MkTriple (MkNode NIri ("http://spdx.org/spdxdocs/spdx-example-444504E0-4F89-41D3-9A0C-0305E82C3301#LicenseRef-Beerware-4.2")) ("http://www.w3.org/1999/02/22-rdf-syntax-ns#type") (MkNode NIri ("http://spdx.org/rdf/terms#ExtractedLicensingInfo")));
    (MkTriple (MkNode NIri ("http://spdx.org/spdxdocs/spdx-example-444504E0-4F89-41D3-9A0C-0305E82C3301#LicenseRef-Beerware-4.2")) ("http://spdx.org/rdf/terms#extractedText") (MkNode (NOther "LITERAL") ("""THE BEER-WARE LICENSE"" (Revision 42):
phk@FreeBSD.ORG wrote this file. As long as you retain this notice you
can do whatever you want with this stuff. If we meet some day, and you think this stuff is worth it, you can buy me a beer in return Poul-Henning Kamp  </
LicenseName: Beer-Ware License (Version 42)
LicenseCrossReference:  http://people.freebsd.org/~phk/
LicenseComment:
The beerware license has a couple of other standard variants.")));
    (MkTriple (MkNode NIri ("http://spdx.org/spdxdocs/spdx-example-444504E0-4F89-41D3-9A0C-0305E82C3301#LicenseRef-Beerware-4.2")) ("http://spdx.org/rdf/terms#licenseId") (MkNode (NOther "LITERAL") ("LicenseRef-Beerware-4.2")));
    (MkTriple (MkNode NIri ("http://spdx.org/spdxdocs/spdx-example-444504E0-4F89-41D3-9A0C-0305E82C3301#SPDXRef-DOCUMENT")) ("http://spdx.org/rdf/terms#hasExtractedLicensingInfo") (MkNode NIri ("http://spdx.org/spdxdocs/spdx-example-444504E0-4F89-41D3-9A0C-0305E82C3301#LicenseRef-4")));
    (MkTriple (MkNode NIri ("http://spdx.org/spdxdocs/spdx-example-444504E0-4F89-41D3-9A0C-0305E82C3301#LicenseRef-4")) ("http://www.w3.org/1999/02/22-rdf-syntax-ns#type") (MkNode NIri ("http://spdx.org/rdf/terms#ExtractedLicensingInfo")));
    (MkTriple (MkNode NIri ("http://spdx.org/spdxdocs/spdx-example-444504E0-4F89-41D3-9A0C-0305E82C3301#LicenseRef-4")) ("http://spdx.org/rdf/terms#extractedText") (MkNode (NOther "LITERAL") ("/*
 * (c) Copyright 2009 University of Bristol
 * All rights reserved.
 *
 * Redistribution and use in source and binary forms, with or without
 * modification, are permitted provided that the following conditions
 * are met:
 * 1. Redistributions of source code must retain the above copyright
 *    notice, this list of conditions and the following disclaimer.
 * 2. Redistributions in binary form must reproduce the above copyright
 *    notice, this list of conditions and the following disclaimer in the
 *    documentation and/or other materials provided with the distribution.
 * 3. The name of the author may not be used to endorse or promote products
 *    derived from this software without specific prior written permission.
 *
 * THIS SOFTWARE IS PROVIDED BY THE AUTHOR ``AS IS'' AND ANY EXPRESS OR
 * IMPLIED WARRANTIES, INCLUDING, BUT NOT LIMITED TO, THE IMPLIED WARRANTIES
 * OF MERCHANTABILITY AND FITNESS FOR A PARTICULAR PURPOSE ARE DISCLAIMED.
 * IN NO EVENT SHALL THE AUTHOR BE LIABLE FOR ANY DIRECT, INDIRECT,
 * INCIDENTAL, SPECIAL, EXEMPLARY, OR CONSEQUENTIAL DAMAGES (INCLUDING, BUT
 * NOT LIMITED TO, PROCUREMENT OF SUBSTITUTE GOODS OR SERVICES; LOSS OF USE,
 * DATA, OR PROFITS; OR BUSINESS INTERRUPTION) HOWEVER CAUSED AND ON ANY
 * THEORY OF LIABILITY, WHETHER IN CONTRACT, STRICT LIABILITY, OR TORT
 * (INCLUDING NEGLIGENCE OR OTHERWISE) ARISING IN ANY WAY OUT OF THE USE OF
 * THIS SOFTWARE, EVEN IF ADVISED OF THE POSSIBILITY OF SUCH DAMAGE.
*/")));
    (MkTriple (MkNode NIri ("http://spdx.org/spdxdocs/spdx-example-444504E0-4F89-41D3-9A0C-0305E82C3301#LicenseRef-4")) ("http://spdx.org/rdf/terms#licenseId") (MkNode (NOther "LITERAL") ("LicenseRef-4")));
    (MkTriple (MkNode NIri ("http://spdx.org/spdxdocs/spdx-example-444504E0-4F89-41D3-9A0C-0305E82C3301#SPDXRef-DOCUMENT")) ("http://spdx.org/rdf/terms#reviewed") (MkNode (NOther "BLANK") ("N27")));
    (MkTriple (MkNode (NOther "BLANK") ("N27")) ("http://www.w3.org/1999/02/22-rdf-syntax-ns#type") (MkNode NIri ("http://spdx.org/rdf/terms#Review")));
    (MkTriple (MkNode (NOther "BLANK") ("N27")) ("http://www.w3.org/2000/01/rdf-schema#comment") (MkNode (NOther "LITERAL") ("Another example reviewer.")));
    (MkTriple (MkNode (NOther "BLANK") ("N27")) ("http://spdx.org/rdf/terms#reviewDate") (MkNode (NOther "LITERAL") ("2011-03-13T00:00:00Z")));
    (MkTriple (MkNode (NOther "BLANK") ("N27")) ("http://spdx.org/rdf/terms#reviewer") (MkNode (NOther "LITERAL") ("Person: Suzanne Reviewer")));
    (MkTriple (MkNode NIri ("http://spdx.org/spdxdocs/spdx-example-444504E0-4F89-41D3-9A0C-0305E82C3301#SPDXRef-DOCUMENT")) ("http://spdx.org/rdf/terms#hasExtractedLicensingInfo") (MkNode (NOther "RESOURCELITERAL") ("http://spdx.org/spdxdocs/spdx-example-444504E0-4F89-41D3-9A0C-0305E82C3301#LicenseRef-2")));
    (MkTriple (MkNode NIri ("http://spdx.org/spdxdocs/spdx-example-444504E0-4F89-41D3-9A0C-0305E82C3301#SPDXRef-DOCUMENT")) ("http://www.w3.org/2000/01/rdf-schema#comment") (MkNode (NOther "LITERAL") ("This document was created using SPDX 2.0 using licenses from the web site.")));
    (MkTriple (MkNode NIri ("http://spdx.org/spdxdocs/spdx-example-444504E0-4F89-41D3-9A0C-0305E82C3301#SPDXRef-DOCUMENT")) ("http://spdx.org/rdf/terms#relationship") (MkNode (NOther "BLANK") ("N28")));
    (MkTriple (MkNode (NOther "BLANK") ("N28")) ("http://www.w3.org/1999/02/22-rdf-syntax-ns#type") (MkNode NIri ("http://spdx.org/rdf/terms#Relationship")));
    (MkTriple (MkNode (NOther "BLANK") ("N28")) ("http://spdx.org/rdf/terms#relationshipType") (MkNode (NOther "RESOURCELITERAL") ("http://spdx.org/rdf/terms#relationshipType_contains")));
    (MkTriple (MkNode (NOther "BLANK") ("N28")) ("http://spdx.org/rdf/terms#relatedSpdxElement") (MkNode (NOther "RESOURCELITERAL") ("http://spdx.org/spdxdocs/spdx-example-444504E0-4F89-41D3-9A0C-0305E82C3301#SPDXRef-Package")));
    (MkTriple (MkNode NIri ("http://spdx.org/spdxdocs/spdx-example-444504E0-4F89-41D3-9A0C-0305E82C3301#SPDXRef-DOCUMENT")) ("http://spdx.org/rdf/terms#externalDocumentRef") (MkNode (NOther "BLANK") ("N29")));
    (MkTriple (MkNode (NOther "BLANK") ("N29")) ("http://www.w3.org/1999/02/22-rdf-syntax-ns#type") (MkNode NIri ("http://spdx.org/rdf/terms#ExternalDocumentRef")));
    (MkTriple (MkNode (NOther "BLANK") ("N29")) ("http://spdx.org/rdf/terms#externalDocumentId") (MkNode (NOther "LITERAL") ("DocumentRef-spdx-tool-1.2")));
    (MkTriple (MkNode (NOther "BLANK") ("N29")) ("http://spdx.org/rdf/terms#checksum") (MkNode (NOther "BLANK") ("N30")));
    (MkTriple (MkNode (NOther "BLANK") ("N30")) ("http://www.w3.org/1999/02/22-rdf-syntax-ns#type") (MkNode NIri ("http://spdx.org/rdf/terms#Checksum")));
    (MkTriple (MkNode (NOther "BLANK") ("N30")) ("http://spdx.org/rdf/terms#checksumValue") (MkNode (NOther "LITERAL") ("d6a770ba38583ed4bb4525bd96e50461655d2759")));
    (MkTriple (MkNode (NOther "BLANK") ("N30")) ("http://spdx.org/rdf/terms#algorithm") (MkNode (NOther "RESOURCELITERAL") ("http://spdx.org/rdf/terms#checksumAlgorithm_sha1")));
    (MkTriple (MkNode (NOther "BLANK") ("N29")) ("http://spdx.org/rdf/terms#spdxDocument") (MkNode (NOther "RESOURCELITERAL") ("http://spdx.org/spdxdocs/spdx-tools-v1.2-3F2504E0-4F89-41D3-9A0C-0305E82C3301")));
    (MkTriple (MkNode NIri ("http://spdx.org/spdxdocs/spdx-example-444504E0-4F89-41D3-9A0C-0305E82C3301#SPDXRef-DOCUMENT")) ("http://spdx.org/rdf/terms#relationship") (MkNode (NOther "BLANK") ("N31")));
    (MkTriple (MkNode (NOther "BLANK") ("N31")) ("http://www.w3.org/1999/02/22-rdf-syntax-ns#type") (MkNode NIri ("http://spdx.org/rdf/terms#Relationship")));
    (MkTriple (MkNode (NOther "BLANK") ("N31")) ("http://spdx.org/rdf/terms#relationshipType") (MkNode (NOther "RESOURCELITERAL") ("http://spdx.org/rdf/terms#relationshipType_describes")));
    (MkTriple (MkNode (NOther "BLANK") ("N31")) ("http://spdx.org/rdf/terms#relatedSpdxElement") (MkNode (NOther "RESOURCELITERAL") ("http://spdx.org/spdxdocs/spdx-example-444504E0-4F89-41D3-9A0C-0305E82C3301#SPDXRef-Package")));
    (MkTriple (MkNode NIri ("http://spdx.org/spdxdocs/spdx-example-444504E0-4F89-41D3-9A0C-0305E82C3301#SPDXRef-DOCUMENT")) ("http://spdx.org/rdf/terms#relationship") (MkNode (NOther "BLANK") ("N32")));
    (MkTriple (MkNode (NOther "BLANK") ("N32")) ("http://www.w3.org/1999/02/22-rdf-syntax-ns#type") (MkNode NIri ("http://spdx.org/rdf/terms#Relationship")));
    (MkTriple (MkNode (NOther "BLANK") ("N32")) ("http://spdx.org/rdf/terms#relationshipType") (MkNode (NOther "RESOURCELITERAL") ("http://spdx.org/rdf/terms#relationshipType_copyOf")));
    (MkTriple (MkNode (NOther "BLANK") ("N32")) ("http://spdx.org/rdf/terms#relatedSpdxElement") (MkNode NIri ("http://spdx.org/spdxdocs/spdx-tools-v1.2-3F2504E0-4F89-41D3-9A0C-0305E82C3301#SPDXRef-ToolsElement")));
    (MkTriple (MkNode NIri ("http://spdx.org/spdxdocs/spdx-tools-v1.2-3F2504E0-4F89-41D3-9A0C-0305E82C3301#SPDXRef-ToolsElement")) ("http://www.w3.org/1999/02/22-rdf-syntax-ns#type") (MkNode NIri ("http://spdx.org/rdf/terms#SpdxElement")));
    (MkTriple (MkNode NIri ("http://spdx.org/spdxdocs/spdx-example-444504E0-4F89-41D3-9A0C-0305E82C3301#SPDXRef-DOCUMENT")) ("http://spdx.org/rdf/terms#annotation") (MkNode (NOther "BLANK") ("N33")));
    (MkTriple (MkNode (NOther "BLANK") ("N33")) ("http://www.w3.org/1999/02/22-rdf-syntax-ns#type") (MkNode NIri ("http://spdx.org/rdf/terms#Annotation")));
    (MkTriple (MkNode (NOther "BLANK") ("N33")) ("http://spdx.org/rdf/terms#annotationDate") (MkNode (NOther "LITERAL") ("2010-01-29T18:30:22Z")));
    (MkTriple (MkNode (NOther "BLANK") ("N33")) ("http://www.w3.org/2000/01/rdf-schema#comment") (MkNode (NOther "LITERAL") ("Document level annotation")));
    (MkTriple (MkNode (NOther "BLANK") ("N33")) ("http://spdx.org/rdf/terms#annotator") (MkNode (NOther "LITERAL") ("Person: Jane Doe ()")));
    (MkTriple (MkNode (NOther "BLANK") ("N33")) ("http://spdx.org/rdf/terms#annotationType") (MkNode (NOther "RESOURCELITERAL") ("http://spdx.org/rdf/terms#annotationType_other")));
    (MkTriple (MkNode NIri ("http://spdx.org/spdxdocs/spdx-example-444504E0-4F89-41D3-9A0C-0305E82C3301#SPDXRef-DOCUMENT")) ("http://spdx.org/rdf/terms#name") (MkNode (NOther "LITERAL") ("SPDX-Tools-v2.0")));
    (MkTriple (MkNode NIri ("http://spdx.org/spdxdocs/spdx-example-444504E0-4F89-41D3-9A0C-0305E82C3301#SPDXRef-DOCUMENT")) ("http://spdx.org/rdf/terms#creationInfo") (MkNode (NOther "BLANK") ("N34")));
    (MkTriple (MkNode (NOther "BLANK") ("N34")) ("http://www.w3.org/1999/02/22-rdf-syntax-ns#type") (MkNode NIri ("http://spdx.org/rdf/terms#CreationInfo")));
    (MkTriple (MkNode (NOther "BLANK") ("N34")) ("http://spdx.org/rdf/terms#licenseListVersion") (MkNode (NOther "LITERAL") ("1.19")));
    (MkTriple (MkNode (NOther "BLANK") ("N34")) ("http://spdx.org/rdf/terms#created") (MkNode (NOther "LITERAL") ("2010-01-29T18:30:22Z")));
    (MkTriple (MkNode (NOther "BLANK") ("N34")) ("http://spdx.org/rdf/terms#creator") (MkNode (NOther "LITERAL") ("Organization: ExampleCodeInspect ()")));
    (MkTriple (MkNode (NOther "BLANK") ("N34")) ("http://spdx.org/rdf/terms#creator") (MkNode (NOther "LITERAL") ("Tool: LicenseFind-1.0")));
    (MkTriple (MkNode (NOther "BLANK") ("N34")) ("http://www.w3.org/2000/01/rdf-schema#comment") (MkNode (NOther "LITERAL") ("This package has been shipped in source and binary form.
The binaries were created with gcc 4.5.1 and expect to link to
compatible system run time libraries.")));
    (MkTriple (MkNode (NOther "BLANK") ("N34")) ("http://spdx.org/rdf/terms#creator") (MkNode (NOther "LITERAL") ("Person: Jane Doe ()")));
    (MkTriple (MkNode NIri ("http://spdx.org/spdxdocs/spdx-example-444504E0-4F89-41D3-9A0C-0305E82C3301#SPDXRef-DOCUMENT")) ("http://spdx.org/rdf/terms#reviewed") (MkNode (NOther "BLANK") ("N35")));
    (MkTriple (MkNode (NOther "BLANK") ("N35")) ("http://www.w3.org/1999/02/22-rdf-syntax-ns#type") (MkNode NIri ("http://spdx.org/rdf/terms#Review")));
    (MkTriple (MkNode (NOther "BLANK") ("N35")) ("http://www.w3.org/2000/01/rdf-schema#comment") (MkNode (NOther "LITERAL") ("This is just an example.  Some of the non-standard licenses look like they are actually BSD 3 clause licenses")));
    (MkTriple (MkNode (NOther "BLANK") ("N35")) ("http://spdx.org/rdf/terms#reviewDate") (MkNode (NOther "LITERAL") ("2010-02-10T00:00:00Z")));
    (MkTriple (MkNode (NOther "BLANK") ("N35")) ("http://spdx.org/rdf/terms#reviewer") (MkNode (NOther "LITERAL") ("Person: Joe Reviewer")));
    (MkTriple (MkNode NIri ("http://spdx.org/spdxdocs/spdx-example-444504E0-4F89-41D3-9A0C-0305E82C3301#SPDXRef-DOCUMENT")) ("http://spdx.org/rdf/terms#hasExtractedLicensingInfo") (MkNode (NOther "RESOURCELITERAL") ("http://spdx.org/spdxdocs/spdx-example-444504E0-4F89-41D3-9A0C-0305E82C3301#LicenseRef-1")))] [(MkNode NIri ("http://spdx.org/spdxdocs/spdx-example-444504E0-4F89-41D3-9A0C-0305E82C3301#SPDXRef-Snippet")); (MkNode (NOther "BLANK") ("N22")); (MkNode NIri ("http://spdx.org/spdxdocs/spdx-example-444504E0-4F89-41D3-9A0C-0305E82C3301#SPDXRef-DOCUMENT"))] test_uri.
(** /repo/rdf/reader_test.go 15-30: the sample document is read; and what of it is found
    at the document. *)
Example sample_is_read :
  match rdf_read sample (fun l => l) with
  | Ok (v, d) =>
      Some (v, d_DocumentName d, d_SPDXVersion d, map p_PackageName (d_Packages d), map f_FileName (d_Files d),
        map (fun p => List.length (p_Files p)) (d_Packages d),
        (List.length (d_Annotations d), List.length (d_OtherLicenses d), List.length (d_Reviews d),
         List.length (d_ExternalDocumentReferences d)),
        map (fun r => (de_ElementRefID (r_RefA r), r_Relationship r, de_ElementRefID (r_RefB r))) (d_Relationships d))
  | _ => None
  end
  = Some (V22, "SPDX-Tools-v2.0", "SPDX-2.2", ["Saxon"; "glibc"], ["./package/foo.c"], [0; 3],
      (3, 5, 2, 1),
      [("DOCUMENT", "describes", "File"); ("DOCUMENT", "contains", "Package"); ("DOCUMENT", "describes", "Package");
       ("DOCUMENT", "copyOf", "ToolsElement"); ("Package", "contains", "JenaLib"); ("Package", "dynamicLink", "Saxon");
       ("JenaLib", "dynamicLink", "Package")]).
Proof. lazy. reflexivity. Qed.
