(** * The tests of the tag-value readers (generated by tools/gen_reader_tests.py).

    Each example is one test of /repo/spdx/v2/v2_*/tagvalue/reader: the calls it makes,
    and the conditions under which it fails, each of which must be [Some false]: it can
    be evaluated without following a nil pointer, and is false.  The examples check that
    the model does what the tests of the code say the code does; they are not among the
    claims.  After an error a test goes on with the state before the call. *)
From Verif Require Import GoStr Types TvState TvUtil TvReader TvParser.
Local Open Scope string_scope.
Definition obind {A B} (o : option A) (f : A -> option B) : option B := match o with Some x => f x | None => None end.
Definition olift {A B C} (f : A -> B -> C) (a : option A) (b : option B) : option C := obind a (fun x => option_map (f x) b).
Fixpoint oexists {A} (f : A -> option bool) (l : list A) : option bool :=
  match l with [] => Some false | x :: l => olift orb (f x) (oexists f l) end.
Definition pst_eqb (a b : pst) : bool :=
  match a, b with
  | PsStart, PsStart | PsCreationInfo, PsCreationInfo | PsPackage, PsPackage | PsFile, PsFile | PsSnippet, PsSnippet
  | PsOtherLicense, PsOtherLicense | PsReview, PsReview => true
  | _, _ => false
  end.
Definition ptr_eqb (a b : option (nat * nat)) : bool :=
  match a, b with
  | None, None => true
  | Some (i, j), Some (k, l) => Nat.eqb i k && Nat.eqb j l
  | _, _ => false
  end.
Definition after (s : pstate) (r : res pstate) : pstate := match r with Ok s' => s' | _ => s end.
Definition failed {A} (r : res A) : option bool := match r with Ok _ => Some false | Err _ => Some true | Panic => None end.
Definition ptr := option (option (nat * nat)).
Definition index (p : ptr) : nat := match p with Some (Some (i, _)) => i | _ => 0 end.
Definition on_nth {A} (i : nat) (f : A -> A) (l : list A) : list A := match update_nth i f l with Some l' => l' | None => l end.
Definition push_doc_packages (p : ptr) (s : pstate) : pstate :=
  set_ps_doc (option_map (fun d => set_d_Packages (d_Packages d ++ [index p])%list d) (ps_doc s)) s.
Definition push_pkg_files (q p : ptr) (s : pstate) : pstate :=
  set_ps_pkgs (on_nth (index q) (fun x => set_p_Files (p_Files x ++ [index p])%list x) (ps_pkgs s)) s.
Definition put_snippet (f : ptr) (id : string) (p : ptr) (s : pstate) : pstate :=
  set_ps_files (on_nth (index f) (fun x => set_f_Snippets (map_put id (index p) (f_Snippets x)) x) (ps_files s)) s.
Fixpoint lookup {A} (k : string) (l : list (string * A)) : option A :=
  match l with [] => None | (x, a) :: l => if String.eqb k x then Some a else lookup k l end.
Definition is_false (o : option bool) : bool := match o with Some b => negb b | None => false end.

(** /repo/spdx/v2/v2_1/tagvalue/reader/parse_annotation_test.go 39 *)
Example v21_TestParserFailsIfAnnotationFieldsWithoutAnnotation : forallb is_false (
  let s1 := (set_ps_st PsCreationInfo (set_ps_doc (Some zero_DocumentOf) zero_pstate)) in
  let r2 := parse_pair V21 s1 (("AnnotationDate"), ("2018-09-15T17:25:00Z")) in
  let s3 := after s1 r2 in
  let r4 := parse_pair V21 s3 (("AnnotationType"), ("REVIEW")) in
  let s5 := after s3 r4 in
  let r6 := parse_pair V21 s5 (("SPDXREF"), ("SPDXRef-45")) in
  let s7 := after s5 r6 in
  let r8 := parse_pair V21 s7 (("AnnotationComment"), ("comment whatever")) in
  let s9 := after s7 r8 in
  [(olift Bool.eqb (failed r2) (Some false));
   (olift Bool.eqb (failed r4) (Some false));
   (olift Bool.eqb (failed r6) (Some false));
   (olift Bool.eqb (failed r8) (Some false))]) = true.
Proof. vm_compute. reflexivity. Qed.
(** /repo/spdx/v2/v2_1/tagvalue/reader/parse_annotation_test.go 62 *)
Example v21_TestParserCanParseAnnotationTags : forallb is_false (
  let s1 := (set_ps_st PsCreationInfo (set_ps_doc (Some zero_DocumentOf) zero_pstate)) in
  let r2 := parse_pair V21 s1 (("Annotator"), ("Person: John Doe")) in
  let s3 := after s1 r2 in
  let r4 := parse_pair V21 s3 (("AnnotationDate"), ("2018-09-15T17:32:00Z")) in
  let s5 := after s3 r4 in
  let r6 := parse_pair V21 s5 (("AnnotationType"), ("REVIEW")) in
  let s7 := after s5 r6 in
  let r8 := parse_pair V21 s7 (("SPDXREF"), ("SPDXRef-30")) in
  let s9 := after s7 r8 in
  let r10 := parse_pair V21 s9 (("AnnotationComment"), ("this is a comment")) in
  let s11 := after s9 r10 in
  [(option_map negb (olift Bool.eqb (failed r2) (Some false)));
   (option_map negb (olift String.eqb (option_map (fun x => an_Annotator x) (option_map (fun x => a_Annotator x) (obind (Some (option_map (fun i => (i, 0)) (ps_ann s3))) (fun p => obind p (fun p => obind (ps_doc s3) (fun d => nth_error (d_Annotations d) (fst p))))))) (Some ("John Doe"))));
   (option_map negb (olift String.eqb (option_map (fun x => an_AnnotatorType x) (option_map (fun x => a_Annotator x) (obind (Some (option_map (fun i => (i, 0)) (ps_ann s3))) (fun p => obind p (fun p => obind (ps_doc s3) (fun d => nth_error (d_Annotations d) (fst p))))))) (Some ("Person"))));
   (option_map negb (olift Bool.eqb (failed r4) (Some false)));
   (option_map negb (olift String.eqb (option_map (fun x => a_Date x) (obind (Some (option_map (fun i => (i, 0)) (ps_ann s5))) (fun p => obind p (fun p => obind (ps_doc s5) (fun d => nth_error (d_Annotations d) (fst p)))))) (Some ("2018-09-15T17:32:00Z"))));
   (option_map negb (olift Bool.eqb (failed r6) (Some false)));
   (option_map negb (olift String.eqb (option_map (fun x => a_Type x) (obind (Some (option_map (fun i => (i, 0)) (ps_ann s7))) (fun p => obind p (fun p => obind (ps_doc s7) (fun d => nth_error (d_Annotations d) (fst p)))))) (Some ("REVIEW"))));
   (option_map negb (olift Bool.eqb (failed r8) (Some false)));
   (olift orb (option_map negb (olift String.eqb (option_map (fun x => de_DocumentRefID x) (option_map (fun x => a_SPDXIdentifier x) (obind (Some (option_map (fun i => (i, 0)) (ps_ann s9))) (fun p => obind p (fun p => obind (ps_doc s9) (fun d => nth_error (d_Annotations d) (fst p))))))) (Some ("")))) (option_map negb (olift String.eqb (option_map (fun x => de_ElementRefID x) (option_map (fun x => a_SPDXIdentifier x) (obind (Some (option_map (fun i => (i, 0)) (ps_ann s9))) (fun p => obind p (fun p => obind (ps_doc s9) (fun d => nth_error (d_Annotations d) (fst p))))))) (Some ("30")))));
   (option_map negb (olift Bool.eqb (failed r10) (Some false)));
   (option_map negb (olift String.eqb (option_map (fun x => a_Comment x) (obind (Some (option_map (fun i => (i, 0)) (ps_ann s11))) (fun p => obind p (fun p => obind (ps_doc s11) (fun d => nth_error (d_Annotations d) (fst p)))))) (Some ("this is a comment"))))]) = true.
Proof. vm_compute. reflexivity. Qed.
(** /repo/spdx/v2/v2_1/tagvalue/reader/parse_annotation_test.go 122 *)
Example v21_TestParserFailsIfAnnotatorInvalid : forallb is_false (
  let s1 := (set_ps_st PsCreationInfo (set_ps_doc (Some zero_DocumentOf) zero_pstate)) in
  let r2 := parse_pair V21 s1 (("Annotator"), ("John Doe (jdoe@example.com)")) in
  let s3 := after s1 r2 in
  [(olift Bool.eqb (failed r2) (Some false))]) = true.
Proof. vm_compute. reflexivity. Qed.
(** /repo/spdx/v2/v2_1/tagvalue/reader/parse_annotation_test.go 133 *)
Example v21_TestParserFailsIfAnnotatorTypeInvalid : forallb is_false (
  let s1 := (set_ps_st PsCreationInfo (set_ps_doc (Some zero_DocumentOf) zero_pstate)) in
  let r2 := parse_pair V21 s1 (("Annotator"), ("Human: John Doe (jdoe@example.com)")) in
  let s3 := after s1 r2 in
  [(olift Bool.eqb (failed r2) (Some false))]) = true.
Proof. vm_compute. reflexivity. Qed.
(** /repo/spdx/v2/v2_1/tagvalue/reader/parse_annotation_test.go 144 *)
Example v21_TestParserFailsIfAnnotationRefInvalid : forallb is_false (
  let s1 := (set_ps_st PsCreationInfo (set_ps_doc (Some zero_DocumentOf) zero_pstate)) in
  let r2 := parse_pair V21 s1 (("Annotator"), ("Person: John Doe (jdoe@example.com)")) in
  let s3 := after s1 r2 in
  let r4 := parse_pair V21 s3 (("SPDXREF"), ("blah:other")) in
  let s5 := after s3 r4 in
  [(option_map negb (olift Bool.eqb (failed r2) (Some false)));
   (olift Bool.eqb (failed r4) (Some false))]) = true.
Proof. vm_compute. reflexivity. Qed.
(** /repo/spdx/v2/v2_1/tagvalue/reader/parse_creation_info_test.go 11 *)
Example v21_TestParserCIMovesToPackageAfterParsingPackageNameTag : forallb is_false (
  let s1 := (set_ps_st PsCreationInfo (set_ps_doc (Some zero_DocumentOf) zero_pstate)) in
  let r2 := parse_pair V21 s1 (("PackageName"), ("testPkg")) in
  let s3 := after s1 r2 in
  [(option_map negb (olift Bool.eqb (failed r2) (Some false)));
   (option_map negb (olift pst_eqb (Some (ps_st s3)) (Some PsPackage)));
   (olift ptr_eqb (Some (option_map (fun i => (i, 0)) (ps_pkg s3))) (Some None));
   (option_map negb (olift String.eqb (option_map (fun x => p_PackageName x) (obind (Some (option_map (fun i => (i, 0)) (ps_pkg s3))) (fun p => obind p (fun p => nth_error (ps_pkgs s3) (fst p))))) (Some ("testPkg"))));
   (option_map negb (option_map (fun x => p_FilesAnalyzed x) (obind (Some (option_map (fun i => (i, 0)) (ps_pkg s3))) (fun p => obind p (fun p => nth_error (ps_pkgs s3) (fst p))))));
   (option_map (fun x => p_IsFilesAnalyzedTagPresent x) (obind (Some (option_map (fun i => (i, 0)) (ps_pkg s3))) (fun p => obind p (fun p => nth_error (ps_pkgs s3) (fst p)))));
   (option_map negb (olift Nat.eqb (option_map (@List.length _) (option_map (map (fun i => Some (i, 0))) (option_map (fun x => d_Packages x) (obind (Some (ps_doc s3)) (fun o => o))))) (Some 0)))]) = true.
Proof. vm_compute. reflexivity. Qed.
(** /repo/spdx/v2/v2_1/tagvalue/reader/parse_creation_info_test.go 47 *)
Example v21_TestParserCIMovesToFileAfterParsingFileNameTagWithNoPackages : forallb is_false (
  let s1 := (set_ps_st PsCreationInfo (set_ps_doc (Some zero_DocumentOf) zero_pstate)) in
  let r2 := parse_pair V21 s1 (("FileName"), ("testFile")) in
  let s3 := after s1 r2 in
  [(option_map negb (olift Bool.eqb (failed r2) (Some false)));
   (option_map negb (olift pst_eqb (Some (ps_st s3)) (Some PsFile)));
   (option_map negb (olift ptr_eqb (Some (option_map (fun i => (i, 0)) (ps_pkg s3))) (Some None)))]) = true.
Proof. vm_compute. reflexivity. Qed.
(** /repo/spdx/v2/v2_1/tagvalue/reader/parse_creation_info_test.go 67 *)
Example v21_TestParserCIMovesToOtherLicenseAfterParsingLicenseIDTag : forallb is_false (
  let s1 := (set_ps_st PsCreationInfo (set_ps_doc (Some zero_DocumentOf) zero_pstate)) in
  let r2 := parse_pair V21 s1 (("LicenseID"), ("LicenseRef-TestLic")) in
  let s3 := after s1 r2 in
  [(option_map negb (olift Bool.eqb (failed r2) (Some false)));
   (option_map negb (olift pst_eqb (Some (ps_st s3)) (Some PsOtherLicense)))]) = true.
Proof. vm_compute. reflexivity. Qed.
(** /repo/spdx/v2/v2_1/tagvalue/reader/parse_creation_info_test.go 81 *)
Example v21_TestParserCIMovesToReviewAfterParsingReviewerTag : forallb is_false (
  let s1 := (set_ps_st PsCreationInfo (set_ps_doc (Some zero_DocumentOf) zero_pstate)) in
  let r2 := parse_pair V21 s1 (("Reviewer"), ("Person: John Doe")) in
  let s3 := after s1 r2 in
  [(option_map negb (olift Bool.eqb (failed r2) (Some false)));
   (option_map negb (olift pst_eqb (Some (ps_st s3)) (Some PsReview)))]) = true.
Proof. vm_compute. reflexivity. Qed.
(** /repo/spdx/v2/v2_1/tagvalue/reader/parse_creation_info_test.go 95 *)
Example v21_TestParserCIStaysAfterParsingRelationshipTags : forallb is_false (
  let s1 := (set_ps_st PsCreationInfo (set_ps_doc (Some zero_DocumentOf) zero_pstate)) in
  let r2 := parse_pair V21 s1 (("Relationship"), ("SPDXRef-blah CONTAINS SPDXRef-blah-else")) in
  let s3 := after s1 r2 in
  let r4 := parse_pair V21 s3 (("RelationshipComment"), ("blah")) in
  let s5 := after s3 r4 in
  [(option_map negb (olift Bool.eqb (failed r2) (Some false)));
   (option_map negb (olift pst_eqb (Some (ps_st s3)) (Some PsCreationInfo)));
   (option_map negb (olift Bool.eqb (failed r4) (Some false)));
   (option_map negb (olift pst_eqb (Some (ps_st s5)) (Some PsCreationInfo)))]) = true.
Proof. vm_compute. reflexivity. Qed.
(** /repo/spdx/v2/v2_1/tagvalue/reader/parse_creation_info_test.go 118 *)
Example v21_TestParserCIStaysAfterParsingAnnotationTags : forallb is_false (
  let s1 := (set_ps_st PsCreationInfo (set_ps_doc (Some zero_DocumentOf) zero_pstate)) in
  let r2 := parse_pair V21 s1 (("Annotator"), ("Person: John Doe ()")) in
  let s3 := after s1 r2 in
  let r4 := parse_pair V21 s3 (("AnnotationDate"), ("2018-09-15T00:36:00Z")) in
  let s5 := after s3 r4 in
  let r6 := parse_pair V21 s5 (("AnnotationType"), ("REVIEW")) in
  let s7 := after s5 r6 in
  let r8 := parse_pair V21 s7 (("SPDXREF"), ("SPDXRef-45")) in
  let s9 := after s7 r8 in
  let r10 := parse_pair V21 s9 (("AnnotationComment"), ("i guess i had something to say about this spdx file")) in
  let s11 := after s9 r10 in
  [(option_map negb (olift Bool.eqb (failed r2) (Some false)));
   (option_map negb (olift pst_eqb (Some (ps_st s3)) (Some PsCreationInfo)));
   (option_map negb (olift Bool.eqb (failed r4) (Some false)));
   (option_map negb (olift pst_eqb (Some (ps_st s5)) (Some PsCreationInfo)));
   (option_map negb (olift Bool.eqb (failed r6) (Some false)));
   (option_map negb (olift pst_eqb (Some (ps_st s7)) (Some PsCreationInfo)));
   (option_map negb (olift Bool.eqb (failed r8) (Some false)));
   (option_map negb (olift pst_eqb (Some (ps_st s9)) (Some PsCreationInfo)));
   (option_map negb (olift Bool.eqb (failed r10) (Some false)));
   (option_map negb (olift pst_eqb (Some (ps_st s11)) (Some PsCreationInfo)))]) = true.
Proof. vm_compute. reflexivity. Qed.
(** /repo/spdx/v2/v2_1/tagvalue/reader/parse_creation_info_test.go 177 *)
Example v21_TestParserHasCreationInfoAfterCallToParseFirstTag : forallb is_false (
  let s1 := (set_ps_st PsCreationInfo (set_ps_doc (Some zero_DocumentOf) zero_pstate)) in
  let r2 := parse_creation_info V21 ("LicenseListVersion") ("3.9") s1 in
  let s3 := after s1 r2 in
  [(option_map negb (olift Bool.eqb (failed r2) (Some false)));
   (option_map (fun o => match o with None => true | Some _ => false end) (option_map (fun x => d_CreationInfo x) (obind (Some (ps_doc s3)) (fun o => o))))]) = true.
Proof. vm_compute. reflexivity. Qed.
(** /repo/spdx/v2/v2_1/tagvalue/reader/parse_creation_info_test.go 191 *)
Example v21_TestParserCanParseCreationInfoTags : forallb is_false (
  let s1 := (set_ps_st PsCreationInfo (set_ps_doc (Some zero_DocumentOf) zero_pstate)) in
  let r2 := parse_creation_info V21 ("LicenseListVersion") ("2.2") s1 in
  let s3 := after s1 r2 in
  let r4 := parse_creation_info V21 ("Creator") ("Person: Person A") s3 in
  let s5 := after s3 r4 in
  let r6 := parse_creation_info V21 ("Creator") ("Person: Person B") s5 in
  let s7 := after s5 r6 in
  let r8 := parse_creation_info V21 ("Creator") ("Organization: Organization A") s7 in
  let s9 := after s7 r8 in
  let r10 := parse_creation_info V21 ("Creator") ("Organization: Organization B") s9 in
  let s11 := after s9 r10 in
  let r12 := parse_creation_info V21 ("Creator") ("Tool: Tool A") s11 in
  let s13 := after s11 r12 in
  let r14 := parse_creation_info V21 ("Creator") ("Tool: Tool B") s13 in
  let s15 := after s13 r14 in
  let r16 := parse_creation_info V21 ("Created") ("2018-09-10T11:46:00Z") s15 in
  let s17 := after s15 r16 in
  let r18 := parse_creation_info V21 ("CreatorComment") ("Blah whatever") s17 in
  let s19 := after s17 r18 in
  [(option_map negb (olift Bool.eqb (failed r2) (Some false)));
   (option_map negb (olift String.eqb (option_map (fun x => ci_LicenseListVersion x) (obind (option_map (fun x => d_CreationInfo x) (obind (Some (ps_doc s3)) (fun o => o))) (fun o => o))) (Some ("2.2"))));
   (option_map negb (olift Bool.eqb (failed r4) (Some false)));
   (option_map negb (olift Bool.eqb (failed r6) (Some false)));
   (olift orb (olift orb (option_map negb (olift Nat.eqb (option_map (@List.length _) (option_map (fun x => ci_Creators x) (obind (option_map (fun x => d_CreationInfo x) (obind (Some (ps_doc s7)) (fun o => o))) (fun o => o)))) (Some 2))) (option_map negb (olift String.eqb (option_map (fun x => cr_Creator x) (obind (option_map (fun x => ci_Creators x) (obind (option_map (fun x => d_CreationInfo x) (obind (Some (ps_doc s7)) (fun o => o))) (fun o => o))) (fun l => nth_error l 0))) (Some ("Person A"))))) (option_map negb (olift String.eqb (option_map (fun x => cr_Creator x) (obind (option_map (fun x => ci_Creators x) (obind (option_map (fun x => d_CreationInfo x) (obind (Some (ps_doc s7)) (fun o => o))) (fun o => o))) (fun l => nth_error l 1))) (Some ("Person B")))));
   (option_map negb (olift Bool.eqb (failed r8) (Some false)));
   (option_map negb (olift Bool.eqb (failed r10) (Some false)));
   (olift orb (olift orb (option_map negb (olift Nat.eqb (option_map (@List.length _) (option_map (fun x => ci_Creators x) (obind (option_map (fun x => d_CreationInfo x) (obind (Some (ps_doc s11)) (fun o => o))) (fun o => o)))) (Some 4))) (option_map negb (olift String.eqb (option_map (fun x => cr_Creator x) (obind (option_map (fun x => ci_Creators x) (obind (option_map (fun x => d_CreationInfo x) (obind (Some (ps_doc s11)) (fun o => o))) (fun o => o))) (fun l => nth_error l 2))) (Some ("Organization A"))))) (option_map negb (olift String.eqb (option_map (fun x => cr_Creator x) (obind (option_map (fun x => ci_Creators x) (obind (option_map (fun x => d_CreationInfo x) (obind (Some (ps_doc s11)) (fun o => o))) (fun o => o))) (fun l => nth_error l 3))) (Some ("Organization B")))));
   (option_map negb (olift Bool.eqb (failed r12) (Some false)));
   (option_map negb (olift Bool.eqb (failed r14) (Some false)));
   (olift orb (olift orb (option_map negb (olift Nat.eqb (option_map (@List.length _) (option_map (fun x => ci_Creators x) (obind (option_map (fun x => d_CreationInfo x) (obind (Some (ps_doc s15)) (fun o => o))) (fun o => o)))) (Some 6))) (option_map negb (olift String.eqb (option_map (fun x => cr_Creator x) (obind (option_map (fun x => ci_Creators x) (obind (option_map (fun x => d_CreationInfo x) (obind (Some (ps_doc s15)) (fun o => o))) (fun o => o))) (fun l => nth_error l 4))) (Some ("Tool A"))))) (option_map negb (olift String.eqb (option_map (fun x => cr_Creator x) (obind (option_map (fun x => ci_Creators x) (obind (option_map (fun x => d_CreationInfo x) (obind (Some (ps_doc s15)) (fun o => o))) (fun o => o))) (fun l => nth_error l 5))) (Some ("Tool B")))));
   (option_map negb (olift Bool.eqb (failed r16) (Some false)));
   (option_map negb (olift String.eqb (option_map (fun x => ci_Created x) (obind (option_map (fun x => d_CreationInfo x) (obind (Some (ps_doc s17)) (fun o => o))) (fun o => o))) (Some ("2018-09-10T11:46:00Z"))));
   (option_map negb (olift Bool.eqb (failed r18) (Some false)));
   (option_map negb (olift String.eqb (option_map (fun x => ci_CreatorComment x) (obind (option_map (fun x => d_CreationInfo x) (obind (Some (ps_doc s19)) (fun o => o))) (fun o => o))) (Some ("Blah whatever"))))]) = true.
Proof. vm_compute. reflexivity. Qed.
(** /repo/spdx/v2/v2_1/tagvalue/reader/parse_creation_info_test.go 282 *)
Example v21_TestParserInvalidCreatorTagsFail : forallb is_false (
  let s1 := (set_ps_st PsCreationInfo (set_ps_doc (Some zero_DocumentOf) zero_pstate)) in
  let r2 := parse_creation_info V21 ("Creator") ("blah: somebody") s1 in
  let s3 := after s1 r2 in
  let r4 := parse_creation_info V21 ("Creator") ("Tool with no colons") s3 in
  let s5 := after s3 r4 in
  [(olift Bool.eqb (failed r2) (Some false));
   (olift Bool.eqb (failed r4) (Some false))]) = true.
Proof. vm_compute. reflexivity. Qed.
(** /repo/spdx/v2/v2_1/tagvalue/reader/parse_creation_info_test.go 299 *)
Example v21_TestParserCreatorTagWithMultipleColonsPasses : forallb is_false (
  let s1 := (set_ps_st PsCreationInfo (set_ps_doc (Some zero_DocumentOf) zero_pstate)) in
  let r2 := parse_creation_info V21 ("Creator") ("Tool: tool1:2:3") s1 in
  let s3 := after s1 r2 in
  [(option_map negb (olift Bool.eqb (failed r2) (Some false)))]) = true.
Proof. vm_compute. reflexivity. Qed.
(** /repo/spdx/v2/v2_1/tagvalue/reader/parse_creation_info_test.go 311 *)
Example v21_TestParserCIUnknownTagFails : forallb is_false (
  let s1 := (set_ps_st PsCreationInfo (set_ps_doc (Some zero_DocumentOf) zero_pstate)) in
  let r2 := parse_creation_info V21 ("blah") ("something") s1 in
  let s3 := after s1 r2 in
  [(olift Bool.eqb (failed r2) (Some false))]) = true.
Proof. vm_compute. reflexivity. Qed.
(** /repo/spdx/v2/v2_1/tagvalue/reader/parse_creation_info_test.go 323 *)
Example v21_TestParserCICreatesRelationship : forallb is_false (
  let s1 := (set_ps_st PsCreationInfo (set_ps_doc (Some zero_DocumentOf) zero_pstate)) in
  let r2 := parse_pair V21 s1 (("Relationship"), ("SPDXRef-blah CONTAINS SPDXRef-blah-whatever")) in
  let s3 := after s1 r2 in
  [(option_map negb (olift Bool.eqb (failed r2) (Some false)));
   (olift ptr_eqb (Some (option_map (fun i => (i, 0)) (ps_rln s3))) (Some None));
   (option_map negb (olift ptr_eqb (Some (option_map (fun i => (i, 0)) (ps_rln s3))) (obind (option_map (fun l => map (fun i => Some (i, 0)) (seq 0 (List.length l))) (option_map (fun x => d_Relationships x) (obind (Some (ps_doc s3)) (fun o => o)))) (fun l => nth_error l 0))))]) = true.
Proof. vm_compute. reflexivity. Qed.
(** /repo/spdx/v2/v2_1/tagvalue/reader/parse_creation_info_test.go 341 *)
Example v21_TestParserCICreatesAnnotation : forallb is_false (
  let s1 := (set_ps_st PsCreationInfo (set_ps_doc (Some zero_DocumentOf) zero_pstate)) in
  let r2 := parse_pair V21 s1 (("Annotator"), ("Person: John Doe ()")) in
  let s3 := after s1 r2 in
  [(option_map negb (olift Bool.eqb (failed r2) (Some false)));
   (olift ptr_eqb (Some (option_map (fun i => (i, 0)) (ps_ann s3))) (Some None));
   (option_map negb (olift ptr_eqb (Some (option_map (fun i => (i, 0)) (ps_ann s3))) (obind (option_map (fun l => map (fun i => Some (i, 0)) (seq 0 (List.length l))) (option_map (fun x => d_Annotations x) (obind (Some (ps_doc s3)) (fun o => o)))) (fun l => nth_error l 0))))]) = true.
Proof. vm_compute. reflexivity. Qed.
(** /repo/spdx/v2/v2_1/tagvalue/reader/parse_creation_info_test.go 361 *)
Example v21_TestCanExtractExternalDocumentReference : forallb is_false (
  let r1 := extract_external_document_reference ("DocumentRef-spdx-tool-1.2 http://spdx.org/spdxdocs/spdx-tools-v1.2-3F2504E0-4F89-41D3-9A0C-0305E82C3301 SHA1:d6a770ba38583ed4bb4525bd96e50461655d2759") in
  let w2 := match r1 with Ok x => x | _ => zero_ExternalDocumentRef end in
  [(option_map negb (olift Bool.eqb (failed r1) (Some false)));
   (option_map negb (olift String.eqb (Some (edr_DocumentRefID w2)) (Some ("spdx-tool-1.2"))));
   (option_map negb (olift String.eqb (Some (edr_URI w2)) (Some ("http://spdx.org/spdxdocs/spdx-tools-v1.2-3F2504E0-4F89-41D3-9A0C-0305E82C3301"))));
   (option_map negb (olift String.eqb (Some (ck_Algorithm (edr_Checksum w2))) (Some ("SHA1"))));
   (option_map negb (olift String.eqb (Some (ck_Value (edr_Checksum w2))) (Some ("d6a770ba38583ed4bb4525bd96e50461655d2759"))))]) = true.
Proof. vm_compute. reflexivity. Qed.
(** /repo/spdx/v2/v2_1/tagvalue/reader/parse_creation_info_test.go 386 *)
Example v21_TestCanExtractExternalDocumentReferenceWithExtraWhitespace : forallb is_false (
  let r1 := extract_external_document_reference ("   DocumentRef-spdx-tool-1.2    	 http://spdx.org/spdxdocs/spdx-tools-v1.2-3F2504E0-4F89-41D3-9A0C-0305E82C3301 	 SHA1:  	   d6a770ba38583ed4bb4525bd96e50461655d2759") in
  let w2 := match r1 with Ok x => x | _ => zero_ExternalDocumentRef end in
  [(option_map negb (olift Bool.eqb (failed r1) (Some false)));
   (option_map negb (olift String.eqb (Some (edr_DocumentRefID w2)) (Some ("spdx-tool-1.2"))));
   (option_map negb (olift String.eqb (Some (edr_URI w2)) (Some ("http://spdx.org/spdxdocs/spdx-tools-v1.2-3F2504E0-4F89-41D3-9A0C-0305E82C3301"))));
   (option_map negb (olift String.eqb (Some (ck_Algorithm (edr_Checksum w2))) (Some ("SHA1"))));
   (option_map negb (olift String.eqb (Some (ck_Value (edr_Checksum w2))) (Some ("d6a770ba38583ed4bb4525bd96e50461655d2759"))))]) = true.
Proof. vm_compute. reflexivity. Qed.
(** /repo/spdx/v2/v2_1/tagvalue/reader/parse_creation_info_test.go 411 *)
Example v21_TestFailsExternalDocumentReferenceWithInvalidFormats : forallb is_false (
  let r1 := extract_external_document_reference ("whoops") in
  let w2 := match r1 with Ok x => x | _ => zero_ExternalDocumentRef end in
  let r3 := extract_external_document_reference ("DocumentRef-") in
  let w4 := match r3 with Ok x => x | _ => zero_ExternalDocumentRef end in
  let r5 := extract_external_document_reference ("DocumentRef-   ") in
  let w6 := match r5 with Ok x => x | _ => zero_ExternalDocumentRef end in
  let r7 := extract_external_document_reference ("DocumentRef-spdx-tool-1.2 http://spdx.org/spdxdocs/spdx-tools-v1.2-3F2504E0-4F89-41D3-9A0C-0305E82C3301") in
  let w8 := match r7 with Ok x => x | _ => zero_ExternalDocumentRef end in
  let r9 := extract_external_document_reference ("DocumentRef-spdx-tool-1.2 http://spdx.org/spdxdocs/spdx-tools-v1.2-3F2504E0-4F89-41D3-9A0C-0305E82C3301 d6a770ba38583ed4bb4525bd96e50461655d2759") in
  let w10 := match r9 with Ok x => x | _ => zero_ExternalDocumentRef end in
  let r11 := extract_external_document_reference ("DocumentRef-spdx-tool-1.2") in
  let w12 := match r11 with Ok x => x | _ => zero_ExternalDocumentRef end in
  let r13 := extract_external_document_reference ("spdx-tool-1.2 http://spdx.org/spdxdocs/spdx-tools-v1.2-3F2504E0-4F89-41D3-9A0C-0305E82C3301 SHA1:d6a770ba38583ed4bb4525bd96e50461655d2759") in
  let w14 := match r13 with Ok x => x | _ => zero_ExternalDocumentRef end in
  [(olift Bool.eqb (failed r1) (Some false));
   (olift Bool.eqb (failed r3) (Some false));
   (olift Bool.eqb (failed r5) (Some false));
   (olift Bool.eqb (failed r7) (Some false));
   (olift Bool.eqb (failed r9) (Some false));
   (olift Bool.eqb (failed r11) (Some false));
   (olift Bool.eqb (failed r13) (Some false))]) = true.
Proof. vm_compute. reflexivity. Qed.
(** /repo/spdx/v2/v2_1/tagvalue/reader/parse_creation_info_test.go 429 *)
Example v21_TestParserForExternalDocumentRefAfterCreationInfo : forallb is_false (
  let s1 := (set_ps_st PsCreationInfo (set_ps_doc (Some (set_d_ExternalDocumentReferences [] zero_DocumentOf)) zero_pstate)) in
  let r2 := parse_pair V21 s1 (("ExternalDocumentRef"), ("DocumentRef-spdx-tool-1.2 http://spdx.org/spdxdocs/spdx-tools-v1.2-3F2504E0-4F89-41D3-9A0C-0305E82C3301 SHA1:d6a770ba38583ed4bb4525bd96e50461655d2759")) in
  let s3 := after s1 r2 in
  [(option_map negb (olift Bool.eqb (failed r2) (Some false)));
   (option_map negb (olift Nat.eqb (option_map (@List.length _) (option_map (fun x => d_ExternalDocumentReferences x) (obind (Some (ps_doc s3)) (fun o => o)))) (Some 1)));
   (option_map negb (olift String.eqb (option_map (fun x => edr_DocumentRefID x) (obind (option_map (fun x => d_ExternalDocumentReferences x) (obind (Some (ps_doc s3)) (fun o => o))) (fun l => nth_error l 0))) (Some ("spdx-tool-1.2"))));
   (option_map negb (olift String.eqb (option_map (fun x => edr_URI x) (obind (option_map (fun x => d_ExternalDocumentReferences x) (obind (Some (ps_doc s3)) (fun o => o))) (fun l => nth_error l 0))) (Some ("http://spdx.org/spdxdocs/spdx-tools-v1.2-3F2504E0-4F89-41D3-9A0C-0305E82C3301"))));
   (option_map negb (olift String.eqb (option_map (fun x => ck_Algorithm x) (option_map (fun x => edr_Checksum x) (obind (option_map (fun x => d_ExternalDocumentReferences x) (obind (Some (ps_doc s3)) (fun o => o))) (fun l => nth_error l 0)))) (Some ("SHA1"))));
   (option_map negb (olift String.eqb (option_map (fun x => ck_Value x) (option_map (fun x => edr_Checksum x) (obind (option_map (fun x => d_ExternalDocumentReferences x) (obind (Some (ps_doc s3)) (fun o => o))) (fun l => nth_error l 0)))) (Some ("d6a770ba38583ed4bb4525bd96e50461655d2759"))))]) = true.
Proof. vm_compute. reflexivity. Qed.
(** /repo/spdx/v2/v2_1/tagvalue/reader/parse_file_test.go 12 *)
Example v21_TestParserFileStartsNewFileAfterParsingFileNameTag : forallb is_false (
  let s1 := (set_ps_st PsFile (set_ps_doc (Some (set_d_Packages [] zero_DocumentOf)) (set_ps_files [(set_f_SPDXIdentifier ("f1") (set_f_FileName ("f1.txt") zero_FileOf))] (set_ps_file (Some 0) (set_ps_pkgs [(set_p_Files [] (set_p_SPDXIdentifier ("test") (set_p_PackageName ("test") zero_PackageOf)))] (set_ps_pkg (Some 0) zero_pstate)))))) in
  let s2 := push_doc_packages (Some (option_map (fun i => (i, 0)) (ps_pkg s1))) s1 in
  let s3 := push_pkg_files (Some (option_map (fun i => (i, 0)) (ps_pkg s2))) (Some (option_map (fun i => (i, 0)) (ps_file s1))) s2 in
  let r4 := parse_pair V21 s3 (("FileName"), ("f2.txt")) in
  let s5 := after s3 r4 in
  let r6 := parse_pair V21 s5 (("SPDXID"), ("SPDXRef-f2ID")) in
  let s7 := after s5 r6 in
  [(option_map negb (olift Nat.eqb (option_map (@List.length _) (option_map (map (fun i => Some (i, 0))) (option_map (fun x => p_Files x) (obind (Some (option_map (fun i => (i, 0)) (ps_pkg s3))) (fun p => obind p (fun p => nth_error (ps_pkgs s3) (fst p))))))) (Some 1)));
   (option_map negb (olift ptr_eqb (obind (option_map (map (fun i => Some (i, 0))) (option_map (fun x => p_Files x) (obind (Some (option_map (fun i => (i, 0)) (ps_pkg s3))) (fun p => obind p (fun p => nth_error (ps_pkgs s3) (fst p)))))) (fun l => nth_error l 0)) (Some (option_map (fun i => (i, 0)) (ps_file s1)))));
   (option_map negb (olift String.eqb (option_map (fun x => f_FileName x) (obind (obind (option_map (map (fun i => Some (i, 0))) (option_map (fun x => p_Files x) (obind (Some (option_map (fun i => (i, 0)) (ps_pkg s3))) (fun p => obind p (fun p => nth_error (ps_pkgs s3) (fst p)))))) (fun l => nth_error l 0)) (fun p => obind p (fun p => nth_error (ps_files s3) (fst p))))) (Some ("f1.txt"))));
   (option_map negb (olift Bool.eqb (failed r4) (Some false)));
   (option_map negb (olift pst_eqb (Some (ps_st s5)) (Some PsFile)));
   (olift ptr_eqb (Some (option_map (fun i => (i, 0)) (ps_file s5))) (Some None));
   (option_map negb (olift String.eqb (option_map (fun x => f_FileName x) (obind (Some (option_map (fun i => (i, 0)) (ps_file s5))) (fun p => obind p (fun p => nth_error (ps_files s5) (fst p))))) (Some ("f2.txt"))));
   (option_map negb (olift Nat.eqb (option_map (@List.length _) (option_map (map (fun i => Some (i, 0))) (option_map (fun x => p_Files x) (obind (Some (option_map (fun i => (i, 0)) (ps_pkg s5))) (fun p => obind p (fun p => nth_error (ps_pkgs s5) (fst p))))))) (Some 1)));
   (option_map negb (olift ptr_eqb (obind (option_map (map (fun i => Some (i, 0))) (option_map (fun x => p_Files x) (obind (Some (option_map (fun i => (i, 0)) (ps_pkg s5))) (fun p => obind p (fun p => nth_error (ps_pkgs s5) (fst p)))))) (fun l => nth_error l 0)) (Some (option_map (fun i => (i, 0)) (ps_file s1)))));
   (option_map negb (olift String.eqb (option_map (fun x => f_FileName x) (obind (obind (option_map (map (fun i => Some (i, 0))) (option_map (fun x => p_Files x) (obind (Some (option_map (fun i => (i, 0)) (ps_pkg s5))) (fun p => obind p (fun p => nth_error (ps_pkgs s5) (fst p)))))) (fun l => nth_error l 0)) (fun p => obind p (fun p => nth_error (ps_files s5) (fst p))))) (Some ("f1.txt"))));
   (option_map negb (olift Bool.eqb (failed r6) (Some false)));
   (option_map negb (olift Nat.eqb (option_map (@List.length _) (option_map (map (fun i => Some (i, 0))) (option_map (fun x => p_Files x) (obind (Some (option_map (fun i => (i, 0)) (ps_pkg s7))) (fun p => obind p (fun p => nth_error (ps_pkgs s7) (fst p))))))) (Some 2)));
   (option_map negb (olift ptr_eqb (obind (option_map (map (fun i => Some (i, 0))) (option_map (fun x => p_Files x) (obind (Some (option_map (fun i => (i, 0)) (ps_pkg s7))) (fun p => obind p (fun p => nth_error (ps_pkgs s7) (fst p)))))) (fun l => nth_error l 0)) (Some (option_map (fun i => (i, 0)) (ps_file s1)))));
   (option_map negb (olift String.eqb (option_map (fun x => f_FileName x) (obind (obind (option_map (map (fun i => Some (i, 0))) (option_map (fun x => p_Files x) (obind (Some (option_map (fun i => (i, 0)) (ps_pkg s7))) (fun p => obind p (fun p => nth_error (ps_pkgs s7) (fst p)))))) (fun l => nth_error l 0)) (fun p => obind p (fun p => nth_error (ps_files s7) (fst p))))) (Some ("f1.txt"))));
   (option_map negb (olift ptr_eqb (obind (option_map (map (fun i => Some (i, 0))) (option_map (fun x => p_Files x) (obind (Some (option_map (fun i => (i, 0)) (ps_pkg s7))) (fun p => obind p (fun p => nth_error (ps_pkgs s7) (fst p)))))) (fun l => nth_error l 1)) (Some (option_map (fun i => (i, 0)) (ps_file s7)))));
   (option_map negb (olift String.eqb (option_map (fun x => f_FileName x) (obind (obind (option_map (map (fun i => Some (i, 0))) (option_map (fun x => p_Files x) (obind (Some (option_map (fun i => (i, 0)) (ps_pkg s7))) (fun p => obind p (fun p => nth_error (ps_pkgs s7) (fst p)))))) (fun l => nth_error l 1)) (fun p => obind p (fun p => nth_error (ps_files s7) (fst p))))) (Some ("f2.txt"))))]) = true.
Proof. vm_compute. reflexivity. Qed.
(** /repo/spdx/v2/v2_1/tagvalue/reader/parse_file_test.go 89 *)
Example v21_TestParserFileAddsToPackageOrUnpackagedFiles : forallb is_false (
  let s1 := (set_ps_st PsCreationInfo (set_ps_doc (Some zero_DocumentOf) zero_pstate)) in
  let r2 := parse_pair V21 s1 (("FileName"), ("f2.txt")) in
  let s3 := after s1 r2 in
  let r4 := parse_pair V21 s3 (("SPDXID"), ("SPDXRef-f2ID")) in
  let s5 := after s3 r4 in
  let r6 := parse_pair V21 s5 (("PackageName"), ("package1")) in
  let s7 := after s5 r6 in
  let r8 := parse_pair V21 s7 (("SPDXID"), ("SPDXRef-pkg1")) in
  let s9 := after s7 r8 in
  let r10 := parse_pair V21 s9 (("FileName"), ("f3.txt")) in
  let s11 := after s9 r10 in
  let r12 := parse_pair V21 s11 (("SPDXID"), ("SPDXRef-f3ID")) in
  let s13 := after s11 r12 in
  [(option_map negb (olift Bool.eqb (failed r2) (Some false)));
   (option_map negb (olift Bool.eqb (failed r4) (Some false)));
   (option_map negb (olift Nat.eqb (option_map (@List.length _) (option_map (map (fun i => Some (i, 0))) (option_map (fun x => d_Files x) (obind (Some (ps_doc s5)) (fun o => o))))) (Some 1)));
   (option_map negb (olift ptr_eqb (obind (option_map (map (fun i => Some (i, 0))) (option_map (fun x => d_Files x) (obind (Some (ps_doc s5)) (fun o => o)))) (fun l => nth_error l 0)) (Some (option_map (fun i => (i, 0)) (ps_file s5)))));
   (option_map negb (olift Bool.eqb (failed r6) (Some false)));
   (option_map negb (olift Bool.eqb (failed r8) (Some false)));
   (option_map negb (olift Bool.eqb (failed r10) (Some false)));
   (option_map negb (olift Bool.eqb (failed r12) (Some false)));
   (option_map negb (olift Nat.eqb (option_map (@List.length _) (option_map (map (fun i => Some (i, 0))) (option_map (fun x => d_Files x) (obind (Some (ps_doc s13)) (fun o => o))))) (Some 1)));
   (option_map negb (olift ptr_eqb (obind (option_map (map (fun i => Some (i, 0))) (option_map (fun x => d_Files x) (obind (Some (ps_doc s13)) (fun o => o)))) (fun l => nth_error l 0)) (Some (option_map (fun i => (i, 0)) (ps_file s5)))));
   (option_map negb (olift Nat.eqb (option_map (@List.length _) (option_map (map (fun i => Some (i, 0))) (option_map (fun x => p_Files x) (obind (Some (option_map (fun i => (i, 0)) (ps_pkg s13))) (fun p => obind p (fun p => nth_error (ps_pkgs s13) (fst p))))))) (Some 1)));
   (option_map negb (olift ptr_eqb (obind (option_map (map (fun i => Some (i, 0))) (option_map (fun x => p_Files x) (obind (Some (option_map (fun i => (i, 0)) (ps_pkg s13))) (fun p => obind p (fun p => nth_error (ps_pkgs s13) (fst p)))))) (fun l => nth_error l 0)) (Some (option_map (fun i => (i, 0)) (ps_file s13)))))]) = true.
Proof. vm_compute. reflexivity. Qed.
(** /repo/spdx/v2/v2_1/tagvalue/reader/parse_file_test.go 147 *)
Example v21_TestParserFileStartsNewPackageAfterParsingPackageNameTag : forallb is_false (
  let s1 := (set_ps_st PsFile (set_ps_doc (Some (set_d_Packages [] zero_DocumentOf)) (set_ps_files [(set_f_SPDXIdentifier ("f1") (set_f_FileName ("f1.txt") zero_FileOf))] (set_ps_file (Some 0) (set_ps_pkgs [(set_p_Files [] (set_p_SPDXIdentifier ("package1") (set_p_PackageName ("package1") zero_PackageOf)))] (set_ps_pkg (Some 0) zero_pstate)))))) in
  let s2 := push_doc_packages (Some (option_map (fun i => (i, 0)) (ps_pkg s1))) s1 in
  let s3 := push_pkg_files (Some (option_map (fun i => (i, 0)) (ps_pkg s2))) (Some (option_map (fun i => (i, 0)) (ps_file s1))) s2 in
  let r4 := parse_pair V21 s3 (("PackageName"), ("package2")) in
  let s5 := after s3 r4 in
  [(option_map negb (olift Bool.eqb (failed r4) (Some false)));
   (option_map negb (olift pst_eqb (Some (ps_st s5)) (Some PsPackage)));
   (olift ptr_eqb (Some (option_map (fun i => (i, 0)) (ps_pkg s5))) (Some None));
   (option_map negb (olift String.eqb (option_map (fun x => p_PackageName x) (obind (Some (option_map (fun i => (i, 0)) (ps_pkg s5))) (fun p => obind p (fun p => nth_error (ps_pkgs s5) (fst p))))) (Some ("package2"))));
   (option_map negb (option_map (fun x => p_FilesAnalyzed x) (obind (Some (option_map (fun i => (i, 0)) (ps_pkg s5))) (fun p => obind p (fun p => nth_error (ps_pkgs s5) (fst p))))));
   (option_map (fun x => p_IsFilesAnalyzedTagPresent x) (obind (Some (option_map (fun i => (i, 0)) (ps_pkg s5))) (fun p => obind p (fun p => nth_error (ps_pkgs s5) (fst p)))));
   (option_map negb (olift Nat.eqb (option_map (@List.length _) (option_map (map (fun i => Some (i, 0))) (option_map (fun x => p_Files x) (obind (Some (option_map (fun i => (i, 0)) (ps_pkg s5))) (fun p => obind p (fun p => nth_error (ps_pkgs s5) (fst p))))))) (Some 0)));
   (option_map negb (olift Nat.eqb (option_map (@List.length _) (option_map (map (fun i => Some (i, 0))) (option_map (fun x => d_Packages x) (obind (Some (ps_doc s5)) (fun o => o))))) (Some 1)));
   (option_map negb (olift ptr_eqb (obind (option_map (map (fun i => Some (i, 0))) (option_map (fun x => d_Packages x) (obind (Some (ps_doc s5)) (fun o => o)))) (fun l => nth_error l 0)) (Some (option_map (fun i => (i, 0)) (ps_pkg s1)))));
   (option_map negb (olift String.eqb (option_map (fun x => p_PackageName x) (obind (obind (option_map (map (fun i => Some (i, 0))) (option_map (fun x => d_Packages x) (obind (Some (ps_doc s5)) (fun o => o)))) (fun l => nth_error l 0)) (fun p => obind p (fun p => nth_error (ps_pkgs s5) (fst p))))) (Some ("package1"))));
   (option_map negb (olift Nat.eqb (option_map (@List.length _) (option_map (map (fun i => Some (i, 0))) (option_map (fun x => p_Files x) (obind (obind (option_map (map (fun i => Some (i, 0))) (option_map (fun x => d_Packages x) (obind (Some (ps_doc s5)) (fun o => o)))) (fun l => nth_error l 0)) (fun p => obind p (fun p => nth_error (ps_pkgs s5) (fst p))))))) (Some 1)));
   (option_map negb (olift ptr_eqb (obind (option_map (map (fun i => Some (i, 0))) (option_map (fun x => p_Files x) (obind (obind (option_map (map (fun i => Some (i, 0))) (option_map (fun x => d_Packages x) (obind (Some (ps_doc s5)) (fun o => o)))) (fun l => nth_error l 0)) (fun p => obind p (fun p => nth_error (ps_pkgs s5) (fst p)))))) (fun l => nth_error l 0)) (Some (option_map (fun i => (i, 0)) (ps_file s1)))));
   (option_map negb (olift String.eqb (option_map (fun x => f_FileName x) (obind (obind (option_map (map (fun i => Some (i, 0))) (option_map (fun x => p_Files x) (obind (obind (option_map (map (fun i => Some (i, 0))) (option_map (fun x => d_Packages x) (obind (Some (ps_doc s5)) (fun o => o)))) (fun l => nth_error l 0)) (fun p => obind p (fun p => nth_error (ps_pkgs s5) (fst p)))))) (fun l => nth_error l 0)) (fun p => obind p (fun p => nth_error (ps_files s5) (fst p))))) (Some ("f1.txt"))));
   (option_map negb (olift ptr_eqb (Some (option_map (fun i => (i, 0)) (ps_file s5))) (Some None)))]) = true.
Proof. vm_compute. reflexivity. Qed.
(** /repo/spdx/v2/v2_1/tagvalue/reader/parse_file_test.go 219 *)
Example v21_TestParserFileMovesToSnippetAfterParsingSnippetSPDXIDTag : forallb is_false (
  let s1 := (set_ps_st PsFile (set_ps_doc (Some (set_d_Packages [] zero_DocumentOf)) (set_ps_files [(set_f_SPDXIdentifier ("f1") (set_f_FileName ("f1.txt") zero_FileOf))] (set_ps_file (Some 0) (set_ps_pkgs [(set_p_Files [] (set_p_SPDXIdentifier ("test") (set_p_PackageName ("test") zero_PackageOf)))] (set_ps_pkg (Some 0) zero_pstate)))))) in
  let s2 := push_doc_packages (Some (option_map (fun i => (i, 0)) (ps_pkg s1))) s1 in
  let s3 := push_pkg_files (Some (option_map (fun i => (i, 0)) (ps_pkg s2))) (Some (option_map (fun i => (i, 0)) (ps_file s2))) s2 in
  let r4 := parse_pair V21 s3 (("SnippetSPDXID"), ("SPDXRef-Test1")) in
  let s5 := after s3 r4 in
  [(option_map negb (olift Bool.eqb (failed r4) (Some false)));
   (option_map negb (olift pst_eqb (Some (ps_st s5)) (Some PsSnippet)));
   (option_map negb (olift ptr_eqb (Some (option_map (fun i => (i, 0)) (ps_file s5))) (Some (option_map (fun i => (i, 0)) (ps_file s3)))))]) = true.
Proof. vm_compute. reflexivity. Qed.
(** /repo/spdx/v2/v2_1/tagvalue/reader/parse_file_test.go 244 *)
Example v21_TestParserFileMovesToOtherLicenseAfterParsingLicenseIDTag : forallb is_false (
  let s1 := (set_ps_st PsFile (set_ps_doc (Some (set_d_Packages [] zero_DocumentOf)) (set_ps_files [(set_f_SPDXIdentifier ("f1") (set_f_FileName ("f1.txt") zero_FileOf))] (set_ps_file (Some 0) (set_ps_pkgs [(set_p_Files [] (set_p_SPDXIdentifier ("test") (set_p_PackageName ("test") zero_PackageOf)))] (set_ps_pkg (Some 0) zero_pstate)))))) in
  let s2 := push_doc_packages (Some (option_map (fun i => (i, 0)) (ps_pkg s1))) s1 in
  let s3 := push_pkg_files (Some (option_map (fun i => (i, 0)) (ps_pkg s2))) (Some (option_map (fun i => (i, 0)) (ps_file s2))) s2 in
  let r4 := parse_pair V21 s3 (("LicenseID"), ("LicenseRef-TestLic")) in
  let s5 := after s3 r4 in
  [(option_map negb (olift Bool.eqb (failed r4) (Some false)));
   (option_map negb (olift pst_eqb (Some (ps_st s5)) (Some PsOtherLicense)))]) = true.
Proof. vm_compute. reflexivity. Qed.
(** /repo/spdx/v2/v2_1/tagvalue/reader/parse_file_test.go 263 *)
Example v21_TestParserFileMovesToReviewAfterParsingReviewerTag : forallb is_false (
  let s1 := (set_ps_st PsFile (set_ps_doc (Some (set_d_Packages [] zero_DocumentOf)) (set_ps_files [(set_f_SPDXIdentifier ("f1") (set_f_FileName ("f1.txt") zero_FileOf))] (set_ps_file (Some 0) (set_ps_pkgs [(set_p_Files [] (set_p_SPDXIdentifier ("test") (set_p_PackageName ("test") zero_PackageOf)))] (set_ps_pkg (Some 0) zero_pstate)))))) in
  let s2 := push_doc_packages (Some (option_map (fun i => (i, 0)) (ps_pkg s1))) s1 in
  let s3 := push_pkg_files (Some (option_map (fun i => (i, 0)) (ps_pkg s2))) (Some (option_map (fun i => (i, 0)) (ps_file s2))) s2 in
  let r4 := parse_pair V21 s3 (("Reviewer"), ("Person: John Doe")) in
  let s5 := after s3 r4 in
  [(option_map negb (olift Bool.eqb (failed r4) (Some false)));
   (option_map negb (olift pst_eqb (Some (ps_st s5)) (Some PsReview)))]) = true.
Proof. vm_compute. reflexivity. Qed.
(** /repo/spdx/v2/v2_1/tagvalue/reader/parse_file_test.go 282 *)
Example v21_TestParserFileStaysAfterParsingRelationshipTags : forallb is_false (
  let s1 := (set_ps_st PsFile (set_ps_doc (Some (set_d_Packages [] zero_DocumentOf)) (set_ps_files [(set_f_SPDXIdentifier ("f1") (set_f_FileName ("f1.txt") zero_FileOf))] (set_ps_file (Some 0) (set_ps_pkgs [(set_p_Files [] (set_p_SPDXIdentifier ("test") (set_p_PackageName ("test") zero_PackageOf)))] (set_ps_pkg (Some 0) zero_pstate)))))) in
  let s2 := push_doc_packages (Some (option_map (fun i => (i, 0)) (ps_pkg s1))) s1 in
  let s3 := push_pkg_files (Some (option_map (fun i => (i, 0)) (ps_pkg s2))) (Some (option_map (fun i => (i, 0)) (ps_file s2))) s2 in
  let r4 := parse_pair V21 s3 (("Relationship"), ("SPDXRef-blah CONTAINS SPDXRef-blah-else")) in
  let s5 := after s3 r4 in
  let r6 := parse_pair V21 s5 (("RelationshipComment"), ("blah")) in
  let s7 := after s5 r6 in
  [(option_map negb (olift Bool.eqb (failed r4) (Some false)));
   (option_map negb (olift pst_eqb (Some (ps_st s5)) (Some PsFile)));
   (option_map negb (olift Bool.eqb (failed r6) (Some false)));
   (option_map negb (olift pst_eqb (Some (ps_st s7)) (Some PsFile)))]) = true.
Proof. vm_compute. reflexivity. Qed.
(** /repo/spdx/v2/v2_1/tagvalue/reader/parse_file_test.go 311 *)
Example v21_TestParserFileStaysAfterParsingAnnotationTags : forallb is_false (
  let s1 := (set_ps_st PsFile (set_ps_doc (Some (set_d_Packages [] zero_DocumentOf)) (set_ps_files [(set_f_SPDXIdentifier ("f1") (set_f_FileName ("f1.txt") zero_FileOf))] (set_ps_file (Some 0) (set_ps_pkgs [(set_p_Files [] (set_p_SPDXIdentifier ("test") (set_p_PackageName ("test") zero_PackageOf)))] (set_ps_pkg (Some 0) zero_pstate)))))) in
  let s2 := push_doc_packages (Some (option_map (fun i => (i, 0)) (ps_pkg s1))) s1 in
  let s3 := push_pkg_files (Some (option_map (fun i => (i, 0)) (ps_pkg s2))) (Some (option_map (fun i => (i, 0)) (ps_file s2))) s2 in
  let r4 := parse_pair V21 s3 (("Annotator"), ("Person: John Doe ()")) in
  let s5 := after s3 r4 in
  let r6 := parse_pair V21 s5 (("AnnotationDate"), ("2018-09-15T00:36:00Z")) in
  let s7 := after s5 r6 in
  let r8 := parse_pair V21 s7 (("AnnotationType"), ("REVIEW")) in
  let s9 := after s7 r8 in
  let r10 := parse_pair V21 s9 (("SPDXREF"), ("SPDXRef-45")) in
  let s11 := after s9 r10 in
  let r12 := parse_pair V21 s11 (("AnnotationComment"), ("i guess i had something to say about this particular file")) in
  let s13 := after s11 r12 in
  [(option_map negb (olift Bool.eqb (failed r4) (Some false)));
   (option_map negb (olift pst_eqb (Some (ps_st s5)) (Some PsFile)));
   (option_map negb (olift Bool.eqb (failed r6) (Some false)));
   (option_map negb (olift pst_eqb (Some (ps_st s7)) (Some PsFile)));
   (option_map negb (olift Bool.eqb (failed r8) (Some false)));
   (option_map negb (olift pst_eqb (Some (ps_st s9)) (Some PsFile)));
   (option_map negb (olift Bool.eqb (failed r10) (Some false)));
   (option_map negb (olift pst_eqb (Some (ps_st s11)) (Some PsFile)));
   (option_map negb (olift Bool.eqb (failed r12) (Some false)));
   (option_map negb (olift pst_eqb (Some (ps_st s13)) (Some PsFile)))]) = true.
Proof. vm_compute. reflexivity. Qed.
(** /repo/spdx/v2/v2_1/tagvalue/reader/parse_file_test.go 363 *)
Example v21_TestParserCanParseFileTags : forallb is_false (
  let s1 := (set_ps_st PsFile (set_ps_doc (Some (set_d_Packages [] zero_DocumentOf)) (set_ps_pkgs [(set_p_Files [] (set_p_SPDXIdentifier ("test") (set_p_PackageName ("test") zero_PackageOf)))] (set_ps_pkg (Some 0) zero_pstate)))) in
  let s2 := push_doc_packages (Some (option_map (fun i => (i, 0)) (ps_pkg s1))) s1 in
  let r3 := parse_file V21 ("FileName") ("f1.txt") s2 in
  let s4 := after s2 r3 in
  let r5 := parse_file V21 ("SPDXID") ("SPDXRef-f1") s4 in
  let s6 := after s4 r5 in
  let r7 := parse_file V21 ("FileType") ("TEXT") s6 in
  let s8 := after s6 r7 in
  let r9 := parse_file V21 ("FileType") ("DOCUMENTATION") s8 in
  let s10 := after s8 r9 in
  let r11 := parse_file V21 ("FileChecksum") ("SHA1: 85ed0817af83a24ad8da68c2b5094de69833983c") s10 in
  let s12 := after s10 r11 in
  let r13 := parse_file V21 ("FileChecksum") ("SHA256: 11b6d3ee554eedf79299905a98f9b9a04e498210b59f15094c916c91d150efcd") s12 in
  let s14 := after s12 r13 in
  let r15 := parse_file V21 ("FileChecksum") ("MD5: 624c1abb3664f4b35547e7c73864ad24") s14 in
  let s16 := after s14 r15 in
  let r17 := parse_file V21 ("LicenseConcluded") ("Apache-2.0 OR GPL-2.0-or-later") s16 in
  let s18 := after s16 r17 in
  let r19 := parse_file V21 ("LicenseInfoInFile") ("Apache-2.0") s18 in
  let s20 := after s18 r19 in
  let r21 := parse_file V21 ("LicenseInfoInFile") ("GPL-2.0-or-later") s20 in
  let s22 := after s20 r21 in
  let r23 := parse_file V21 ("LicenseInfoInFile") ("CC0-1.0") s22 in
  let s24 := after s22 r23 in
  let r25 := parse_file V21 ("LicenseComments") ("this is a comment") s24 in
  let s26 := after s24 r25 in
  let r27 := parse_file V21 ("FileCopyrightText") ("copyright (c) me") s26 in
  let s28 := after s26 r27 in
  let r29 := parse_file V21 ("ArtifactOfProjectName") ("project1") s28 in
  let s30 := after s28 r29 in
  let r31 := parse_file V21 ("ArtifactOfProjectHomePage") ("http://example.com/1/") s30 in
  let s32 := after s30 r31 in
  let r33 := parse_file V21 ("ArtifactOfProjectURI") ("http://example.com/1/uri.whatever") s32 in
  let s34 := after s32 r33 in
  let r35 := parse_file V21 ("ArtifactOfProjectName") ("project2") s34 in
  let s36 := after s34 r35 in
  let r37 := parse_file V21 ("ArtifactOfProjectName") ("project3") s36 in
  let s38 := after s36 r37 in
  let r39 := parse_file V21 ("ArtifactOfProjectHomePage") ("http://example.com/3/") s38 in
  let s40 := after s38 r39 in
  let r41 := parse_file V21 ("ArtifactOfProjectName") ("project4") s40 in
  let s42 := after s40 r41 in
  let r43 := parse_file V21 ("ArtifactOfProjectURI") ("http://example.com/4/uri.whatever") s42 in
  let s44 := after s42 r43 in
  let r45 := parse_file V21 ("FileComment") ("this is a comment") s44 in
  let s46 := after s44 r45 in
  let r47 := parse_file V21 ("FileNotice") ("this is a Notice") s46 in
  let s48 := after s46 r47 in
  let r49 := parse_file V21 ("FileContributor") ("John Doe jdoe@example.com") s48 in
  let s50 := after s48 r49 in
  let r51 := parse_file V21 ("FileContributor") ("EvilCorp") s50 in
  let s52 := after s50 r51 in
  let r53 := parse_file V21 ("FileDependency") ("f-1.txt") s52 in
  let s54 := after s52 r53 in
  let r55 := parse_file V21 ("FileDependency") ("g.txt") s54 in
  let s56 := after s54 r55 in
  [(option_map negb (olift Bool.eqb (failed r3) (Some false)));
   (option_map negb (olift String.eqb (option_map (fun x => f_FileName x) (obind (Some (option_map (fun i => (i, 0)) (ps_file s4))) (fun p => obind p (fun p => nth_error (ps_files s4) (fst p))))) (Some ("f1.txt"))));
   (option_map negb (olift Nat.eqb (option_map (@List.length _) (option_map (map (fun i => Some (i, 0))) (option_map (fun x => p_Files x) (obind (Some (option_map (fun i => (i, 0)) (ps_pkg s4))) (fun p => obind p (fun p => nth_error (ps_pkgs s4) (fst p))))))) (Some 0)));
   (option_map negb (olift Bool.eqb (failed r5) (Some false)));
   (option_map negb (olift String.eqb (option_map (fun x => f_SPDXIdentifier x) (obind (Some (option_map (fun i => (i, 0)) (ps_file s6))) (fun p => obind p (fun p => nth_error (ps_files s6) (fst p))))) (Some ("f1"))));
   (option_map negb (olift Nat.eqb (option_map (@List.length _) (option_map (map (fun i => Some (i, 0))) (option_map (fun x => p_Files x) (obind (Some (option_map (fun i => (i, 0)) (ps_pkg s6))) (fun p => obind p (fun p => nth_error (ps_pkgs s6) (fst p))))))) (Some 1)));
   (option_map negb (olift ptr_eqb (obind (option_map (map (fun i => Some (i, 0))) (option_map (fun x => p_Files x) (obind (Some (option_map (fun i => (i, 0)) (ps_pkg s6))) (fun p => obind p (fun p => nth_error (ps_pkgs s6) (fst p)))))) (fun l => nth_error l 0)) (Some (option_map (fun i => (i, 0)) (ps_file s6)))));
   (option_map negb (olift Bool.eqb (failed r7) (Some false)));
   (option_map negb (olift Bool.eqb (failed r9) (Some false)));
   (option_map negb (option_map (mem ("TEXT")) (option_map (fun x => f_FileTypes x) (obind (Some (option_map (fun i => (i, 0)) (ps_file s10))) (fun p => obind p (fun p => nth_error (ps_files s10) (fst p)))))));
   (option_map negb (option_map (mem ("DOCUMENTATION")) (option_map (fun x => f_FileTypes x) (obind (Some (option_map (fun i => (i, 0)) (ps_file s10))) (fun p => obind p (fun p => nth_error (ps_files s10) (fst p)))))));
   (option_map negb (olift Nat.eqb (option_map (@List.length _) (option_map (fun x => f_FileTypes x) (obind (Some (option_map (fun i => (i, 0)) (ps_file s10))) (fun p => obind p (fun p => nth_error (ps_files s10) (fst p)))))) (Some 2)));
   (option_map negb (olift Bool.eqb (failed r11) (Some false)));
   (option_map negb (olift Bool.eqb (failed r13) (Some false)));
   (option_map negb (olift Bool.eqb (failed r15) (Some false)));
   (obind (option_map (fun x => f_Checksums x) (obind (Some (option_map (fun i => (i, 0)) (ps_file s16))) (fun p => obind p (fun p => nth_error (ps_files s16) (fst p))))) (oexists (fun it => (olift andb (olift String.eqb (option_map (fun x => ck_Algorithm x) (Some it)) (Some ("SHA1"))) (option_map negb (olift String.eqb (option_map (fun x => ck_Value x) (Some it)) (Some ("85ed0817af83a24ad8da68c2b5094de69833983c"))))))));
   (obind (option_map (fun x => f_Checksums x) (obind (Some (option_map (fun i => (i, 0)) (ps_file s16))) (fun p => obind p (fun p => nth_error (ps_files s16) (fst p))))) (oexists (fun it => (olift andb (olift String.eqb (option_map (fun x => ck_Algorithm x) (Some it)) (Some ("SHA256"))) (option_map negb (olift String.eqb (option_map (fun x => ck_Value x) (Some it)) (Some ("11b6d3ee554eedf79299905a98f9b9a04e498210b59f15094c916c91d150efcd"))))))));
   (obind (option_map (fun x => f_Checksums x) (obind (Some (option_map (fun i => (i, 0)) (ps_file s16))) (fun p => obind p (fun p => nth_error (ps_files s16) (fst p))))) (oexists (fun it => (olift andb (olift String.eqb (option_map (fun x => ck_Algorithm x) (Some it)) (Some ("MD5"))) (option_map negb (olift String.eqb (option_map (fun x => ck_Value x) (Some it)) (Some ("624c1abb3664f4b35547e7c73864ad24"))))))));
   (option_map negb (olift Bool.eqb (failed r17) (Some false)));
   (option_map negb (olift String.eqb (option_map (fun x => f_LicenseConcluded x) (obind (Some (option_map (fun i => (i, 0)) (ps_file s18))) (fun p => obind p (fun p => nth_error (ps_files s18) (fst p))))) (Some ("Apache-2.0 OR GPL-2.0-or-later"))));
   (option_map negb (olift Bool.eqb (failed r19) (Some false)));
   (option_map negb (olift Bool.eqb (failed r21) (Some false)));
   (option_map negb (olift Bool.eqb (failed r23) (Some false)));
   (option_map negb (option_map (mem ("Apache-2.0")) (option_map (fun x => f_LicenseInfoInFiles x) (obind (Some (option_map (fun i => (i, 0)) (ps_file s24))) (fun p => obind p (fun p => nth_error (ps_files s24) (fst p)))))));
   (option_map negb (option_map (mem ("GPL-2.0-or-later")) (option_map (fun x => f_LicenseInfoInFiles x) (obind (Some (option_map (fun i => (i, 0)) (ps_file s24))) (fun p => obind p (fun p => nth_error (ps_files s24) (fst p)))))));
   (option_map negb (option_map (mem ("CC0-1.0")) (option_map (fun x => f_LicenseInfoInFiles x) (obind (Some (option_map (fun i => (i, 0)) (ps_file s24))) (fun p => obind p (fun p => nth_error (ps_files s24) (fst p)))))));
   (option_map negb (olift Nat.eqb (option_map (@List.length _) (option_map (fun x => f_LicenseInfoInFiles x) (obind (Some (option_map (fun i => (i, 0)) (ps_file s24))) (fun p => obind p (fun p => nth_error (ps_files s24) (fst p)))))) (Some 3)));
   (option_map negb (olift Bool.eqb (failed r25) (Some false)));
   (option_map negb (olift String.eqb (option_map (fun x => f_LicenseComments x) (obind (Some (option_map (fun i => (i, 0)) (ps_file s26))) (fun p => obind p (fun p => nth_error (ps_files s26) (fst p))))) (Some ("this is a comment"))));
   (option_map negb (olift Bool.eqb (failed r27) (Some false)));
   (option_map negb (olift String.eqb (option_map (fun x => f_CopyrightText x) (obind (Some (option_map (fun i => (i, 0)) (ps_file s28))) (fun p => obind p (fun p => nth_error (ps_files s28) (fst p))))) (Some ("copyright (c) me"))));
   (option_map negb (olift Bool.eqb (failed r29) (Some false)));
   (option_map negb (olift Bool.eqb (failed r31) (Some false)));
   (option_map negb (olift Bool.eqb (failed r33) (Some false)));
   (option_map negb (olift Bool.eqb (failed r35) (Some false)));
   (option_map negb (olift Bool.eqb (failed r37) (Some false)));
   (option_map negb (olift Bool.eqb (failed r39) (Some false)));
   (option_map negb (olift Bool.eqb (failed r41) (Some false)));
   (option_map negb (olift Bool.eqb (failed r43) (Some false)));
   (option_map negb (olift Nat.eqb (option_map (@List.length _) (obind (Some (option_map (fun i => (i, 0)) (ps_file s44))) (fun p => obind p (fun p => option_map (fun l => map (fun j => Some (fst p, j)) (seq 0 (List.length l))) (option_map (fun x => f_Artifacts x) (obind (Some (option_map (fun i => (i, 0)) (ps_file s44))) (fun p => obind p (fun p => nth_error (ps_files s44) (fst p))))))))) (Some 4)));
   (option_map negb (olift String.eqb (option_map (fun x => ar_Name x) (obind (obind (obind (Some (option_map (fun i => (i, 0)) (ps_file s44))) (fun p => obind p (fun p => option_map (fun l => map (fun j => Some (fst p, j)) (seq 0 (List.length l))) (option_map (fun x => f_Artifacts x) (obind (Some (option_map (fun i => (i, 0)) (ps_file s44))) (fun p => obind p (fun p => nth_error (ps_files s44) (fst p)))))))) (fun l => nth_error l 0)) (fun p => obind p (fun p => obind (nth_error (ps_files s44) (fst p)) (fun w => nth_error (f_Artifacts w) (snd p)))))) (Some ("project1"))));
   (option_map negb (olift String.eqb (option_map (fun x => ar_HomePage x) (obind (obind (obind (Some (option_map (fun i => (i, 0)) (ps_file s44))) (fun p => obind p (fun p => option_map (fun l => map (fun j => Some (fst p, j)) (seq 0 (List.length l))) (option_map (fun x => f_Artifacts x) (obind (Some (option_map (fun i => (i, 0)) (ps_file s44))) (fun p => obind p (fun p => nth_error (ps_files s44) (fst p)))))))) (fun l => nth_error l 0)) (fun p => obind p (fun p => obind (nth_error (ps_files s44) (fst p)) (fun w => nth_error (f_Artifacts w) (snd p)))))) (Some ("http://example.com/1/"))));
   (option_map negb (olift String.eqb (option_map (fun x => ar_URI x) (obind (obind (obind (Some (option_map (fun i => (i, 0)) (ps_file s44))) (fun p => obind p (fun p => option_map (fun l => map (fun j => Some (fst p, j)) (seq 0 (List.length l))) (option_map (fun x => f_Artifacts x) (obind (Some (option_map (fun i => (i, 0)) (ps_file s44))) (fun p => obind p (fun p => nth_error (ps_files s44) (fst p)))))))) (fun l => nth_error l 0)) (fun p => obind p (fun p => obind (nth_error (ps_files s44) (fst p)) (fun w => nth_error (f_Artifacts w) (snd p)))))) (Some ("http://example.com/1/uri.whatever"))));
   (option_map negb (olift String.eqb (option_map (fun x => ar_Name x) (obind (obind (obind (Some (option_map (fun i => (i, 0)) (ps_file s44))) (fun p => obind p (fun p => option_map (fun l => map (fun j => Some (fst p, j)) (seq 0 (List.length l))) (option_map (fun x => f_Artifacts x) (obind (Some (option_map (fun i => (i, 0)) (ps_file s44))) (fun p => obind p (fun p => nth_error (ps_files s44) (fst p)))))))) (fun l => nth_error l 1)) (fun p => obind p (fun p => obind (nth_error (ps_files s44) (fst p)) (fun w => nth_error (f_Artifacts w) (snd p)))))) (Some ("project2"))));
   (option_map negb (olift String.eqb (option_map (fun x => ar_HomePage x) (obind (obind (obind (Some (option_map (fun i => (i, 0)) (ps_file s44))) (fun p => obind p (fun p => option_map (fun l => map (fun j => Some (fst p, j)) (seq 0 (List.length l))) (option_map (fun x => f_Artifacts x) (obind (Some (option_map (fun i => (i, 0)) (ps_file s44))) (fun p => obind p (fun p => nth_error (ps_files s44) (fst p)))))))) (fun l => nth_error l 1)) (fun p => obind p (fun p => obind (nth_error (ps_files s44) (fst p)) (fun w => nth_error (f_Artifacts w) (snd p)))))) (Some (""))));
   (option_map negb (olift String.eqb (option_map (fun x => ar_URI x) (obind (obind (obind (Some (option_map (fun i => (i, 0)) (ps_file s44))) (fun p => obind p (fun p => option_map (fun l => map (fun j => Some (fst p, j)) (seq 0 (List.length l))) (option_map (fun x => f_Artifacts x) (obind (Some (option_map (fun i => (i, 0)) (ps_file s44))) (fun p => obind p (fun p => nth_error (ps_files s44) (fst p)))))))) (fun l => nth_error l 1)) (fun p => obind p (fun p => obind (nth_error (ps_files s44) (fst p)) (fun w => nth_error (f_Artifacts w) (snd p)))))) (Some (""))));
   (option_map negb (olift String.eqb (option_map (fun x => ar_Name x) (obind (obind (obind (Some (option_map (fun i => (i, 0)) (ps_file s44))) (fun p => obind p (fun p => option_map (fun l => map (fun j => Some (fst p, j)) (seq 0 (List.length l))) (option_map (fun x => f_Artifacts x) (obind (Some (option_map (fun i => (i, 0)) (ps_file s44))) (fun p => obind p (fun p => nth_error (ps_files s44) (fst p)))))))) (fun l => nth_error l 2)) (fun p => obind p (fun p => obind (nth_error (ps_files s44) (fst p)) (fun w => nth_error (f_Artifacts w) (snd p)))))) (Some ("project3"))));
   (option_map negb (olift String.eqb (option_map (fun x => ar_HomePage x) (obind (obind (obind (Some (option_map (fun i => (i, 0)) (ps_file s44))) (fun p => obind p (fun p => option_map (fun l => map (fun j => Some (fst p, j)) (seq 0 (List.length l))) (option_map (fun x => f_Artifacts x) (obind (Some (option_map (fun i => (i, 0)) (ps_file s44))) (fun p => obind p (fun p => nth_error (ps_files s44) (fst p)))))))) (fun l => nth_error l 2)) (fun p => obind p (fun p => obind (nth_error (ps_files s44) (fst p)) (fun w => nth_error (f_Artifacts w) (snd p)))))) (Some ("http://example.com/3/"))));
   (option_map negb (olift String.eqb (option_map (fun x => ar_URI x) (obind (obind (obind (Some (option_map (fun i => (i, 0)) (ps_file s44))) (fun p => obind p (fun p => option_map (fun l => map (fun j => Some (fst p, j)) (seq 0 (List.length l))) (option_map (fun x => f_Artifacts x) (obind (Some (option_map (fun i => (i, 0)) (ps_file s44))) (fun p => obind p (fun p => nth_error (ps_files s44) (fst p)))))))) (fun l => nth_error l 2)) (fun p => obind p (fun p => obind (nth_error (ps_files s44) (fst p)) (fun w => nth_error (f_Artifacts w) (snd p)))))) (Some (""))));
   (option_map negb (olift String.eqb (option_map (fun x => ar_Name x) (obind (obind (obind (Some (option_map (fun i => (i, 0)) (ps_file s44))) (fun p => obind p (fun p => option_map (fun l => map (fun j => Some (fst p, j)) (seq 0 (List.length l))) (option_map (fun x => f_Artifacts x) (obind (Some (option_map (fun i => (i, 0)) (ps_file s44))) (fun p => obind p (fun p => nth_error (ps_files s44) (fst p)))))))) (fun l => nth_error l 3)) (fun p => obind p (fun p => obind (nth_error (ps_files s44) (fst p)) (fun w => nth_error (f_Artifacts w) (snd p)))))) (Some ("project4"))));
   (option_map negb (olift String.eqb (option_map (fun x => ar_HomePage x) (obind (obind (obind (Some (option_map (fun i => (i, 0)) (ps_file s44))) (fun p => obind p (fun p => option_map (fun l => map (fun j => Some (fst p, j)) (seq 0 (List.length l))) (option_map (fun x => f_Artifacts x) (obind (Some (option_map (fun i => (i, 0)) (ps_file s44))) (fun p => obind p (fun p => nth_error (ps_files s44) (fst p)))))))) (fun l => nth_error l 3)) (fun p => obind p (fun p => obind (nth_error (ps_files s44) (fst p)) (fun w => nth_error (f_Artifacts w) (snd p)))))) (Some (""))));
   (option_map negb (olift String.eqb (option_map (fun x => ar_URI x) (obind (obind (obind (Some (option_map (fun i => (i, 0)) (ps_file s44))) (fun p => obind p (fun p => option_map (fun l => map (fun j => Some (fst p, j)) (seq 0 (List.length l))) (option_map (fun x => f_Artifacts x) (obind (Some (option_map (fun i => (i, 0)) (ps_file s44))) (fun p => obind p (fun p => nth_error (ps_files s44) (fst p)))))))) (fun l => nth_error l 3)) (fun p => obind p (fun p => obind (nth_error (ps_files s44) (fst p)) (fun w => nth_error (f_Artifacts w) (snd p)))))) (Some ("http://example.com/4/uri.whatever"))));
   (option_map negb (olift Bool.eqb (failed r45) (Some false)));
   (option_map negb (olift String.eqb (option_map (fun x => f_Comment x) (obind (Some (option_map (fun i => (i, 0)) (ps_file s46))) (fun p => obind p (fun p => nth_error (ps_files s46) (fst p))))) (Some ("this is a comment"))));
   (option_map negb (olift Bool.eqb (failed r47) (Some false)));
   (option_map negb (olift String.eqb (option_map (fun x => f_Notice x) (obind (Some (option_map (fun i => (i, 0)) (ps_file s48))) (fun p => obind p (fun p => nth_error (ps_files s48) (fst p))))) (Some ("this is a Notice"))));
   (option_map negb (olift Bool.eqb (failed r49) (Some false)));
   (option_map negb (olift Bool.eqb (failed r51) (Some false)));
   (option_map negb (option_map (mem ("John Doe jdoe@example.com")) (option_map (fun x => f_Contributors x) (obind (Some (option_map (fun i => (i, 0)) (ps_file s52))) (fun p => obind p (fun p => nth_error (ps_files s52) (fst p)))))));
   (option_map negb (option_map (mem ("EvilCorp")) (option_map (fun x => f_Contributors x) (obind (Some (option_map (fun i => (i, 0)) (ps_file s52))) (fun p => obind p (fun p => nth_error (ps_files s52) (fst p)))))));
   (option_map negb (olift Nat.eqb (option_map (@List.length _) (option_map (fun x => f_Contributors x) (obind (Some (option_map (fun i => (i, 0)) (ps_file s52))) (fun p => obind p (fun p => nth_error (ps_files s52) (fst p)))))) (Some 2)));
   (option_map negb (olift Bool.eqb (failed r53) (Some false)));
   (option_map negb (olift Bool.eqb (failed r55) (Some false)));
   (option_map negb (option_map (mem ("f-1.txt")) (option_map (fun x => f_Dependencies x) (obind (Some (option_map (fun i => (i, 0)) (ps_file s56))) (fun p => obind p (fun p => nth_error (ps_files s56) (fst p)))))));
   (option_map negb (option_map (mem ("g.txt")) (option_map (fun x => f_Dependencies x) (obind (Some (option_map (fun i => (i, 0)) (ps_file s56))) (fun p => obind p (fun p => nth_error (ps_files s56) (fst p)))))));
   (option_map negb (olift Nat.eqb (option_map (@List.length _) (option_map (fun x => f_Dependencies x) (obind (Some (option_map (fun i => (i, 0)) (ps_file s56))) (fun p => obind p (fun p => nth_error (ps_files s56) (fst p)))))) (Some 2)))]) = true.
Proof. vm_compute. reflexivity. Qed.
(** /repo/spdx/v2/v2_1/tagvalue/reader/parse_file_test.go 678 *)
Example v21_TestParserFileCreatesRelationshipInDocument : forallb is_false (
  let s1 := (set_ps_st PsFile (set_ps_doc (Some (set_d_Packages [] zero_DocumentOf)) (set_ps_files [(set_f_SPDXIdentifier ("f1") (set_f_FileName ("f1.txt") zero_FileOf))] (set_ps_file (Some 0) (set_ps_pkgs [(set_p_Files [] (set_p_SPDXIdentifier ("test") (set_p_PackageName ("test") zero_PackageOf)))] (set_ps_pkg (Some 0) zero_pstate)))))) in
  let s2 := push_doc_packages (Some (option_map (fun i => (i, 0)) (ps_pkg s1))) s1 in
  let s3 := push_pkg_files (Some (option_map (fun i => (i, 0)) (ps_pkg s2))) (Some (option_map (fun i => (i, 0)) (ps_file s2))) s2 in
  let r4 := parse_pair V21 s3 (("Relationship"), ("SPDXRef-blah CONTAINS SPDXRef-blah-whatever")) in
  let s5 := after s3 r4 in
  [(option_map negb (olift Bool.eqb (failed r4) (Some false)));
   (olift ptr_eqb (Some (option_map (fun i => (i, 0)) (ps_rln s5))) (Some None));
   (option_map negb (olift ptr_eqb (Some (option_map (fun i => (i, 0)) (ps_rln s5))) (obind (option_map (fun l => map (fun i => Some (i, 0)) (seq 0 (List.length l))) (option_map (fun x => d_Relationships x) (obind (Some (ps_doc s5)) (fun o => o)))) (fun l => nth_error l 0))))]) = true.
Proof. vm_compute. reflexivity. Qed.
(** /repo/spdx/v2/v2_1/tagvalue/reader/parse_file_test.go 700 *)
Example v21_TestParserFileCreatesAnnotationInDocument : forallb is_false (
  let s1 := (set_ps_st PsFile (set_ps_doc (Some (set_d_Packages [] zero_DocumentOf)) (set_ps_files [(set_f_SPDXIdentifier ("f1") (set_f_FileName ("f1.txt") zero_FileOf))] (set_ps_file (Some 0) (set_ps_pkgs [(set_p_Files [] (set_p_SPDXIdentifier ("test") (set_p_PackageName ("test") zero_PackageOf)))] (set_ps_pkg (Some 0) zero_pstate)))))) in
  let s2 := push_doc_packages (Some (option_map (fun i => (i, 0)) (ps_pkg s1))) s1 in
  let s3 := push_pkg_files (Some (option_map (fun i => (i, 0)) (ps_pkg s2))) (Some (option_map (fun i => (i, 0)) (ps_file s2))) s2 in
  let r4 := parse_pair V21 s3 (("Annotator"), ("Person: John Doe ()")) in
  let s5 := after s3 r4 in
  [(option_map negb (olift Bool.eqb (failed r4) (Some false)));
   (olift ptr_eqb (Some (option_map (fun i => (i, 0)) (ps_ann s5))) (Some None));
   (option_map negb (olift ptr_eqb (Some (option_map (fun i => (i, 0)) (ps_ann s5))) (obind (option_map (fun l => map (fun i => Some (i, 0)) (seq 0 (List.length l))) (option_map (fun x => d_Annotations x) (obind (Some (ps_doc s5)) (fun o => o)))) (fun l => nth_error l 0))))]) = true.
Proof. vm_compute. reflexivity. Qed.
(** /repo/spdx/v2/v2_1/tagvalue/reader/parse_file_test.go 722 *)
Example v21_TestParserFileUnknownTagFails : forallb is_false (
  let s1 := (set_ps_st PsFile (set_ps_doc (Some (set_d_Packages [] zero_DocumentOf)) (set_ps_files [(set_f_SPDXIdentifier ("f1") (set_f_FileName ("f1.txt") zero_FileOf))] (set_ps_file (Some 0) (set_ps_pkgs [(set_p_Files [] (set_p_SPDXIdentifier ("test") (set_p_PackageName ("test") zero_PackageOf)))] (set_ps_pkg (Some 0) zero_pstate)))))) in
  let s2 := push_doc_packages (Some (option_map (fun i => (i, 0)) (ps_pkg s1))) s1 in
  let s3 := push_pkg_files (Some (option_map (fun i => (i, 0)) (ps_pkg s2))) (Some (option_map (fun i => (i, 0)) (ps_file s2))) s2 in
  let r4 := parse_file V21 ("blah") ("something") s3 in
  let s5 := after s3 r4 in
  [(olift Bool.eqb (failed r4) (Some false))]) = true.
Proof. vm_compute. reflexivity. Qed.
(** /repo/spdx/v2/v2_1/tagvalue/reader/parse_file_test.go 738 *)
Example v21_TestFileAOPPointerChangesAfterTags : forallb is_false (
  let s1 := (set_ps_st PsFile (set_ps_doc (Some (set_d_Packages [] zero_DocumentOf)) (set_ps_files [(set_f_SPDXIdentifier ("f1") (set_f_FileName ("f1.txt") zero_FileOf))] (set_ps_file (Some 0) (set_ps_pkgs [(set_p_Files [] (set_p_SPDXIdentifier ("test") (set_p_PackageName ("test") zero_PackageOf)))] (set_ps_pkg (Some 0) zero_pstate)))))) in
  let s2 := push_doc_packages (Some (option_map (fun i => (i, 0)) (ps_pkg s1))) s1 in
  let s3 := push_pkg_files (Some (option_map (fun i => (i, 0)) (ps_pkg s2))) (Some (option_map (fun i => (i, 0)) (ps_file s2))) s2 in
  let r4 := parse_file V21 ("ArtifactOfProjectName") ("project1") s3 in
  let s5 := after s3 r4 in
  let r6 := parse_file V21 ("ArtifactOfProjectHomePage") ("http://example.com/1/") s5 in
  let s7 := after s5 r6 in
  let r8 := parse_file V21 ("ArtifactOfProjectURI") ("http://example.com/1/uri.whatever") s7 in
  let s9 := after s7 r8 in
  let r10 := parse_file V21 ("ArtifactOfProjectName") ("project2") s9 in
  let s11 := after s9 r10 in
  let r12 := parse_file V21 ("FileComment") ("whatever") s11 in
  let s13 := after s11 r12 in
  [(option_map negb (olift Bool.eqb (failed r4) (Some false)));
   (olift ptr_eqb (Some (ps_aop s5)) (Some None));
   (option_map negb (olift Bool.eqb (failed r6) (Some false)));
   (option_map negb (olift ptr_eqb (Some (ps_aop s7)) (Some (ps_aop s5))));
   (option_map negb (olift Bool.eqb (failed r8) (Some false)));
   (option_map negb (olift ptr_eqb (Some (ps_aop s9)) (Some (ps_aop s5))));
   (option_map negb (olift Bool.eqb (failed r10) (Some false)));
   (olift ptr_eqb (Some (ps_aop s11)) (Some (ps_aop s5)));
   (option_map negb (olift Bool.eqb (failed r12) (Some false)));
   (option_map negb (olift ptr_eqb (Some (ps_aop s13)) (Some None)))]) = true.
Proof. vm_compute. reflexivity. Qed.
(** /repo/spdx/v2/v2_1/tagvalue/reader/parse_file_test.go 795 *)
Example v21_TestParserFailsIfInvalidSPDXIDInFileSection : forallb is_false (
  let s1 := (set_ps_st PsFile (set_ps_doc (Some (set_d_Packages [] zero_DocumentOf)) (set_ps_pkgs [(set_p_Files [] (set_p_SPDXIdentifier ("test") (set_p_PackageName ("test") zero_PackageOf)))] (set_ps_pkg (Some 0) zero_pstate)))) in
  let s2 := push_doc_packages (Some (option_map (fun i => (i, 0)) (ps_pkg s1))) s1 in
  let r3 := parse_file V21 ("FileName") ("f1.txt") s2 in
  let s4 := after s2 r3 in
  let r5 := parse_file V21 ("SPDXID") ("whoops") s4 in
  let s6 := after s4 r5 in
  [(option_map negb (olift Bool.eqb (failed r3) (Some false)));
   (olift Bool.eqb (failed r5) (Some false))]) = true.
Proof. vm_compute. reflexivity. Qed.
(** /repo/spdx/v2/v2_1/tagvalue/reader/parse_file_test.go 815 *)
Example v21_TestParserFailsIfInvalidChecksumFormatInFileSection : forallb is_false (
  let s1 := (set_ps_st PsFile (set_ps_doc (Some (set_d_Packages [] zero_DocumentOf)) (set_ps_pkgs [(set_p_Files [] (set_p_SPDXIdentifier ("test") (set_p_PackageName ("test") zero_PackageOf)))] (set_ps_pkg (Some 0) zero_pstate)))) in
  let s2 := push_doc_packages (Some (option_map (fun i => (i, 0)) (ps_pkg s1))) s1 in
  let r3 := parse_file V21 ("FileName") ("f1.txt") s2 in
  let s4 := after s2 r3 in
  let r5 := parse_file V21 ("FileChecksum") ("SHA1 85ed0817af83a24ad8da68c2b5094de69833983c") s4 in
  let s6 := after s4 r5 in
  [(option_map negb (olift Bool.eqb (failed r3) (Some false)));
   (olift Bool.eqb (failed r5) (Some false))]) = true.
Proof. vm_compute. reflexivity. Qed.
(** /repo/spdx/v2/v2_1/tagvalue/reader/parse_file_test.go 835 *)
Example v21_TestParserFailsIfUnknownChecksumTypeInFileSection : forallb is_false (
  let s1 := (set_ps_st PsFile (set_ps_doc (Some (set_d_Packages [] zero_DocumentOf)) (set_ps_pkgs [(set_p_Files [] (set_p_SPDXIdentifier ("test") (set_p_PackageName ("test") zero_PackageOf)))] (set_ps_pkg (Some 0) zero_pstate)))) in
  let s2 := push_doc_packages (Some (option_map (fun i => (i, 0)) (ps_pkg s1))) s1 in
  let r3 := parse_file V21 ("FileName") ("f1.txt") s2 in
  let s4 := after s2 r3 in
  let r5 := parse_file V21 ("FileChecksum") ("Special: 85ed0817af83a24ad8da68c2b5094de69833983c") s4 in
  let s6 := after s4 r5 in
  [(option_map negb (olift Bool.eqb (failed r3) (Some false)));
   (olift Bool.eqb (failed r5) (Some false))]) = true.
Proof. vm_compute. reflexivity. Qed.
(** /repo/spdx/v2/v2_1/tagvalue/reader/parse_file_test.go 855 *)
Example v21_TestParserFailsIfArtifactHomePageBeforeArtifactName : forallb is_false (
  let s1 := (set_ps_st PsFile (set_ps_doc (Some (set_d_Packages [] zero_DocumentOf)) (set_ps_pkgs [(set_p_Files [] (set_p_SPDXIdentifier ("test") (set_p_PackageName ("test") zero_PackageOf)))] (set_ps_pkg (Some 0) zero_pstate)))) in
  let s2 := push_doc_packages (Some (option_map (fun i => (i, 0)) (ps_pkg s1))) s1 in
  let r3 := parse_file V21 ("FileName") ("f1.txt") s2 in
  let s4 := after s2 r3 in
  let r5 := parse_file V21 ("ArtifactOfProjectHomePage") ("https://example.com") s4 in
  let s6 := after s4 r5 in
  [(option_map negb (olift Bool.eqb (failed r3) (Some false)));
   (olift Bool.eqb (failed r5) (Some false))]) = true.
Proof. vm_compute. reflexivity. Qed.
(** /repo/spdx/v2/v2_1/tagvalue/reader/parse_file_test.go 875 *)
Example v21_TestParserFailsIfArtifactURIBeforeArtifactName : forallb is_false (
  let s1 := (set_ps_st PsFile (set_ps_doc (Some (set_d_Packages [] zero_DocumentOf)) (set_ps_pkgs [(set_p_Files [] (set_p_SPDXIdentifier ("test") (set_p_PackageName ("test") zero_PackageOf)))] (set_ps_pkg (Some 0) zero_pstate)))) in
  let s2 := push_doc_packages (Some (option_map (fun i => (i, 0)) (ps_pkg s1))) s1 in
  let r3 := parse_file V21 ("FileName") ("f1.txt") s2 in
  let s4 := after s2 r3 in
  let r5 := parse_file V21 ("ArtifactOfProjectURI") ("https://example.com") s4 in
  let s6 := after s4 r5 in
  [(option_map negb (olift Bool.eqb (failed r3) (Some false)));
   (olift Bool.eqb (failed r5) (Some false))]) = true.
Proof. vm_compute. reflexivity. Qed.
(** /repo/spdx/v2/v2_1/tagvalue/reader/parse_file_test.go 895 *)
Example v21_TestParserFilesWithoutSpdxIdThrowError : forallb is_false (
  let s1 := (set_ps_st PsFile (set_ps_doc (Some (set_d_Packages [] zero_DocumentOf)) (set_ps_files [(set_f_FileName ("FileName") zero_FileOf)] (set_ps_file (Some 0) zero_pstate)))) in
  let r2 := parse_pair V21 s1 (("FileName"), ("f2")) in
  let s3 := after s1 r2 in
  let s4 := (set_ps_st PsCreationInfo (set_ps_doc (Some zero_DocumentOf) (set_ps_files [(set_f_FileName ("f2.txt") zero_FileOf)] (set_ps_file (Some 0) zero_pstate)))) in
  let r5 := parse_pair V21 s4 (("SnippetSPDXID"), ("s1")) in
  let s6 := after s4 r5 in
  let s7 := (set_ps_st PsCreationInfo (set_ps_doc (Some zero_DocumentOf) zero_pstate)) in
  let r8 := parse_pair V21 s7 (("FileName"), ("f3.txt")) in
  let s9 := after s7 r8 in
  let r10 := parse_pair V21 s9 (("PackageName"), ("p2")) in
  let s11 := after s9 r10 in
  [(olift Bool.eqb (failed r2) (Some false));
   (olift Bool.eqb (failed r5) (Some false));
   (option_map negb (olift Bool.eqb (failed r8) (Some false)));
   (olift Bool.eqb (failed r10) (Some false))]) = true.
Proof. vm_compute. reflexivity. Qed.
(** /repo/spdx/v2/v2_1/tagvalue/reader/parse_other_license_test.go 11 *)
Example v21_TestParserOLStartsNewOtherLicenseAfterParsingLicenseIDTag : forallb is_false (
  let s1 := (set_ps_st PsOtherLicense (set_ps_doc (Some (set_d_OtherLicenses [(set_ol_LicenseName ("License 11") (set_ol_LicenseIdentifier ("LicenseRef-Lic11") zero_OtherLicense))] (set_d_Packages [] zero_DocumentOf))) (set_ps_lic (Some 0) (set_ps_files [(set_f_SPDXIdentifier ("f1") (set_f_FileName ("f1.txt") zero_FileOf))] (set_ps_file (Some 0) (set_ps_pkgs [(set_p_Files [] (set_p_SPDXIdentifier ("test") (set_p_PackageName ("test") zero_PackageOf)))] (set_ps_pkg (Some 0) zero_pstate))))))) in
  let s2 := push_doc_packages (Some (option_map (fun i => (i, 0)) (ps_pkg s1))) s1 in
  let s3 := push_pkg_files (Some (option_map (fun i => (i, 0)) (ps_pkg s2))) (Some (option_map (fun i => (i, 0)) (ps_file s2))) s2 in
  let r4 := parse_pair V21 s3 (("LicenseID"), ("LicenseRef-22")) in
  let s5 := after s3 r4 in
  let r6 := parse_pair V21 s5 (("LicenseName"), ("License 22")) in
  let s7 := after s5 r6 in
  [(option_map negb (olift ptr_eqb (obind (option_map (fun l => map (fun i => Some (i, 0)) (seq 0 (List.length l))) (option_map (fun x => d_OtherLicenses x) (obind (Some (ps_doc s3)) (fun o => o)))) (fun l => nth_error l 0)) (Some (option_map (fun i => (i, 0)) (ps_lic s1)))));
   (option_map negb (olift String.eqb (option_map (fun x => ol_LicenseName x) (obind (obind (option_map (fun l => map (fun i => Some (i, 0)) (seq 0 (List.length l))) (option_map (fun x => d_OtherLicenses x) (obind (Some (ps_doc s3)) (fun o => o)))) (fun l => nth_error l 0)) (fun p => obind p (fun p => obind (ps_doc s3) (fun d => nth_error (d_OtherLicenses d) (fst p)))))) (Some ("License 11"))));
   (option_map negb (olift Bool.eqb (failed r4) (Some false)));
   (option_map negb (olift pst_eqb (Some (ps_st s5)) (Some PsOtherLicense)));
   (olift ptr_eqb (Some (option_map (fun i => (i, 0)) (ps_lic s5))) (Some None));
   (option_map negb (olift Bool.eqb (failed r6) (Some false)));
   (option_map negb (olift pst_eqb (Some (ps_st s7)) (Some PsOtherLicense)));
   (option_map negb (olift String.eqb (option_map (fun x => ol_LicenseName x) (obind (Some (option_map (fun i => (i, 0)) (ps_lic s7))) (fun p => obind p (fun p => obind (ps_doc s7) (fun d => nth_error (d_OtherLicenses d) (fst p)))))) (Some ("License 22"))));
   (option_map negb (olift Nat.eqb (option_map (@List.length _) (option_map (fun l => map (fun i => Some (i, 0)) (seq 0 (List.length l))) (option_map (fun x => d_OtherLicenses x) (obind (Some (ps_doc s7)) (fun o => o))))) (Some 2)));
   (option_map negb (olift ptr_eqb (obind (option_map (fun l => map (fun i => Some (i, 0)) (seq 0 (List.length l))) (option_map (fun x => d_OtherLicenses x) (obind (Some (ps_doc s7)) (fun o => o)))) (fun l => nth_error l 0)) (Some (option_map (fun i => (i, 0)) (ps_lic s1)))));
   (option_map negb (olift String.eqb (option_map (fun x => ol_LicenseIdentifier x) (obind (obind (option_map (fun l => map (fun i => Some (i, 0)) (seq 0 (List.length l))) (option_map (fun x => d_OtherLicenses x) (obind (Some (ps_doc s7)) (fun o => o)))) (fun l => nth_error l 0)) (fun p => obind p (fun p => obind (ps_doc s7) (fun d => nth_error (d_OtherLicenses d) (fst p)))))) (Some ("LicenseRef-Lic11"))));
   (option_map negb (olift String.eqb (option_map (fun x => ol_LicenseName x) (obind (obind (option_map (fun l => map (fun i => Some (i, 0)) (seq 0 (List.length l))) (option_map (fun x => d_OtherLicenses x) (obind (Some (ps_doc s7)) (fun o => o)))) (fun l => nth_error l 0)) (fun p => obind p (fun p => obind (ps_doc s7) (fun d => nth_error (d_OtherLicenses d) (fst p)))))) (Some ("License 11"))));
   (option_map negb (olift ptr_eqb (obind (option_map (fun l => map (fun i => Some (i, 0)) (seq 0 (List.length l))) (option_map (fun x => d_OtherLicenses x) (obind (Some (ps_doc s7)) (fun o => o)))) (fun l => nth_error l 1)) (Some (option_map (fun i => (i, 0)) (ps_lic s7)))));
   (option_map negb (olift String.eqb (option_map (fun x => ol_LicenseIdentifier x) (obind (obind (option_map (fun l => map (fun i => Some (i, 0)) (seq 0 (List.length l))) (option_map (fun x => d_OtherLicenses x) (obind (Some (ps_doc s7)) (fun o => o)))) (fun l => nth_error l 1)) (fun p => obind p (fun p => obind (ps_doc s7) (fun d => nth_error (d_OtherLicenses d) (fst p)))))) (Some ("LicenseRef-22"))));
   (option_map negb (olift String.eqb (option_map (fun x => ol_LicenseName x) (obind (obind (option_map (fun l => map (fun i => Some (i, 0)) (seq 0 (List.length l))) (option_map (fun x => d_OtherLicenses x) (obind (Some (ps_doc s7)) (fun o => o)))) (fun l => nth_error l 1)) (fun p => obind p (fun p => obind (ps_doc s7) (fun d => nth_error (d_OtherLicenses d) (fst p)))))) (Some ("License 22"))))]) = true.
Proof. vm_compute. reflexivity. Qed.
(** /repo/spdx/v2/v2_1/tagvalue/reader/parse_other_license_test.go 91 *)
Example v21_TestParserOLMovesToReviewAfterParsingReviewerTag : forallb is_false (
  let s1 := (set_ps_st PsOtherLicense (set_ps_doc (Some (set_d_Packages [] zero_DocumentOf)) (set_ps_files [(set_f_SPDXIdentifier ("f1") (set_f_FileName ("f1.txt") zero_FileOf))] (set_ps_file (Some 0) (set_ps_pkgs [(set_p_Files [] (set_p_SPDXIdentifier ("test") (set_p_PackageName ("test") zero_PackageOf)))] (set_ps_pkg (Some 0) zero_pstate)))))) in
  let s2 := push_doc_packages (Some (option_map (fun i => (i, 0)) (ps_pkg s1))) s1 in
  let s3 := push_pkg_files (Some (option_map (fun i => (i, 0)) (ps_pkg s2))) (Some (option_map (fun i => (i, 0)) (ps_file s2))) s2 in
  let r4 := parse_pair V21 s3 (("Reviewer"), ("Person: John Doe")) in
  let s5 := after s3 r4 in
  [(option_map negb (olift Bool.eqb (failed r4) (Some false)));
   (option_map negb (olift pst_eqb (Some (ps_st s5)) (Some PsReview)))]) = true.
Proof. vm_compute. reflexivity. Qed.
(** /repo/spdx/v2/v2_1/tagvalue/reader/parse_other_license_test.go 111 *)
Example v21_TestParserOtherLicenseStaysAfterParsingRelationshipTags : forallb is_false (
  let s1 := (set_ps_st PsOtherLicense (set_ps_doc (Some (set_d_OtherLicenses [(set_ol_LicenseName ("the whatever license") (set_ol_LicenseIdentifier ("LicenseRef-whatever") zero_OtherLicense))] (set_d_Packages [] zero_DocumentOf))) (set_ps_lic (Some 0) (set_ps_files [(set_f_SPDXIdentifier ("f1") (set_f_FileName ("f1.txt") zero_FileOf))] (set_ps_file (Some 0) (set_ps_pkgs [(set_p_Files [] (set_p_SPDXIdentifier ("test") (set_p_PackageName ("test") zero_PackageOf)))] (set_ps_pkg (Some 0) zero_pstate))))))) in
  let s2 := push_doc_packages (Some (option_map (fun i => (i, 0)) (ps_pkg s1))) s1 in
  let s3 := push_pkg_files (Some (option_map (fun i => (i, 0)) (ps_pkg s2))) (Some (option_map (fun i => (i, 0)) (ps_file s2))) s2 in
  let r4 := parse_pair V21 s3 (("Relationship"), ("SPDXRef-blah CONTAINS SPDXRef-blah-else")) in
  let s5 := after s3 r4 in
  let r6 := parse_pair V21 s5 (("RelationshipComment"), ("blah")) in
  let s7 := after s5 r6 in
  [(option_map negb (olift Bool.eqb (failed r4) (Some false)));
   (option_map negb (olift pst_eqb (Some (ps_st s5)) (Some PsOtherLicense)));
   (option_map negb (olift Nat.eqb (option_map (@List.length _) (option_map (fun l => map (fun i => Some (i, 0)) (seq 0 (List.length l))) (option_map (fun x => d_Relationships x) (obind (Some (ps_doc s5)) (fun o => o))))) (Some 1)));
   (olift orb (option_map negb (olift String.eqb (option_map (fun x => de_DocumentRefID x) (option_map (fun x => r_RefA x) (obind (obind (option_map (fun l => map (fun i => Some (i, 0)) (seq 0 (List.length l))) (option_map (fun x => d_Relationships x) (obind (Some (ps_doc s5)) (fun o => o)))) (fun l => nth_error l 0)) (fun p => obind p (fun p => obind (ps_doc s5) (fun d => nth_error (d_Relationships d) (fst p))))))) (Some ("")))) (option_map negb (olift String.eqb (option_map (fun x => de_ElementRefID x) (option_map (fun x => r_RefA x) (obind (obind (option_map (fun l => map (fun i => Some (i, 0)) (seq 0 (List.length l))) (option_map (fun x => d_Relationships x) (obind (Some (ps_doc s5)) (fun o => o)))) (fun l => nth_error l 0)) (fun p => obind p (fun p => obind (ps_doc s5) (fun d => nth_error (d_Relationships d) (fst p))))))) (Some ("blah")))));
   (option_map negb (olift Bool.eqb (failed r6) (Some false)));
   (option_map negb (olift pst_eqb (Some (ps_st s7)) (Some PsOtherLicense)))]) = true.
Proof. vm_compute. reflexivity. Qed.
(** /repo/spdx/v2/v2_1/tagvalue/reader/parse_other_license_test.go 153 *)
Example v21_TestParserOtherLicenseStaysAfterParsingAnnotationTags : forallb is_false (
  let s1 := (set_ps_st PsOtherLicense (set_ps_doc (Some (set_d_OtherLicenses [(set_ol_LicenseName ("the whatever license") (set_ol_LicenseIdentifier ("LicenseRef-whatever") zero_OtherLicense))] (set_d_Packages [] zero_DocumentOf))) (set_ps_lic (Some 0) (set_ps_files [(set_f_SPDXIdentifier ("f1") (set_f_FileName ("f1.txt") zero_FileOf))] (set_ps_file (Some 0) (set_ps_pkgs [(set_p_Files [] (set_p_SPDXIdentifier ("test") (set_p_PackageName ("test") zero_PackageOf)))] (set_ps_pkg (Some 0) zero_pstate))))))) in
  let s2 := push_doc_packages (Some (option_map (fun i => (i, 0)) (ps_pkg s1))) s1 in
  let s3 := push_pkg_files (Some (option_map (fun i => (i, 0)) (ps_pkg s2))) (Some (option_map (fun i => (i, 0)) (ps_file s2))) s2 in
  let r4 := parse_pair V21 s3 (("Annotator"), ("Person: John Doe ()")) in
  let s5 := after s3 r4 in
  let r6 := parse_pair V21 s5 (("AnnotationDate"), ("2018-09-15T00:36:00Z")) in
  let s7 := after s5 r6 in
  let r8 := parse_pair V21 s7 (("AnnotationType"), ("REVIEW")) in
  let s9 := after s7 r8 in
  let r10 := parse_pair V21 s9 (("SPDXREF"), ("SPDXRef-45")) in
  let s11 := after s9 r10 in
  let r12 := parse_pair V21 s11 (("AnnotationComment"), ("i guess i had something to say about this particular file")) in
  let s13 := after s11 r12 in
  [(option_map negb (olift Bool.eqb (failed r4) (Some false)));
   (option_map negb (olift pst_eqb (Some (ps_st s5)) (Some PsOtherLicense)));
   (option_map negb (olift Bool.eqb (failed r6) (Some false)));
   (option_map negb (olift pst_eqb (Some (ps_st s7)) (Some PsOtherLicense)));
   (option_map negb (olift Bool.eqb (failed r8) (Some false)));
   (option_map negb (olift pst_eqb (Some (ps_st s9)) (Some PsOtherLicense)));
   (option_map negb (olift Bool.eqb (failed r10) (Some false)));
   (option_map negb (olift pst_eqb (Some (ps_st s11)) (Some PsOtherLicense)));
   (option_map negb (olift Bool.eqb (failed r12) (Some false)));
   (option_map negb (olift pst_eqb (Some (ps_st s13)) (Some PsOtherLicense)));
   (option_map negb (olift Nat.eqb (option_map (@List.length _) (option_map (fun l => map (fun i => Some (i, 0)) (seq 0 (List.length l))) (option_map (fun x => d_Annotations x) (obind (Some (ps_doc s13)) (fun o => o))))) (Some 1)));
   (option_map negb (olift String.eqb (option_map (fun x => an_Annotator x) (option_map (fun x => a_Annotator x) (obind (obind (option_map (fun l => map (fun i => Some (i, 0)) (seq 0 (List.length l))) (option_map (fun x => d_Annotations x) (obind (Some (ps_doc s13)) (fun o => o)))) (fun l => nth_error l 0)) (fun p => obind p (fun p => obind (ps_doc s13) (fun d => nth_error (d_Annotations d) (fst p))))))) (Some ("John Doe ()"))))]) = true.
Proof. vm_compute. reflexivity. Qed.
(** /repo/spdx/v2/v2_1/tagvalue/reader/parse_other_license_test.go 217 *)
Example v21_TestParserOLFailsAfterParsingOtherSectionTags : forallb is_false (
  let s1 := (set_ps_st PsOtherLicense (set_ps_doc (Some (set_d_OtherLicenses [(set_ol_LicenseName ("License 11") (set_ol_LicenseIdentifier ("LicenseRef-Lic11") zero_OtherLicense))] (set_d_Packages [] zero_DocumentOf))) (set_ps_lic (Some 0) (set_ps_files [(set_f_SPDXIdentifier ("f1") (set_f_FileName ("f1.txt") zero_FileOf))] (set_ps_file (Some 0) (set_ps_pkgs [(set_p_Files [] (set_p_SPDXIdentifier ("test") (set_p_PackageName ("test") zero_PackageOf)))] (set_ps_pkg (Some 0) zero_pstate))))))) in
  let s2 := push_doc_packages (Some (option_map (fun i => (i, 0)) (ps_pkg s1))) s1 in
  let s3 := push_pkg_files (Some (option_map (fun i => (i, 0)) (ps_pkg s2))) (Some (option_map (fun i => (i, 0)) (ps_file s2))) s2 in
  let r4 := parse_pair V21 s3 (("SPDXVersion"), ("SPDX-2.1")) in
  let s5 := after s3 r4 in
  let r6 := parse_pair V21 s5 (("PackageName"), ("whatever")) in
  let s7 := after s5 r6 in
  let r8 := parse_pair V21 s7 (("FileName"), ("whatever")) in
  let s9 := after s7 r8 in
  [(olift Bool.eqb (failed r4) (Some false));
   (olift Bool.eqb (failed r6) (Some false));
   (olift Bool.eqb (failed r8) (Some false))]) = true.
Proof. vm_compute. reflexivity. Qed.
(** /repo/spdx/v2/v2_1/tagvalue/reader/parse_other_license_test.go 248 *)
Example v21_TestParserCanParseOtherLicenseTags : forallb is_false (
  let s1 := (set_ps_st PsOtherLicense (set_ps_doc (Some (set_d_Packages [] zero_DocumentOf)) (set_ps_files [(set_f_SPDXIdentifier ("f1") (set_f_FileName ("f1.txt") zero_FileOf))] (set_ps_file (Some 0) (set_ps_pkgs [(set_p_Files [] (set_p_SPDXIdentifier ("test") (set_p_PackageName ("test") zero_PackageOf)))] (set_ps_pkg (Some 0) zero_pstate)))))) in
  let s2 := push_doc_packages (Some (option_map (fun i => (i, 0)) (ps_pkg s1))) s1 in
  let s3 := push_pkg_files (Some (option_map (fun i => (i, 0)) (ps_pkg s2))) (Some (option_map (fun i => (i, 0)) (ps_file s2))) s2 in
  let r4 := parse_license V21 ("LicenseID") ("LicenseRef-Lic11") s3 in
  let s5 := after s3 r4 in
  let r6 := parse_license V21 ("ExtractedText") ("You are permitted to do anything with the software, hooray!") s5 in
  let s7 := after s5 r6 in
  let r8 := parse_license V21 ("LicenseName") ("License 11") s7 in
  let s9 := after s7 r8 in
  let r10 := parse_license V21 ("LicenseCrossReference") ("https://example.com/1") s9 in
  let s11 := after s9 r10 in
  let r12 := parse_license V21 ("LicenseCrossReference") ("https://example.com/2") s11 in
  let s13 := after s11 r12 in
  let r14 := parse_license V21 ("LicenseCrossReference") ("https://example.com/3") s13 in
  let s15 := after s13 r14 in
  let r16 := parse_license V21 ("LicenseComment") ("this is a comment") s15 in
  let s17 := after s15 r16 in
  [(option_map negb (olift Bool.eqb (failed r4) (Some false)));
   (option_map negb (olift String.eqb (option_map (fun x => ol_LicenseIdentifier x) (obind (Some (option_map (fun i => (i, 0)) (ps_lic s5))) (fun p => obind p (fun p => obind (ps_doc s5) (fun d => nth_error (d_OtherLicenses d) (fst p)))))) (Some ("LicenseRef-Lic11"))));
   (option_map negb (olift Bool.eqb (failed r6) (Some false)));
   (option_map negb (olift String.eqb (option_map (fun x => ol_ExtractedText x) (obind (Some (option_map (fun i => (i, 0)) (ps_lic s7))) (fun p => obind p (fun p => obind (ps_doc s7) (fun d => nth_error (d_OtherLicenses d) (fst p)))))) (Some ("You are permitted to do anything with the software, hooray!"))));
   (option_map negb (olift Bool.eqb (failed r8) (Some false)));
   (option_map negb (olift String.eqb (option_map (fun x => ol_LicenseName x) (obind (Some (option_map (fun i => (i, 0)) (ps_lic s9))) (fun p => obind p (fun p => obind (ps_doc s9) (fun d => nth_error (d_OtherLicenses d) (fst p)))))) (Some ("License 11"))));
   (option_map negb (olift Bool.eqb (failed r10) (Some false)));
   (option_map negb (olift Bool.eqb (failed r12) (Some false)));
   (option_map negb (olift Bool.eqb (failed r14) (Some false)));
   (option_map negb (option_map (mem ("https://example.com/1")) (option_map (fun x => ol_CrossReferences x) (obind (Some (option_map (fun i => (i, 0)) (ps_lic s15))) (fun p => obind p (fun p => obind (ps_doc s15) (fun d => nth_error (d_OtherLicenses d) (fst p))))))));
   (option_map negb (option_map (mem ("https://example.com/2")) (option_map (fun x => ol_CrossReferences x) (obind (Some (option_map (fun i => (i, 0)) (ps_lic s15))) (fun p => obind p (fun p => obind (ps_doc s15) (fun d => nth_error (d_OtherLicenses d) (fst p))))))));
   (option_map negb (option_map (mem ("https://example.com/3")) (option_map (fun x => ol_CrossReferences x) (obind (Some (option_map (fun i => (i, 0)) (ps_lic s15))) (fun p => obind p (fun p => obind (ps_doc s15) (fun d => nth_error (d_OtherLicenses d) (fst p))))))));
   (option_map negb (olift Nat.eqb (option_map (@List.length _) (option_map (fun x => ol_CrossReferences x) (obind (Some (option_map (fun i => (i, 0)) (ps_lic s15))) (fun p => obind p (fun p => obind (ps_doc s15) (fun d => nth_error (d_OtherLicenses d) (fst p))))))) (Some 3)));
   (option_map negb (olift Bool.eqb (failed r16) (Some false)));
   (option_map negb (olift String.eqb (option_map (fun x => ol_Comment x) (obind (Some (option_map (fun i => (i, 0)) (ps_lic s17))) (fun p => obind p (fun p => obind (ps_doc s17) (fun d => nth_error (d_OtherLicenses d) (fst p)))))) (Some ("this is a comment"))))]) = true.
Proof. vm_compute. reflexivity. Qed.
(** /repo/spdx/v2/v2_1/tagvalue/reader/parse_other_license_test.go 324 *)
Example v21_TestParserOLUnknownTagFails : forallb is_false (
  let s1 := (set_ps_st PsOtherLicense (set_ps_doc (Some (set_d_Packages [] zero_DocumentOf)) (set_ps_files [(set_f_SPDXIdentifier ("f1") (set_f_FileName ("f1.txt") zero_FileOf))] (set_ps_file (Some 0) (set_ps_pkgs [(set_p_Files [] (set_p_SPDXIdentifier ("test") (set_p_PackageName ("test") zero_PackageOf)))] (set_ps_pkg (Some 0) zero_pstate)))))) in
  let s2 := push_doc_packages (Some (option_map (fun i => (i, 0)) (ps_pkg s1))) s1 in
  let s3 := push_pkg_files (Some (option_map (fun i => (i, 0)) (ps_pkg s2))) (Some (option_map (fun i => (i, 0)) (ps_file s2))) s2 in
  let r4 := parse_license V21 ("blah") ("something") s3 in
  let s5 := after s3 r4 in
  [(olift Bool.eqb (failed r4) (Some false))]) = true.
Proof. vm_compute. reflexivity. Qed.
(** /repo/spdx/v2/v2_1/tagvalue/reader/parse_package_test.go 12 *)
Example v21_TestParserPackageStartsNewPackageAfterParsingPackageNameTag : forallb is_false (
  let s1 := (set_ps_st PsPackage (set_ps_doc (Some (set_d_Packages [] zero_DocumentOf)) (set_ps_pkgs [(set_p_SPDXIdentifier ("p1") (set_p_PackageName ("p1") zero_PackageOf))] (set_ps_pkg (Some 0) zero_pstate)))) in
  let s2 := push_doc_packages (Some (option_map (fun i => (i, 0)) (ps_pkg s1))) s1 in
  let r3 := parse_pair V21 s2 (("PackageName"), ("p2")) in
  let s4 := after s2 r3 in
  [(option_map negb (olift Bool.eqb (failed r3) (Some false)));
   (option_map negb (olift pst_eqb (Some (ps_st s4)) (Some PsPackage)));
   (olift ptr_eqb (Some (option_map (fun i => (i, 0)) (ps_pkg s4))) (Some None));
   (olift ptr_eqb (Some (option_map (fun i => (i, 0)) (ps_pkg s4))) (Some (option_map (fun i => (i, 0)) (ps_pkg s1))));
   (option_map negb (olift String.eqb (option_map (fun x => p_PackageName x) (obind (Some (option_map (fun i => (i, 0)) (ps_pkg s4))) (fun p => obind p (fun p => nth_error (ps_pkgs s4) (fst p))))) (Some ("p2"))));
   (option_map negb (option_map (fun x => p_FilesAnalyzed x) (obind (Some (option_map (fun i => (i, 0)) (ps_pkg s4))) (fun p => obind p (fun p => nth_error (ps_pkgs s4) (fst p))))));
   (option_map (fun x => p_IsFilesAnalyzedTagPresent x) (obind (Some (option_map (fun i => (i, 0)) (ps_pkg s4))) (fun p => obind p (fun p => nth_error (ps_pkgs s4) (fst p)))));
   (option_map negb (olift ptr_eqb (obind (option_map (map (fun i => Some (i, 0))) (option_map (fun x => d_Packages x) (obind (Some (ps_doc s4)) (fun o => o)))) (fun l => nth_error l 0)) (Some (option_map (fun i => (i, 0)) (ps_pkg s1)))));
   (option_map negb (olift Nat.eqb (option_map (@List.length _) (option_map (map (fun i => Some (i, 0))) (option_map (fun x => d_Packages x) (obind (Some (ps_doc s4)) (fun o => o))))) (Some 1)))]) = true.
Proof. vm_compute. reflexivity. Qed.
(** /repo/spdx/v2/v2_1/tagvalue/reader/parse_package_test.go 62 *)
Example v21_TestParserPackageStartsNewPackageAfterParsingPackageNameTagWhileInUnpackaged : forallb is_false (
  let s1 := (set_ps_st PsFile (set_ps_doc (Some (set_d_Packages [] zero_DocumentOf)) zero_pstate)) in
  let r2 := parse_pair V21 s1 (("PackageName"), ("p2")) in
  let s3 := after s1 r2 in
  [(option_map negb (olift Nat.eqb (option_map (@List.length _) (option_map (map (fun i => Some (i, 0))) (option_map (fun x => d_Packages x) (obind (Some (ps_doc s1)) (fun o => o))))) (Some 0)));
   (option_map negb (olift Bool.eqb (failed r2) (Some false)));
   (option_map negb (olift pst_eqb (Some (ps_st s3)) (Some PsPackage)));
   (olift ptr_eqb (Some (option_map (fun i => (i, 0)) (ps_pkg s3))) (Some None));
   (option_map negb (olift String.eqb (option_map (fun x => p_PackageName x) (obind (Some (option_map (fun i => (i, 0)) (ps_pkg s3))) (fun p => obind p (fun p => nth_error (ps_pkgs s3) (fst p))))) (Some ("p2"))));
   (option_map negb (option_map (fun x => p_FilesAnalyzed x) (obind (Some (option_map (fun i => (i, 0)) (ps_pkg s3))) (fun p => obind p (fun p => nth_error (ps_pkgs s3) (fst p))))));
   (option_map (fun x => p_IsFilesAnalyzedTagPresent x) (obind (Some (option_map (fun i => (i, 0)) (ps_pkg s3))) (fun p => obind p (fun p => nth_error (ps_pkgs s3) (fst p)))));
   (option_map negb (olift Nat.eqb (option_map (@List.length _) (option_map (map (fun i => Some (i, 0))) (option_map (fun x => d_Packages x) (obind (Some (ps_doc s3)) (fun o => o))))) (Some 0)))]) = true.
Proof. vm_compute. reflexivity. Qed.
(** /repo/spdx/v2/v2_1/tagvalue/reader/parse_package_test.go 107 *)
Example v21_TestParserPackageMovesToFileAfterParsingFileNameTag : forallb is_false (
  let s1 := (set_ps_st PsPackage (set_ps_doc (Some (set_d_Packages [] zero_DocumentOf)) (set_ps_pkgs [(set_p_SPDXIdentifier ("p1") (set_p_PackageName ("p1") zero_PackageOf))] (set_ps_pkg (Some 0) zero_pstate)))) in
  let s2 := push_doc_packages (Some (option_map (fun i => (i, 0)) (ps_pkg s1))) s1 in
  let r3 := parse_pair V21 s2 (("FileName"), ("testFile")) in
  let s4 := after s2 r3 in
  [(option_map negb (olift Bool.eqb (failed r3) (Some false)));
   (option_map negb (olift pst_eqb (Some (ps_st s4)) (Some PsFile)));
   (option_map negb (olift ptr_eqb (Some (option_map (fun i => (i, 0)) (ps_pkg s4))) (Some (option_map (fun i => (i, 0)) (ps_pkg s2)))))]) = true.
Proof. vm_compute. reflexivity. Qed.
(** /repo/spdx/v2/v2_1/tagvalue/reader/parse_package_test.go 130 *)
Example v21_TestParserPackageMovesToOtherLicenseAfterParsingLicenseIDTag : forallb is_false (
  let s1 := (set_ps_st PsPackage (set_ps_doc (Some (set_d_Packages [] zero_DocumentOf)) (set_ps_pkgs [(set_p_SPDXIdentifier ("p1") (set_p_PackageName ("p1") zero_PackageOf))] (set_ps_pkg (Some 0) zero_pstate)))) in
  let s2 := push_doc_packages (Some (option_map (fun i => (i, 0)) (ps_pkg s1))) s1 in
  let r3 := parse_pair V21 s2 (("LicenseID"), ("LicenseRef-TestLic")) in
  let s4 := after s2 r3 in
  [(option_map negb (olift Bool.eqb (failed r3) (Some false)));
   (option_map negb (olift pst_eqb (Some (ps_st s4)) (Some PsOtherLicense)))]) = true.
Proof. vm_compute. reflexivity. Qed.
(** /repo/spdx/v2/v2_1/tagvalue/reader/parse_package_test.go 147 *)
Example v21_TestParserPackageMovesToReviewAfterParsingReviewerTag : forallb is_false (
  let s1 := (set_ps_st PsPackage (set_ps_doc (Some (set_d_Packages [] zero_DocumentOf)) (set_ps_pkgs [(set_p_SPDXIdentifier ("p1") (set_p_PackageName ("p1") zero_PackageOf))] (set_ps_pkg (Some 0) zero_pstate)))) in
  let s2 := push_doc_packages (Some (option_map (fun i => (i, 0)) (ps_pkg s1))) s1 in
  let r3 := parse_pair V21 s2 (("Reviewer"), ("Person: John Doe")) in
  let s4 := after s2 r3 in
  [(option_map negb (olift Bool.eqb (failed r3) (Some false)));
   (option_map negb (olift pst_eqb (Some (ps_st s4)) (Some PsReview)))]) = true.
Proof. vm_compute. reflexivity. Qed.
(** /repo/spdx/v2/v2_1/tagvalue/reader/parse_package_test.go 164 *)
Example v21_TestParserPackageStaysAfterParsingRelationshipTags : forallb is_false (
  let s1 := (set_ps_st PsPackage (set_ps_doc (Some (set_d_Packages [] zero_DocumentOf)) (set_ps_pkgs [(set_p_SPDXIdentifier ("p1") (set_p_PackageName ("p1") zero_PackageOf))] (set_ps_pkg (Some 0) zero_pstate)))) in
  let s2 := push_doc_packages (Some (option_map (fun i => (i, 0)) (ps_pkg s1))) s1 in
  let r3 := parse_pair V21 s2 (("Relationship"), ("SPDXRef-blah CONTAINS SPDXRef-blah-else")) in
  let s4 := after s2 r3 in
  let r5 := parse_pair V21 s4 (("RelationshipComment"), ("blah")) in
  let s6 := after s4 r5 in
  [(option_map negb (olift Bool.eqb (failed r3) (Some false)));
   (option_map negb (olift pst_eqb (Some (ps_st s4)) (Some PsPackage)));
   (option_map negb (olift Bool.eqb (failed r5) (Some false)));
   (option_map negb (olift pst_eqb (Some (ps_st s6)) (Some PsPackage)))]) = true.
Proof. vm_compute. reflexivity. Qed.
(** /repo/spdx/v2/v2_1/tagvalue/reader/parse_package_test.go 191 *)
Example v21_TestParserPackageStaysAfterParsingAnnotationTags : forallb is_false (
  let s1 := (set_ps_st PsPackage (set_ps_doc (Some (set_d_Packages [] zero_DocumentOf)) (set_ps_pkgs [(set_p_SPDXIdentifier ("p1") (set_p_PackageName ("p1") zero_PackageOf))] (set_ps_pkg (Some 0) zero_pstate)))) in
  let s2 := push_doc_packages (Some (option_map (fun i => (i, 0)) (ps_pkg s1))) s1 in
  let r3 := parse_pair V21 s2 (("Annotator"), ("Person: John Doe ()")) in
  let s4 := after s2 r3 in
  let r5 := parse_pair V21 s4 (("AnnotationDate"), ("2018-09-15T00:36:00Z")) in
  let s6 := after s4 r5 in
  let r7 := parse_pair V21 s6 (("AnnotationType"), ("REVIEW")) in
  let s8 := after s6 r7 in
  let r9 := parse_pair V21 s8 (("SPDXREF"), ("SPDXRef-45")) in
  let s10 := after s8 r9 in
  let r11 := parse_pair V21 s10 (("AnnotationComment"), ("i guess i had something to say about this package")) in
  let s12 := after s10 r11 in
  [(option_map negb (olift Bool.eqb (failed r3) (Some false)));
   (option_map negb (olift pst_eqb (Some (ps_st s4)) (Some PsPackage)));
   (option_map negb (olift Bool.eqb (failed r5) (Some false)));
   (option_map negb (olift pst_eqb (Some (ps_st s6)) (Some PsPackage)));
   (option_map negb (olift Bool.eqb (failed r7) (Some false)));
   (option_map negb (olift pst_eqb (Some (ps_st s8)) (Some PsPackage)));
   (option_map negb (olift Bool.eqb (failed r9) (Some false)));
   (option_map negb (olift pst_eqb (Some (ps_st s10)) (Some PsPackage)));
   (option_map negb (olift Bool.eqb (failed r11) (Some false)));
   (option_map negb (olift pst_eqb (Some (ps_st s12)) (Some PsPackage)))]) = true.
Proof. vm_compute. reflexivity. Qed.
(** /repo/spdx/v2/v2_1/tagvalue/reader/parse_package_test.go 241 *)
Example v21_TestParserCanParsePackageTags : forallb is_false (
  let s1 := (set_ps_st PsPackage (set_ps_doc (Some (set_d_Packages [] zero_DocumentOf)) (set_ps_pkgs [zero_PackageOf] (set_ps_pkg (Some 0) zero_pstate)))) in
  let r2 := parse_package V21 ("PackageName") ("p1") s1 in
  let s3 := after s1 r2 in
  let r4 := parse_package V21 ("SPDXID") ("SPDXRef-p1") s3 in
  let s5 := after s3 r4 in
  let r6 := parse_package V21 ("PackageVersion") ("2.1.1") s5 in
  let s7 := after s5 r6 in
  let r8 := parse_package V21 ("PackageFileName") ("p1-2.1.1.tar.gz") s7 in
  let s9 := after s7 r8 in
  let r10 := parse_package V21 ("PackageDownloadLocation") ("https://example.com/whatever") s9 in
  let s11 := after s9 r10 in
  let r12 := parse_package V21 ("FilesAnalyzed") ("false") s11 in
  let s13 := after s11 r12 in
  let r14 := parse_package V21 ("PackageChecksum") ("SHA1: 85ed0817af83a24ad8da68c2b5094de69833983c") s13 in
  let s15 := after s13 r14 in
  let r16 := parse_package V21 ("PackageChecksum") ("SHA256: 11b6d3ee554eedf79299905a98f9b9a04e498210b59f15094c916c91d150efcd") s15 in
  let s17 := after s15 r16 in
  let r18 := parse_package V21 ("PackageChecksum") ("MD5: 624c1abb3664f4b35547e7c73864ad24") s17 in
  let s19 := after s17 r18 in
  let r20 := parse_package V21 ("PackageHomePage") ("https://example.com/whatever2") s19 in
  let s21 := after s19 r20 in
  let r22 := parse_package V21 ("PackageSourceInfo") ("random comment") s21 in
  let s23 := after s21 r22 in
  let r24 := parse_package V21 ("PackageLicenseConcluded") ("Apache-2.0 OR GPL-2.0-or-later") s23 in
  let s25 := after s23 r24 in
  let r26 := parse_package V21 ("PackageLicenseInfoFromFiles") ("Apache-2.0") s25 in
  let s27 := after s25 r26 in
  let r28 := parse_package V21 ("PackageLicenseInfoFromFiles") ("GPL-2.0-or-later") s27 in
  let s29 := after s27 r28 in
  let r30 := parse_package V21 ("PackageLicenseInfoFromFiles") ("CC0-1.0") s29 in
  let s31 := after s29 r30 in
  let r32 := parse_package V21 ("PackageLicenseDeclared") ("Apache-2.0 OR GPL-2.0-or-later") s31 in
  let s33 := after s31 r32 in
  let r34 := parse_package V21 ("PackageLicenseComments") ("this is a license comment") s33 in
  let s35 := after s33 r34 in
  let r36 := parse_package V21 ("PackageCopyrightText") ("Copyright (c) me myself and i") s35 in
  let s37 := after s35 r36 in
  let r38 := parse_package V21 ("PackageSummary") ("i wrote this package") s37 in
  let s39 := after s37 r38 in
  let r40 := parse_package V21 ("PackageDescription") ("i wrote this package a lot") s39 in
  let s41 := after s39 r40 in
  let r42 := parse_package V21 ("PackageComment") ("i scanned this package") s41 in
  let s43 := after s41 r42 in
  let r44 := parse_package V21 ("ExternalRef") ("SECURITY cpe23Type cpe:2.3:a:pivotal_software:spring_framework:4.1.0:*:*:*:*:*:*:*") s43 in
  let s45 := after s43 r44 in
  let r46 := parse_package V21 ("ExternalRefComment") ("this is comment #1") s45 in
  let s47 := after s45 r46 in
  let r48 := parse_package V21 ("ExternalRef") ("OTHER LocationRef-acmeforge acmecorp/acmenator/4.1.3alpha") s47 in
  let s49 := after s47 r48 in
  let r50 := parse_package V21 ("ExternalRefComment") ("this is comment #2") s49 in
  let s51 := after s49 r50 in
  [(option_map negb (olift Nat.eqb (option_map (@List.length _) (option_map (map (fun i => Some (i, 0))) (option_map (fun x => d_Packages x) (obind (Some (ps_doc s1)) (fun o => o))))) (Some 0)));
   (option_map negb (olift Bool.eqb (failed r2) (Some false)));
   (option_map negb (olift String.eqb (option_map (fun x => p_PackageName x) (obind (Some (option_map (fun i => (i, 0)) (ps_pkg s3))) (fun p => obind p (fun p => nth_error (ps_pkgs s3) (fst p))))) (Some ("p1"))));
   (option_map negb (olift Nat.eqb (option_map (@List.length _) (option_map (map (fun i => Some (i, 0))) (option_map (fun x => d_Packages x) (obind (Some (ps_doc s3)) (fun o => o))))) (Some 0)));
   (option_map negb (olift Bool.eqb (failed r4) (Some false)));
   (option_map negb (olift String.eqb (option_map (fun x => p_SPDXIdentifier x) (obind (Some (option_map (fun i => (i, 0)) (ps_pkg s5))) (fun p => obind p (fun p => nth_error (ps_pkgs s5) (fst p))))) (Some ("p1"))));
   (option_map negb (olift Nat.eqb (option_map (@List.length _) (option_map (map (fun i => Some (i, 0))) (option_map (fun x => d_Packages x) (obind (Some (ps_doc s5)) (fun o => o))))) (Some 1)));
   (option_map negb (olift ptr_eqb (obind (option_map (map (fun i => Some (i, 0))) (option_map (fun x => d_Packages x) (obind (Some (ps_doc s5)) (fun o => o)))) (fun l => nth_error l 0)) (Some (option_map (fun i => (i, 0)) (ps_pkg s5)))));
   (option_map negb (olift Bool.eqb (failed r6) (Some false)));
   (option_map negb (olift String.eqb (option_map (fun x => p_Version x) (obind (Some (option_map (fun i => (i, 0)) (ps_pkg s7))) (fun p => obind p (fun p => nth_error (ps_pkgs s7) (fst p))))) (Some ("2.1.1"))));
   (option_map negb (olift Bool.eqb (failed r8) (Some false)));
   (option_map negb (olift String.eqb (option_map (fun x => p_FileName x) (obind (Some (option_map (fun i => (i, 0)) (ps_pkg s9))) (fun p => obind p (fun p => nth_error (ps_pkgs s9) (fst p))))) (Some ("p1-2.1.1.tar.gz"))));
   (option_map negb (olift Bool.eqb (failed r10) (Some false)));
   (option_map negb (olift String.eqb (option_map (fun x => p_DownloadLocation x) (obind (Some (option_map (fun i => (i, 0)) (ps_pkg s11))) (fun p => obind p (fun p => nth_error (ps_pkgs s11) (fst p))))) (Some ("https://example.com/whatever"))));
   (option_map negb (olift Bool.eqb (failed r12) (Some false)));
   (option_map (fun x => p_FilesAnalyzed x) (obind (Some (option_map (fun i => (i, 0)) (ps_pkg s13))) (fun p => obind p (fun p => nth_error (ps_pkgs s13) (fst p)))));
   (option_map negb (option_map (fun x => p_IsFilesAnalyzedTagPresent x) (obind (Some (option_map (fun i => (i, 0)) (ps_pkg s13))) (fun p => obind p (fun p => nth_error (ps_pkgs s13) (fst p))))));
   (option_map negb (olift Bool.eqb (failed r14) (Some false)));
   (option_map negb (olift Bool.eqb (failed r16) (Some false)));
   (option_map negb (olift Bool.eqb (failed r18) (Some false)));
   (obind (option_map (fun x => p_Checksums x) (obind (Some (option_map (fun i => (i, 0)) (ps_pkg s19))) (fun p => obind p (fun p => nth_error (ps_pkgs s19) (fst p))))) (oexists (fun it => (olift andb (olift String.eqb (option_map (fun x => ck_Algorithm x) (Some it)) (Some ("SHA1"))) (option_map negb (olift String.eqb (option_map (fun x => ck_Value x) (Some it)) (Some ("85ed0817af83a24ad8da68c2b5094de69833983c"))))))));
   (obind (option_map (fun x => p_Checksums x) (obind (Some (option_map (fun i => (i, 0)) (ps_pkg s19))) (fun p => obind p (fun p => nth_error (ps_pkgs s19) (fst p))))) (oexists (fun it => (olift andb (olift String.eqb (option_map (fun x => ck_Algorithm x) (Some it)) (Some ("SHA256"))) (option_map negb (olift String.eqb (option_map (fun x => ck_Value x) (Some it)) (Some ("11b6d3ee554eedf79299905a98f9b9a04e498210b59f15094c916c91d150efcd"))))))));
   (obind (option_map (fun x => p_Checksums x) (obind (Some (option_map (fun i => (i, 0)) (ps_pkg s19))) (fun p => obind p (fun p => nth_error (ps_pkgs s19) (fst p))))) (oexists (fun it => (olift andb (olift String.eqb (option_map (fun x => ck_Algorithm x) (Some it)) (Some ("MD5"))) (option_map negb (olift String.eqb (option_map (fun x => ck_Value x) (Some it)) (Some ("624c1abb3664f4b35547e7c73864ad24"))))))));
   (option_map negb (olift Bool.eqb (failed r20) (Some false)));
   (option_map negb (olift String.eqb (option_map (fun x => p_HomePage x) (obind (Some (option_map (fun i => (i, 0)) (ps_pkg s21))) (fun p => obind p (fun p => nth_error (ps_pkgs s21) (fst p))))) (Some ("https://example.com/whatever2"))));
   (option_map negb (olift Bool.eqb (failed r22) (Some false)));
   (option_map negb (olift String.eqb (option_map (fun x => p_SourceInfo x) (obind (Some (option_map (fun i => (i, 0)) (ps_pkg s23))) (fun p => obind p (fun p => nth_error (ps_pkgs s23) (fst p))))) (Some ("random comment"))));
   (option_map negb (olift Bool.eqb (failed r24) (Some false)));
   (option_map negb (olift String.eqb (option_map (fun x => p_LicenseConcluded x) (obind (Some (option_map (fun i => (i, 0)) (ps_pkg s25))) (fun p => obind p (fun p => nth_error (ps_pkgs s25) (fst p))))) (Some ("Apache-2.0 OR GPL-2.0-or-later"))));
   (option_map negb (olift Bool.eqb (failed r26) (Some false)));
   (option_map negb (olift Bool.eqb (failed r28) (Some false)));
   (option_map negb (olift Bool.eqb (failed r30) (Some false)));
   (option_map negb (option_map (mem ("Apache-2.0")) (option_map (fun x => p_LicenseInfoFromFiles x) (obind (Some (option_map (fun i => (i, 0)) (ps_pkg s31))) (fun p => obind p (fun p => nth_error (ps_pkgs s31) (fst p)))))));
   (option_map negb (option_map (mem ("GPL-2.0-or-later")) (option_map (fun x => p_LicenseInfoFromFiles x) (obind (Some (option_map (fun i => (i, 0)) (ps_pkg s31))) (fun p => obind p (fun p => nth_error (ps_pkgs s31) (fst p)))))));
   (option_map negb (option_map (mem ("CC0-1.0")) (option_map (fun x => p_LicenseInfoFromFiles x) (obind (Some (option_map (fun i => (i, 0)) (ps_pkg s31))) (fun p => obind p (fun p => nth_error (ps_pkgs s31) (fst p)))))));
   (option_map negb (olift Nat.eqb (option_map (@List.length _) (option_map (fun x => p_LicenseInfoFromFiles x) (obind (Some (option_map (fun i => (i, 0)) (ps_pkg s31))) (fun p => obind p (fun p => nth_error (ps_pkgs s31) (fst p)))))) (Some 3)));
   (option_map negb (olift Bool.eqb (failed r32) (Some false)));
   (option_map negb (olift String.eqb (option_map (fun x => p_LicenseDeclared x) (obind (Some (option_map (fun i => (i, 0)) (ps_pkg s33))) (fun p => obind p (fun p => nth_error (ps_pkgs s33) (fst p))))) (Some ("Apache-2.0 OR GPL-2.0-or-later"))));
   (option_map negb (olift Bool.eqb (failed r34) (Some false)));
   (option_map negb (olift String.eqb (option_map (fun x => p_LicenseComments x) (obind (Some (option_map (fun i => (i, 0)) (ps_pkg s35))) (fun p => obind p (fun p => nth_error (ps_pkgs s35) (fst p))))) (Some ("this is a license comment"))));
   (option_map negb (olift Bool.eqb (failed r36) (Some false)));
   (option_map negb (olift String.eqb (option_map (fun x => p_CopyrightText x) (obind (Some (option_map (fun i => (i, 0)) (ps_pkg s37))) (fun p => obind p (fun p => nth_error (ps_pkgs s37) (fst p))))) (Some ("Copyright (c) me myself and i"))));
   (option_map negb (olift Bool.eqb (failed r38) (Some false)));
   (option_map negb (olift String.eqb (option_map (fun x => p_Summary x) (obind (Some (option_map (fun i => (i, 0)) (ps_pkg s39))) (fun p => obind p (fun p => nth_error (ps_pkgs s39) (fst p))))) (Some ("i wrote this package"))));
   (option_map negb (olift Bool.eqb (failed r40) (Some false)));
   (option_map negb (olift String.eqb (option_map (fun x => p_Description x) (obind (Some (option_map (fun i => (i, 0)) (ps_pkg s41))) (fun p => obind p (fun p => nth_error (ps_pkgs s41) (fst p))))) (Some ("i wrote this package a lot"))));
   (option_map negb (olift Bool.eqb (failed r42) (Some false)));
   (option_map negb (olift String.eqb (option_map (fun x => p_Comment x) (obind (Some (option_map (fun i => (i, 0)) (ps_pkg s43))) (fun p => obind p (fun p => nth_error (ps_pkgs s43) (fst p))))) (Some ("i scanned this package"))));
   (option_map negb (olift Bool.eqb (failed r44) (Some false)));
   (option_map negb (olift Nat.eqb (option_map (@List.length _) (obind (Some (option_map (fun i => (i, 0)) (ps_pkg s45))) (fun p => obind p (fun p => option_map (fun l => map (fun j => Some (fst p, j)) (seq 0 (List.length l))) (option_map (fun x => p_ExternalReferences x) (obind (Some (option_map (fun i => (i, 0)) (ps_pkg s45))) (fun p => obind p (fun p => nth_error (ps_pkgs s45) (fst p))))))))) (Some 1)));
   (olift ptr_eqb (Some (ps_extref s45)) (Some None));
   (olift ptr_eqb (obind (obind (Some (option_map (fun i => (i, 0)) (ps_pkg s45))) (fun p => obind p (fun p => option_map (fun l => map (fun j => Some (fst p, j)) (seq 0 (List.length l))) (option_map (fun x => p_ExternalReferences x) (obind (Some (option_map (fun i => (i, 0)) (ps_pkg s45))) (fun p => obind p (fun p => nth_error (ps_pkgs s45) (fst p)))))))) (fun l => nth_error l 0)) (Some None));
   (option_map negb (olift ptr_eqb (Some (ps_extref s45)) (obind (obind (Some (option_map (fun i => (i, 0)) (ps_pkg s45))) (fun p => obind p (fun p => option_map (fun l => map (fun j => Some (fst p, j)) (seq 0 (List.length l))) (option_map (fun x => p_ExternalReferences x) (obind (Some (option_map (fun i => (i, 0)) (ps_pkg s45))) (fun p => obind p (fun p => nth_error (ps_pkgs s45) (fst p)))))))) (fun l => nth_error l 0))));
   (option_map negb (olift Bool.eqb (failed r46) (Some false)));
   (option_map negb (olift Bool.eqb (failed r48) (Some false)));
   (option_map negb (olift Nat.eqb (option_map (@List.length _) (obind (Some (option_map (fun i => (i, 0)) (ps_pkg s49))) (fun p => obind p (fun p => option_map (fun l => map (fun j => Some (fst p, j)) (seq 0 (List.length l))) (option_map (fun x => p_ExternalReferences x) (obind (Some (option_map (fun i => (i, 0)) (ps_pkg s49))) (fun p => obind p (fun p => nth_error (ps_pkgs s49) (fst p))))))))) (Some 2)));
   (olift ptr_eqb (Some (ps_extref s49)) (Some None));
   (olift ptr_eqb (obind (obind (Some (option_map (fun i => (i, 0)) (ps_pkg s49))) (fun p => obind p (fun p => option_map (fun l => map (fun j => Some (fst p, j)) (seq 0 (List.length l))) (option_map (fun x => p_ExternalReferences x) (obind (Some (option_map (fun i => (i, 0)) (ps_pkg s49))) (fun p => obind p (fun p => nth_error (ps_pkgs s49) (fst p)))))))) (fun l => nth_error l 1)) (Some None));
   (option_map negb (olift ptr_eqb (Some (ps_extref s49)) (obind (obind (Some (option_map (fun i => (i, 0)) (ps_pkg s49))) (fun p => obind p (fun p => option_map (fun l => map (fun j => Some (fst p, j)) (seq 0 (List.length l))) (option_map (fun x => p_ExternalReferences x) (obind (Some (option_map (fun i => (i, 0)) (ps_pkg s49))) (fun p => obind p (fun p => nth_error (ps_pkgs s49) (fst p)))))))) (fun l => nth_error l 1))));
   (option_map negb (olift Bool.eqb (failed r50) (Some false)));
   (option_map negb (olift String.eqb (option_map (fun x => er_Category x) (obind (obind (obind (Some (option_map (fun i => (i, 0)) (ps_pkg s51))) (fun p => obind p (fun p => option_map (fun l => map (fun j => Some (fst p, j)) (seq 0 (List.length l))) (option_map (fun x => p_ExternalReferences x) (obind (Some (option_map (fun i => (i, 0)) (ps_pkg s51))) (fun p => obind p (fun p => nth_error (ps_pkgs s51) (fst p)))))))) (fun l => nth_error l 0)) (fun p => obind p (fun p => obind (nth_error (ps_pkgs s51) (fst p)) (fun w => nth_error (p_ExternalReferences w) (snd p)))))) (Some ("SECURITY"))));
   (option_map negb (olift String.eqb (option_map (fun x => er_RefType x) (obind (obind (obind (Some (option_map (fun i => (i, 0)) (ps_pkg s51))) (fun p => obind p (fun p => option_map (fun l => map (fun j => Some (fst p, j)) (seq 0 (List.length l))) (option_map (fun x => p_ExternalReferences x) (obind (Some (option_map (fun i => (i, 0)) (ps_pkg s51))) (fun p => obind p (fun p => nth_error (ps_pkgs s51) (fst p)))))))) (fun l => nth_error l 0)) (fun p => obind p (fun p => obind (nth_error (ps_pkgs s51) (fst p)) (fun w => nth_error (p_ExternalReferences w) (snd p)))))) (Some ("cpe23Type"))));
   (option_map negb (olift String.eqb (option_map (fun x => er_Locator x) (obind (obind (obind (Some (option_map (fun i => (i, 0)) (ps_pkg s51))) (fun p => obind p (fun p => option_map (fun l => map (fun j => Some (fst p, j)) (seq 0 (List.length l))) (option_map (fun x => p_ExternalReferences x) (obind (Some (option_map (fun i => (i, 0)) (ps_pkg s51))) (fun p => obind p (fun p => nth_error (ps_pkgs s51) (fst p)))))))) (fun l => nth_error l 0)) (fun p => obind p (fun p => obind (nth_error (ps_pkgs s51) (fst p)) (fun w => nth_error (p_ExternalReferences w) (snd p)))))) (Some ("cpe:2.3:a:pivotal_software:spring_framework:4.1.0:*:*:*:*:*:*:*"))));
   (option_map negb (olift String.eqb (option_map (fun x => er_Comment x) (obind (obind (obind (Some (option_map (fun i => (i, 0)) (ps_pkg s51))) (fun p => obind p (fun p => option_map (fun l => map (fun j => Some (fst p, j)) (seq 0 (List.length l))) (option_map (fun x => p_ExternalReferences x) (obind (Some (option_map (fun i => (i, 0)) (ps_pkg s51))) (fun p => obind p (fun p => nth_error (ps_pkgs s51) (fst p)))))))) (fun l => nth_error l 0)) (fun p => obind p (fun p => obind (nth_error (ps_pkgs s51) (fst p)) (fun w => nth_error (p_ExternalReferences w) (snd p)))))) (Some ("this is comment #1"))));
   (option_map negb (olift String.eqb (option_map (fun x => er_Category x) (obind (obind (obind (Some (option_map (fun i => (i, 0)) (ps_pkg s51))) (fun p => obind p (fun p => option_map (fun l => map (fun j => Some (fst p, j)) (seq 0 (List.length l))) (option_map (fun x => p_ExternalReferences x) (obind (Some (option_map (fun i => (i, 0)) (ps_pkg s51))) (fun p => obind p (fun p => nth_error (ps_pkgs s51) (fst p)))))))) (fun l => nth_error l 1)) (fun p => obind p (fun p => obind (nth_error (ps_pkgs s51) (fst p)) (fun w => nth_error (p_ExternalReferences w) (snd p)))))) (Some ("OTHER"))));
   (option_map negb (olift String.eqb (option_map (fun x => er_RefType x) (obind (obind (obind (Some (option_map (fun i => (i, 0)) (ps_pkg s51))) (fun p => obind p (fun p => option_map (fun l => map (fun j => Some (fst p, j)) (seq 0 (List.length l))) (option_map (fun x => p_ExternalReferences x) (obind (Some (option_map (fun i => (i, 0)) (ps_pkg s51))) (fun p => obind p (fun p => nth_error (ps_pkgs s51) (fst p)))))))) (fun l => nth_error l 1)) (fun p => obind p (fun p => obind (nth_error (ps_pkgs s51) (fst p)) (fun w => nth_error (p_ExternalReferences w) (snd p)))))) (Some ("LocationRef-acmeforge"))));
   (option_map negb (olift String.eqb (option_map (fun x => er_Locator x) (obind (obind (obind (Some (option_map (fun i => (i, 0)) (ps_pkg s51))) (fun p => obind p (fun p => option_map (fun l => map (fun j => Some (fst p, j)) (seq 0 (List.length l))) (option_map (fun x => p_ExternalReferences x) (obind (Some (option_map (fun i => (i, 0)) (ps_pkg s51))) (fun p => obind p (fun p => nth_error (ps_pkgs s51) (fst p)))))))) (fun l => nth_error l 1)) (fun p => obind p (fun p => obind (nth_error (ps_pkgs s51) (fst p)) (fun w => nth_error (p_ExternalReferences w) (snd p)))))) (Some ("acmecorp/acmenator/4.1.3alpha"))));
   (option_map negb (olift String.eqb (option_map (fun x => er_Comment x) (obind (obind (obind (Some (option_map (fun i => (i, 0)) (ps_pkg s51))) (fun p => obind p (fun p => option_map (fun l => map (fun j => Some (fst p, j)) (seq 0 (List.length l))) (option_map (fun x => p_ExternalReferences x) (obind (Some (option_map (fun i => (i, 0)) (ps_pkg s51))) (fun p => obind p (fun p => nth_error (ps_pkgs s51) (fst p)))))))) (fun l => nth_error l 1)) (fun p => obind p (fun p => obind (nth_error (ps_pkgs s51) (fst p)) (fun w => nth_error (p_ExternalReferences w) (snd p)))))) (Some ("this is comment #2"))))]) = true.
Proof. vm_compute. reflexivity. Qed.
(** /repo/spdx/v2/v2_1/tagvalue/reader/parse_package_test.go 558 *)
Example v21_TestParserCanParsePackageSupplierPersonTag : forallb is_false (
  let s1 := (set_ps_st PsPackage (set_ps_doc (Some (set_d_Packages [] zero_DocumentOf)) (set_ps_pkgs [(set_p_SPDXIdentifier ("p1") (set_p_PackageName ("p1") zero_PackageOf))] (set_ps_pkg (Some 0) zero_pstate)))) in
  let s2 := push_doc_packages (Some (option_map (fun i => (i, 0)) (ps_pkg s1))) s1 in
  let r3 := parse_package V21 ("PackageSupplier") ("Person: John Doe") s2 in
  let s4 := after s2 r3 in
  [(option_map negb (olift Bool.eqb (failed r3) (Some false)));
   (option_map negb (olift String.eqb (option_map (fun x => su_Supplier x) (obind (option_map (fun x => p_Supplier x) (obind (Some (option_map (fun i => (i, 0)) (ps_pkg s4))) (fun p => obind p (fun p => nth_error (ps_pkgs s4) (fst p))))) (fun o => o))) (Some ("John Doe"))))]) = true.
Proof. vm_compute. reflexivity. Qed.
(** /repo/spdx/v2/v2_1/tagvalue/reader/parse_package_test.go 576 *)
Example v21_TestParserCanParsePackageSupplierOrganizationTag : forallb is_false (
  let s1 := (set_ps_st PsPackage (set_ps_doc (Some (set_d_Packages [] zero_DocumentOf)) (set_ps_pkgs [(set_p_SPDXIdentifier ("p1") (set_p_PackageName ("p1") zero_PackageOf))] (set_ps_pkg (Some 0) zero_pstate)))) in
  let s2 := push_doc_packages (Some (option_map (fun i => (i, 0)) (ps_pkg s1))) s1 in
  let r3 := parse_package V21 ("PackageSupplier") ("Organization: John Doe, Inc.") s2 in
  let s4 := after s2 r3 in
  [(option_map negb (olift Bool.eqb (failed r3) (Some false)));
   (option_map negb (olift String.eqb (option_map (fun x => su_Supplier x) (obind (option_map (fun x => p_Supplier x) (obind (Some (option_map (fun i => (i, 0)) (ps_pkg s4))) (fun p => obind p (fun p => nth_error (ps_pkgs s4) (fst p))))) (fun o => o))) (Some ("John Doe, Inc."))))]) = true.
Proof. vm_compute. reflexivity. Qed.
(** /repo/spdx/v2/v2_1/tagvalue/reader/parse_package_test.go 594 *)
Example v21_TestParserCanParsePackageSupplierNOASSERTIONTag : forallb is_false (
  let s1 := (set_ps_st PsPackage (set_ps_doc (Some (set_d_Packages [] zero_DocumentOf)) (set_ps_pkgs [(set_p_SPDXIdentifier ("p1") (set_p_PackageName ("p1") zero_PackageOf))] (set_ps_pkg (Some 0) zero_pstate)))) in
  let s2 := push_doc_packages (Some (option_map (fun i => (i, 0)) (ps_pkg s1))) s1 in
  let r3 := parse_package V21 ("PackageSupplier") ("NOASSERTION") s2 in
  let s4 := after s2 r3 in
  [(option_map negb (olift Bool.eqb (failed r3) (Some false)));
   (option_map negb (olift String.eqb (option_map (fun x => su_Supplier x) (obind (option_map (fun x => p_Supplier x) (obind (Some (option_map (fun i => (i, 0)) (ps_pkg s4))) (fun p => obind p (fun p => nth_error (ps_pkgs s4) (fst p))))) (fun o => o))) (Some ("NOASSERTION"))))]) = true.
Proof. vm_compute. reflexivity. Qed.
(** /repo/spdx/v2/v2_1/tagvalue/reader/parse_package_test.go 612 *)
Example v21_TestParserCanParsePackageOriginatorPersonTag : forallb is_false (
  let s1 := (set_ps_st PsPackage (set_ps_doc (Some (set_d_Packages [] zero_DocumentOf)) (set_ps_pkgs [(set_p_SPDXIdentifier ("p1") (set_p_PackageName ("p1") zero_PackageOf))] (set_ps_pkg (Some 0) zero_pstate)))) in
  let s2 := push_doc_packages (Some (option_map (fun i => (i, 0)) (ps_pkg s1))) s1 in
  let r3 := parse_package V21 ("PackageOriginator") ("Person: John Doe") s2 in
  let s4 := after s2 r3 in
  [(option_map negb (olift Bool.eqb (failed r3) (Some false)));
   (option_map negb (olift String.eqb (option_map (fun x => or_Originator x) (obind (option_map (fun x => p_Originator x) (obind (Some (option_map (fun i => (i, 0)) (ps_pkg s4))) (fun p => obind p (fun p => nth_error (ps_pkgs s4) (fst p))))) (fun o => o))) (Some ("John Doe"))))]) = true.
Proof. vm_compute. reflexivity. Qed.
(** /repo/spdx/v2/v2_1/tagvalue/reader/parse_package_test.go 630 *)
Example v21_TestParserCanParsePackageOriginatorOrganizationTag : forallb is_false (
  let s1 := (set_ps_st PsPackage (set_ps_doc (Some (set_d_Packages [] zero_DocumentOf)) (set_ps_pkgs [(set_p_SPDXIdentifier ("p1") (set_p_PackageName ("p1") zero_PackageOf))] (set_ps_pkg (Some 0) zero_pstate)))) in
  let s2 := push_doc_packages (Some (option_map (fun i => (i, 0)) (ps_pkg s1))) s1 in
  let r3 := parse_package V21 ("PackageOriginator") ("Organization: John Doe, Inc.") s2 in
  let s4 := after s2 r3 in
  [(option_map negb (olift Bool.eqb (failed r3) (Some false)));
   (option_map negb (olift String.eqb (option_map (fun x => or_Originator x) (obind (option_map (fun x => p_Originator x) (obind (Some (option_map (fun i => (i, 0)) (ps_pkg s4))) (fun p => obind p (fun p => nth_error (ps_pkgs s4) (fst p))))) (fun o => o))) (Some ("John Doe, Inc."))))]) = true.
Proof. vm_compute. reflexivity. Qed.
(** /repo/spdx/v2/v2_1/tagvalue/reader/parse_package_test.go 648 *)
Example v21_TestParserCanParsePackageOriginatorNOASSERTIONTag : forallb is_false (
  let s1 := (set_ps_st PsPackage (set_ps_doc (Some (set_d_Packages [] zero_DocumentOf)) (set_ps_pkgs [(set_p_SPDXIdentifier ("p1") (set_p_PackageName ("p1") zero_PackageOf))] (set_ps_pkg (Some 0) zero_pstate)))) in
  let s2 := push_doc_packages (Some (option_map (fun i => (i, 0)) (ps_pkg s1))) s1 in
  let r3 := parse_package V21 ("PackageOriginator") ("NOASSERTION") s2 in
  let s4 := after s2 r3 in
  [(option_map negb (olift Bool.eqb (failed r3) (Some false)));
   (option_map negb (olift String.eqb (option_map (fun x => or_Originator x) (obind (option_map (fun x => p_Originator x) (obind (Some (option_map (fun i => (i, 0)) (ps_pkg s4))) (fun p => obind p (fun p => nth_error (ps_pkgs s4) (fst p))))) (fun o => o))) (Some ("NOASSERTION"))))]) = true.
Proof. vm_compute. reflexivity. Qed.
(** /repo/spdx/v2/v2_1/tagvalue/reader/parse_package_test.go 666 *)
Example v21_TestParserCanParsePackageVerificationCodeTagWithExcludes : forallb is_false (
  let s1 := (set_ps_st PsPackage (set_ps_doc (Some (set_d_Packages [] zero_DocumentOf)) (set_ps_pkgs [(set_p_SPDXIdentifier ("p1") (set_p_PackageName ("p1") zero_PackageOf))] (set_ps_pkg (Some 0) zero_pstate)))) in
  let s2 := push_doc_packages (Some (option_map (fun i => (i, 0)) (ps_pkg s1))) s1 in
  let r3 := parse_package V21 ("PackageVerificationCode") ("d6a770ba38583ed4bb4525bd96e50461655d2758 (excludes: ./package.spdx)") s2 in
  let s4 := after s2 r3 in
  [(option_map negb (olift Bool.eqb (failed r3) (Some false)));
   (option_map negb (olift String.eqb (option_map (fun x => vc_Value x) (option_map (fun o => match o with Some c => c | None => zero_VerificationCode end) (option_map (fun x => p_VerificationCode x) (obind (Some (option_map (fun i => (i, 0)) (ps_pkg s4))) (fun p => obind p (fun p => nth_error (ps_pkgs s4) (fst p))))))) (Some ("d6a770ba38583ed4bb4525bd96e50461655d2758"))));
   (olift orb (option_map negb (olift Nat.eqb (option_map (@List.length _) (option_map (fun x => vc_ExcludedFiles x) (option_map (fun o => match o with Some c => c | None => zero_VerificationCode end) (option_map (fun x => p_VerificationCode x) (obind (Some (option_map (fun i => (i, 0)) (ps_pkg s4))) (fun p => obind p (fun p => nth_error (ps_pkgs s4) (fst p)))))))) (Some 1))) (option_map negb (olift String.eqb (obind (option_map (fun x => vc_ExcludedFiles x) (option_map (fun o => match o with Some c => c | None => zero_VerificationCode end) (option_map (fun x => p_VerificationCode x) (obind (Some (option_map (fun i => (i, 0)) (ps_pkg s4))) (fun p => obind p (fun p => nth_error (ps_pkgs s4) (fst p))))))) (fun l => nth_error l 0)) (Some ("./package.spdx")))))]) = true.
Proof. vm_compute. reflexivity. Qed.
(** /repo/spdx/v2/v2_1/tagvalue/reader/parse_package_test.go 691 *)
Example v21_TestParserCanParsePackageVerificationCodeTagWithoutExcludes : forallb is_false (
  let s1 := (set_ps_st PsPackage (set_ps_doc (Some (set_d_Packages [] zero_DocumentOf)) (set_ps_pkgs [(set_p_SPDXIdentifier ("p1") (set_p_PackageName ("p1") zero_PackageOf))] (set_ps_pkg (Some 0) zero_pstate)))) in
  let s2 := push_doc_packages (Some (option_map (fun i => (i, 0)) (ps_pkg s1))) s1 in
  let r3 := parse_package V21 ("PackageVerificationCode") ("d6a770ba38583ed4bb4525bd96e50461655d2758") s2 in
  let s4 := after s2 r3 in
  [(option_map negb (olift Bool.eqb (failed r3) (Some false)));
   (option_map negb (olift String.eqb (option_map (fun x => vc_Value x) (option_map (fun o => match o with Some c => c | None => zero_VerificationCode end) (option_map (fun x => p_VerificationCode x) (obind (Some (option_map (fun i => (i, 0)) (ps_pkg s4))) (fun p => obind p (fun p => nth_error (ps_pkgs s4) (fst p))))))) (Some ("d6a770ba38583ed4bb4525bd96e50461655d2758"))));
   (option_map negb (olift Nat.eqb (option_map (@List.length _) (option_map (fun x => vc_ExcludedFiles x) (option_map (fun o => match o with Some c => c | None => zero_VerificationCode end) (option_map (fun x => p_VerificationCode x) (obind (Some (option_map (fun i => (i, 0)) (ps_pkg s4))) (fun p => obind p (fun p => nth_error (ps_pkgs s4) (fst p)))))))) (Some 0)))]) = true.
Proof. vm_compute. reflexivity. Qed.
(** /repo/spdx/v2/v2_1/tagvalue/reader/parse_package_test.go 714 *)
Example v21_TestPackageExternalRefPointerChangesAfterTags : forallb is_false (
  let s1 := (set_ps_st PsPackage (set_ps_doc (Some (set_d_Packages [] zero_DocumentOf)) (set_ps_pkgs [(set_p_SPDXIdentifier ("p1") (set_p_PackageName ("p1") zero_PackageOf))] (set_ps_pkg (Some 0) zero_pstate)))) in
  let s2 := push_doc_packages (Some (option_map (fun i => (i, 0)) (ps_pkg s1))) s1 in
  let r3 := parse_package V21 ("ExternalRef") ("SECURITY cpe23Type cpe:2.3:a:pivotal_software:spring_framework:4.1.0:*:*:*:*:*:*:*") s2 in
  let s4 := after s2 r3 in
  let r5 := parse_package V21 ("ExternalRefComment") ("whatever") s4 in
  let s6 := after s4 r5 in
  let r7 := parse_package V21 ("ExternalRef") ("Other LocationRef-something https://example.com/whatever") s6 in
  let s8 := after s6 r7 in
  let r9 := parse_package V21 ("PackageSummary") ("whatever") s8 in
  let s10 := after s8 r9 in
  [(option_map negb (olift Bool.eqb (failed r3) (Some false)));
   (olift ptr_eqb (Some (ps_extref s4)) (Some None));
   (option_map negb (olift Bool.eqb (failed r5) (Some false)));
   (option_map negb (olift ptr_eqb (Some (ps_extref s6)) (Some None)));
   (option_map negb (olift Bool.eqb (failed r7) (Some false)));
   (olift ptr_eqb (Some (ps_extref s8)) (Some None));
   (option_map negb (olift Bool.eqb (failed r9) (Some false)));
   (option_map negb (olift ptr_eqb (Some (ps_extref s10)) (Some None)))]) = true.
Proof. vm_compute. reflexivity. Qed.
(** /repo/spdx/v2/v2_1/tagvalue/reader/parse_package_test.go 759 *)
Example v21_TestParserPackageCreatesRelationshipInDocument : forallb is_false (
  let s1 := (set_ps_st PsPackage (set_ps_doc (Some (set_d_Packages [] zero_DocumentOf)) (set_ps_pkgs [(set_p_SPDXIdentifier ("p1") (set_p_PackageName ("p1") zero_PackageOf))] (set_ps_pkg (Some 0) zero_pstate)))) in
  let s2 := push_doc_packages (Some (option_map (fun i => (i, 0)) (ps_pkg s1))) s1 in
  let r3 := parse_pair V21 s2 (("Relationship"), ("SPDXRef-blah CONTAINS SPDXRef-blah-whatever")) in
  let s4 := after s2 r3 in
  [(option_map negb (olift Bool.eqb (failed r3) (Some false)));
   (olift ptr_eqb (Some (option_map (fun i => (i, 0)) (ps_rln s4))) (Some None));
   (option_map negb (olift ptr_eqb (Some (option_map (fun i => (i, 0)) (ps_rln s4))) (obind (option_map (fun l => map (fun i => Some (i, 0)) (seq 0 (List.length l))) (option_map (fun x => d_Relationships x) (obind (Some (ps_doc s4)) (fun o => o)))) (fun l => nth_error l 0))))]) = true.
Proof. vm_compute. reflexivity. Qed.
(** /repo/spdx/v2/v2_1/tagvalue/reader/parse_package_test.go 779 *)
Example v21_TestParserPackageCreatesAnnotationInDocument : forallb is_false (
  let s1 := (set_ps_st PsPackage (set_ps_doc (Some (set_d_Packages [] zero_DocumentOf)) (set_ps_pkgs [(set_p_SPDXIdentifier ("p1") (set_p_PackageName ("p1") zero_PackageOf))] (set_ps_pkg (Some 0) zero_pstate)))) in
  let s2 := push_doc_packages (Some (option_map (fun i => (i, 0)) (ps_pkg s1))) s1 in
  let r3 := parse_pair V21 s2 (("Annotator"), ("Person: John Doe ()")) in
  let s4 := after s2 r3 in
  [(option_map negb (olift Bool.eqb (failed r3) (Some false)));
   (olift ptr_eqb (Some (option_map (fun i => (i, 0)) (ps_ann s4))) (Some None));
   (option_map negb (olift ptr_eqb (Some (option_map (fun i => (i, 0)) (ps_ann s4))) (obind (option_map (fun l => map (fun i => Some (i, 0)) (seq 0 (List.length l))) (option_map (fun x => d_Annotations x) (obind (Some (ps_doc s4)) (fun o => o)))) (fun l => nth_error l 0))))]) = true.
Proof. vm_compute. reflexivity. Qed.
(** /repo/spdx/v2/v2_1/tagvalue/reader/parse_package_test.go 799 *)
Example v21_TestParserPackageUnknownTagFails : forallb is_false (
  let s1 := (set_ps_st PsPackage (set_ps_doc (Some (set_d_Packages [] zero_DocumentOf)) (set_ps_pkgs [(set_p_SPDXIdentifier ("p1") (set_p_PackageName ("p1") zero_PackageOf))] (set_ps_pkg (Some 0) zero_pstate)))) in
  let s2 := push_doc_packages (Some (option_map (fun i => (i, 0)) (ps_pkg s1))) s1 in
  let r3 := parse_package V21 ("blah") ("something") s2 in
  let s4 := after s2 r3 in
  [(olift Bool.eqb (failed r3) (Some false))]) = true.
Proof. vm_compute. reflexivity. Qed.
(** /repo/spdx/v2/v2_1/tagvalue/reader/parse_package_test.go 813 *)
Example v21_TestParserFailsIfInvalidSPDXIDInPackageSection : forallb is_false (
  let s1 := (set_ps_st PsPackage (set_ps_doc (Some (set_d_Packages [] zero_DocumentOf)) (set_ps_pkgs [zero_PackageOf] (set_ps_pkg (Some 0) zero_pstate)))) in
  let r2 := parse_package V21 ("PackageName") ("p1") s1 in
  let s3 := after s1 r2 in
  let r4 := parse_package V21 ("SPDXID") ("whoops") s3 in
  let s5 := after s3 r4 in
  [(option_map negb (olift Bool.eqb (failed r2) (Some false)));
   (olift Bool.eqb (failed r4) (Some false))]) = true.
Proof. vm_compute. reflexivity. Qed.
(** /repo/spdx/v2/v2_1/tagvalue/reader/parse_package_test.go 832 *)
Example v21_TestParserFailsIfInvalidPackageSupplierFormat : forallb is_false (
  let s1 := (set_ps_st PsPackage (set_ps_doc (Some (set_d_Packages [] zero_DocumentOf)) (set_ps_pkgs [zero_PackageOf] (set_ps_pkg (Some 0) zero_pstate)))) in
  let r2 := parse_package V21 ("PackageName") ("p1") s1 in
  let s3 := after s1 r2 in
  let r4 := parse_package V21 ("PackageSupplier") ("whoops") s3 in
  let s5 := after s3 r4 in
  [(option_map negb (olift Bool.eqb (failed r2) (Some false)));
   (olift Bool.eqb (failed r4) (Some false))]) = true.
Proof. vm_compute. reflexivity. Qed.
(** /repo/spdx/v2/v2_1/tagvalue/reader/parse_package_test.go 851 *)
Example v21_TestParserFailsIfUnknownPackageSupplierType : forallb is_false (
  let s1 := (set_ps_st PsPackage (set_ps_doc (Some (set_d_Packages [] zero_DocumentOf)) (set_ps_pkgs [zero_PackageOf] (set_ps_pkg (Some 0) zero_pstate)))) in
  let r2 := parse_package V21 ("PackageName") ("p1") s1 in
  let s3 := after s1 r2 in
  let r4 := parse_package V21 ("PackageSupplier") ("whoops: John Doe") s3 in
  let s5 := after s3 r4 in
  [(option_map negb (olift Bool.eqb (failed r2) (Some false)));
   (olift Bool.eqb (failed r4) (Some false))]) = true.
Proof. vm_compute. reflexivity. Qed.
(** /repo/spdx/v2/v2_1/tagvalue/reader/parse_package_test.go 870 *)
Example v21_TestParserFailsIfInvalidPackageOriginatorFormat : forallb is_false (
  let s1 := (set_ps_st PsPackage (set_ps_doc (Some (set_d_Packages [] zero_DocumentOf)) (set_ps_pkgs [zero_PackageOf] (set_ps_pkg (Some 0) zero_pstate)))) in
  let r2 := parse_package V21 ("PackageName") ("p1") s1 in
  let s3 := after s1 r2 in
  let r4 := parse_package V21 ("PackageOriginator") ("whoops") s3 in
  let s5 := after s3 r4 in
  [(option_map negb (olift Bool.eqb (failed r2) (Some false)));
   (olift Bool.eqb (failed r4) (Some false))]) = true.
Proof. vm_compute. reflexivity. Qed.
(** /repo/spdx/v2/v2_1/tagvalue/reader/parse_package_test.go 889 *)
Example v21_TestParserFailsIfUnknownPackageOriginatorType : forallb is_false (
  let s1 := (set_ps_st PsPackage (set_ps_doc (Some (set_d_Packages [] zero_DocumentOf)) (set_ps_pkgs [zero_PackageOf] (set_ps_pkg (Some 0) zero_pstate)))) in
  let r2 := parse_package V21 ("PackageName") ("p1") s1 in
  let s3 := after s1 r2 in
  let r4 := parse_package V21 ("PackageOriginator") ("whoops: John Doe") s3 in
  let s5 := after s3 r4 in
  [(option_map negb (olift Bool.eqb (failed r2) (Some false)));
   (olift Bool.eqb (failed r4) (Some false))]) = true.
Proof. vm_compute. reflexivity. Qed.
(** /repo/spdx/v2/v2_1/tagvalue/reader/parse_package_test.go 908 *)
Example v21_TestParserSetsFilesAnalyzedTagsCorrectly : forallb is_false (
  let s1 := (set_ps_st PsPackage (set_ps_doc (Some (set_d_Packages [] zero_DocumentOf)) (set_ps_pkgs [zero_PackageOf] (set_ps_pkg (Some 0) zero_pstate)))) in
  let r2 := parse_package V21 ("PackageName") ("p1") s1 in
  let s3 := after s1 r2 in
  let r4 := parse_package V21 ("FilesAnalyzed") ("true") s3 in
  let s5 := after s3 r4 in
  [(option_map negb (olift Bool.eqb (failed r2) (Some false)));
   (option_map negb (olift Bool.eqb (failed r4) (Some false)));
   (option_map negb (option_map (fun x => p_FilesAnalyzed x) (obind (Some (option_map (fun i => (i, 0)) (ps_pkg s5))) (fun p => obind p (fun p => nth_error (ps_pkgs s5) (fst p))))));
   (option_map negb (option_map (fun x => p_IsFilesAnalyzedTagPresent x) (obind (Some (option_map (fun i => (i, 0)) (ps_pkg s5))) (fun p => obind p (fun p => nth_error (ps_pkgs s5) (fst p))))))]) = true.
Proof. vm_compute. reflexivity. Qed.
(** /repo/spdx/v2/v2_1/tagvalue/reader/parse_package_test.go 933 *)
Example v21_TestParserFailsIfInvalidPackageChecksumFormat : forallb is_false (
  let s1 := (set_ps_st PsPackage (set_ps_doc (Some (set_d_Packages [] zero_DocumentOf)) (set_ps_pkgs [zero_PackageOf] (set_ps_pkg (Some 0) zero_pstate)))) in
  let r2 := parse_package V21 ("PackageName") ("p1") s1 in
  let s3 := after s1 r2 in
  let r4 := parse_package V21 ("PackageChecksum") ("whoops") s3 in
  let s5 := after s3 r4 in
  [(option_map negb (olift Bool.eqb (failed r2) (Some false)));
   (olift Bool.eqb (failed r4) (Some false))]) = true.
Proof. vm_compute. reflexivity. Qed.
(** /repo/spdx/v2/v2_1/tagvalue/reader/parse_package_test.go 952 *)
Example v21_TestParserFailsIfInvalidPackageChecksumType : forallb is_false (
  let s1 := (set_ps_st PsPackage (set_ps_doc (Some (set_d_Packages [] zero_DocumentOf)) (set_ps_pkgs [zero_PackageOf] (set_ps_pkg (Some 0) zero_pstate)))) in
  let r2 := parse_package V21 ("PackageName") ("p1") s1 in
  let s3 := after s1 r2 in
  let r4 := parse_package V21 ("PackageChecksum") ("whoops: blah") s3 in
  let s5 := after s3 r4 in
  [(option_map negb (olift Bool.eqb (failed r2) (Some false)));
   (olift Bool.eqb (failed r4) (Some false))]) = true.
Proof. vm_compute. reflexivity. Qed.
(** /repo/spdx/v2/v2_1/tagvalue/reader/parse_package_test.go 971 *)
Example v21_TestParserFailsIfInvalidExternalRefFormat : forallb is_false (
  let s1 := (set_ps_st PsPackage (set_ps_doc (Some (set_d_Packages [] zero_DocumentOf)) (set_ps_pkgs [zero_PackageOf] (set_ps_pkg (Some 0) zero_pstate)))) in
  let r2 := parse_package V21 ("PackageName") ("p1") s1 in
  let s3 := after s1 r2 in
  let r4 := parse_package V21 ("ExternalRef") ("whoops") s3 in
  let s5 := after s3 r4 in
  [(option_map negb (olift Bool.eqb (failed r2) (Some false)));
   (olift Bool.eqb (failed r4) (Some false))]) = true.
Proof. vm_compute. reflexivity. Qed.
(** /repo/spdx/v2/v2_1/tagvalue/reader/parse_package_test.go 990 *)
Example v21_TestParserFailsIfExternalRefCommentBeforeExternalRef : forallb is_false (
  let s1 := (set_ps_st PsPackage (set_ps_doc (Some (set_d_Packages [] zero_DocumentOf)) (set_ps_pkgs [zero_PackageOf] (set_ps_pkg (Some 0) zero_pstate)))) in
  let r2 := parse_package V21 ("PackageName") ("p1") s1 in
  let s3 := after s1 r2 in
  let r4 := parse_package V21 ("ExternalRefComment") ("whoops") s3 in
  let s5 := after s3 r4 in
  [(option_map negb (olift Bool.eqb (failed r2) (Some false)));
   (olift Bool.eqb (failed r4) (Some false))]) = true.
Proof. vm_compute. reflexivity. Qed.
(** /repo/spdx/v2/v2_1/tagvalue/reader/parse_package_test.go 1011 *)
Example v21_TestCanCheckAndExtractExcludesFilenameAndCode : forallb is_false (
  [(option_map negb (olift String.eqb (option_map (fun x => vc_Value x) (Some (extract_code_and_excludes ("d6a770ba38583ed4bb4525bd96e50461655d2758 (excludes: ./package.spdx)")))) (Some ("d6a770ba38583ed4bb4525bd96e50461655d2758"))));
   (olift orb (option_map negb (olift Nat.eqb (option_map (@List.length _) (option_map (fun x => vc_ExcludedFiles x) (Some (extract_code_and_excludes ("d6a770ba38583ed4bb4525bd96e50461655d2758 (excludes: ./package.spdx)"))))) (Some 1))) (option_map negb (olift String.eqb (obind (option_map (fun x => vc_ExcludedFiles x) (Some (extract_code_and_excludes ("d6a770ba38583ed4bb4525bd96e50461655d2758 (excludes: ./package.spdx)")))) (fun l => nth_error l 0)) (Some ("./package.spdx")))))]) = true.
Proof. vm_compute. reflexivity. Qed.
(** /repo/spdx/v2/v2_1/tagvalue/reader/parse_package_test.go 1025 *)
Example v21_TestCanExtractPackageExternalReference : forallb is_false (
  let r1 := extract_package_external_reference ("SECURITY cpe23Type cpe:2.3:a:pivotal_software:spring_framework:4.1.0:*:*:*:*:*:*:*") in
  let w2 := match r1 with Ok x => x | _ => ("", "", "") end in
  [(option_map negb (olift Bool.eqb (failed r1) (Some false)));
   (option_map negb (olift String.eqb (Some (fst (fst w2))) (Some ("SECURITY"))));
   (option_map negb (olift String.eqb (Some (snd (fst w2))) (Some ("cpe23Type"))));
   (option_map negb (olift String.eqb (Some (snd w2)) (Some ("cpe:2.3:a:pivotal_software:spring_framework:4.1.0:*:*:*:*:*:*:*"))))]) = true.
Proof. vm_compute. reflexivity. Qed.
(** /repo/spdx/v2/v2_1/tagvalue/reader/parse_package_test.go 1046 *)
Example v21_TestCanExtractPackageExternalReferenceWithExtraWhitespace : forallb is_false (
  let r1 := extract_package_external_reference ("  SECURITY    	 cpe23Type   cpe:2.3:a:pivotal_software:spring_framework:4.1.0:*:*:*:*:*:*:* 	 ") in
  let w2 := match r1 with Ok x => x | _ => ("", "", "") end in
  [(option_map negb (olift Bool.eqb (failed r1) (Some false)));
   (option_map negb (olift String.eqb (Some (fst (fst w2))) (Some ("SECURITY"))));
   (option_map negb (olift String.eqb (Some (snd (fst w2))) (Some ("cpe23Type"))));
   (option_map negb (olift String.eqb (Some (snd w2)) (Some ("cpe:2.3:a:pivotal_software:spring_framework:4.1.0:*:*:*:*:*:*:*"))))]) = true.
Proof. vm_compute. reflexivity. Qed.
(** /repo/spdx/v2/v2_1/tagvalue/reader/parse_package_test.go 1067 *)
Example v21_TestFailsPackageExternalRefWithInvalidFormat : forallb is_false (
  let r1 := extract_package_external_reference ("whoops") in
  let w2 := match r1 with Ok x => x | _ => ("", "", "") end in
  [(olift Bool.eqb (failed r1) (Some false))]) = true.
Proof. vm_compute. reflexivity. Qed.
(** /repo/spdx/v2/v2_1/tagvalue/reader/parse_package_test.go 1074 *)
Example v21_TestParserPackageWithoutSpdxIdentifierThrowsError : forallb is_false (
  let s1 := (set_ps_st PsPackage (set_ps_doc (Some (set_d_Packages [] zero_DocumentOf)) (set_ps_pkgs [(set_p_PackageName ("p1") zero_PackageOf)] (set_ps_pkg (Some 0) zero_pstate)))) in
  let s2 := push_doc_packages (Some (option_map (fun i => (i, 0)) (ps_pkg s1))) s1 in
  let r3 := parse_pair V21 s2 (("PackageName"), ("p2")) in
  let s4 := after s2 r3 in
  [(option_map negb (olift ptr_eqb (obind (option_map (map (fun i => Some (i, 0))) (option_map (fun x => d_Packages x) (obind (Some (ps_doc s2)) (fun o => o)))) (fun l => nth_error l 0)) (Some (option_map (fun i => (i, 0)) (ps_pkg s1)))));
   (option_map negb (olift Nat.eqb (option_map (@List.length _) (option_map (map (fun i => Some (i, 0))) (option_map (fun x => d_Packages x) (obind (Some (ps_doc s2)) (fun o => o))))) (Some 1)));
   (olift Bool.eqb (failed r3) (Some false))]) = true.
Proof. vm_compute. reflexivity. Qed.
(** /repo/spdx/v2/v2_1/tagvalue/reader/parse_relationship_test.go 22 *)
Example v21_TestParserFailsIfRelationshipCommentWithoutRelationship : forallb is_false (
  let s1 := (set_ps_st PsCreationInfo (set_ps_doc (Some zero_DocumentOf) zero_pstate)) in
  let r2 := parse_pair V21 s1 (("RelationshipComment"), ("comment whatever")) in
  let s3 := after s1 r2 in
  [(olift Bool.eqb (failed r2) (Some false))]) = true.
Proof. vm_compute. reflexivity. Qed.
(** /repo/spdx/v2/v2_1/tagvalue/reader/parse_relationship_test.go 33 *)
Example v21_TestParserCanParseRelationshipTags : forallb is_false (
  let s1 := (set_ps_st PsCreationInfo (set_ps_doc (Some zero_DocumentOf) zero_pstate)) in
  let r2 := parse_pair V21 s1 (("Relationship"), ("SPDXRef-something CONTAINS DocumentRef-otherdoc:SPDXRef-something-else")) in
  let s3 := after s1 r2 in
  let r4 := parse_pair V21 s3 (("RelationshipComment"), ("this is a comment")) in
  let s5 := after s3 r4 in
  [(option_map negb (olift Bool.eqb (failed r2) (Some false)));
   (olift orb (option_map negb (olift String.eqb (option_map (fun x => de_DocumentRefID x) (option_map (fun x => r_RefA x) (obind (Some (option_map (fun i => (i, 0)) (ps_rln s3))) (fun p => obind p (fun p => obind (ps_doc s3) (fun d => nth_error (d_Relationships d) (fst p))))))) (Some ("")))) (option_map negb (olift String.eqb (option_map (fun x => de_ElementRefID x) (option_map (fun x => r_RefA x) (obind (Some (option_map (fun i => (i, 0)) (ps_rln s3))) (fun p => obind p (fun p => obind (ps_doc s3) (fun d => nth_error (d_Relationships d) (fst p))))))) (Some ("something")))));
   (olift orb (option_map negb (olift String.eqb (option_map (fun x => de_DocumentRefID x) (option_map (fun x => r_RefB x) (obind (Some (option_map (fun i => (i, 0)) (ps_rln s3))) (fun p => obind p (fun p => obind (ps_doc s3) (fun d => nth_error (d_Relationships d) (fst p))))))) (Some ("otherdoc")))) (option_map negb (olift String.eqb (option_map (fun x => de_ElementRefID x) (option_map (fun x => r_RefB x) (obind (Some (option_map (fun i => (i, 0)) (ps_rln s3))) (fun p => obind p (fun p => obind (ps_doc s3) (fun d => nth_error (d_Relationships d) (fst p))))))) (Some ("something-else")))));
   (option_map negb (olift String.eqb (option_map (fun x => r_Relationship x) (obind (Some (option_map (fun i => (i, 0)) (ps_rln s3))) (fun p => obind p (fun p => obind (ps_doc s3) (fun d => nth_error (d_Relationships d) (fst p)))))) (Some ("CONTAINS"))));
   (option_map negb (olift Bool.eqb (failed r4) (Some false)));
   (option_map negb (olift String.eqb (option_map (fun x => r_Comment x) (obind (Some (option_map (fun i => (i, 0)) (ps_rln s5))) (fun p => obind p (fun p => obind (ps_doc s5) (fun d => nth_error (d_Relationships d) (fst p)))))) (Some ("this is a comment"))))]) = true.
Proof. vm_compute. reflexivity. Qed.
(** /repo/spdx/v2/v2_1/tagvalue/reader/parse_relationship_test.go 65 *)
Example v21_TestParserInvalidRelationshipTagsNoValueFail : forallb is_false (
  let s1 := (set_ps_st PsCreationInfo (set_ps_doc (Some zero_DocumentOf) zero_pstate)) in
  let s2 := set_ps_rln None s1 in
  let r3 := parse_pair V21 s2 (("Relationship"), ("")) in
  let s4 := after s2 r3 in
  [(olift Bool.eqb (failed r3) (Some false))]) = true.
Proof. vm_compute. reflexivity. Qed.
(** /repo/spdx/v2/v2_1/tagvalue/reader/parse_relationship_test.go 79 *)
Example v21_TestParserInvalidRelationshipTagsOneValueFail : forallb is_false (
  let s1 := (set_ps_st PsCreationInfo (set_ps_doc (Some zero_DocumentOf) zero_pstate)) in
  let s2 := set_ps_rln None s1 in
  let r3 := parse_pair V21 s2 (("Relationship"), ("DESCRIBES")) in
  let s4 := after s2 r3 in
  [(olift Bool.eqb (failed r3) (Some false))]) = true.
Proof. vm_compute. reflexivity. Qed.
(** /repo/spdx/v2/v2_1/tagvalue/reader/parse_relationship_test.go 93 *)
Example v21_TestParserInvalidRelationshipTagsTwoValuesFail : forallb is_false (
  let s1 := (set_ps_st PsCreationInfo (set_ps_doc (Some zero_DocumentOf) zero_pstate)) in
  let s2 := set_ps_rln None s1 in
  let r3 := parse_pair V21 s2 (("Relationship"), ("SPDXRef-DOCUMENT DESCRIBES")) in
  let s4 := after s2 r3 in
  [(olift Bool.eqb (failed r3) (Some false))]) = true.
Proof. vm_compute. reflexivity. Qed.
(** /repo/spdx/v2/v2_1/tagvalue/reader/parse_relationship_test.go 107 *)
Example v21_TestParserInvalidRelationshipTagsThreeValuesSucceed : forallb is_false (
  let s1 := (set_ps_st PsCreationInfo (set_ps_doc (Some zero_DocumentOf) zero_pstate)) in
  let s2 := set_ps_rln None s1 in
  let r3 := parse_pair V21 s2 (("Relationship"), ("  SPDXRef-DOCUMENT 	   DESCRIBES  SPDXRef-something-else    ")) in
  let s4 := after s2 r3 in
  [(option_map negb (olift Bool.eqb (failed r3) (Some false)))]) = true.
Proof. vm_compute. reflexivity. Qed.
(** /repo/spdx/v2/v2_1/tagvalue/reader/parse_relationship_test.go 121 *)
Example v21_TestParserInvalidRelationshipTagsFourValuesFail : forallb is_false (
  let s1 := (set_ps_st PsCreationInfo (set_ps_doc (Some zero_DocumentOf) zero_pstate)) in
  let s2 := set_ps_rln None s1 in
  let r3 := parse_pair V21 s2 (("Relationship"), ("SPDXRef-a DESCRIBES SPDXRef-b SPDXRef-c")) in
  let s4 := after s2 r3 in
  [(olift Bool.eqb (failed r3) (Some false))]) = true.
Proof. vm_compute. reflexivity. Qed.
(** /repo/spdx/v2/v2_1/tagvalue/reader/parse_relationship_test.go 135 *)
Example v21_TestParserInvalidRelationshipTagsInvalidRefIDs : forallb is_false (
  let s1 := (set_ps_st PsCreationInfo (set_ps_doc (Some zero_DocumentOf) zero_pstate)) in
  let s2 := set_ps_rln None s1 in
  let r3 := parse_pair V21 s2 (("Relationship"), ("SPDXRef-a DESCRIBES b")) in
  let s4 := after s2 r3 in
  let s5 := set_ps_rln None s4 in
  let r6 := parse_pair V21 s5 (("Relationship"), ("a DESCRIBES SPDXRef-b")) in
  let s7 := after s5 r6 in
  [(olift Bool.eqb (failed r3) (Some false));
   (olift Bool.eqb (failed r6) (Some false))]) = true.
Proof. vm_compute. reflexivity. Qed.
(** /repo/spdx/v2/v2_1/tagvalue/reader/parse_review_test.go 11 *)
Example v21_TestParserReviewStartsNewReviewAfterParsingReviewerTag : forallb is_false (
  let s1 := (set_ps_st PsReview (set_ps_doc (Some (set_d_Reviews [(set_rv_ReviewerType ("Person") (set_rv_Reviewer ("John Doe") zero_Review))] (set_d_OtherLicenses [(set_ol_LicenseName ("License 11") (set_ol_LicenseIdentifier ("LicenseRef-Lic11") zero_OtherLicense))] (set_d_Packages [] zero_DocumentOf)))) (set_ps_rev (Some 0) (set_ps_lic (Some 0) (set_ps_files [(set_f_SPDXIdentifier ("f1") (set_f_FileName ("f1.txt") zero_FileOf))] (set_ps_file (Some 0) (set_ps_pkgs [(set_p_Files [] (set_p_SPDXIdentifier ("test") (set_p_PackageName ("test") zero_PackageOf)))] (set_ps_pkg (Some 0) zero_pstate)))))))) in
  let s2 := push_doc_packages (Some (option_map (fun i => (i, 0)) (ps_pkg s1))) s1 in
  let s3 := push_pkg_files (Some (option_map (fun i => (i, 0)) (ps_pkg s2))) (Some (option_map (fun i => (i, 0)) (ps_file s2))) s2 in
  let r4 := parse_pair V21 s3 (("Reviewer"), ("Person: Steve")) in
  let s5 := after s3 r4 in
  [(option_map negb (olift Nat.eqb (option_map (@List.length _) (option_map (fun l => map (fun i => Some (i, 0)) (seq 0 (List.length l))) (option_map (fun x => d_Reviews x) (obind (Some (ps_doc s3)) (fun o => o))))) (Some 1)));
   (option_map negb (olift ptr_eqb (obind (option_map (fun l => map (fun i => Some (i, 0)) (seq 0 (List.length l))) (option_map (fun x => d_Reviews x) (obind (Some (ps_doc s3)) (fun o => o)))) (fun l => nth_error l 0)) (Some (option_map (fun i => (i, 0)) (ps_rev s3)))));
   (option_map negb (olift String.eqb (option_map (fun x => rv_Reviewer x) (obind (obind (option_map (fun l => map (fun i => Some (i, 0)) (seq 0 (List.length l))) (option_map (fun x => d_Reviews x) (obind (Some (ps_doc s3)) (fun o => o)))) (fun l => nth_error l 0)) (fun p => obind p (fun p => obind (ps_doc s3) (fun d => nth_error (d_Reviews d) (fst p)))))) (Some ("John Doe"))));
   (option_map negb (olift Bool.eqb (failed r4) (Some false)));
   (option_map negb (olift pst_eqb (Some (ps_st s5)) (Some PsReview)));
   (olift ptr_eqb (Some (option_map (fun i => (i, 0)) (ps_rev s5))) (Some None));
   (option_map negb (olift String.eqb (option_map (fun x => rv_Reviewer x) (obind (Some (option_map (fun i => (i, 0)) (ps_rev s5))) (fun p => obind p (fun p => obind (ps_doc s5) (fun d => nth_error (d_Reviews d) (fst p)))))) (Some ("Steve"))));
   (option_map negb (olift Nat.eqb (option_map (@List.length _) (option_map (fun l => map (fun i => Some (i, 0)) (seq 0 (List.length l))) (option_map (fun x => d_Reviews x) (obind (Some (ps_doc s5)) (fun o => o))))) (Some 2)));
   (option_map negb (olift ptr_eqb (obind (option_map (fun l => map (fun i => Some (i, 0)) (seq 0 (List.length l))) (option_map (fun x => d_Reviews x) (obind (Some (ps_doc s5)) (fun o => o)))) (fun l => nth_error l 0)) (Some (option_map (fun i => (i, 0)) (ps_rev s3)))));
   (option_map negb (olift String.eqb (option_map (fun x => rv_Reviewer x) (obind (obind (option_map (fun l => map (fun i => Some (i, 0)) (seq 0 (List.length l))) (option_map (fun x => d_Reviews x) (obind (Some (ps_doc s5)) (fun o => o)))) (fun l => nth_error l 0)) (fun p => obind p (fun p => obind (ps_doc s5) (fun d => nth_error (d_Reviews d) (fst p)))))) (Some ("John Doe"))));
   (option_map negb (olift ptr_eqb (obind (option_map (fun l => map (fun i => Some (i, 0)) (seq 0 (List.length l))) (option_map (fun x => d_Reviews x) (obind (Some (ps_doc s5)) (fun o => o)))) (fun l => nth_error l 1)) (Some (option_map (fun i => (i, 0)) (ps_rev s5)))));
   (option_map negb (olift String.eqb (option_map (fun x => rv_Reviewer x) (obind (obind (option_map (fun l => map (fun i => Some (i, 0)) (seq 0 (List.length l))) (option_map (fun x => d_Reviews x) (obind (Some (ps_doc s5)) (fun o => o)))) (fun l => nth_error l 1)) (fun p => obind p (fun p => obind (ps_doc s5) (fun d => nth_error (d_Reviews d) (fst p)))))) (Some ("Steve"))))]) = true.
Proof. vm_compute. reflexivity. Qed.
(** /repo/spdx/v2/v2_1/tagvalue/reader/parse_review_test.go 83 *)
Example v21_TestParserReviewStaysAfterParsingRelationshipTags : forallb is_false (
  let s1 := (set_ps_st PsReview (set_ps_doc (Some (set_d_Reviews [(set_rv_ReviewerType ("Person") (set_rv_Reviewer ("Jane Doe") zero_Review))] (set_d_OtherLicenses [(set_ol_LicenseName ("License 11") (set_ol_LicenseIdentifier ("LicenseRef-Lic11") zero_OtherLicense))] (set_d_Packages [] zero_DocumentOf)))) (set_ps_rev (Some 0) (set_ps_lic (Some 0) (set_ps_files [(set_f_SPDXIdentifier ("f1") (set_f_FileName ("f1.txt") zero_FileOf))] (set_ps_file (Some 0) (set_ps_pkgs [(set_p_Files [] (set_p_SPDXIdentifier ("test") (set_p_PackageName ("test") zero_PackageOf)))] (set_ps_pkg (Some 0) zero_pstate)))))))) in
  let s2 := push_doc_packages (Some (option_map (fun i => (i, 0)) (ps_pkg s1))) s1 in
  let s3 := push_pkg_files (Some (option_map (fun i => (i, 0)) (ps_pkg s2))) (Some (option_map (fun i => (i, 0)) (ps_file s2))) s2 in
  let r4 := parse_pair V21 s3 (("Relationship"), ("SPDXRef-blah CONTAINS SPDXRef-blah-else")) in
  let s5 := after s3 r4 in
  let r6 := parse_pair V21 s5 (("RelationshipComment"), ("blah")) in
  let s7 := after s5 r6 in
  [(option_map negb (olift Bool.eqb (failed r4) (Some false)));
   (option_map negb (olift pst_eqb (Some (ps_st s5)) (Some PsReview)));
   (option_map negb (olift Nat.eqb (option_map (@List.length _) (option_map (fun l => map (fun i => Some (i, 0)) (seq 0 (List.length l))) (option_map (fun x => d_Relationships x) (obind (Some (ps_doc s5)) (fun o => o))))) (Some 1)));
   (olift orb (option_map negb (olift String.eqb (option_map (fun x => de_DocumentRefID x) (option_map (fun x => r_RefA x) (obind (obind (option_map (fun l => map (fun i => Some (i, 0)) (seq 0 (List.length l))) (option_map (fun x => d_Relationships x) (obind (Some (ps_doc s5)) (fun o => o)))) (fun l => nth_error l 0)) (fun p => obind p (fun p => obind (ps_doc s5) (fun d => nth_error (d_Relationships d) (fst p))))))) (Some ("")))) (option_map negb (olift String.eqb (option_map (fun x => de_ElementRefID x) (option_map (fun x => r_RefA x) (obind (obind (option_map (fun l => map (fun i => Some (i, 0)) (seq 0 (List.length l))) (option_map (fun x => d_Relationships x) (obind (Some (ps_doc s5)) (fun o => o)))) (fun l => nth_error l 0)) (fun p => obind p (fun p => obind (ps_doc s5) (fun d => nth_error (d_Relationships d) (fst p))))))) (Some ("blah")))));
   (option_map negb (olift Bool.eqb (failed r6) (Some false)));
   (option_map negb (olift pst_eqb (Some (ps_st s7)) (Some PsReview)))]) = true.
Proof. vm_compute. reflexivity. Qed.
(** /repo/spdx/v2/v2_1/tagvalue/reader/parse_review_test.go 130 *)
Example v21_TestParserReviewStaysAfterParsingAnnotationTags : forallb is_false (
  let s1 := (set_ps_st PsReview (set_ps_doc (Some (set_d_Reviews [(set_rv_ReviewerType ("Person") (set_rv_Reviewer ("Jane Doe") zero_Review))] (set_d_OtherLicenses [(set_ol_LicenseName ("License 11") (set_ol_LicenseIdentifier ("LicenseRef-Lic11") zero_OtherLicense))] (set_d_Packages [] zero_DocumentOf)))) (set_ps_rev (Some 0) (set_ps_lic (Some 0) (set_ps_files [(set_f_SPDXIdentifier ("f1") (set_f_FileName ("f1.txt") zero_FileOf))] (set_ps_file (Some 0) (set_ps_pkgs [(set_p_Files [] (set_p_SPDXIdentifier ("test") (set_p_PackageName ("test") zero_PackageOf)))] (set_ps_pkg (Some 0) zero_pstate)))))))) in
  let s2 := push_doc_packages (Some (option_map (fun i => (i, 0)) (ps_pkg s1))) s1 in
  let s3 := push_pkg_files (Some (option_map (fun i => (i, 0)) (ps_pkg s2))) (Some (option_map (fun i => (i, 0)) (ps_file s2))) s2 in
  let r4 := parse_pair V21 s3 (("Annotator"), ("Person: John Doe ()")) in
  let s5 := after s3 r4 in
  let r6 := parse_pair V21 s5 (("AnnotationDate"), ("2018-09-15T00:36:00Z")) in
  let s7 := after s5 r6 in
  let r8 := parse_pair V21 s7 (("AnnotationType"), ("REVIEW")) in
  let s9 := after s7 r8 in
  let r10 := parse_pair V21 s9 (("SPDXREF"), ("SPDXRef-45")) in
  let s11 := after s9 r10 in
  let r12 := parse_pair V21 s11 (("AnnotationComment"), ("i guess i had something to say about this particular file")) in
  let s13 := after s11 r12 in
  [(option_map negb (olift Bool.eqb (failed r4) (Some false)));
   (option_map negb (olift pst_eqb (Some (ps_st s5)) (Some PsReview)));
   (option_map negb (olift Bool.eqb (failed r6) (Some false)));
   (option_map negb (olift pst_eqb (Some (ps_st s7)) (Some PsReview)));
   (option_map negb (olift Bool.eqb (failed r8) (Some false)));
   (option_map negb (olift pst_eqb (Some (ps_st s9)) (Some PsReview)));
   (option_map negb (olift Bool.eqb (failed r10) (Some false)));
   (option_map negb (olift pst_eqb (Some (ps_st s11)) (Some PsReview)));
   (option_map negb (olift Bool.eqb (failed r12) (Some false)));
   (option_map negb (olift pst_eqb (Some (ps_st s13)) (Some PsReview)));
   (option_map negb (olift Nat.eqb (option_map (@List.length _) (option_map (fun l => map (fun i => Some (i, 0)) (seq 0 (List.length l))) (option_map (fun x => d_Annotations x) (obind (Some (ps_doc s13)) (fun o => o))))) (Some 1)));
   (option_map negb (olift String.eqb (option_map (fun x => an_Annotator x) (option_map (fun x => a_Annotator x) (obind (obind (option_map (fun l => map (fun i => Some (i, 0)) (seq 0 (List.length l))) (option_map (fun x => d_Annotations x) (obind (Some (ps_doc s13)) (fun o => o)))) (fun l => nth_error l 0)) (fun p => obind p (fun p => obind (ps_doc s13) (fun d => nth_error (d_Annotations d) (fst p))))))) (Some ("John Doe ()"))))]) = true.
Proof. vm_compute. reflexivity. Qed.
(** /repo/spdx/v2/v2_1/tagvalue/reader/parse_review_test.go 199 *)
Example v21_TestParserReviewFailsAfterParsingOtherSectionTags : forallb is_false (
  let s1 := (set_ps_st PsReview (set_ps_doc (Some (set_d_Reviews [zero_Review] (set_d_OtherLicenses [(set_ol_LicenseName ("License 11") (set_ol_LicenseIdentifier ("LicenseRef-Lic11") zero_OtherLicense))] (set_d_Packages [] zero_DocumentOf)))) (set_ps_rev (Some 0) (set_ps_lic (Some 0) (set_ps_files [(set_f_SPDXIdentifier ("f1") (set_f_FileName ("f1.txt") zero_FileOf))] (set_ps_file (Some 0) (set_ps_pkgs [(set_p_Files [] (set_p_SPDXIdentifier ("test") (set_p_PackageName ("test") zero_PackageOf)))] (set_ps_pkg (Some 0) zero_pstate)))))))) in
  let s2 := push_doc_packages (Some (option_map (fun i => (i, 0)) (ps_pkg s1))) s1 in
  let s3 := push_pkg_files (Some (option_map (fun i => (i, 0)) (ps_pkg s2))) (Some (option_map (fun i => (i, 0)) (ps_file s2))) s2 in
  let r4 := parse_pair V21 s3 (("SPDXVersion"), ("SPDX-2.1")) in
  let s5 := after s3 r4 in
  let r6 := parse_pair V21 s5 (("PackageName"), ("whatever")) in
  let s7 := after s5 r6 in
  let r8 := parse_pair V21 s7 (("FileName"), ("whatever")) in
  let s9 := after s7 r8 in
  let r10 := parse_pair V21 s9 (("LicenseID"), ("LicenseRef-Lic22")) in
  let s11 := after s9 r10 in
  [(olift Bool.eqb (failed r4) (Some false));
   (olift Bool.eqb (failed r6) (Some false));
   (olift Bool.eqb (failed r8) (Some false));
   (olift Bool.eqb (failed r10) (Some false))]) = true.
Proof. vm_compute. reflexivity. Qed.
(** /repo/spdx/v2/v2_1/tagvalue/reader/parse_review_test.go 236 *)
Example v21_TestParserCanParseReviewTags : forallb is_false (
  let s1 := (set_ps_st PsReview (set_ps_doc (Some (set_d_Reviews [zero_Review] (set_d_OtherLicenses [(set_ol_LicenseName ("License 11") (set_ol_LicenseIdentifier ("LicenseRef-Lic11") zero_OtherLicense))] (set_d_Packages [] zero_DocumentOf)))) (set_ps_rev (Some 0) (set_ps_lic (Some 0) (set_ps_files [(set_f_SPDXIdentifier ("f1") (set_f_FileName ("f1.txt") zero_FileOf))] (set_ps_file (Some 0) (set_ps_pkgs [(set_p_Files [] (set_p_SPDXIdentifier ("test") (set_p_PackageName ("test") zero_PackageOf)))] (set_ps_pkg (Some 0) zero_pstate)))))))) in
  let s2 := push_doc_packages (Some (option_map (fun i => (i, 0)) (ps_pkg s1))) s1 in
  let s3 := push_pkg_files (Some (option_map (fun i => (i, 0)) (ps_pkg s2))) (Some (option_map (fun i => (i, 0)) (ps_file s2))) s2 in
  let r4 := parse_review V21 ("ReviewDate") ("2018-09-23T08:30:00Z") s3 in
  let s5 := after s3 r4 in
  let r6 := parse_review V21 ("ReviewComment") ("this is a comment") s5 in
  let s7 := after s5 r6 in
  [(option_map negb (olift Bool.eqb (failed r4) (Some false)));
   (option_map negb (olift String.eqb (option_map (fun x => rv_Date x) (obind (Some (option_map (fun i => (i, 0)) (ps_rev s5))) (fun p => obind p (fun p => obind (ps_doc s5) (fun d => nth_error (d_Reviews d) (fst p)))))) (Some ("2018-09-23T08:30:00Z"))));
   (option_map negb (olift Bool.eqb (failed r6) (Some false)));
   (option_map negb (olift String.eqb (option_map (fun x => rv_Comment x) (obind (Some (option_map (fun i => (i, 0)) (ps_rev s7))) (fun p => obind p (fun p => obind (ps_doc s7) (fun d => nth_error (d_Reviews d) (fst p)))))) (Some ("this is a comment"))))]) = true.
Proof. vm_compute. reflexivity. Qed.
(** /repo/spdx/v2/v2_1/tagvalue/reader/parse_review_test.go 275 *)
Example v21_TestParserCanParseReviewerPersonTag : forallb is_false (
  let s1 := (set_ps_st PsReview (set_ps_doc (Some (set_d_Reviews [zero_Review] (set_d_OtherLicenses [(set_ol_LicenseName ("License 11") (set_ol_LicenseIdentifier ("LicenseRef-Lic11") zero_OtherLicense))] (set_d_Packages [] zero_DocumentOf)))) (set_ps_rev (Some 0) (set_ps_lic (Some 0) (set_ps_files [(set_f_SPDXIdentifier ("f1") (set_f_FileName ("f1.txt") zero_FileOf))] (set_ps_file (Some 0) (set_ps_pkgs [(set_p_Files [] (set_p_SPDXIdentifier ("test") (set_p_PackageName ("test") zero_PackageOf)))] (set_ps_pkg (Some 0) zero_pstate)))))))) in
  let s2 := push_doc_packages (Some (option_map (fun i => (i, 0)) (ps_pkg s1))) s1 in
  let s3 := push_pkg_files (Some (option_map (fun i => (i, 0)) (ps_pkg s2))) (Some (option_map (fun i => (i, 0)) (ps_file s2))) s2 in
  let r4 := parse_review V21 ("Reviewer") ("Person: John Doe") s3 in
  let s5 := after s3 r4 in
  [(option_map negb (olift Bool.eqb (failed r4) (Some false)));
   (option_map negb (olift String.eqb (option_map (fun x => rv_Reviewer x) (obind (Some (option_map (fun i => (i, 0)) (ps_rev s5))) (fun p => obind p (fun p => obind (ps_doc s5) (fun d => nth_error (d_Reviews d) (fst p)))))) (Some ("John Doe"))));
   (option_map negb (olift String.eqb (option_map (fun x => rv_ReviewerType x) (obind (Some (option_map (fun i => (i, 0)) (ps_rev s5))) (fun p => obind p (fun p => obind (ps_doc s5) (fun d => nth_error (d_Reviews d) (fst p)))))) (Some ("Person"))))]) = true.
Proof. vm_compute. reflexivity. Qed.
(** /repo/spdx/v2/v2_1/tagvalue/reader/parse_review_test.go 305 *)
Example v21_TestParserCanParseReviewerOrganizationTag : forallb is_false (
  let s1 := (set_ps_st PsReview (set_ps_doc (Some (set_d_Reviews [zero_Review] (set_d_OtherLicenses [(set_ol_LicenseName ("License 11") (set_ol_LicenseIdentifier ("LicenseRef-Lic11") zero_OtherLicense))] (set_d_Packages [] zero_DocumentOf)))) (set_ps_rev (Some 0) (set_ps_lic (Some 0) (set_ps_files [(set_f_SPDXIdentifier ("f1") (set_f_FileName ("f1.txt") zero_FileOf))] (set_ps_file (Some 0) (set_ps_pkgs [(set_p_Files [] (set_p_SPDXIdentifier ("test") (set_p_PackageName ("test") zero_PackageOf)))] (set_ps_pkg (Some 0) zero_pstate)))))))) in
  let s2 := push_doc_packages (Some (option_map (fun i => (i, 0)) (ps_pkg s1))) s1 in
  let s3 := push_pkg_files (Some (option_map (fun i => (i, 0)) (ps_pkg s2))) (Some (option_map (fun i => (i, 0)) (ps_file s2))) s2 in
  let r4 := parse_review V21 ("Reviewer") ("Organization: John Doe, Inc.") s3 in
  let s5 := after s3 r4 in
  [(option_map negb (olift Bool.eqb (failed r4) (Some false)));
   (option_map negb (olift String.eqb (option_map (fun x => rv_Reviewer x) (obind (Some (option_map (fun i => (i, 0)) (ps_rev s5))) (fun p => obind p (fun p => obind (ps_doc s5) (fun d => nth_error (d_Reviews d) (fst p)))))) (Some ("John Doe, Inc."))));
   (option_map negb (olift String.eqb (option_map (fun x => rv_ReviewerType x) (obind (Some (option_map (fun i => (i, 0)) (ps_rev s5))) (fun p => obind p (fun p => obind (ps_doc s5) (fun d => nth_error (d_Reviews d) (fst p)))))) (Some ("Organization"))))]) = true.
Proof. vm_compute. reflexivity. Qed.
(** /repo/spdx/v2/v2_1/tagvalue/reader/parse_review_test.go 335 *)
Example v21_TestParserCanParseReviewerToolTag : forallb is_false (
  let s1 := (set_ps_st PsReview (set_ps_doc (Some (set_d_Reviews [zero_Review] (set_d_OtherLicenses [(set_ol_LicenseName ("License 11") (set_ol_LicenseIdentifier ("LicenseRef-Lic11") zero_OtherLicense))] (set_d_Packages [] zero_DocumentOf)))) (set_ps_rev (Some 0) (set_ps_lic (Some 0) (set_ps_files [(set_f_SPDXIdentifier ("f1") (set_f_FileName ("f1.txt") zero_FileOf))] (set_ps_file (Some 0) (set_ps_pkgs [(set_p_Files [] (set_p_SPDXIdentifier ("test") (set_p_PackageName ("test") zero_PackageOf)))] (set_ps_pkg (Some 0) zero_pstate)))))))) in
  let s2 := push_doc_packages (Some (option_map (fun i => (i, 0)) (ps_pkg s1))) s1 in
  let s3 := push_pkg_files (Some (option_map (fun i => (i, 0)) (ps_pkg s2))) (Some (option_map (fun i => (i, 0)) (ps_file s2))) s2 in
  let r4 := parse_review V21 ("Reviewer") ("Tool: scannertool - 1.2.12") s3 in
  let s5 := after s3 r4 in
  [(option_map negb (olift Bool.eqb (failed r4) (Some false)));
   (option_map negb (olift String.eqb (option_map (fun x => rv_Reviewer x) (obind (Some (option_map (fun i => (i, 0)) (ps_rev s5))) (fun p => obind p (fun p => obind (ps_doc s5) (fun d => nth_error (d_Reviews d) (fst p)))))) (Some ("scannertool - 1.2.12"))));
   (option_map negb (olift String.eqb (option_map (fun x => rv_ReviewerType x) (obind (Some (option_map (fun i => (i, 0)) (ps_rev s5))) (fun p => obind p (fun p => obind (ps_doc s5) (fun d => nth_error (d_Reviews d) (fst p)))))) (Some ("Tool"))))]) = true.
Proof. vm_compute. reflexivity. Qed.
(** /repo/spdx/v2/v2_1/tagvalue/reader/parse_review_test.go 365 *)
Example v21_TestParserFailsIfReviewerInvalidFormat : forallb is_false (
  let s1 := (set_ps_st PsReview (set_ps_doc (Some (set_d_Reviews [zero_Review] (set_d_Packages [] zero_DocumentOf))) (set_ps_rev (Some 0) zero_pstate))) in
  let r2 := parse_review V21 ("Reviewer") ("oops") s1 in
  let s3 := after s1 r2 in
  [(olift Bool.eqb (failed r2) (Some false))]) = true.
Proof. vm_compute. reflexivity. Qed.
(** /repo/spdx/v2/v2_1/tagvalue/reader/parse_review_test.go 379 *)
Example v21_TestParserFailsIfReviewerUnknownType : forallb is_false (
  let s1 := (set_ps_st PsReview (set_ps_doc (Some (set_d_Reviews [zero_Review] (set_d_Packages [] zero_DocumentOf))) (set_ps_rev (Some 0) zero_pstate))) in
  let r2 := parse_review V21 ("Reviewer") ("whoops: John Doe") s1 in
  let s3 := after s1 r2 in
  [(olift Bool.eqb (failed r2) (Some false))]) = true.
Proof. vm_compute. reflexivity. Qed.
(** /repo/spdx/v2/v2_1/tagvalue/reader/parse_review_test.go 393 *)
Example v21_TestParserReviewUnknownTagFails : forallb is_false (
  let s1 := (set_ps_st PsReview (set_ps_doc (Some (set_d_Reviews [zero_Review] (set_d_OtherLicenses [(set_ol_LicenseName ("License 11") (set_ol_LicenseIdentifier ("LicenseRef-Lic11") zero_OtherLicense))] (set_d_Packages [] zero_DocumentOf)))) (set_ps_rev (Some 0) (set_ps_lic (Some 0) (set_ps_files [(set_f_SPDXIdentifier ("f1") (set_f_FileName ("f1.txt") zero_FileOf))] (set_ps_file (Some 0) (set_ps_pkgs [(set_p_Files [] (set_p_SPDXIdentifier ("test") (set_p_PackageName ("test") zero_PackageOf)))] (set_ps_pkg (Some 0) zero_pstate)))))))) in
  let s2 := push_doc_packages (Some (option_map (fun i => (i, 0)) (ps_pkg s1))) s1 in
  let s3 := push_pkg_files (Some (option_map (fun i => (i, 0)) (ps_pkg s2))) (Some (option_map (fun i => (i, 0)) (ps_file s2))) s2 in
  let r4 := parse_review V21 ("blah") ("something") s3 in
  let s5 := after s3 r4 in
  [(olift Bool.eqb (failed r4) (Some false))]) = true.
Proof. vm_compute. reflexivity. Qed.
(** /repo/spdx/v2/v2_1/tagvalue/reader/parse_snippet_test.go 12 *)
Example v21_TestParserSnippetStartsNewSnippetAfterParsingSnippetSPDXIDTag : forallb is_false (
  let s1 := (set_ps_st PsSnippet (set_ps_doc (Some (set_d_Packages [] zero_DocumentOf)) (set_ps_snips [(set_s_SPDXIdentifier ("s1") zero_Snippet)] (set_ps_snip (Some 0) (set_ps_files [(set_f_Snippets [] (set_f_SPDXIdentifier ("f1") (set_f_FileName ("f1.txt") zero_FileOf)))] (set_ps_file (Some 0) (set_ps_pkgs [(set_p_Files [] (set_p_SPDXIdentifier ("test") (set_p_PackageName ("test") zero_PackageOf)))] (set_ps_pkg (Some 0) zero_pstate)))))))) in
  let s2 := push_doc_packages (Some (option_map (fun i => (i, 0)) (ps_pkg s1))) s1 in
  let s3 := push_pkg_files (Some (option_map (fun i => (i, 0)) (ps_pkg s2))) (Some (option_map (fun i => (i, 0)) (ps_file s2))) s2 in
  let s4 := put_snippet (Some (option_map (fun i => (i, 0)) (ps_file s3))) ("s1") (Some (option_map (fun i => (i, 0)) (ps_snip s3))) s3 in
  let r5 := parse_pair V21 s4 (("SnippetSPDXID"), ("SPDXRef-s2")) in
  let s6 := after s4 r5 in
  [(option_map negb (olift Nat.eqb (option_map (@List.length _) (option_map (fun x => f_Snippets x) (obind (Some (option_map (fun i => (i, 0)) (ps_file s4))) (fun p => obind p (fun p => nth_error (ps_files s4) (fst p)))))) (Some 1)));
   (option_map negb (olift ptr_eqb (obind (option_map (fun x => f_Snippets x) (obind (Some (option_map (fun i => (i, 0)) (ps_file s4))) (fun p => obind p (fun p => nth_error (ps_files s4) (fst p))))) (fun m => option_map (fun i => Some (i, 0)) (lookup ("s1") m))) (Some (option_map (fun i => (i, 0)) (ps_snip s1)))));
   (option_map negb (olift String.eqb (option_map (fun x => s_SPDXIdentifier x) (obind (obind (option_map (fun x => f_Snippets x) (obind (Some (option_map (fun i => (i, 0)) (ps_file s4))) (fun p => obind p (fun p => nth_error (ps_files s4) (fst p))))) (fun m => option_map (fun i => Some (i, 0)) (lookup ("s1") m))) (fun p => obind p (fun p => nth_error (ps_snips s4) (fst p))))) (Some ("s1"))));
   (option_map negb (olift Bool.eqb (failed r5) (Some false)));
   (option_map negb (olift pst_eqb (Some (ps_st s6)) (Some PsSnippet)));
   (olift ptr_eqb (Some (option_map (fun i => (i, 0)) (ps_snip s6))) (Some None));
   (option_map negb (olift String.eqb (option_map (fun x => s_SPDXIdentifier x) (obind (Some (option_map (fun i => (i, 0)) (ps_snip s6))) (fun p => obind p (fun p => nth_error (ps_snips s6) (fst p))))) (Some ("s2"))));
   (option_map negb (olift Nat.eqb (option_map (@List.length _) (option_map (fun x => f_Snippets x) (obind (Some (option_map (fun i => (i, 0)) (ps_file s6))) (fun p => obind p (fun p => nth_error (ps_files s6) (fst p)))))) (Some 2)));
   (option_map negb (olift ptr_eqb (obind (option_map (fun x => f_Snippets x) (obind (Some (option_map (fun i => (i, 0)) (ps_file s6))) (fun p => obind p (fun p => nth_error (ps_files s6) (fst p))))) (fun m => option_map (fun i => Some (i, 0)) (lookup ("s1") m))) (Some (option_map (fun i => (i, 0)) (ps_snip s1)))));
   (option_map negb (olift String.eqb (option_map (fun x => s_SPDXIdentifier x) (obind (obind (option_map (fun x => f_Snippets x) (obind (Some (option_map (fun i => (i, 0)) (ps_file s6))) (fun p => obind p (fun p => nth_error (ps_files s6) (fst p))))) (fun m => option_map (fun i => Some (i, 0)) (lookup ("s1") m))) (fun p => obind p (fun p => nth_error (ps_snips s6) (fst p))))) (Some ("s1"))));
   (option_map negb (olift ptr_eqb (obind (option_map (fun x => f_Snippets x) (obind (Some (option_map (fun i => (i, 0)) (ps_file s6))) (fun p => obind p (fun p => nth_error (ps_files s6) (fst p))))) (fun m => option_map (fun i => Some (i, 0)) (lookup ("s2") m))) (Some (option_map (fun i => (i, 0)) (ps_snip s6)))));
   (option_map negb (olift String.eqb (option_map (fun x => s_SPDXIdentifier x) (obind (obind (option_map (fun x => f_Snippets x) (obind (Some (option_map (fun i => (i, 0)) (ps_file s6))) (fun p => obind p (fun p => nth_error (ps_files s6) (fst p))))) (fun m => option_map (fun i => Some (i, 0)) (lookup ("s2") m))) (fun p => obind p (fun p => nth_error (ps_snips s6) (fst p))))) (Some ("s2"))))]) = true.
Proof. vm_compute. reflexivity. Qed.
(** /repo/spdx/v2/v2_1/tagvalue/reader/parse_snippet_test.go 73 *)
Example v21_TestParserSnippetStartsNewPackageAfterParsingPackageNameTag : forallb is_false (
  let s1 := (set_ps_st PsSnippet (set_ps_doc (Some (set_d_Packages [] zero_DocumentOf)) (set_ps_snips [(set_s_SPDXIdentifier ("s1") zero_Snippet)] (set_ps_snip (Some 0) (set_ps_files [(set_f_Snippets [] (set_f_SPDXIdentifier ("f1") (set_f_FileName ("f1.txt") zero_FileOf)))] (set_ps_file (Some 0) (set_ps_pkgs [(set_p_Files [] (set_p_SPDXIdentifier ("package1") (set_p_PackageName ("package1") zero_PackageOf)))] (set_ps_pkg (Some 0) zero_pstate)))))))) in
  let s2 := push_doc_packages (Some (option_map (fun i => (i, 0)) (ps_pkg s1))) s1 in
  let s3 := push_pkg_files (Some (option_map (fun i => (i, 0)) (ps_pkg s2))) (Some (option_map (fun i => (i, 0)) (ps_file s2))) s2 in
  let s4 := put_snippet (Some (option_map (fun i => (i, 0)) (ps_file s3))) ("s1") (Some (option_map (fun i => (i, 0)) (ps_snip s3))) s3 in
  let r5 := parse_pair V21 s4 (("PackageName"), ("package2")) in
  let s6 := after s4 r5 in
  [(option_map negb (olift Bool.eqb (failed r5) (Some false)));
   (option_map negb (olift pst_eqb (Some (ps_st s6)) (Some PsPackage)));
   (olift ptr_eqb (Some (option_map (fun i => (i, 0)) (ps_pkg s6))) (Some None));
   (option_map negb (olift String.eqb (option_map (fun x => p_PackageName x) (obind (Some (option_map (fun i => (i, 0)) (ps_pkg s6))) (fun p => obind p (fun p => nth_error (ps_pkgs s6) (fst p))))) (Some ("package2"))));
   (option_map negb (option_map (fun x => p_FilesAnalyzed x) (obind (Some (option_map (fun i => (i, 0)) (ps_pkg s6))) (fun p => obind p (fun p => nth_error (ps_pkgs s6) (fst p))))));
   (option_map (fun x => p_IsFilesAnalyzedTagPresent x) (obind (Some (option_map (fun i => (i, 0)) (ps_pkg s6))) (fun p => obind p (fun p => nth_error (ps_pkgs s6) (fst p)))));
   (option_map negb (olift Nat.eqb (option_map (@List.length _) (option_map (map (fun i => Some (i, 0))) (option_map (fun x => d_Packages x) (obind (Some (ps_doc s6)) (fun o => o))))) (Some 1)));
   (option_map negb (olift ptr_eqb (obind (option_map (map (fun i => Some (i, 0))) (option_map (fun x => d_Packages x) (obind (Some (ps_doc s6)) (fun o => o)))) (fun l => nth_error l 0)) (Some (option_map (fun i => (i, 0)) (ps_pkg s1)))));
   (option_map negb (olift String.eqb (option_map (fun x => p_PackageName x) (obind (obind (option_map (map (fun i => Some (i, 0))) (option_map (fun x => d_Packages x) (obind (Some (ps_doc s6)) (fun o => o)))) (fun l => nth_error l 0)) (fun p => obind p (fun p => nth_error (ps_pkgs s6) (fst p))))) (Some ("package1"))));
   (option_map negb (olift Nat.eqb (option_map (@List.length _) (option_map (map (fun i => Some (i, 0))) (option_map (fun x => p_Files x) (obind (obind (option_map (map (fun i => Some (i, 0))) (option_map (fun x => d_Packages x) (obind (Some (ps_doc s6)) (fun o => o)))) (fun l => nth_error l 0)) (fun p => obind p (fun p => nth_error (ps_pkgs s6) (fst p))))))) (Some 1)));
   (option_map negb (olift ptr_eqb (obind (option_map (map (fun i => Some (i, 0))) (option_map (fun x => p_Files x) (obind (obind (option_map (map (fun i => Some (i, 0))) (option_map (fun x => d_Packages x) (obind (Some (ps_doc s6)) (fun o => o)))) (fun l => nth_error l 0)) (fun p => obind p (fun p => nth_error (ps_pkgs s6) (fst p)))))) (fun l => nth_error l 0)) (Some (option_map (fun i => (i, 0)) (ps_file s1)))));
   (option_map negb (olift String.eqb (option_map (fun x => f_FileName x) (obind (obind (option_map (map (fun i => Some (i, 0))) (option_map (fun x => p_Files x) (obind (obind (option_map (map (fun i => Some (i, 0))) (option_map (fun x => d_Packages x) (obind (Some (ps_doc s6)) (fun o => o)))) (fun l => nth_error l 0)) (fun p => obind p (fun p => nth_error (ps_pkgs s6) (fst p)))))) (fun l => nth_error l 0)) (fun p => obind p (fun p => nth_error (ps_files s6) (fst p))))) (Some ("f1.txt"))));
   (option_map negb (olift Nat.eqb (option_map (@List.length _) (option_map (map (fun i => Some (i, 0))) (option_map (fun x => p_Files x) (obind (Some (option_map (fun i => (i, 0)) (ps_pkg s6))) (fun p => obind p (fun p => nth_error (ps_pkgs s6) (fst p))))))) (Some 0)));
   (option_map negb (olift ptr_eqb (Some (option_map (fun i => (i, 0)) (ps_file s6))) (Some None)));
   (option_map negb (olift ptr_eqb (Some (option_map (fun i => (i, 0)) (ps_snip s6))) (Some None)))]) = true.
Proof. vm_compute. reflexivity. Qed.
(** /repo/spdx/v2/v2_1/tagvalue/reader/parse_snippet_test.go 147 *)
Example v21_TestParserSnippetMovesToFileAfterParsingFileNameTag : forallb is_false (
  let s1 := (set_ps_st PsSnippet (set_ps_doc (Some (set_d_Packages [] zero_DocumentOf)) (set_ps_snips [(set_s_SPDXIdentifier ("s1") zero_Snippet)] (set_ps_snip (Some 0) (set_ps_files [(set_f_Snippets [] (set_f_SPDXIdentifier ("f1") (set_f_FileName ("f1.txt") zero_FileOf)))] (set_ps_file (Some 0) (set_ps_pkgs [(set_p_Files [] (set_p_SPDXIdentifier ("package1") (set_p_PackageName ("package1") zero_PackageOf)))] (set_ps_pkg (Some 0) zero_pstate)))))))) in
  let s2 := push_doc_packages (Some (option_map (fun i => (i, 0)) (ps_pkg s1))) s1 in
  let s3 := push_pkg_files (Some (option_map (fun i => (i, 0)) (ps_pkg s2))) (Some (option_map (fun i => (i, 0)) (ps_file s2))) s2 in
  let s4 := put_snippet (Some (option_map (fun i => (i, 0)) (ps_file s3))) ("s1") (Some (option_map (fun i => (i, 0)) (ps_snip s3))) s3 in
  let r5 := parse_pair V21 s4 (("FileName"), ("f2.txt")) in
  let s6 := after s4 r5 in
  [(option_map negb (olift Bool.eqb (failed r5) (Some false)));
   (option_map negb (olift pst_eqb (Some (ps_st s6)) (Some PsFile)));
   (option_map negb (olift ptr_eqb (Some (option_map (fun i => (i, 0)) (ps_pkg s6))) (Some (option_map (fun i => (i, 0)) (ps_pkg s1)))));
   (olift ptr_eqb (Some (option_map (fun i => (i, 0)) (ps_file s6))) (Some None));
   (option_map negb (olift String.eqb (option_map (fun x => f_FileName x) (obind (Some (option_map (fun i => (i, 0)) (ps_file s6))) (fun p => obind p (fun p => nth_error (ps_files s6) (fst p))))) (Some ("f2.txt"))));
   (option_map negb (olift Nat.eqb (option_map (@List.length _) (option_map (map (fun i => Some (i, 0))) (option_map (fun x => p_Files x) (obind (Some (option_map (fun i => (i, 0)) (ps_pkg s6))) (fun p => obind p (fun p => nth_error (ps_pkgs s6) (fst p))))))) (Some 1)));
   (option_map negb (olift ptr_eqb (obind (option_map (map (fun i => Some (i, 0))) (option_map (fun x => p_Files x) (obind (Some (option_map (fun i => (i, 0)) (ps_pkg s6))) (fun p => obind p (fun p => nth_error (ps_pkgs s6) (fst p)))))) (fun l => nth_error l 0)) (Some (option_map (fun i => (i, 0)) (ps_file s1)))));
   (option_map negb (olift String.eqb (option_map (fun x => f_FileName x) (obind (obind (option_map (map (fun i => Some (i, 0))) (option_map (fun x => p_Files x) (obind (Some (option_map (fun i => (i, 0)) (ps_pkg s6))) (fun p => obind p (fun p => nth_error (ps_pkgs s6) (fst p)))))) (fun l => nth_error l 0)) (fun p => obind p (fun p => nth_error (ps_files s6) (fst p))))) (Some ("f1.txt"))));
   (option_map negb (olift ptr_eqb (Some (option_map (fun i => (i, 0)) (ps_snip s6))) (Some None)))]) = true.
Proof. vm_compute. reflexivity. Qed.
(** /repo/spdx/v2/v2_1/tagvalue/reader/parse_snippet_test.go 200 *)
Example v21_TestParserSnippetMovesToOtherLicenseAfterParsingLicenseIDTag : forallb is_false (
  let s1 := (set_ps_st PsSnippet (set_ps_doc (Some (set_d_Packages [] zero_DocumentOf)) (set_ps_snips [(set_s_SPDXIdentifier ("s1") zero_Snippet)] (set_ps_snip (Some 0) (set_ps_files [(set_f_Snippets [] (set_f_SPDXIdentifier ("f1") (set_f_FileName ("f1.txt") zero_FileOf)))] (set_ps_file (Some 0) (set_ps_pkgs [(set_p_Files [] (set_p_SPDXIdentifier ("package1") (set_p_PackageName ("package1") zero_PackageOf)))] (set_ps_pkg (Some 0) zero_pstate)))))))) in
  let s2 := push_doc_packages (Some (option_map (fun i => (i, 0)) (ps_pkg s1))) s1 in
  let s3 := push_pkg_files (Some (option_map (fun i => (i, 0)) (ps_pkg s2))) (Some (option_map (fun i => (i, 0)) (ps_file s2))) s2 in
  let s4 := put_snippet (Some (option_map (fun i => (i, 0)) (ps_file s3))) ("s1") (Some (option_map (fun i => (i, 0)) (ps_snip s3))) s3 in
  let r5 := parse_pair V21 s4 (("LicenseID"), ("LicenseRef-TestLic")) in
  let s6 := after s4 r5 in
  [(option_map negb (olift Bool.eqb (failed r5) (Some false)));
   (option_map negb (olift pst_eqb (Some (ps_st s6)) (Some PsOtherLicense)))]) = true.
Proof. vm_compute. reflexivity. Qed.
(** /repo/spdx/v2/v2_1/tagvalue/reader/parse_snippet_test.go 221 *)
Example v21_TestParserSnippetMovesToReviewAfterParsingReviewerTag : forallb is_false (
  let s1 := (set_ps_st PsSnippet (set_ps_doc (Some (set_d_Packages [] zero_DocumentOf)) (set_ps_snips [(set_s_SPDXIdentifier ("s1") zero_Snippet)] (set_ps_snip (Some 0) (set_ps_files [(set_f_Snippets [] (set_f_SPDXIdentifier ("f1") (set_f_FileName ("f1.txt") zero_FileOf)))] (set_ps_file (Some 0) (set_ps_pkgs [(set_p_Files [] (set_p_SPDXIdentifier ("package1") (set_p_PackageName ("package1") zero_PackageOf)))] (set_ps_pkg (Some 0) zero_pstate)))))))) in
  let s2 := push_doc_packages (Some (option_map (fun i => (i, 0)) (ps_pkg s1))) s1 in
  let s3 := push_pkg_files (Some (option_map (fun i => (i, 0)) (ps_pkg s2))) (Some (option_map (fun i => (i, 0)) (ps_file s2))) s2 in
  let s4 := put_snippet (Some (option_map (fun i => (i, 0)) (ps_file s3))) ("s1") (Some (option_map (fun i => (i, 0)) (ps_snip s3))) s3 in
  let r5 := parse_pair V21 s4 (("Reviewer"), ("Person: John Doe")) in
  let s6 := after s4 r5 in
  [(option_map negb (olift Bool.eqb (failed r5) (Some false)));
   (option_map negb (olift pst_eqb (Some (ps_st s6)) (Some PsReview)))]) = true.
Proof. vm_compute. reflexivity. Qed.
(** /repo/spdx/v2/v2_1/tagvalue/reader/parse_snippet_test.go 242 *)
Example v21_TestParserSnippetStaysAfterParsingRelationshipTags : forallb is_false (
  let s1 := (set_ps_st PsSnippet (set_ps_doc (Some (set_d_Packages [] zero_DocumentOf)) (set_ps_snips [(set_s_SPDXIdentifier ("s1") zero_Snippet)] (set_ps_snip (Some 0) (set_ps_files [(set_f_Snippets [] (set_f_SPDXIdentifier ("f1") (set_f_FileName ("f1.txt") zero_FileOf)))] (set_ps_file (Some 0) (set_ps_pkgs [(set_p_Files [] (set_p_SPDXIdentifier ("package1") (set_p_PackageName ("package1") zero_PackageOf)))] (set_ps_pkg (Some 0) zero_pstate)))))))) in
  let s2 := push_doc_packages (Some (option_map (fun i => (i, 0)) (ps_pkg s1))) s1 in
  let s3 := push_pkg_files (Some (option_map (fun i => (i, 0)) (ps_pkg s2))) (Some (option_map (fun i => (i, 0)) (ps_file s2))) s2 in
  let s4 := put_snippet (Some (option_map (fun i => (i, 0)) (ps_file s3))) ("s1") (Some (option_map (fun i => (i, 0)) (ps_snip s3))) s3 in
  let r5 := parse_pair V21 s4 (("Relationship"), ("SPDXRef-blah CONTAINS SPDXRef-blah-else")) in
  let s6 := after s4 r5 in
  let r7 := parse_pair V21 s6 (("RelationshipComment"), ("blah")) in
  let s8 := after s6 r7 in
  [(option_map negb (olift Bool.eqb (failed r5) (Some false)));
   (option_map negb (olift pst_eqb (Some (ps_st s6)) (Some PsSnippet)));
   (option_map negb (olift Nat.eqb (option_map (@List.length _) (option_map (fun l => map (fun i => Some (i, 0)) (seq 0 (List.length l))) (option_map (fun x => d_Relationships x) (obind (Some (ps_doc s6)) (fun o => o))))) (Some 1)));
   (olift orb (option_map negb (olift String.eqb (option_map (fun x => de_DocumentRefID x) (option_map (fun x => r_RefA x) (obind (obind (option_map (fun l => map (fun i => Some (i, 0)) (seq 0 (List.length l))) (option_map (fun x => d_Relationships x) (obind (Some (ps_doc s6)) (fun o => o)))) (fun l => nth_error l 0)) (fun p => obind p (fun p => obind (ps_doc s6) (fun d => nth_error (d_Relationships d) (fst p))))))) (Some ("")))) (option_map negb (olift String.eqb (option_map (fun x => de_ElementRefID x) (option_map (fun x => r_RefA x) (obind (obind (option_map (fun l => map (fun i => Some (i, 0)) (seq 0 (List.length l))) (option_map (fun x => d_Relationships x) (obind (Some (ps_doc s6)) (fun o => o)))) (fun l => nth_error l 0)) (fun p => obind p (fun p => obind (ps_doc s6) (fun d => nth_error (d_Relationships d) (fst p))))))) (Some ("blah")))));
   (option_map negb (olift Bool.eqb (failed r7) (Some false)));
   (option_map negb (olift pst_eqb (Some (ps_st s8)) (Some PsSnippet)))]) = true.
Proof. vm_compute. reflexivity. Qed.
(** /repo/spdx/v2/v2_1/tagvalue/reader/parse_snippet_test.go 281 *)
Example v21_TestParserSnippetStaysAfterParsingAnnotationTags : forallb is_false (
  let s1 := (set_ps_st PsSnippet (set_ps_doc (Some (set_d_Packages [] zero_DocumentOf)) (set_ps_snips [(set_s_SPDXIdentifier ("s1") zero_Snippet)] (set_ps_snip (Some 0) (set_ps_files [(set_f_Snippets [] (set_f_SPDXIdentifier ("f1") (set_f_FileName ("f1.txt") zero_FileOf)))] (set_ps_file (Some 0) (set_ps_pkgs [(set_p_Files [] (set_p_SPDXIdentifier ("package1") (set_p_PackageName ("package1") zero_PackageOf)))] (set_ps_pkg (Some 0) zero_pstate)))))))) in
  let s2 := push_doc_packages (Some (option_map (fun i => (i, 0)) (ps_pkg s1))) s1 in
  let s3 := push_pkg_files (Some (option_map (fun i => (i, 0)) (ps_pkg s2))) (Some (option_map (fun i => (i, 0)) (ps_file s2))) s2 in
  let s4 := put_snippet (Some (option_map (fun i => (i, 0)) (ps_file s3))) ("s1") (Some (option_map (fun i => (i, 0)) (ps_snip s3))) s3 in
  let r5 := parse_pair V21 s4 (("Annotator"), ("Person: John Doe ()")) in
  let s6 := after s4 r5 in
  let r7 := parse_pair V21 s6 (("AnnotationDate"), ("2018-09-15T00:36:00Z")) in
  let s8 := after s6 r7 in
  let r9 := parse_pair V21 s8 (("AnnotationType"), ("REVIEW")) in
  let s10 := after s8 r9 in
  let r11 := parse_pair V21 s10 (("SPDXREF"), ("SPDXRef-45")) in
  let s12 := after s10 r11 in
  let r13 := parse_pair V21 s12 (("AnnotationComment"), ("i guess i had something to say about this particular file")) in
  let s14 := after s12 r13 in
  [(option_map negb (olift Bool.eqb (failed r5) (Some false)));
   (option_map negb (olift pst_eqb (Some (ps_st s6)) (Some PsSnippet)));
   (option_map negb (olift Bool.eqb (failed r7) (Some false)));
   (option_map negb (olift pst_eqb (Some (ps_st s8)) (Some PsSnippet)));
   (option_map negb (olift Bool.eqb (failed r9) (Some false)));
   (option_map negb (olift pst_eqb (Some (ps_st s10)) (Some PsSnippet)));
   (option_map negb (olift Bool.eqb (failed r11) (Some false)));
   (option_map negb (olift pst_eqb (Some (ps_st s12)) (Some PsSnippet)));
   (option_map negb (olift Bool.eqb (failed r13) (Some false)));
   (option_map negb (olift pst_eqb (Some (ps_st s14)) (Some PsSnippet)));
   (option_map negb (olift Nat.eqb (option_map (@List.length _) (option_map (fun l => map (fun i => Some (i, 0)) (seq 0 (List.length l))) (option_map (fun x => d_Annotations x) (obind (Some (ps_doc s14)) (fun o => o))))) (Some 1)));
   (option_map negb (olift String.eqb (option_map (fun x => an_Annotator x) (option_map (fun x => a_Annotator x) (obind (obind (option_map (fun l => map (fun i => Some (i, 0)) (seq 0 (List.length l))) (option_map (fun x => d_Annotations x) (obind (Some (ps_doc s14)) (fun o => o)))) (fun l => nth_error l 0)) (fun p => obind p (fun p => obind (ps_doc s14) (fun d => nth_error (d_Annotations d) (fst p))))))) (Some ("John Doe ()"))))]) = true.
Proof. vm_compute. reflexivity. Qed.
(** /repo/spdx/v2/v2_1/tagvalue/reader/parse_snippet_test.go 343 *)
Example v21_TestParserCanParseSnippetTags : forallb is_false (
  let s1 := (set_ps_st PsSnippet (set_ps_doc (Some (set_d_Packages [] zero_DocumentOf)) (set_ps_snips [zero_Snippet] (set_ps_snip (Some 0) (set_ps_files [(set_f_Snippets [] (set_f_SPDXIdentifier ("f1") (set_f_FileName ("f1.txt") zero_FileOf)))] (set_ps_file (Some 0) (set_ps_pkgs [(set_p_Files [] (set_p_SPDXIdentifier ("package1") (set_p_PackageName ("package1") zero_PackageOf)))] (set_ps_pkg (Some 0) zero_pstate)))))))) in
  let s2 := push_doc_packages (Some (option_map (fun i => (i, 0)) (ps_pkg s1))) s1 in
  let s3 := push_pkg_files (Some (option_map (fun i => (i, 0)) (ps_pkg s2))) (Some (option_map (fun i => (i, 0)) (ps_file s2))) s2 in
  let r4 := parse_snippet V21 ("SnippetSPDXID") ("SPDXRef-s1") s3 in
  let s5 := after s3 r4 in
  let r6 := parse_snippet V21 ("SnippetFromFileSPDXID") ("SPDXRef-f1") s5 in
  let s7 := after s5 r6 in
  let r8 := parse_snippet V21 ("SnippetByteRange") ("20:320") s7 in
  let s9 := after s7 r8 in
  let r10 := parse_snippet V21 ("SnippetLineRange") ("5:12") s9 in
  let s11 := after s9 r10 in
  let r12 := parse_snippet V21 ("SnippetLicenseConcluded") ("BSD-3-Clause") s11 in
  let s13 := after s11 r12 in
  let r14 := parse_snippet V21 ("LicenseInfoInSnippet") ("Apache-2.0") s13 in
  let s15 := after s13 r14 in
  let r16 := parse_snippet V21 ("LicenseInfoInSnippet") ("GPL-2.0-or-later") s15 in
  let s17 := after s15 r16 in
  let r18 := parse_snippet V21 ("LicenseInfoInSnippet") ("CC0-1.0") s17 in
  let s19 := after s17 r18 in
  let r20 := parse_snippet V21 ("SnippetLicenseComments") ("this is a comment about the licenses") s19 in
  let s21 := after s19 r20 in
  let r22 := parse_snippet V21 ("SnippetCopyrightText") ("copyright (c) John Doe and friends") s21 in
  let s23 := after s21 r22 in
  let r24 := parse_snippet V21 ("SnippetComment") ("this is a comment about the snippet") s23 in
  let s25 := after s23 r24 in
  let r26 := parse_snippet V21 ("SnippetName") ("from some other package called abc") s25 in
  let s27 := after s25 r26 in
  [(option_map negb (olift Bool.eqb (failed r4) (Some false)));
   (option_map negb (olift String.eqb (option_map (fun x => s_SPDXIdentifier x) (obind (Some (option_map (fun i => (i, 0)) (ps_snip s5))) (fun p => obind p (fun p => nth_error (ps_snips s5) (fst p))))) (Some ("s1"))));
   (option_map negb (olift Bool.eqb (failed r6) (Some false)));
   (option_map negb (olift String.eqb (option_map (fun x => s_FromFile x) (obind (Some (option_map (fun i => (i, 0)) (ps_snip s7))) (fun p => obind p (fun p => nth_error (ps_snips s7) (fst p))))) (Some ("f1"))));
   (option_map negb (olift Bool.eqb (failed r8) (Some false)));
   (option_map negb (olift Z.eqb (option_map (fun x => rp_Offset x) (option_map (fun x => sr_StartPointer x) (obind (option_map (fun x => s_Ranges x) (obind (Some (option_map (fun i => (i, 0)) (ps_snip s9))) (fun p => obind p (fun p => nth_error (ps_snips s9) (fst p))))) (fun l => nth_error l 0)))) (Some 20%Z)));
   (option_map negb (olift Z.eqb (option_map (fun x => rp_Offset x) (option_map (fun x => sr_EndPointer x) (obind (option_map (fun x => s_Ranges x) (obind (Some (option_map (fun i => (i, 0)) (ps_snip s9))) (fun p => obind p (fun p => nth_error (ps_snips s9) (fst p))))) (fun l => nth_error l 0)))) (Some 320%Z)));
   (option_map negb (olift Bool.eqb (failed r10) (Some false)));
   (option_map negb (olift Z.eqb (option_map (fun x => rp_LineNumber x) (option_map (fun x => sr_StartPointer x) (obind (option_map (fun x => s_Ranges x) (obind (Some (option_map (fun i => (i, 0)) (ps_snip s11))) (fun p => obind p (fun p => nth_error (ps_snips s11) (fst p))))) (fun l => nth_error l 1)))) (Some 5%Z)));
   (option_map negb (olift Z.eqb (option_map (fun x => rp_LineNumber x) (option_map (fun x => sr_EndPointer x) (obind (option_map (fun x => s_Ranges x) (obind (Some (option_map (fun i => (i, 0)) (ps_snip s11))) (fun p => obind p (fun p => nth_error (ps_snips s11) (fst p))))) (fun l => nth_error l 1)))) (Some 12%Z)));
   (option_map negb (olift Bool.eqb (failed r12) (Some false)));
   (option_map negb (olift String.eqb (option_map (fun x => s_LicenseConcluded x) (obind (Some (option_map (fun i => (i, 0)) (ps_snip s13))) (fun p => obind p (fun p => nth_error (ps_snips s13) (fst p))))) (Some ("BSD-3-Clause"))));
   (option_map negb (olift Bool.eqb (failed r14) (Some false)));
   (option_map negb (olift Bool.eqb (failed r16) (Some false)));
   (option_map negb (olift Bool.eqb (failed r18) (Some false)));
   (option_map negb (option_map (mem ("Apache-2.0")) (option_map (fun x => s_LicenseInfoInSnippet x) (obind (Some (option_map (fun i => (i, 0)) (ps_snip s19))) (fun p => obind p (fun p => nth_error (ps_snips s19) (fst p)))))));
   (option_map negb (option_map (mem ("GPL-2.0-or-later")) (option_map (fun x => s_LicenseInfoInSnippet x) (obind (Some (option_map (fun i => (i, 0)) (ps_snip s19))) (fun p => obind p (fun p => nth_error (ps_snips s19) (fst p)))))));
   (option_map negb (option_map (mem ("CC0-1.0")) (option_map (fun x => s_LicenseInfoInSnippet x) (obind (Some (option_map (fun i => (i, 0)) (ps_snip s19))) (fun p => obind p (fun p => nth_error (ps_snips s19) (fst p)))))));
   (option_map negb (olift Nat.eqb (option_map (@List.length _) (option_map (fun x => s_LicenseInfoInSnippet x) (obind (Some (option_map (fun i => (i, 0)) (ps_snip s19))) (fun p => obind p (fun p => nth_error (ps_snips s19) (fst p)))))) (Some 3)));
   (option_map negb (olift Bool.eqb (failed r20) (Some false)));
   (option_map negb (olift String.eqb (option_map (fun x => s_LicenseComments x) (obind (Some (option_map (fun i => (i, 0)) (ps_snip s21))) (fun p => obind p (fun p => nth_error (ps_snips s21) (fst p))))) (Some ("this is a comment about the licenses"))));
   (option_map negb (olift Bool.eqb (failed r22) (Some false)));
   (option_map negb (olift String.eqb (option_map (fun x => s_CopyrightText x) (obind (Some (option_map (fun i => (i, 0)) (ps_snip s23))) (fun p => obind p (fun p => nth_error (ps_snips s23) (fst p))))) (Some ("copyright (c) John Doe and friends"))));
   (option_map negb (olift Bool.eqb (failed r24) (Some false)));
   (option_map negb (olift String.eqb (option_map (fun x => s_Comment x) (obind (Some (option_map (fun i => (i, 0)) (ps_snip s25))) (fun p => obind p (fun p => nth_error (ps_snips s25) (fst p))))) (Some ("this is a comment about the snippet"))));
   (option_map negb (olift Bool.eqb (failed r26) (Some false)));
   (option_map negb (olift String.eqb (option_map (fun x => s_Name x) (obind (Some (option_map (fun i => (i, 0)) (ps_snip s27))) (fun p => obind p (fun p => nth_error (ps_snips s27) (fst p))))) (Some ("from some other package called abc"))))]) = true.
Proof. vm_compute. reflexivity. Qed.
(** /repo/spdx/v2/v2_1/tagvalue/reader/parse_snippet_test.go 471 *)
Example v21_TestParserSnippetUnknownTagFails : forallb is_false (
  let s1 := (set_ps_st PsSnippet (set_ps_doc (Some (set_d_Packages [] zero_DocumentOf)) (set_ps_snips [(set_s_SPDXIdentifier ("s1") zero_Snippet)] (set_ps_snip (Some 0) (set_ps_files [(set_f_Snippets [] (set_f_SPDXIdentifier ("f1") (set_f_FileName ("f1.txt") zero_FileOf)))] (set_ps_file (Some 0) (set_ps_pkgs [(set_p_Files [] (set_p_SPDXIdentifier ("package1") (set_p_PackageName ("package1") zero_PackageOf)))] (set_ps_pkg (Some 0) zero_pstate)))))))) in
  let s2 := push_doc_packages (Some (option_map (fun i => (i, 0)) (ps_pkg s1))) s1 in
  let s3 := push_pkg_files (Some (option_map (fun i => (i, 0)) (ps_pkg s2))) (Some (option_map (fun i => (i, 0)) (ps_file s2))) s2 in
  let r4 := parse_snippet V21 ("blah") ("something") s3 in
  let s5 := after s3 r4 in
  [(olift Bool.eqb (failed r4) (Some false))]) = true.
Proof. vm_compute. reflexivity. Qed.
(** /repo/spdx/v2/v2_1/tagvalue/reader/parse_snippet_test.go 488 *)
Example v21_TestParserFailsForInvalidSnippetSPDXID : forallb is_false (
  let s1 := (set_ps_st PsSnippet (set_ps_doc (Some (set_d_Packages [] zero_DocumentOf)) (set_ps_snips [zero_Snippet] (set_ps_snip (Some 0) (set_ps_files [(set_f_Snippets [] (set_f_SPDXIdentifier ("f1") (set_f_FileName ("f1.txt") zero_FileOf)))] (set_ps_file (Some 0) (set_ps_pkgs [(set_p_Files [] (set_p_SPDXIdentifier ("package1") (set_p_PackageName ("package1") zero_PackageOf)))] (set_ps_pkg (Some 0) zero_pstate)))))))) in
  let s2 := push_doc_packages (Some (option_map (fun i => (i, 0)) (ps_pkg s1))) s1 in
  let s3 := push_pkg_files (Some (option_map (fun i => (i, 0)) (ps_pkg s2))) (Some (option_map (fun i => (i, 0)) (ps_file s2))) s2 in
  let r4 := parse_snippet V21 ("SnippetSPDXID") ("whoops") s3 in
  let s5 := after s3 r4 in
  [(olift Bool.eqb (failed r4) (Some false))]) = true.
Proof. vm_compute. reflexivity. Qed.
(** /repo/spdx/v2/v2_1/tagvalue/reader/parse_snippet_test.go 506 *)
Example v21_TestParserFailsForInvalidSnippetFromFileSPDXID : forallb is_false (
  let s1 := (set_ps_st PsSnippet (set_ps_doc (Some (set_d_Packages [] zero_DocumentOf)) (set_ps_snips [zero_Snippet] (set_ps_snip (Some 0) (set_ps_files [(set_f_Snippets [] (set_f_SPDXIdentifier ("f1") (set_f_FileName ("f1.txt") zero_FileOf)))] (set_ps_file (Some 0) (set_ps_pkgs [(set_p_Files [] (set_p_SPDXIdentifier ("package1") (set_p_PackageName ("package1") zero_PackageOf)))] (set_ps_pkg (Some 0) zero_pstate)))))))) in
  let s2 := push_doc_packages (Some (option_map (fun i => (i, 0)) (ps_pkg s1))) s1 in
  let s3 := push_pkg_files (Some (option_map (fun i => (i, 0)) (ps_pkg s2))) (Some (option_map (fun i => (i, 0)) (ps_file s2))) s2 in
  let r4 := parse_snippet V21 ("SnippetSPDXID") ("SPDXRef-s1") s3 in
  let s5 := after s3 r4 in
  let r6 := parse_snippet V21 ("SnippetFromFileSPDXID") ("whoops") s5 in
  let s7 := after s5 r6 in
  [(option_map negb (olift Bool.eqb (failed r4) (Some false)));
   (olift Bool.eqb (failed r6) (Some false))]) = true.
Proof. vm_compute. reflexivity. Qed.
(** /repo/spdx/v2/v2_1/tagvalue/reader/parse_snippet_test.go 529 *)
Example v21_TestParserFailsForInvalidSnippetByteValues : forallb is_false (
  let s1 := (set_ps_st PsSnippet (set_ps_doc (Some (set_d_Packages [] zero_DocumentOf)) (set_ps_snips [zero_Snippet] (set_ps_snip (Some 0) (set_ps_files [(set_f_Snippets [] (set_f_SPDXIdentifier ("f1") (set_f_FileName ("f1.txt") zero_FileOf)))] (set_ps_file (Some 0) (set_ps_pkgs [(set_p_Files [] (set_p_SPDXIdentifier ("package1") (set_p_PackageName ("package1") zero_PackageOf)))] (set_ps_pkg (Some 0) zero_pstate)))))))) in
  let s2 := push_doc_packages (Some (option_map (fun i => (i, 0)) (ps_pkg s1))) s1 in
  let s3 := push_pkg_files (Some (option_map (fun i => (i, 0)) (ps_pkg s2))) (Some (option_map (fun i => (i, 0)) (ps_file s2))) s2 in
  let r4 := parse_snippet V21 ("SnippetSPDXID") ("SPDXRef-s1") s3 in
  let s5 := after s3 r4 in
  let r6 := parse_snippet V21 ("SnippetByteRange") ("200 210") s5 in
  let s7 := after s5 r6 in
  let r8 := parse_snippet V21 ("SnippetByteRange") ("a:210") s7 in
  let s9 := after s7 r8 in
  let r10 := parse_snippet V21 ("SnippetByteRange") ("200:a") s9 in
  let s11 := after s9 r10 in
  [(option_map negb (olift Bool.eqb (failed r4) (Some false)));
   (olift Bool.eqb (failed r6) (Some false));
   (olift Bool.eqb (failed r8) (Some false));
   (olift Bool.eqb (failed r10) (Some false))]) = true.
Proof. vm_compute. reflexivity. Qed.
(** /repo/spdx/v2/v2_1/tagvalue/reader/parse_snippet_test.go 560 *)
Example v21_TestParserFailsForInvalidSnippetLineValues : forallb is_false (
  let s1 := (set_ps_st PsSnippet (set_ps_doc (Some (set_d_Packages [] zero_DocumentOf)) (set_ps_snips [zero_Snippet] (set_ps_snip (Some 0) (set_ps_files [(set_f_Snippets [] (set_f_SPDXIdentifier ("f1") (set_f_FileName ("f1.txt") zero_FileOf)))] (set_ps_file (Some 0) (set_ps_pkgs [(set_p_Files [] (set_p_SPDXIdentifier ("package1") (set_p_PackageName ("package1") zero_PackageOf)))] (set_ps_pkg (Some 0) zero_pstate)))))))) in
  let s2 := push_doc_packages (Some (option_map (fun i => (i, 0)) (ps_pkg s1))) s1 in
  let s3 := push_pkg_files (Some (option_map (fun i => (i, 0)) (ps_pkg s2))) (Some (option_map (fun i => (i, 0)) (ps_file s2))) s2 in
  let r4 := parse_snippet V21 ("SnippetSPDXID") ("SPDXRef-s1") s3 in
  let s5 := after s3 r4 in
  let r6 := parse_snippet V21 ("SnippetLineRange") ("200 210") s5 in
  let s7 := after s5 r6 in
  let r8 := parse_snippet V21 ("SnippetLineRange") ("a:210") s7 in
  let s9 := after s7 r8 in
  let r10 := parse_snippet V21 ("SnippetLineRange") ("200:a") s9 in
  let s11 := after s9 r10 in
  [(option_map negb (olift Bool.eqb (failed r4) (Some false)));
   (olift Bool.eqb (failed r6) (Some false));
   (olift Bool.eqb (failed r8) (Some false));
   (olift Bool.eqb (failed r10) (Some false))]) = true.
Proof. vm_compute. reflexivity. Qed.
(** /repo/spdx/v2/v2_1/tagvalue/reader/parse_snippet_test.go 591 *)
Example v21_TestParserFilesWithoutSpdxIdThrowErrorWithSnippets : forallb is_false (
  let s1 := (set_ps_st PsCreationInfo (set_ps_doc (Some zero_DocumentOf) (set_ps_files [(set_f_FileName ("f2.txt") zero_FileOf)] (set_ps_file (Some 0) zero_pstate)))) in
  let r2 := parse_pair V21 s1 (("SnippetSPDXID"), ("s1")) in
  let s3 := after s1 r2 in
  [(olift Bool.eqb (failed r2) (Some false))]) = true.
Proof. vm_compute. reflexivity. Qed.
(** /repo/spdx/v2/v2_1/tagvalue/reader/parser_test.go 12 *)
Example v21_TestParserCanParseTagValues : forallb is_false (
  let r1 := parse_tag_values V21 [("SPDXVersion", "SPDX-2.1"); ("DataLicense", "CC0-1.0"); ("SPDXID", "SPDXRef-DOCUMENT")] in
  [(option_map negb (olift Bool.eqb (failed r1) (Some false)));
   (option_map negb (olift String.eqb (option_map (fun x => d_SPDXVersion x) (obind match r1 with Ok o => Some o | _ => None end (fun o => o))) (Some ("SPDX-2.1"))));
   (option_map negb (olift String.eqb (option_map (fun x => d_DataLicense x) (obind match r1 with Ok o => Some o | _ => None end (fun o => o))) (Some ("CC0-1.0"))));
   (option_map negb (olift String.eqb (option_map (fun x => d_SPDXIdentifier x) (obind match r1 with Ok o => Some o | _ => None end (fun o => o))) (Some ("DOCUMENT"))))]) = true.
Proof. vm_compute. reflexivity. Qed.
(** /repo/spdx/v2/v2_1/tagvalue/reader/parser_test.go 41 *)
Example v21_TestParserInitCreatesResetStatus : forallb is_false (
  let s1 := zero_pstate in
  [(option_map negb (olift pst_eqb (Some (ps_st s1)) (Some PsStart)));
   (option_map negb (option_map (fun o => match o with None => true | Some _ => false end) (Some (ps_doc s1))))]) = true.
Proof. vm_compute. reflexivity. Qed.
(** /repo/spdx/v2/v2_1/tagvalue/reader/parser_test.go 51 *)
Example v21_TestParserHasDocumentAfterCallToParseFirstTag : forallb is_false (
  let s1 := zero_pstate in
  let r2 := parse_pair V21 s1 (("SPDXVersion"), ("SPDX-2.1")) in
  let s3 := after s1 r2 in
  [(option_map negb (olift Bool.eqb (failed r2) (Some false)));
   (option_map (fun o => match o with None => true | Some _ => false end) (Some (ps_doc s3)))]) = true.
Proof. vm_compute. reflexivity. Qed.
(** /repo/spdx/v2/v2_1/tagvalue/reader/parser_test.go 70 *)
Example v21_TestParserFilesWithoutSpdxIdThrowErrorAtCompleteParse : forallb is_false (
  let r1 := parse_tag_values V21 [("SPDXVersion", "SPDX-2.1"); ("DataLicense", "CC0-1.0"); ("SPDXID", "SPDXRef-DOCUMENT"); ("FileName", "f1")] in
  [(olift Bool.eqb (failed r1) (Some false))]) = true.
Proof. vm_compute. reflexivity. Qed.
(** /repo/spdx/v2/v2_1/tagvalue/reader/parser_test.go 86 *)
Example v21_TestParserPackageWithoutSpdxIdThrowErrorAtCompleteParse : forallb is_false (
  let r1 := parse_tag_values V21 [("SPDXVersion", "SPDX-2.1"); ("DataLicense", "CC0-1.0"); ("SPDXID", "SPDXRef-DOCUMENT"); ("PackageName", "p1")] in
  [(olift Bool.eqb (failed r1) (Some false))]) = true.
Proof. vm_compute. reflexivity. Qed.
(** /repo/spdx/v2/v2_1/tagvalue/reader/util_test.go 12 *)
Example v21_TestCanExtractSubvalues : forallb is_false (
  let r1 := extract_subs ("SHA1: abc123") in
  let w2 := match r1 with Ok x => x | _ => ("", "") end in
  [(option_map negb (olift Bool.eqb (failed r1) (Some false)));
   (option_map negb (olift String.eqb (Some (fst w2)) (Some ("SHA1"))));
   (option_map negb (olift String.eqb (Some (snd w2)) (Some ("abc123"))))]) = true.
Proof. vm_compute. reflexivity. Qed.
(** /repo/spdx/v2/v2_1/tagvalue/reader/util_test.go 25 *)
Example v21_TestReturnsErrorForInvalidSubvalueFormat : forallb is_false (
  let r1 := extract_subs ("blah") in
  let w2 := match r1 with Ok x => x | _ => ("", "") end in
  [(olift Bool.eqb (failed r1) (Some false))]) = true.
Proof. vm_compute. reflexivity. Qed.
(** /repo/spdx/v2/v2_1/tagvalue/reader/util_test.go 32 *)
Example v21_TestCanExtractDocumentAndElementRefsFromID : forallb is_false (
  let r1 := extract_doc_element_id ("SPDXRef-file1") in
  let w2 := match r1 with Ok x => x | _ => (MkDEID "" "" "") end in
  let r3 := extract_doc_element_id ("DocumentRef-doc2:SPDXRef-file2") in
  let w4 := match r3 with Ok x => x | _ => (MkDEID "" "" "") end in
  let r5 := extract_doc_element_id ("a:SPDXRef-file1") in
  let w6 := match r5 with Ok x => x | _ => (MkDEID "" "" "") end in
  let r7 := extract_doc_element_id ("file1") in
  let w8 := match r7 with Ok x => x | _ => (MkDEID "" "" "") end in
  let r9 := extract_doc_element_id ("SPDXRef-") in
  let w10 := match r9 with Ok x => x | _ => (MkDEID "" "" "") end in
  let r11 := extract_doc_element_id ("SPDXRef-file1:") in
  let w12 := match r11 with Ok x => x | _ => (MkDEID "" "" "") end in
  let r13 := extract_doc_element_id ("DocumentRef-doc2") in
  let w14 := match r13 with Ok x => x | _ => (MkDEID "" "" "") end in
  let r15 := extract_doc_element_id ("DocumentRef-doc2:") in
  let w16 := match r15 with Ok x => x | _ => (MkDEID "" "" "") end in
  let r17 := extract_doc_element_id ("DocumentRef-doc2:SPDXRef-") in
  let w18 := match r17 with Ok x => x | _ => (MkDEID "" "" "") end in
  let r19 := extract_doc_element_id ("DocumentRef-doc2:a") in
  let w20 := match r19 with Ok x => x | _ => (MkDEID "" "" "") end in
  let r21 := extract_doc_element_id ("DocumentRef-:") in
  let w22 := match r21 with Ok x => x | _ => (MkDEID "" "" "") end in
  let r23 := extract_doc_element_id ("DocumentRef-:SPDXRef-file1") in
  let w24 := match r23 with Ok x => x | _ => (MkDEID "" "" "") end in
  let r25 := extract_doc_element_id ("DocumentRef-doc2:SPDXRef-file1:file2") in
  let w26 := match r25 with Ok x => x | _ => (MkDEID "" "" "") end in
  [(option_map negb (olift Bool.eqb (failed r1) (Some false)));
   (option_map negb (olift String.eqb (option_map (fun x => de_DocumentRefID x) (Some (w2))) (Some (""))));
   (option_map negb (olift String.eqb (option_map (fun x => de_ElementRefID x) (Some (w2))) (Some ("file1"))));
   (option_map negb (olift Bool.eqb (failed r3) (Some false)));
   (option_map negb (olift String.eqb (option_map (fun x => de_DocumentRefID x) (Some (w4))) (Some ("doc2"))));
   (option_map negb (olift String.eqb (option_map (fun x => de_ElementRefID x) (Some (w4))) (Some ("file2"))));
   (olift Bool.eqb (failed r5) (Some false));
   (option_map negb (olift String.eqb (option_map (fun x => de_DocumentRefID x) (Some (w6))) (Some (""))));
   (option_map negb (olift String.eqb (option_map (fun x => de_ElementRefID x) (Some (w6))) (Some (""))));
   (olift Bool.eqb (failed r7) (Some false));
   (option_map negb (olift String.eqb (option_map (fun x => de_DocumentRefID x) (Some (w8))) (Some (""))));
   (option_map negb (olift String.eqb (option_map (fun x => de_ElementRefID x) (Some (w8))) (Some (""))));
   (olift Bool.eqb (failed r9) (Some false));
   (option_map negb (olift String.eqb (option_map (fun x => de_DocumentRefID x) (Some (w10))) (Some (""))));
   (option_map negb (olift String.eqb (option_map (fun x => de_ElementRefID x) (Some (w10))) (Some (""))));
   (olift Bool.eqb (failed r11) (Some false));
   (option_map negb (olift String.eqb (option_map (fun x => de_DocumentRefID x) (Some (w12))) (Some (""))));
   (option_map negb (olift String.eqb (option_map (fun x => de_ElementRefID x) (Some (w12))) (Some (""))));
   (olift Bool.eqb (failed r13) (Some false));
   (option_map negb (olift String.eqb (option_map (fun x => de_DocumentRefID x) (Some (w14))) (Some (""))));
   (option_map negb (olift String.eqb (option_map (fun x => de_ElementRefID x) (Some (w14))) (Some (""))));
   (olift Bool.eqb (failed r15) (Some false));
   (option_map negb (olift String.eqb (option_map (fun x => de_DocumentRefID x) (Some (w16))) (Some (""))));
   (option_map negb (olift String.eqb (option_map (fun x => de_ElementRefID x) (Some (w16))) (Some (""))));
   (olift Bool.eqb (failed r17) (Some false));
   (option_map negb (olift String.eqb (option_map (fun x => de_DocumentRefID x) (Some (w18))) (Some (""))));
   (option_map negb (olift String.eqb (option_map (fun x => de_ElementRefID x) (Some (w18))) (Some (""))));
   (olift Bool.eqb (failed r19) (Some false));
   (option_map negb (olift String.eqb (option_map (fun x => de_DocumentRefID x) (Some (w20))) (Some (""))));
   (option_map negb (olift String.eqb (option_map (fun x => de_ElementRefID x) (Some (w20))) (Some (""))));
   (olift Bool.eqb (failed r21) (Some false));
   (option_map negb (olift String.eqb (option_map (fun x => de_DocumentRefID x) (Some (w22))) (Some (""))));
   (option_map negb (olift String.eqb (option_map (fun x => de_ElementRefID x) (Some (w22))) (Some (""))));
   (olift Bool.eqb (failed r23) (Some false));
   (option_map negb (olift String.eqb (option_map (fun x => de_DocumentRefID x) (Some (w24))) (Some (""))));
   (option_map negb (olift String.eqb (option_map (fun x => de_ElementRefID x) (Some (w24))) (Some (""))));
   (olift Bool.eqb (failed r25) (Some false));
   (option_map negb (olift String.eqb (option_map (fun x => de_DocumentRefID x) (Some (w26))) (Some (""))));
   (option_map negb (olift String.eqb (option_map (fun x => de_ElementRefID x) (Some (w26))) (Some (""))))]) = true.
Proof. vm_compute. reflexivity. Qed.
(** /repo/spdx/v2/v2_1/tagvalue/reader/util_test.go 77 *)
Example v21_TestCanExtractElementRefsOnlyFromID : forallb is_false (
  let r1 := extract_element_id ("SPDXRef-file1") in
  let w2 := match r1 with Ok x => x | _ => "" end in
  let r3 := extract_element_id ("DocumentRef-doc2:SPDXRef-file2") in
  let w4 := match r3 with Ok x => x | _ => "" end in
  let r5 := extract_element_id ("a:SPDXRef-file1") in
  let w6 := match r5 with Ok x => x | _ => "" end in
  let r7 := extract_element_id ("file1") in
  let w8 := match r7 with Ok x => x | _ => "" end in
  let r9 := extract_element_id ("SPDXRef-") in
  let w10 := match r9 with Ok x => x | _ => "" end in
  let r11 := extract_element_id ("SPDXRef-file1:") in
  let w12 := match r11 with Ok x => x | _ => "" end in
  let r13 := extract_element_id ("DocumentRef-doc2") in
  let w14 := match r13 with Ok x => x | _ => "" end in
  let r15 := extract_element_id ("DocumentRef-doc2:") in
  let w16 := match r15 with Ok x => x | _ => "" end in
  let r17 := extract_element_id ("DocumentRef-doc2:SPDXRef-") in
  let w18 := match r17 with Ok x => x | _ => "" end in
  let r19 := extract_element_id ("DocumentRef-doc2:a") in
  let w20 := match r19 with Ok x => x | _ => "" end in
  let r21 := extract_element_id ("DocumentRef-:") in
  let w22 := match r21 with Ok x => x | _ => "" end in
  let r23 := extract_element_id ("DocumentRef-:SPDXRef-file1") in
  let w24 := match r23 with Ok x => x | _ => "" end in
  [(option_map negb (olift Bool.eqb (failed r1) (Some false)));
   (option_map negb (olift String.eqb (Some (w2)) (Some ("file1"))));
   (olift Bool.eqb (failed r3) (Some false));
   (option_map negb (olift String.eqb (Some (w4)) (Some (""))));
   (olift Bool.eqb (failed r5) (Some false));
   (option_map negb (olift String.eqb (Some (w6)) (Some (""))));
   (olift Bool.eqb (failed r7) (Some false));
   (option_map negb (olift String.eqb (Some (w8)) (Some (""))));
   (olift Bool.eqb (failed r9) (Some false));
   (option_map negb (olift String.eqb (Some (w10)) (Some (""))));
   (olift Bool.eqb (failed r11) (Some false));
   (option_map negb (olift String.eqb (Some (w12)) (Some (""))));
   (olift Bool.eqb (failed r13) (Some false));
   (option_map negb (olift String.eqb (Some (w14)) (Some (""))));
   (olift Bool.eqb (failed r15) (Some false));
   (option_map negb (olift String.eqb (Some (w16)) (Some (""))));
   (olift Bool.eqb (failed r17) (Some false));
   (option_map negb (olift String.eqb (Some (w18)) (Some (""))));
   (olift Bool.eqb (failed r19) (Some false));
   (option_map negb (olift String.eqb (Some (w20)) (Some (""))));
   (olift Bool.eqb (failed r21) (Some false));
   (option_map negb (olift String.eqb (Some (w22)) (Some (""))));
   (olift Bool.eqb (failed r23) (Some false));
   (option_map negb (olift String.eqb (Some (w24)) (Some (""))))]) = true.
Proof. vm_compute. reflexivity. Qed.
(** /repo/spdx/v2/v2_2/tagvalue/reader/parse_annotation_test.go 39 *)
Example v22_TestParserFailsIfAnnotationFieldsWithoutAnnotation : forallb is_false (
  let s1 := (set_ps_st PsCreationInfo (set_ps_doc (Some zero_DocumentOf) zero_pstate)) in
  let r2 := parse_pair V22 s1 (("AnnotationDate"), ("2018-09-15T17:25:00Z")) in
  let s3 := after s1 r2 in
  let r4 := parse_pair V22 s3 (("AnnotationType"), ("REVIEW")) in
  let s5 := after s3 r4 in
  let r6 := parse_pair V22 s5 (("SPDXREF"), ("SPDXRef-45")) in
  let s7 := after s5 r6 in
  let r8 := parse_pair V22 s7 (("AnnotationComment"), ("comment whatever")) in
  let s9 := after s7 r8 in
  [(olift Bool.eqb (failed r2) (Some false));
   (olift Bool.eqb (failed r4) (Some false));
   (olift Bool.eqb (failed r6) (Some false));
   (olift Bool.eqb (failed r8) (Some false))]) = true.
Proof. vm_compute. reflexivity. Qed.
(** /repo/spdx/v2/v2_2/tagvalue/reader/parse_annotation_test.go 62 *)
Example v22_TestParserCanParseAnnotationTags : forallb is_false (
  let s1 := (set_ps_st PsCreationInfo (set_ps_doc (Some zero_DocumentOf) zero_pstate)) in
  let r2 := parse_pair V22 s1 (("Annotator"), ("Person: John Doe")) in
  let s3 := after s1 r2 in
  let r4 := parse_pair V22 s3 (("AnnotationDate"), ("2018-09-15T17:32:00Z")) in
  let s5 := after s3 r4 in
  let r6 := parse_pair V22 s5 (("AnnotationType"), ("REVIEW")) in
  let s7 := after s5 r6 in
  let r8 := parse_pair V22 s7 (("SPDXREF"), ("SPDXRef-30")) in
  let s9 := after s7 r8 in
  let r10 := parse_pair V22 s9 (("AnnotationComment"), ("this is a comment")) in
  let s11 := after s9 r10 in
  [(option_map negb (olift Bool.eqb (failed r2) (Some false)));
   (option_map negb (olift String.eqb (option_map (fun x => an_Annotator x) (option_map (fun x => a_Annotator x) (obind (Some (option_map (fun i => (i, 0)) (ps_ann s3))) (fun p => obind p (fun p => obind (ps_doc s3) (fun d => nth_error (d_Annotations d) (fst p))))))) (Some ("John Doe"))));
   (option_map negb (olift String.eqb (option_map (fun x => an_AnnotatorType x) (option_map (fun x => a_Annotator x) (obind (Some (option_map (fun i => (i, 0)) (ps_ann s3))) (fun p => obind p (fun p => obind (ps_doc s3) (fun d => nth_error (d_Annotations d) (fst p))))))) (Some ("Person"))));
   (option_map negb (olift Bool.eqb (failed r4) (Some false)));
   (option_map negb (olift String.eqb (option_map (fun x => a_Date x) (obind (Some (option_map (fun i => (i, 0)) (ps_ann s5))) (fun p => obind p (fun p => obind (ps_doc s5) (fun d => nth_error (d_Annotations d) (fst p)))))) (Some ("2018-09-15T17:32:00Z"))));
   (option_map negb (olift Bool.eqb (failed r6) (Some false)));
   (option_map negb (olift String.eqb (option_map (fun x => a_Type x) (obind (Some (option_map (fun i => (i, 0)) (ps_ann s7))) (fun p => obind p (fun p => obind (ps_doc s7) (fun d => nth_error (d_Annotations d) (fst p)))))) (Some ("REVIEW"))));
   (option_map negb (olift Bool.eqb (failed r8) (Some false)));
   (olift orb (option_map negb (olift String.eqb (option_map (fun x => de_DocumentRefID x) (option_map (fun x => a_SPDXIdentifier x) (obind (Some (option_map (fun i => (i, 0)) (ps_ann s9))) (fun p => obind p (fun p => obind (ps_doc s9) (fun d => nth_error (d_Annotations d) (fst p))))))) (Some ("")))) (option_map negb (olift String.eqb (option_map (fun x => de_ElementRefID x) (option_map (fun x => a_SPDXIdentifier x) (obind (Some (option_map (fun i => (i, 0)) (ps_ann s9))) (fun p => obind p (fun p => obind (ps_doc s9) (fun d => nth_error (d_Annotations d) (fst p))))))) (Some ("30")))));
   (option_map negb (olift Bool.eqb (failed r10) (Some false)));
   (option_map negb (olift String.eqb (option_map (fun x => a_Comment x) (obind (Some (option_map (fun i => (i, 0)) (ps_ann s11))) (fun p => obind p (fun p => obind (ps_doc s11) (fun d => nth_error (d_Annotations d) (fst p)))))) (Some ("this is a comment"))))]) = true.
Proof. vm_compute. reflexivity. Qed.
(** /repo/spdx/v2/v2_2/tagvalue/reader/parse_annotation_test.go 122 *)
Example v22_TestParserFailsIfAnnotatorInvalid : forallb is_false (
  let s1 := (set_ps_st PsCreationInfo (set_ps_doc (Some zero_DocumentOf) zero_pstate)) in
  let r2 := parse_pair V22 s1 (("Annotator"), ("John Doe (jdoe@example.com)")) in
  let s3 := after s1 r2 in
  [(olift Bool.eqb (failed r2) (Some false))]) = true.
Proof. vm_compute. reflexivity. Qed.
(** /repo/spdx/v2/v2_2/tagvalue/reader/parse_annotation_test.go 133 *)
Example v22_TestParserFailsIfAnnotatorTypeInvalid : forallb is_false (
  let s1 := (set_ps_st PsCreationInfo (set_ps_doc (Some zero_DocumentOf) zero_pstate)) in
  let r2 := parse_pair V22 s1 (("Annotator"), ("Human: John Doe (jdoe@example.com)")) in
  let s3 := after s1 r2 in
  [(olift Bool.eqb (failed r2) (Some false))]) = true.
Proof. vm_compute. reflexivity. Qed.
(** /repo/spdx/v2/v2_2/tagvalue/reader/parse_annotation_test.go 144 *)
Example v22_TestParserFailsIfAnnotationRefInvalid : forallb is_false (
  let s1 := (set_ps_st PsCreationInfo (set_ps_doc (Some zero_DocumentOf) zero_pstate)) in
  let r2 := parse_pair V22 s1 (("Annotator"), ("Person: John Doe (jdoe@example.com)")) in
  let s3 := after s1 r2 in
  let r4 := parse_pair V22 s3 (("SPDXREF"), ("blah:other")) in
  let s5 := after s3 r4 in
  [(option_map negb (olift Bool.eqb (failed r2) (Some false)));
   (olift Bool.eqb (failed r4) (Some false))]) = true.
Proof. vm_compute. reflexivity. Qed.
(** /repo/spdx/v2/v2_2/tagvalue/reader/parse_creation_info_test.go 11 *)
Example v22_TestParserCIMovesToPackageAfterParsingPackageNameTag : forallb is_false (
  let s1 := (set_ps_st PsCreationInfo (set_ps_doc (Some zero_DocumentOf) zero_pstate)) in
  let r2 := parse_pair V22 s1 (("PackageName"), ("testPkg")) in
  let s3 := after s1 r2 in
  [(option_map negb (olift Bool.eqb (failed r2) (Some false)));
   (option_map negb (olift pst_eqb (Some (ps_st s3)) (Some PsPackage)));
   (olift ptr_eqb (Some (option_map (fun i => (i, 0)) (ps_pkg s3))) (Some None));
   (option_map negb (olift String.eqb (option_map (fun x => p_PackageName x) (obind (Some (option_map (fun i => (i, 0)) (ps_pkg s3))) (fun p => obind p (fun p => nth_error (ps_pkgs s3) (fst p))))) (Some ("testPkg"))));
   (option_map negb (option_map (fun x => p_FilesAnalyzed x) (obind (Some (option_map (fun i => (i, 0)) (ps_pkg s3))) (fun p => obind p (fun p => nth_error (ps_pkgs s3) (fst p))))));
   (option_map (fun x => p_IsFilesAnalyzedTagPresent x) (obind (Some (option_map (fun i => (i, 0)) (ps_pkg s3))) (fun p => obind p (fun p => nth_error (ps_pkgs s3) (fst p)))));
   (option_map negb (olift Nat.eqb (option_map (@List.length _) (option_map (map (fun i => Some (i, 0))) (option_map (fun x => d_Packages x) (obind (Some (ps_doc s3)) (fun o => o))))) (Some 0)))]) = true.
Proof. vm_compute. reflexivity. Qed.
(** /repo/spdx/v2/v2_2/tagvalue/reader/parse_creation_info_test.go 47 *)
Example v22_TestParserCIMovesToFileAfterParsingFileNameTagWithNoPackages : forallb is_false (
  let s1 := (set_ps_st PsCreationInfo (set_ps_doc (Some zero_DocumentOf) zero_pstate)) in
  let r2 := parse_pair V22 s1 (("FileName"), ("testFile")) in
  let s3 := after s1 r2 in
  [(option_map negb (olift Bool.eqb (failed r2) (Some false)));
   (option_map negb (olift pst_eqb (Some (ps_st s3)) (Some PsFile)));
   (option_map negb (olift ptr_eqb (Some (option_map (fun i => (i, 0)) (ps_pkg s3))) (Some None)))]) = true.
Proof. vm_compute. reflexivity. Qed.
(** /repo/spdx/v2/v2_2/tagvalue/reader/parse_creation_info_test.go 67 *)
Example v22_TestParserCIMovesToOtherLicenseAfterParsingLicenseIDTag : forallb is_false (
  let s1 := (set_ps_st PsCreationInfo (set_ps_doc (Some zero_DocumentOf) zero_pstate)) in
  let r2 := parse_pair V22 s1 (("LicenseID"), ("LicenseRef-TestLic")) in
  let s3 := after s1 r2 in
  [(option_map negb (olift Bool.eqb (failed r2) (Some false)));
   (option_map negb (olift pst_eqb (Some (ps_st s3)) (Some PsOtherLicense)))]) = true.
Proof. vm_compute. reflexivity. Qed.
(** /repo/spdx/v2/v2_2/tagvalue/reader/parse_creation_info_test.go 81 *)
Example v22_TestParserCIMovesToOtherLicenseAfterParsingDocumentTag : forallb is_false (
  let s1 := (set_ps_st PsCreationInfo (set_ps_doc (Some zero_DocumentOf) zero_pstate)) in
  let r2 := parse_creation_info V22 ("DocumentComment") ("doccomment") s1 in
  let s3 := after s1 r2 in
  [(option_map negb (olift Bool.eqb (failed r2) (Some false)))]) = true.
Proof. vm_compute. reflexivity. Qed.
(** /repo/spdx/v2/v2_2/tagvalue/reader/parse_creation_info_test.go 93 *)
Example v22_TestParserCIMovesToReviewAfterParsingReviewerTag : forallb is_false (
  let s1 := (set_ps_st PsCreationInfo (set_ps_doc (Some zero_DocumentOf) zero_pstate)) in
  let r2 := parse_pair V22 s1 (("Reviewer"), ("Person: John Doe")) in
  let s3 := after s1 r2 in
  [(option_map negb (olift Bool.eqb (failed r2) (Some false)));
   (option_map negb (olift pst_eqb (Some (ps_st s3)) (Some PsReview)))]) = true.
Proof. vm_compute. reflexivity. Qed.
(** /repo/spdx/v2/v2_2/tagvalue/reader/parse_creation_info_test.go 107 *)
Example v22_TestParserCIStaysAfterParsingRelationshipTags : forallb is_false (
  let s1 := (set_ps_st PsCreationInfo (set_ps_doc (Some zero_DocumentOf) zero_pstate)) in
  let r2 := parse_pair V22 s1 (("Relationship"), ("SPDXRef-blah CONTAINS SPDXRef-blah-else")) in
  let s3 := after s1 r2 in
  let r4 := parse_pair V22 s3 (("RelationshipComment"), ("blah")) in
  let s5 := after s3 r4 in
  [(option_map negb (olift Bool.eqb (failed r2) (Some false)));
   (option_map negb (olift pst_eqb (Some (ps_st s3)) (Some PsCreationInfo)));
   (option_map negb (olift Bool.eqb (failed r4) (Some false)));
   (option_map negb (olift pst_eqb (Some (ps_st s5)) (Some PsCreationInfo)))]) = true.
Proof. vm_compute. reflexivity. Qed.
(** /repo/spdx/v2/v2_2/tagvalue/reader/parse_creation_info_test.go 130 *)
Example v22_TestParserCIStaysAfterParsingAnnotationTags : forallb is_false (
  let s1 := (set_ps_st PsCreationInfo (set_ps_doc (Some zero_DocumentOf) zero_pstate)) in
  let r2 := parse_pair V22 s1 (("Annotator"), ("Person: John Doe ()")) in
  let s3 := after s1 r2 in
  let r4 := parse_pair V22 s3 (("AnnotationDate"), ("2018-09-15T00:36:00Z")) in
  let s5 := after s3 r4 in
  let r6 := parse_pair V22 s5 (("AnnotationType"), ("REVIEW")) in
  let s7 := after s5 r6 in
  let r8 := parse_pair V22 s7 (("SPDXREF"), ("SPDXRef-45")) in
  let s9 := after s7 r8 in
  let r10 := parse_pair V22 s9 (("AnnotationComment"), ("i guess i had something to say about this spdx file")) in
  let s11 := after s9 r10 in
  [(option_map negb (olift Bool.eqb (failed r2) (Some false)));
   (option_map negb (olift pst_eqb (Some (ps_st s3)) (Some PsCreationInfo)));
   (option_map negb (olift Bool.eqb (failed r4) (Some false)));
   (option_map negb (olift pst_eqb (Some (ps_st s5)) (Some PsCreationInfo)));
   (option_map negb (olift Bool.eqb (failed r6) (Some false)));
   (option_map negb (olift pst_eqb (Some (ps_st s7)) (Some PsCreationInfo)));
   (option_map negb (olift Bool.eqb (failed r8) (Some false)));
   (option_map negb (olift pst_eqb (Some (ps_st s9)) (Some PsCreationInfo)));
   (option_map negb (olift Bool.eqb (failed r10) (Some false)));
   (option_map negb (olift pst_eqb (Some (ps_st s11)) (Some PsCreationInfo)))]) = true.
Proof. vm_compute. reflexivity. Qed.
(** /repo/spdx/v2/v2_2/tagvalue/reader/parse_creation_info_test.go 189 *)
Example v22_TestParserHasCreationInfoAfterCallToParseFirstTag : forallb is_false (
  let s1 := (set_ps_st PsCreationInfo (set_ps_doc (Some zero_DocumentOf) zero_pstate)) in
  let r2 := parse_creation_info V22 ("LicenseListVersion") ("3.9") s1 in
  let s3 := after s1 r2 in
  [(option_map negb (olift Bool.eqb (failed r2) (Some false)));
   (option_map (fun o => match o with None => true | Some _ => false end) (option_map (fun x => d_CreationInfo x) (obind (Some (ps_doc s3)) (fun o => o))))]) = true.
Proof. vm_compute. reflexivity. Qed.
(** /repo/spdx/v2/v2_2/tagvalue/reader/parse_creation_info_test.go 203 *)
Example v22_TestParserCanParseCreationInfoTags : forallb is_false (
  let s1 := (set_ps_st PsCreationInfo (set_ps_doc (Some zero_DocumentOf) zero_pstate)) in
  let r2 := parse_creation_info V22 ("LicenseListVersion") ("2.2") s1 in
  let s3 := after s1 r2 in
  let r4 := parse_creation_info V22 ("Creator") ("Person: Person A") s3 in
  let s5 := after s3 r4 in
  let r6 := parse_creation_info V22 ("Creator") ("Person: Person B") s5 in
  let s7 := after s5 r6 in
  let r8 := parse_creation_info V22 ("Creator") ("Organization: Organization A") s7 in
  let s9 := after s7 r8 in
  let r10 := parse_creation_info V22 ("Creator") ("Organization: Organization B") s9 in
  let s11 := after s9 r10 in
  let r12 := parse_creation_info V22 ("Creator") ("Tool: Tool A") s11 in
  let s13 := after s11 r12 in
  let r14 := parse_creation_info V22 ("Creator") ("Tool: Tool B") s13 in
  let s15 := after s13 r14 in
  let r16 := parse_creation_info V22 ("Created") ("2018-09-10T11:46:00Z") s15 in
  let s17 := after s15 r16 in
  let r18 := parse_creation_info V22 ("CreatorComment") ("Blah whatever") s17 in
  let s19 := after s17 r18 in
  [(option_map negb (olift Bool.eqb (failed r2) (Some false)));
   (option_map negb (olift String.eqb (option_map (fun x => ci_LicenseListVersion x) (obind (option_map (fun x => d_CreationInfo x) (obind (Some (ps_doc s3)) (fun o => o))) (fun o => o))) (Some ("2.2"))));
   (option_map negb (olift Bool.eqb (failed r4) (Some false)));
   (option_map negb (olift Bool.eqb (failed r6) (Some false)));
   (olift orb (olift orb (option_map negb (olift Nat.eqb (option_map (@List.length _) (option_map (fun x => ci_Creators x) (obind (option_map (fun x => d_CreationInfo x) (obind (Some (ps_doc s7)) (fun o => o))) (fun o => o)))) (Some 2))) (option_map negb (olift String.eqb (option_map (fun x => cr_Creator x) (obind (option_map (fun x => ci_Creators x) (obind (option_map (fun x => d_CreationInfo x) (obind (Some (ps_doc s7)) (fun o => o))) (fun o => o))) (fun l => nth_error l 0))) (Some ("Person A"))))) (option_map negb (olift String.eqb (option_map (fun x => cr_Creator x) (obind (option_map (fun x => ci_Creators x) (obind (option_map (fun x => d_CreationInfo x) (obind (Some (ps_doc s7)) (fun o => o))) (fun o => o))) (fun l => nth_error l 1))) (Some ("Person B")))));
   (option_map negb (olift Bool.eqb (failed r8) (Some false)));
   (option_map negb (olift Bool.eqb (failed r10) (Some false)));
   (olift orb (olift orb (option_map negb (olift Nat.eqb (option_map (@List.length _) (option_map (fun x => ci_Creators x) (obind (option_map (fun x => d_CreationInfo x) (obind (Some (ps_doc s11)) (fun o => o))) (fun o => o)))) (Some 4))) (option_map negb (olift String.eqb (option_map (fun x => cr_Creator x) (obind (option_map (fun x => ci_Creators x) (obind (option_map (fun x => d_CreationInfo x) (obind (Some (ps_doc s11)) (fun o => o))) (fun o => o))) (fun l => nth_error l 2))) (Some ("Organization A"))))) (option_map negb (olift String.eqb (option_map (fun x => cr_Creator x) (obind (option_map (fun x => ci_Creators x) (obind (option_map (fun x => d_CreationInfo x) (obind (Some (ps_doc s11)) (fun o => o))) (fun o => o))) (fun l => nth_error l 3))) (Some ("Organization B")))));
   (option_map negb (olift Bool.eqb (failed r12) (Some false)));
   (option_map negb (olift Bool.eqb (failed r14) (Some false)));
   (olift orb (olift orb (option_map negb (olift Nat.eqb (option_map (@List.length _) (option_map (fun x => ci_Creators x) (obind (option_map (fun x => d_CreationInfo x) (obind (Some (ps_doc s15)) (fun o => o))) (fun o => o)))) (Some 6))) (option_map negb (olift String.eqb (option_map (fun x => cr_Creator x) (obind (option_map (fun x => ci_Creators x) (obind (option_map (fun x => d_CreationInfo x) (obind (Some (ps_doc s15)) (fun o => o))) (fun o => o))) (fun l => nth_error l 4))) (Some ("Tool A"))))) (option_map negb (olift String.eqb (option_map (fun x => cr_Creator x) (obind (option_map (fun x => ci_Creators x) (obind (option_map (fun x => d_CreationInfo x) (obind (Some (ps_doc s15)) (fun o => o))) (fun o => o))) (fun l => nth_error l 5))) (Some ("Tool B")))));
   (option_map negb (olift Bool.eqb (failed r16) (Some false)));
   (option_map negb (olift String.eqb (option_map (fun x => ci_Created x) (obind (option_map (fun x => d_CreationInfo x) (obind (Some (ps_doc s17)) (fun o => o))) (fun o => o))) (Some ("2018-09-10T11:46:00Z"))));
   (option_map negb (olift Bool.eqb (failed r18) (Some false)));
   (option_map negb (olift String.eqb (option_map (fun x => ci_CreatorComment x) (obind (option_map (fun x => d_CreationInfo x) (obind (Some (ps_doc s19)) (fun o => o))) (fun o => o))) (Some ("Blah whatever"))))]) = true.
Proof. vm_compute. reflexivity. Qed.
(** /repo/spdx/v2/v2_2/tagvalue/reader/parse_creation_info_test.go 294 *)
Example v22_TestParserInvalidCreatorTagsFail : forallb is_false (
  let s1 := (set_ps_st PsCreationInfo (set_ps_doc (Some zero_DocumentOf) zero_pstate)) in
  let r2 := parse_creation_info V22 ("Creator") ("blah: somebody") s1 in
  let s3 := after s1 r2 in
  let r4 := parse_creation_info V22 ("Creator") ("Tool with no colons") s3 in
  let s5 := after s3 r4 in
  [(olift Bool.eqb (failed r2) (Some false));
   (olift Bool.eqb (failed r4) (Some false))]) = true.
Proof. vm_compute. reflexivity. Qed.
(** /repo/spdx/v2/v2_2/tagvalue/reader/parse_creation_info_test.go 311 *)
Example v22_TestParserCreatorTagWithMultipleColonsPasses : forallb is_false (
  let s1 := (set_ps_st PsCreationInfo (set_ps_doc (Some zero_DocumentOf) zero_pstate)) in
  let r2 := parse_creation_info V22 ("Creator") ("Tool: tool1:2:3") s1 in
  let s3 := after s1 r2 in
  [(option_map negb (olift Bool.eqb (failed r2) (Some false)))]) = true.
Proof. vm_compute. reflexivity. Qed.
(** /repo/spdx/v2/v2_2/tagvalue/reader/parse_creation_info_test.go 323 *)
Example v22_TestParserCIUnknownTagFails : forallb is_false (
  let s1 := (set_ps_st PsCreationInfo (set_ps_doc (Some zero_DocumentOf) zero_pstate)) in
  let r2 := parse_creation_info V22 ("blah") ("something") s1 in
  let s3 := after s1 r2 in
  [(olift Bool.eqb (failed r2) (Some false))]) = true.
Proof. vm_compute. reflexivity. Qed.
(** /repo/spdx/v2/v2_2/tagvalue/reader/parse_creation_info_test.go 335 *)
Example v22_TestParserCICreatesRelationship : forallb is_false (
  let s1 := (set_ps_st PsCreationInfo (set_ps_doc (Some zero_DocumentOf) zero_pstate)) in
  let r2 := parse_pair V22 s1 (("Relationship"), ("SPDXRef-blah CONTAINS SPDXRef-blah-whatever")) in
  let s3 := after s1 r2 in
  [(option_map negb (olift Bool.eqb (failed r2) (Some false)));
   (olift ptr_eqb (Some (option_map (fun i => (i, 0)) (ps_rln s3))) (Some None));
   (option_map negb (olift ptr_eqb (Some (option_map (fun i => (i, 0)) (ps_rln s3))) (obind (option_map (fun l => map (fun i => Some (i, 0)) (seq 0 (List.length l))) (option_map (fun x => d_Relationships x) (obind (Some (ps_doc s3)) (fun o => o)))) (fun l => nth_error l 0))))]) = true.
Proof. vm_compute. reflexivity. Qed.
(** /repo/spdx/v2/v2_2/tagvalue/reader/parse_creation_info_test.go 353 *)
Example v22_TestParserCICreatesAnnotation : forallb is_false (
  let s1 := (set_ps_st PsCreationInfo (set_ps_doc (Some zero_DocumentOf) zero_pstate)) in
  let r2 := parse_pair V22 s1 (("Annotator"), ("Person: John Doe ()")) in
  let s3 := after s1 r2 in
  [(option_map negb (olift Bool.eqb (failed r2) (Some false)));
   (olift ptr_eqb (Some (option_map (fun i => (i, 0)) (ps_ann s3))) (Some None));
   (option_map negb (olift ptr_eqb (Some (option_map (fun i => (i, 0)) (ps_ann s3))) (obind (option_map (fun l => map (fun i => Some (i, 0)) (seq 0 (List.length l))) (option_map (fun x => d_Annotations x) (obind (Some (ps_doc s3)) (fun o => o)))) (fun l => nth_error l 0))))]) = true.
Proof. vm_compute. reflexivity. Qed.
(** /repo/spdx/v2/v2_2/tagvalue/reader/parse_creation_info_test.go 373 *)
Example v22_TestCanExtractExternalDocumentReference : forallb is_false (
  let r1 := extract_external_document_reference ("DocumentRef-spdx-tool-1.2 http://spdx.org/spdxdocs/spdx-tools-v1.2-3F2504E0-4F89-41D3-9A0C-0305E82C3301 SHA1:d6a770ba38583ed4bb4525bd96e50461655d2759") in
  let w2 := match r1 with Ok x => x | _ => zero_ExternalDocumentRef end in
  [(option_map negb (olift Bool.eqb (failed r1) (Some false)));
   (option_map negb (olift String.eqb (Some (edr_DocumentRefID w2)) (Some ("spdx-tool-1.2"))));
   (option_map negb (olift String.eqb (Some (edr_URI w2)) (Some ("http://spdx.org/spdxdocs/spdx-tools-v1.2-3F2504E0-4F89-41D3-9A0C-0305E82C3301"))));
   (option_map negb (olift String.eqb (Some (ck_Algorithm (edr_Checksum w2))) (Some ("SHA1"))));
   (option_map negb (olift String.eqb (Some (ck_Value (edr_Checksum w2))) (Some ("d6a770ba38583ed4bb4525bd96e50461655d2759"))))]) = true.
Proof. vm_compute. reflexivity. Qed.
(** /repo/spdx/v2/v2_2/tagvalue/reader/parse_creation_info_test.go 398 *)
Example v22_TestCanExtractExternalDocumentReferenceWithExtraWhitespace : forallb is_false (
  let r1 := extract_external_document_reference ("   DocumentRef-spdx-tool-1.2    	 http://spdx.org/spdxdocs/spdx-tools-v1.2-3F2504E0-4F89-41D3-9A0C-0305E82C3301 	 SHA1:  	   d6a770ba38583ed4bb4525bd96e50461655d2759") in
  let w2 := match r1 with Ok x => x | _ => zero_ExternalDocumentRef end in
  [(option_map negb (olift Bool.eqb (failed r1) (Some false)));
   (option_map negb (olift String.eqb (Some (edr_DocumentRefID w2)) (Some ("spdx-tool-1.2"))));
   (option_map negb (olift String.eqb (Some (edr_URI w2)) (Some ("http://spdx.org/spdxdocs/spdx-tools-v1.2-3F2504E0-4F89-41D3-9A0C-0305E82C3301"))));
   (option_map negb (olift String.eqb (Some (ck_Algorithm (edr_Checksum w2))) (Some ("SHA1"))));
   (option_map negb (olift String.eqb (Some (ck_Value (edr_Checksum w2))) (Some ("d6a770ba38583ed4bb4525bd96e50461655d2759"))))]) = true.
Proof. vm_compute. reflexivity. Qed.
(** /repo/spdx/v2/v2_2/tagvalue/reader/parse_creation_info_test.go 423 *)
Example v22_TestFailsExternalDocumentReferenceWithInvalidFormats : forallb is_false (
  let r1 := extract_external_document_reference ("whoops") in
  let w2 := match r1 with Ok x => x | _ => zero_ExternalDocumentRef end in
  let r3 := extract_external_document_reference ("DocumentRef-") in
  let w4 := match r3 with Ok x => x | _ => zero_ExternalDocumentRef end in
  let r5 := extract_external_document_reference ("DocumentRef-   ") in
  let w6 := match r5 with Ok x => x | _ => zero_ExternalDocumentRef end in
  let r7 := extract_external_document_reference ("DocumentRef-spdx-tool-1.2 http://spdx.org/spdxdocs/spdx-tools-v1.2-3F2504E0-4F89-41D3-9A0C-0305E82C3301") in
  let w8 := match r7 with Ok x => x | _ => zero_ExternalDocumentRef end in
  let r9 := extract_external_document_reference ("DocumentRef-spdx-tool-1.2 http://spdx.org/spdxdocs/spdx-tools-v1.2-3F2504E0-4F89-41D3-9A0C-0305E82C3301 d6a770ba38583ed4bb4525bd96e50461655d2759") in
  let w10 := match r9 with Ok x => x | _ => zero_ExternalDocumentRef end in
  let r11 := extract_external_document_reference ("DocumentRef-spdx-tool-1.2") in
  let w12 := match r11 with Ok x => x | _ => zero_ExternalDocumentRef end in
  let r13 := extract_external_document_reference ("spdx-tool-1.2 http://spdx.org/spdxdocs/spdx-tools-v1.2-3F2504E0-4F89-41D3-9A0C-0305E82C3301 SHA1:d6a770ba38583ed4bb4525bd96e50461655d2759") in
  let w14 := match r13 with Ok x => x | _ => zero_ExternalDocumentRef end in
  [(olift Bool.eqb (failed r1) (Some false));
   (olift Bool.eqb (failed r3) (Some false));
   (olift Bool.eqb (failed r5) (Some false));
   (olift Bool.eqb (failed r7) (Some false));
   (olift Bool.eqb (failed r9) (Some false));
   (olift Bool.eqb (failed r11) (Some false));
   (olift Bool.eqb (failed r13) (Some false))]) = true.
Proof. vm_compute. reflexivity. Qed.
(** /repo/spdx/v2/v2_2/tagvalue/reader/parse_creation_info_test.go 440 *)
Example v22_TestParserForExternalDocumentRefAfterCreationInfo : forallb is_false (
  let s1 := (set_ps_st PsCreationInfo (set_ps_doc (Some (set_d_ExternalDocumentReferences [] zero_DocumentOf)) zero_pstate)) in
  let r2 := parse_pair V22 s1 (("ExternalDocumentRef"), ("DocumentRef-spdx-tool-1.2 http://spdx.org/spdxdocs/spdx-tools-v1.2-3F2504E0-4F89-41D3-9A0C-0305E82C3301 SHA1:d6a770ba38583ed4bb4525bd96e50461655d2759")) in
  let s3 := after s1 r2 in
  [(option_map negb (olift Bool.eqb (failed r2) (Some false)));
   (option_map negb (olift Nat.eqb (option_map (@List.length _) (option_map (fun x => d_ExternalDocumentReferences x) (obind (Some (ps_doc s3)) (fun o => o)))) (Some 1)));
   (option_map negb (olift String.eqb (option_map (fun x => edr_DocumentRefID x) (obind (option_map (fun x => d_ExternalDocumentReferences x) (obind (Some (ps_doc s3)) (fun o => o))) (fun l => nth_error l 0))) (Some ("spdx-tool-1.2"))));
   (option_map negb (olift String.eqb (option_map (fun x => edr_URI x) (obind (option_map (fun x => d_ExternalDocumentReferences x) (obind (Some (ps_doc s3)) (fun o => o))) (fun l => nth_error l 0))) (Some ("http://spdx.org/spdxdocs/spdx-tools-v1.2-3F2504E0-4F89-41D3-9A0C-0305E82C3301"))));
   (option_map negb (olift String.eqb (option_map (fun x => ck_Algorithm x) (option_map (fun x => edr_Checksum x) (obind (option_map (fun x => d_ExternalDocumentReferences x) (obind (Some (ps_doc s3)) (fun o => o))) (fun l => nth_error l 0)))) (Some ("SHA1"))));
   (option_map negb (olift String.eqb (option_map (fun x => ck_Value x) (option_map (fun x => edr_Checksum x) (obind (option_map (fun x => d_ExternalDocumentReferences x) (obind (Some (ps_doc s3)) (fun o => o))) (fun l => nth_error l 0)))) (Some ("d6a770ba38583ed4bb4525bd96e50461655d2759"))))]) = true.
Proof. vm_compute. reflexivity. Qed.
(** /repo/spdx/v2/v2_2/tagvalue/reader/parse_creation_info_test.go 468 *)
Example v22_TestParserForDocumentComment : forallb is_false (
  let s1 := (set_ps_st PsCreationInfo (set_ps_doc (Some zero_DocumentOf) zero_pstate)) in
  let r2 := parse_pair V22 s1 (("DocumentComment"), ("document comment")) in
  let s3 := after s1 r2 in
  [(option_map negb (olift Bool.eqb (failed r2) (Some false)))]) = true.
Proof. vm_compute. reflexivity. Qed.
(** /repo/spdx/v2/v2_2/tagvalue/reader/parse_file_test.go 13 *)
Example v22_TestParserFileStartsNewFileAfterParsingFileNameTag : forallb is_false (
  let s1 := (set_ps_st PsFile (set_ps_doc (Some (set_d_Packages [] zero_DocumentOf)) (set_ps_files [(set_f_SPDXIdentifier ("f1") (set_f_FileName ("f1.txt") zero_FileOf))] (set_ps_file (Some 0) (set_ps_pkgs [(set_p_Files [] (set_p_SPDXIdentifier ("test") (set_p_PackageName ("test") zero_PackageOf)))] (set_ps_pkg (Some 0) zero_pstate)))))) in
  let s2 := push_doc_packages (Some (option_map (fun i => (i, 0)) (ps_pkg s1))) s1 in
  let s3 := push_pkg_files (Some (option_map (fun i => (i, 0)) (ps_pkg s2))) (Some (option_map (fun i => (i, 0)) (ps_file s1))) s2 in
  let r4 := parse_pair V22 s3 (("FileName"), ("f2.txt")) in
  let s5 := after s3 r4 in
  let r6 := parse_pair V22 s5 (("SPDXID"), ("SPDXRef-f2ID")) in
  let s7 := after s5 r6 in
  [(option_map negb (olift Nat.eqb (option_map (@List.length _) (option_map (map (fun i => Some (i, 0))) (option_map (fun x => p_Files x) (obind (Some (option_map (fun i => (i, 0)) (ps_pkg s3))) (fun p => obind p (fun p => nth_error (ps_pkgs s3) (fst p))))))) (Some 1)));
   (option_map negb (olift ptr_eqb (obind (option_map (map (fun i => Some (i, 0))) (option_map (fun x => p_Files x) (obind (Some (option_map (fun i => (i, 0)) (ps_pkg s3))) (fun p => obind p (fun p => nth_error (ps_pkgs s3) (fst p)))))) (fun l => nth_error l 0)) (Some (option_map (fun i => (i, 0)) (ps_file s1)))));
   (option_map negb (olift String.eqb (option_map (fun x => f_FileName x) (obind (obind (option_map (map (fun i => Some (i, 0))) (option_map (fun x => p_Files x) (obind (Some (option_map (fun i => (i, 0)) (ps_pkg s3))) (fun p => obind p (fun p => nth_error (ps_pkgs s3) (fst p)))))) (fun l => nth_error l 0)) (fun p => obind p (fun p => nth_error (ps_files s3) (fst p))))) (Some ("f1.txt"))));
   (option_map negb (olift Bool.eqb (failed r4) (Some false)));
   (option_map negb (olift pst_eqb (Some (ps_st s5)) (Some PsFile)));
   (olift ptr_eqb (Some (option_map (fun i => (i, 0)) (ps_file s5))) (Some None));
   (option_map negb (olift String.eqb (option_map (fun x => f_FileName x) (obind (Some (option_map (fun i => (i, 0)) (ps_file s5))) (fun p => obind p (fun p => nth_error (ps_files s5) (fst p))))) (Some ("f2.txt"))));
   (option_map negb (olift Nat.eqb (option_map (@List.length _) (option_map (map (fun i => Some (i, 0))) (option_map (fun x => p_Files x) (obind (Some (option_map (fun i => (i, 0)) (ps_pkg s5))) (fun p => obind p (fun p => nth_error (ps_pkgs s5) (fst p))))))) (Some 1)));
   (option_map negb (olift ptr_eqb (obind (option_map (map (fun i => Some (i, 0))) (option_map (fun x => p_Files x) (obind (Some (option_map (fun i => (i, 0)) (ps_pkg s5))) (fun p => obind p (fun p => nth_error (ps_pkgs s5) (fst p)))))) (fun l => nth_error l 0)) (Some (option_map (fun i => (i, 0)) (ps_file s1)))));
   (option_map negb (olift String.eqb (option_map (fun x => f_FileName x) (obind (obind (option_map (map (fun i => Some (i, 0))) (option_map (fun x => p_Files x) (obind (Some (option_map (fun i => (i, 0)) (ps_pkg s5))) (fun p => obind p (fun p => nth_error (ps_pkgs s5) (fst p)))))) (fun l => nth_error l 0)) (fun p => obind p (fun p => nth_error (ps_files s5) (fst p))))) (Some ("f1.txt"))));
   (option_map negb (olift Bool.eqb (failed r6) (Some false)));
   (option_map negb (olift Nat.eqb (option_map (@List.length _) (option_map (map (fun i => Some (i, 0))) (option_map (fun x => p_Files x) (obind (Some (option_map (fun i => (i, 0)) (ps_pkg s7))) (fun p => obind p (fun p => nth_error (ps_pkgs s7) (fst p))))))) (Some 2)));
   (option_map negb (olift ptr_eqb (obind (option_map (map (fun i => Some (i, 0))) (option_map (fun x => p_Files x) (obind (Some (option_map (fun i => (i, 0)) (ps_pkg s7))) (fun p => obind p (fun p => nth_error (ps_pkgs s7) (fst p)))))) (fun l => nth_error l 0)) (Some (option_map (fun i => (i, 0)) (ps_file s1)))));
   (option_map negb (olift String.eqb (option_map (fun x => f_FileName x) (obind (obind (option_map (map (fun i => Some (i, 0))) (option_map (fun x => p_Files x) (obind (Some (option_map (fun i => (i, 0)) (ps_pkg s7))) (fun p => obind p (fun p => nth_error (ps_pkgs s7) (fst p)))))) (fun l => nth_error l 0)) (fun p => obind p (fun p => nth_error (ps_files s7) (fst p))))) (Some ("f1.txt"))));
   (option_map negb (olift ptr_eqb (obind (option_map (map (fun i => Some (i, 0))) (option_map (fun x => p_Files x) (obind (Some (option_map (fun i => (i, 0)) (ps_pkg s7))) (fun p => obind p (fun p => nth_error (ps_pkgs s7) (fst p)))))) (fun l => nth_error l 1)) (Some (option_map (fun i => (i, 0)) (ps_file s7)))));
   (option_map negb (olift String.eqb (option_map (fun x => f_FileName x) (obind (obind (option_map (map (fun i => Some (i, 0))) (option_map (fun x => p_Files x) (obind (Some (option_map (fun i => (i, 0)) (ps_pkg s7))) (fun p => obind p (fun p => nth_error (ps_pkgs s7) (fst p)))))) (fun l => nth_error l 1)) (fun p => obind p (fun p => nth_error (ps_files s7) (fst p))))) (Some ("f2.txt"))))]) = true.
Proof. vm_compute. reflexivity. Qed.
(** /repo/spdx/v2/v2_2/tagvalue/reader/parse_file_test.go 90 *)
Example v22_TestParserFileAddsToPackageOrUnpackagedFiles : forallb is_false (
  let s1 := (set_ps_st PsCreationInfo (set_ps_doc (Some zero_DocumentOf) zero_pstate)) in
  let r2 := parse_pair V22 s1 (("FileName"), ("f2.txt")) in
  let s3 := after s1 r2 in
  let r4 := parse_pair V22 s3 (("SPDXID"), ("SPDXRef-f2ID")) in
  let s5 := after s3 r4 in
  let r6 := parse_pair V22 s5 (("PackageName"), ("package1")) in
  let s7 := after s5 r6 in
  let r8 := parse_pair V22 s7 (("SPDXID"), ("SPDXRef-pkg1")) in
  let s9 := after s7 r8 in
  let r10 := parse_pair V22 s9 (("FileName"), ("f3.txt")) in
  let s11 := after s9 r10 in
  let r12 := parse_pair V22 s11 (("SPDXID"), ("SPDXRef-f3ID")) in
  let s13 := after s11 r12 in
  [(option_map negb (olift Bool.eqb (failed r2) (Some false)));
   (option_map negb (olift Bool.eqb (failed r4) (Some false)));
   (option_map negb (olift Nat.eqb (option_map (@List.length _) (option_map (map (fun i => Some (i, 0))) (option_map (fun x => d_Files x) (obind (Some (ps_doc s5)) (fun o => o))))) (Some 1)));
   (option_map negb (olift ptr_eqb (obind (option_map (map (fun i => Some (i, 0))) (option_map (fun x => d_Files x) (obind (Some (ps_doc s5)) (fun o => o)))) (fun l => nth_error l 0)) (Some (option_map (fun i => (i, 0)) (ps_file s5)))));
   (option_map negb (olift Bool.eqb (failed r6) (Some false)));
   (option_map negb (olift Bool.eqb (failed r8) (Some false)));
   (option_map negb (olift Bool.eqb (failed r10) (Some false)));
   (option_map negb (olift Bool.eqb (failed r12) (Some false)));
   (option_map negb (olift Nat.eqb (option_map (@List.length _) (option_map (map (fun i => Some (i, 0))) (option_map (fun x => d_Files x) (obind (Some (ps_doc s13)) (fun o => o))))) (Some 1)));
   (option_map negb (olift ptr_eqb (obind (option_map (map (fun i => Some (i, 0))) (option_map (fun x => d_Files x) (obind (Some (ps_doc s13)) (fun o => o)))) (fun l => nth_error l 0)) (Some (option_map (fun i => (i, 0)) (ps_file s5)))));
   (option_map negb (olift Nat.eqb (option_map (@List.length _) (option_map (map (fun i => Some (i, 0))) (option_map (fun x => p_Files x) (obind (Some (option_map (fun i => (i, 0)) (ps_pkg s13))) (fun p => obind p (fun p => nth_error (ps_pkgs s13) (fst p))))))) (Some 1)));
   (option_map negb (olift ptr_eqb (obind (option_map (map (fun i => Some (i, 0))) (option_map (fun x => p_Files x) (obind (Some (option_map (fun i => (i, 0)) (ps_pkg s13))) (fun p => obind p (fun p => nth_error (ps_pkgs s13) (fst p)))))) (fun l => nth_error l 0)) (Some (option_map (fun i => (i, 0)) (ps_file s13)))))]) = true.
Proof. vm_compute. reflexivity. Qed.
(** /repo/spdx/v2/v2_2/tagvalue/reader/parse_file_test.go 148 *)
Example v22_TestParserFileStartsNewPackageAfterParsingPackageNameTag : forallb is_false (
  let s1 := (set_ps_st PsFile (set_ps_doc (Some (set_d_Packages [] zero_DocumentOf)) (set_ps_files [(set_f_SPDXIdentifier ("f1") (set_f_FileName ("f1.txt") zero_FileOf))] (set_ps_file (Some 0) (set_ps_pkgs [(set_p_Files [] (set_p_SPDXIdentifier ("package1") (set_p_PackageName ("package1") zero_PackageOf)))] (set_ps_pkg (Some 0) zero_pstate)))))) in
  let s2 := push_doc_packages (Some (option_map (fun i => (i, 0)) (ps_pkg s1))) s1 in
  let s3 := push_pkg_files (Some (option_map (fun i => (i, 0)) (ps_pkg s2))) (Some (option_map (fun i => (i, 0)) (ps_file s1))) s2 in
  let r4 := parse_pair V22 s3 (("PackageName"), ("package2")) in
  let s5 := after s3 r4 in
  [(option_map negb (olift Bool.eqb (failed r4) (Some false)));
   (option_map negb (olift pst_eqb (Some (ps_st s5)) (Some PsPackage)));
   (olift ptr_eqb (Some (option_map (fun i => (i, 0)) (ps_pkg s5))) (Some None));
   (option_map negb (olift String.eqb (option_map (fun x => p_PackageName x) (obind (Some (option_map (fun i => (i, 0)) (ps_pkg s5))) (fun p => obind p (fun p => nth_error (ps_pkgs s5) (fst p))))) (Some ("package2"))));
   (option_map negb (option_map (fun x => p_FilesAnalyzed x) (obind (Some (option_map (fun i => (i, 0)) (ps_pkg s5))) (fun p => obind p (fun p => nth_error (ps_pkgs s5) (fst p))))));
   (option_map (fun x => p_IsFilesAnalyzedTagPresent x) (obind (Some (option_map (fun i => (i, 0)) (ps_pkg s5))) (fun p => obind p (fun p => nth_error (ps_pkgs s5) (fst p)))));
   (option_map negb (olift Nat.eqb (option_map (@List.length _) (option_map (map (fun i => Some (i, 0))) (option_map (fun x => p_Files x) (obind (Some (option_map (fun i => (i, 0)) (ps_pkg s5))) (fun p => obind p (fun p => nth_error (ps_pkgs s5) (fst p))))))) (Some 0)));
   (option_map negb (olift Nat.eqb (option_map (@List.length _) (option_map (map (fun i => Some (i, 0))) (option_map (fun x => d_Packages x) (obind (Some (ps_doc s5)) (fun o => o))))) (Some 1)));
   (option_map negb (olift ptr_eqb (obind (option_map (map (fun i => Some (i, 0))) (option_map (fun x => d_Packages x) (obind (Some (ps_doc s5)) (fun o => o)))) (fun l => nth_error l 0)) (Some (option_map (fun i => (i, 0)) (ps_pkg s1)))));
   (option_map negb (olift String.eqb (option_map (fun x => p_PackageName x) (obind (obind (option_map (map (fun i => Some (i, 0))) (option_map (fun x => d_Packages x) (obind (Some (ps_doc s5)) (fun o => o)))) (fun l => nth_error l 0)) (fun p => obind p (fun p => nth_error (ps_pkgs s5) (fst p))))) (Some ("package1"))));
   (option_map negb (olift Nat.eqb (option_map (@List.length _) (option_map (map (fun i => Some (i, 0))) (option_map (fun x => p_Files x) (obind (obind (option_map (map (fun i => Some (i, 0))) (option_map (fun x => d_Packages x) (obind (Some (ps_doc s5)) (fun o => o)))) (fun l => nth_error l 0)) (fun p => obind p (fun p => nth_error (ps_pkgs s5) (fst p))))))) (Some 1)));
   (option_map negb (olift ptr_eqb (obind (option_map (map (fun i => Some (i, 0))) (option_map (fun x => p_Files x) (obind (obind (option_map (map (fun i => Some (i, 0))) (option_map (fun x => d_Packages x) (obind (Some (ps_doc s5)) (fun o => o)))) (fun l => nth_error l 0)) (fun p => obind p (fun p => nth_error (ps_pkgs s5) (fst p)))))) (fun l => nth_error l 0)) (Some (option_map (fun i => (i, 0)) (ps_file s1)))));
   (option_map negb (olift String.eqb (option_map (fun x => f_FileName x) (obind (obind (option_map (map (fun i => Some (i, 0))) (option_map (fun x => p_Files x) (obind (obind (option_map (map (fun i => Some (i, 0))) (option_map (fun x => d_Packages x) (obind (Some (ps_doc s5)) (fun o => o)))) (fun l => nth_error l 0)) (fun p => obind p (fun p => nth_error (ps_pkgs s5) (fst p)))))) (fun l => nth_error l 0)) (fun p => obind p (fun p => nth_error (ps_files s5) (fst p))))) (Some ("f1.txt"))));
   (option_map negb (olift ptr_eqb (Some (option_map (fun i => (i, 0)) (ps_file s5))) (Some None)))]) = true.
Proof. vm_compute. reflexivity. Qed.
(** /repo/spdx/v2/v2_2/tagvalue/reader/parse_file_test.go 220 *)
Example v22_TestParserFileMovesToSnippetAfterParsingSnippetSPDXIDTag : forallb is_false (
  let s1 := (set_ps_st PsFile (set_ps_doc (Some (set_d_Packages [] zero_DocumentOf)) (set_ps_files [(set_f_SPDXIdentifier ("f1") (set_f_FileName ("f1.txt") zero_FileOf))] (set_ps_file (Some 0) (set_ps_pkgs [(set_p_Files [] (set_p_SPDXIdentifier ("test") (set_p_PackageName ("test") zero_PackageOf)))] (set_ps_pkg (Some 0) zero_pstate)))))) in
  let s2 := push_doc_packages (Some (option_map (fun i => (i, 0)) (ps_pkg s1))) s1 in
  let s3 := push_pkg_files (Some (option_map (fun i => (i, 0)) (ps_pkg s2))) (Some (option_map (fun i => (i, 0)) (ps_file s2))) s2 in
  let r4 := parse_pair V22 s3 (("SnippetSPDXID"), ("SPDXRef-Test1")) in
  let s5 := after s3 r4 in
  [(option_map negb (olift Bool.eqb (failed r4) (Some false)));
   (option_map negb (olift pst_eqb (Some (ps_st s5)) (Some PsSnippet)));
   (option_map negb (olift ptr_eqb (Some (option_map (fun i => (i, 0)) (ps_file s5))) (Some (option_map (fun i => (i, 0)) (ps_file s3)))))]) = true.
Proof. vm_compute. reflexivity. Qed.
(** /repo/spdx/v2/v2_2/tagvalue/reader/parse_file_test.go 245 *)
Example v22_TestParserFileMovesToOtherLicenseAfterParsingLicenseIDTag : forallb is_false (
  let s1 := (set_ps_st PsFile (set_ps_doc (Some (set_d_Packages [] zero_DocumentOf)) (set_ps_files [(set_f_SPDXIdentifier ("f1") (set_f_FileName ("f1.txt") zero_FileOf))] (set_ps_file (Some 0) (set_ps_pkgs [(set_p_Files [] (set_p_SPDXIdentifier ("test") (set_p_PackageName ("test") zero_PackageOf)))] (set_ps_pkg (Some 0) zero_pstate)))))) in
  let s2 := push_doc_packages (Some (option_map (fun i => (i, 0)) (ps_pkg s1))) s1 in
  let s3 := push_pkg_files (Some (option_map (fun i => (i, 0)) (ps_pkg s2))) (Some (option_map (fun i => (i, 0)) (ps_file s2))) s2 in
  let r4 := parse_pair V22 s3 (("LicenseID"), ("LicenseRef-TestLic")) in
  let s5 := after s3 r4 in
  [(option_map negb (olift Bool.eqb (failed r4) (Some false)));
   (option_map negb (olift pst_eqb (Some (ps_st s5)) (Some PsOtherLicense)))]) = true.
Proof. vm_compute. reflexivity. Qed.
(** /repo/spdx/v2/v2_2/tagvalue/reader/parse_file_test.go 264 *)
Example v22_TestParserFileMovesToReviewAfterParsingReviewerTag : forallb is_false (
  let s1 := (set_ps_st PsFile (set_ps_doc (Some (set_d_Packages [] zero_DocumentOf)) (set_ps_files [(set_f_SPDXIdentifier ("f1") (set_f_FileName ("f1.txt") zero_FileOf))] (set_ps_file (Some 0) (set_ps_pkgs [(set_p_Files [] (set_p_SPDXIdentifier ("test") (set_p_PackageName ("test") zero_PackageOf)))] (set_ps_pkg (Some 0) zero_pstate)))))) in
  let s2 := push_doc_packages (Some (option_map (fun i => (i, 0)) (ps_pkg s1))) s1 in
  let s3 := push_pkg_files (Some (option_map (fun i => (i, 0)) (ps_pkg s2))) (Some (option_map (fun i => (i, 0)) (ps_file s2))) s2 in
  let r4 := parse_pair V22 s3 (("Reviewer"), ("Person: John Doe")) in
  let s5 := after s3 r4 in
  [(option_map negb (olift Bool.eqb (failed r4) (Some false)));
   (option_map negb (olift pst_eqb (Some (ps_st s5)) (Some PsReview)))]) = true.
Proof. vm_compute. reflexivity. Qed.
(** /repo/spdx/v2/v2_2/tagvalue/reader/parse_file_test.go 283 *)
Example v22_TestParserFileStaysAfterParsingRelationshipTags : forallb is_false (
  let s1 := (set_ps_st PsFile (set_ps_doc (Some (set_d_Packages [] zero_DocumentOf)) (set_ps_files [(set_f_SPDXIdentifier ("f1") (set_f_FileName ("f1.txt") zero_FileOf))] (set_ps_file (Some 0) (set_ps_pkgs [(set_p_Files [] (set_p_SPDXIdentifier ("test") (set_p_PackageName ("test") zero_PackageOf)))] (set_ps_pkg (Some 0) zero_pstate)))))) in
  let s2 := push_doc_packages (Some (option_map (fun i => (i, 0)) (ps_pkg s1))) s1 in
  let s3 := push_pkg_files (Some (option_map (fun i => (i, 0)) (ps_pkg s2))) (Some (option_map (fun i => (i, 0)) (ps_file s2))) s2 in
  let r4 := parse_pair V22 s3 (("Relationship"), ("SPDXRef-blah CONTAINS SPDXRef-blah-else")) in
  let s5 := after s3 r4 in
  let r6 := parse_pair V22 s5 (("RelationshipComment"), ("blah")) in
  let s7 := after s5 r6 in
  [(option_map negb (olift Bool.eqb (failed r4) (Some false)));
   (option_map negb (olift pst_eqb (Some (ps_st s5)) (Some PsFile)));
   (option_map negb (olift Bool.eqb (failed r6) (Some false)));
   (option_map negb (olift pst_eqb (Some (ps_st s7)) (Some PsFile)))]) = true.
Proof. vm_compute. reflexivity. Qed.
(** /repo/spdx/v2/v2_2/tagvalue/reader/parse_file_test.go 312 *)
Example v22_TestParserFileStaysAfterParsingAnnotationTags : forallb is_false (
  let s1 := (set_ps_st PsFile (set_ps_doc (Some (set_d_Packages [] zero_DocumentOf)) (set_ps_files [(set_f_SPDXIdentifier ("f1") (set_f_FileName ("f1.txt") zero_FileOf))] (set_ps_file (Some 0) (set_ps_pkgs [(set_p_Files [] (set_p_SPDXIdentifier ("test") (set_p_PackageName ("test") zero_PackageOf)))] (set_ps_pkg (Some 0) zero_pstate)))))) in
  let s2 := push_doc_packages (Some (option_map (fun i => (i, 0)) (ps_pkg s1))) s1 in
  let s3 := push_pkg_files (Some (option_map (fun i => (i, 0)) (ps_pkg s2))) (Some (option_map (fun i => (i, 0)) (ps_file s2))) s2 in
  let r4 := parse_pair V22 s3 (("Annotator"), ("Person: John Doe ()")) in
  let s5 := after s3 r4 in
  let r6 := parse_pair V22 s5 (("AnnotationDate"), ("2018-09-15T00:36:00Z")) in
  let s7 := after s5 r6 in
  let r8 := parse_pair V22 s7 (("AnnotationType"), ("REVIEW")) in
  let s9 := after s7 r8 in
  let r10 := parse_pair V22 s9 (("SPDXREF"), ("SPDXRef-45")) in
  let s11 := after s9 r10 in
  let r12 := parse_pair V22 s11 (("AnnotationComment"), ("i guess i had something to say about this particular file")) in
  let s13 := after s11 r12 in
  [(option_map negb (olift Bool.eqb (failed r4) (Some false)));
   (option_map negb (olift pst_eqb (Some (ps_st s5)) (Some PsFile)));
   (option_map negb (olift Bool.eqb (failed r6) (Some false)));
   (option_map negb (olift pst_eqb (Some (ps_st s7)) (Some PsFile)));
   (option_map negb (olift Bool.eqb (failed r8) (Some false)));
   (option_map negb (olift pst_eqb (Some (ps_st s9)) (Some PsFile)));
   (option_map negb (olift Bool.eqb (failed r10) (Some false)));
   (option_map negb (olift pst_eqb (Some (ps_st s11)) (Some PsFile)));
   (option_map negb (olift Bool.eqb (failed r12) (Some false)));
   (option_map negb (olift pst_eqb (Some (ps_st s13)) (Some PsFile)))]) = true.
Proof. vm_compute. reflexivity. Qed.
(** /repo/spdx/v2/v2_2/tagvalue/reader/parse_file_test.go 364 *)
Example v22_TestParserCanParseFileTags : forallb is_false (
  let s1 := (set_ps_st PsFile (set_ps_doc (Some (set_d_Packages [] zero_DocumentOf)) (set_ps_pkgs [(set_p_Files [] (set_p_SPDXIdentifier ("test") (set_p_PackageName ("test") zero_PackageOf)))] (set_ps_pkg (Some 0) zero_pstate)))) in
  let s2 := push_doc_packages (Some (option_map (fun i => (i, 0)) (ps_pkg s1))) s1 in
  let r3 := parse_file V22 ("FileName") ("f1.txt") s2 in
  let s4 := after s2 r3 in
  let r5 := parse_file V22 ("SPDXID") ("SPDXRef-f1") s4 in
  let s6 := after s4 r5 in
  let r7 := parse_file V22 ("FileType") ("TEXT") s6 in
  let s8 := after s6 r7 in
  let r9 := parse_file V22 ("FileType") ("DOCUMENTATION") s8 in
  let s10 := after s8 r9 in
  let r11 := parse_file V22 ("FileChecksum") ("MD5: 624c1abb3664f4b35547e7c73864ad24") s10 in
  let s12 := after s10 r11 in
  let r13 := parse_file V22 ("FileChecksum") ("SHA1: 85ed0817af83a24ad8da68c2b5094de69833983c") s12 in
  let s14 := after s12 r13 in
  let r15 := parse_file V22 ("FileChecksum") ("SHA256: 11b6d3ee554eedf79299905a98f9b9a04e498210b59f15094c916c91d150efcd") s14 in
  let s16 := after s14 r15 in
  let r17 := parse_file V22 ("FileChecksum") ("SHA512: 4ced3267f5ed38df65ceebc43e97aa6c2948cc7ef3288c2e5074e7df7fab544cc93339604513ea5f65616f9ed1c48581465043c8a9b693ef20fd4fddaf25e1b9") s16 in
  let s18 := after s16 r17 in
  let r19 := parse_file V22 ("LicenseConcluded") ("Apache-2.0 OR GPL-2.0-or-later") s18 in
  let s20 := after s18 r19 in
  let r21 := parse_file V22 ("LicenseInfoInFile") ("Apache-2.0") s20 in
  let s22 := after s20 r21 in
  let r23 := parse_file V22 ("LicenseInfoInFile") ("GPL-2.0-or-later") s22 in
  let s24 := after s22 r23 in
  let r25 := parse_file V22 ("LicenseInfoInFile") ("CC0-1.0") s24 in
  let s26 := after s24 r25 in
  let r27 := parse_file V22 ("LicenseComments") ("this is a comment") s26 in
  let s28 := after s26 r27 in
  let r29 := parse_file V22 ("FileCopyrightText") ("copyright (c) me") s28 in
  let s30 := after s28 r29 in
  let r31 := parse_file V22 ("ArtifactOfProjectName") ("project1") s30 in
  let s32 := after s30 r31 in
  let r33 := parse_file V22 ("ArtifactOfProjectHomePage") ("http://example.com/1/") s32 in
  let s34 := after s32 r33 in
  let r35 := parse_file V22 ("ArtifactOfProjectURI") ("http://example.com/1/uri.whatever") s34 in
  let s36 := after s34 r35 in
  let r37 := parse_file V22 ("ArtifactOfProjectName") ("project2") s36 in
  let s38 := after s36 r37 in
  let r39 := parse_file V22 ("ArtifactOfProjectName") ("project3") s38 in
  let s40 := after s38 r39 in
  let r41 := parse_file V22 ("ArtifactOfProjectHomePage") ("http://example.com/3/") s40 in
  let s42 := after s40 r41 in
  let r43 := parse_file V22 ("ArtifactOfProjectName") ("project4") s42 in
  let s44 := after s42 r43 in
  let r45 := parse_file V22 ("ArtifactOfProjectURI") ("http://example.com/4/uri.whatever") s44 in
  let s46 := after s44 r45 in
  let r47 := parse_file V22 ("FileComment") ("this is a comment") s46 in
  let s48 := after s46 r47 in
  let r49 := parse_file V22 ("FileNotice") ("this is a Notice") s48 in
  let s50 := after s48 r49 in
  let r51 := parse_file V22 ("FileContributor") ("John Doe jdoe@example.com") s50 in
  let s52 := after s50 r51 in
  let r53 := parse_file V22 ("FileContributor") ("EvilCorp") s52 in
  let s54 := after s52 r53 in
  let r55 := parse_file V22 ("FileDependency") ("f-1.txt") s54 in
  let s56 := after s54 r55 in
  let r57 := parse_file V22 ("FileDependency") ("g.txt") s56 in
  let s58 := after s56 r57 in
  let r59 := parse_file V22 ("FileAttributionText") ("Include this notice in all advertising materials") s58 in
  let s60 := after s58 r59 in
  let r61 := parse_file V22 ("FileAttributionText") ("This is a 
multi-line string") s60 in
  let s62 := after s60 r61 in
  [(option_map negb (olift Bool.eqb (failed r3) (Some false)));
   (option_map negb (olift String.eqb (option_map (fun x => f_FileName x) (obind (Some (option_map (fun i => (i, 0)) (ps_file s4))) (fun p => obind p (fun p => nth_error (ps_files s4) (fst p))))) (Some ("f1.txt"))));
   (option_map negb (olift Nat.eqb (option_map (@List.length _) (option_map (map (fun i => Some (i, 0))) (option_map (fun x => p_Files x) (obind (Some (option_map (fun i => (i, 0)) (ps_pkg s4))) (fun p => obind p (fun p => nth_error (ps_pkgs s4) (fst p))))))) (Some 0)));
   (option_map negb (olift Bool.eqb (failed r5) (Some false)));
   (option_map negb (olift String.eqb (option_map (fun x => f_SPDXIdentifier x) (obind (Some (option_map (fun i => (i, 0)) (ps_file s6))) (fun p => obind p (fun p => nth_error (ps_files s6) (fst p))))) (Some ("f1"))));
   (option_map negb (olift Nat.eqb (option_map (@List.length _) (option_map (map (fun i => Some (i, 0))) (option_map (fun x => p_Files x) (obind (Some (option_map (fun i => (i, 0)) (ps_pkg s6))) (fun p => obind p (fun p => nth_error (ps_pkgs s6) (fst p))))))) (Some 1)));
   (option_map negb (olift ptr_eqb (obind (option_map (map (fun i => Some (i, 0))) (option_map (fun x => p_Files x) (obind (Some (option_map (fun i => (i, 0)) (ps_pkg s6))) (fun p => obind p (fun p => nth_error (ps_pkgs s6) (fst p)))))) (fun l => nth_error l 0)) (Some (option_map (fun i => (i, 0)) (ps_file s6)))));
   (option_map negb (olift Bool.eqb (failed r7) (Some false)));
   (option_map negb (olift Bool.eqb (failed r9) (Some false)));
   (option_map negb (option_map (mem ("TEXT")) (option_map (fun x => f_FileTypes x) (obind (Some (option_map (fun i => (i, 0)) (ps_file s10))) (fun p => obind p (fun p => nth_error (ps_files s10) (fst p)))))));
   (option_map negb (option_map (mem ("DOCUMENTATION")) (option_map (fun x => f_FileTypes x) (obind (Some (option_map (fun i => (i, 0)) (ps_file s10))) (fun p => obind p (fun p => nth_error (ps_files s10) (fst p)))))));
   (option_map negb (olift Nat.eqb (option_map (@List.length _) (option_map (fun x => f_FileTypes x) (obind (Some (option_map (fun i => (i, 0)) (ps_file s10))) (fun p => obind p (fun p => nth_error (ps_files s10) (fst p)))))) (Some 2)));
   (option_map negb (olift Bool.eqb (failed r11) (Some false)));
   (option_map negb (olift Bool.eqb (failed r13) (Some false)));
   (option_map negb (olift Bool.eqb (failed r15) (Some false)));
   (option_map negb (olift Bool.eqb (failed r17) (Some false)));
   (obind (option_map (fun x => f_Checksums x) (obind (Some (option_map (fun i => (i, 0)) (ps_file s18))) (fun p => obind p (fun p => nth_error (ps_files s18) (fst p))))) (oexists (fun it => (option_map negb (olift String.eqb (option_map (fun x => ck_Value x) (Some it)) (obind (option_map (fun x => ck_Algorithm x) (Some it)) (fun k => lookup k [("MD5", "624c1abb3664f4b35547e7c73864ad24"); ("SHA1", "85ed0817af83a24ad8da68c2b5094de69833983c"); ("SHA256", "11b6d3ee554eedf79299905a98f9b9a04e498210b59f15094c916c91d150efcd"); ("SHA512", "4ced3267f5ed38df65ceebc43e97aa6c2948cc7ef3288c2e5074e7df7fab544cc93339604513ea5f65616f9ed1c48581465043c8a9b693ef20fd4fddaf25e1b9")])))))));
   (option_map negb (olift Bool.eqb (failed r19) (Some false)));
   (option_map negb (olift String.eqb (option_map (fun x => f_LicenseConcluded x) (obind (Some (option_map (fun i => (i, 0)) (ps_file s20))) (fun p => obind p (fun p => nth_error (ps_files s20) (fst p))))) (Some ("Apache-2.0 OR GPL-2.0-or-later"))));
   (option_map negb (olift Bool.eqb (failed r21) (Some false)));
   (option_map negb (olift Bool.eqb (failed r23) (Some false)));
   (option_map negb (olift Bool.eqb (failed r25) (Some false)));
   (option_map negb (option_map (mem ("Apache-2.0")) (option_map (fun x => f_LicenseInfoInFiles x) (obind (Some (option_map (fun i => (i, 0)) (ps_file s26))) (fun p => obind p (fun p => nth_error (ps_files s26) (fst p)))))));
   (option_map negb (option_map (mem ("GPL-2.0-or-later")) (option_map (fun x => f_LicenseInfoInFiles x) (obind (Some (option_map (fun i => (i, 0)) (ps_file s26))) (fun p => obind p (fun p => nth_error (ps_files s26) (fst p)))))));
   (option_map negb (option_map (mem ("CC0-1.0")) (option_map (fun x => f_LicenseInfoInFiles x) (obind (Some (option_map (fun i => (i, 0)) (ps_file s26))) (fun p => obind p (fun p => nth_error (ps_files s26) (fst p)))))));
   (option_map negb (olift Nat.eqb (option_map (@List.length _) (option_map (fun x => f_LicenseInfoInFiles x) (obind (Some (option_map (fun i => (i, 0)) (ps_file s26))) (fun p => obind p (fun p => nth_error (ps_files s26) (fst p)))))) (Some 3)));
   (option_map negb (olift Bool.eqb (failed r27) (Some false)));
   (option_map negb (olift String.eqb (option_map (fun x => f_LicenseComments x) (obind (Some (option_map (fun i => (i, 0)) (ps_file s28))) (fun p => obind p (fun p => nth_error (ps_files s28) (fst p))))) (Some ("this is a comment"))));
   (option_map negb (olift Bool.eqb (failed r29) (Some false)));
   (option_map negb (olift String.eqb (option_map (fun x => f_CopyrightText x) (obind (Some (option_map (fun i => (i, 0)) (ps_file s30))) (fun p => obind p (fun p => nth_error (ps_files s30) (fst p))))) (Some ("copyright (c) me"))));
   (option_map negb (olift Bool.eqb (failed r31) (Some false)));
   (option_map negb (olift Bool.eqb (failed r33) (Some false)));
   (option_map negb (olift Bool.eqb (failed r35) (Some false)));
   (option_map negb (olift Bool.eqb (failed r37) (Some false)));
   (option_map negb (olift Bool.eqb (failed r39) (Some false)));
   (option_map negb (olift Bool.eqb (failed r41) (Some false)));
   (option_map negb (olift Bool.eqb (failed r43) (Some false)));
   (option_map negb (olift Bool.eqb (failed r45) (Some false)));
   (option_map negb (olift Nat.eqb (option_map (@List.length _) (obind (Some (option_map (fun i => (i, 0)) (ps_file s46))) (fun p => obind p (fun p => option_map (fun l => map (fun j => Some (fst p, j)) (seq 0 (List.length l))) (option_map (fun x => f_Artifacts x) (obind (Some (option_map (fun i => (i, 0)) (ps_file s46))) (fun p => obind p (fun p => nth_error (ps_files s46) (fst p))))))))) (Some 4)));
   (option_map negb (olift String.eqb (option_map (fun x => ar_Name x) (obind (obind (obind (Some (option_map (fun i => (i, 0)) (ps_file s46))) (fun p => obind p (fun p => option_map (fun l => map (fun j => Some (fst p, j)) (seq 0 (List.length l))) (option_map (fun x => f_Artifacts x) (obind (Some (option_map (fun i => (i, 0)) (ps_file s46))) (fun p => obind p (fun p => nth_error (ps_files s46) (fst p)))))))) (fun l => nth_error l 0)) (fun p => obind p (fun p => obind (nth_error (ps_files s46) (fst p)) (fun w => nth_error (f_Artifacts w) (snd p)))))) (Some ("project1"))));
   (option_map negb (olift String.eqb (option_map (fun x => ar_HomePage x) (obind (obind (obind (Some (option_map (fun i => (i, 0)) (ps_file s46))) (fun p => obind p (fun p => option_map (fun l => map (fun j => Some (fst p, j)) (seq 0 (List.length l))) (option_map (fun x => f_Artifacts x) (obind (Some (option_map (fun i => (i, 0)) (ps_file s46))) (fun p => obind p (fun p => nth_error (ps_files s46) (fst p)))))))) (fun l => nth_error l 0)) (fun p => obind p (fun p => obind (nth_error (ps_files s46) (fst p)) (fun w => nth_error (f_Artifacts w) (snd p)))))) (Some ("http://example.com/1/"))));
   (option_map negb (olift String.eqb (option_map (fun x => ar_URI x) (obind (obind (obind (Some (option_map (fun i => (i, 0)) (ps_file s46))) (fun p => obind p (fun p => option_map (fun l => map (fun j => Some (fst p, j)) (seq 0 (List.length l))) (option_map (fun x => f_Artifacts x) (obind (Some (option_map (fun i => (i, 0)) (ps_file s46))) (fun p => obind p (fun p => nth_error (ps_files s46) (fst p)))))))) (fun l => nth_error l 0)) (fun p => obind p (fun p => obind (nth_error (ps_files s46) (fst p)) (fun w => nth_error (f_Artifacts w) (snd p)))))) (Some ("http://example.com/1/uri.whatever"))));
   (option_map negb (olift String.eqb (option_map (fun x => ar_Name x) (obind (obind (obind (Some (option_map (fun i => (i, 0)) (ps_file s46))) (fun p => obind p (fun p => option_map (fun l => map (fun j => Some (fst p, j)) (seq 0 (List.length l))) (option_map (fun x => f_Artifacts x) (obind (Some (option_map (fun i => (i, 0)) (ps_file s46))) (fun p => obind p (fun p => nth_error (ps_files s46) (fst p)))))))) (fun l => nth_error l 1)) (fun p => obind p (fun p => obind (nth_error (ps_files s46) (fst p)) (fun w => nth_error (f_Artifacts w) (snd p)))))) (Some ("project2"))));
   (option_map negb (olift String.eqb (option_map (fun x => ar_HomePage x) (obind (obind (obind (Some (option_map (fun i => (i, 0)) (ps_file s46))) (fun p => obind p (fun p => option_map (fun l => map (fun j => Some (fst p, j)) (seq 0 (List.length l))) (option_map (fun x => f_Artifacts x) (obind (Some (option_map (fun i => (i, 0)) (ps_file s46))) (fun p => obind p (fun p => nth_error (ps_files s46) (fst p)))))))) (fun l => nth_error l 1)) (fun p => obind p (fun p => obind (nth_error (ps_files s46) (fst p)) (fun w => nth_error (f_Artifacts w) (snd p)))))) (Some (""))));
   (option_map negb (olift String.eqb (option_map (fun x => ar_URI x) (obind (obind (obind (Some (option_map (fun i => (i, 0)) (ps_file s46))) (fun p => obind p (fun p => option_map (fun l => map (fun j => Some (fst p, j)) (seq 0 (List.length l))) (option_map (fun x => f_Artifacts x) (obind (Some (option_map (fun i => (i, 0)) (ps_file s46))) (fun p => obind p (fun p => nth_error (ps_files s46) (fst p)))))))) (fun l => nth_error l 1)) (fun p => obind p (fun p => obind (nth_error (ps_files s46) (fst p)) (fun w => nth_error (f_Artifacts w) (snd p)))))) (Some (""))));
   (option_map negb (olift String.eqb (option_map (fun x => ar_Name x) (obind (obind (obind (Some (option_map (fun i => (i, 0)) (ps_file s46))) (fun p => obind p (fun p => option_map (fun l => map (fun j => Some (fst p, j)) (seq 0 (List.length l))) (option_map (fun x => f_Artifacts x) (obind (Some (option_map (fun i => (i, 0)) (ps_file s46))) (fun p => obind p (fun p => nth_error (ps_files s46) (fst p)))))))) (fun l => nth_error l 2)) (fun p => obind p (fun p => obind (nth_error (ps_files s46) (fst p)) (fun w => nth_error (f_Artifacts w) (snd p)))))) (Some ("project3"))));
   (option_map negb (olift String.eqb (option_map (fun x => ar_HomePage x) (obind (obind (obind (Some (option_map (fun i => (i, 0)) (ps_file s46))) (fun p => obind p (fun p => option_map (fun l => map (fun j => Some (fst p, j)) (seq 0 (List.length l))) (option_map (fun x => f_Artifacts x) (obind (Some (option_map (fun i => (i, 0)) (ps_file s46))) (fun p => obind p (fun p => nth_error (ps_files s46) (fst p)))))))) (fun l => nth_error l 2)) (fun p => obind p (fun p => obind (nth_error (ps_files s46) (fst p)) (fun w => nth_error (f_Artifacts w) (snd p)))))) (Some ("http://example.com/3/"))));
   (option_map negb (olift String.eqb (option_map (fun x => ar_URI x) (obind (obind (obind (Some (option_map (fun i => (i, 0)) (ps_file s46))) (fun p => obind p (fun p => option_map (fun l => map (fun j => Some (fst p, j)) (seq 0 (List.length l))) (option_map (fun x => f_Artifacts x) (obind (Some (option_map (fun i => (i, 0)) (ps_file s46))) (fun p => obind p (fun p => nth_error (ps_files s46) (fst p)))))))) (fun l => nth_error l 2)) (fun p => obind p (fun p => obind (nth_error (ps_files s46) (fst p)) (fun w => nth_error (f_Artifacts w) (snd p)))))) (Some (""))));
   (option_map negb (olift String.eqb (option_map (fun x => ar_Name x) (obind (obind (obind (Some (option_map (fun i => (i, 0)) (ps_file s46))) (fun p => obind p (fun p => option_map (fun l => map (fun j => Some (fst p, j)) (seq 0 (List.length l))) (option_map (fun x => f_Artifacts x) (obind (Some (option_map (fun i => (i, 0)) (ps_file s46))) (fun p => obind p (fun p => nth_error (ps_files s46) (fst p)))))))) (fun l => nth_error l 3)) (fun p => obind p (fun p => obind (nth_error (ps_files s46) (fst p)) (fun w => nth_error (f_Artifacts w) (snd p)))))) (Some ("project4"))));
   (option_map negb (olift String.eqb (option_map (fun x => ar_HomePage x) (obind (obind (obind (Some (option_map (fun i => (i, 0)) (ps_file s46))) (fun p => obind p (fun p => option_map (fun l => map (fun j => Some (fst p, j)) (seq 0 (List.length l))) (option_map (fun x => f_Artifacts x) (obind (Some (option_map (fun i => (i, 0)) (ps_file s46))) (fun p => obind p (fun p => nth_error (ps_files s46) (fst p)))))))) (fun l => nth_error l 3)) (fun p => obind p (fun p => obind (nth_error (ps_files s46) (fst p)) (fun w => nth_error (f_Artifacts w) (snd p)))))) (Some (""))));
   (option_map negb (olift String.eqb (option_map (fun x => ar_URI x) (obind (obind (obind (Some (option_map (fun i => (i, 0)) (ps_file s46))) (fun p => obind p (fun p => option_map (fun l => map (fun j => Some (fst p, j)) (seq 0 (List.length l))) (option_map (fun x => f_Artifacts x) (obind (Some (option_map (fun i => (i, 0)) (ps_file s46))) (fun p => obind p (fun p => nth_error (ps_files s46) (fst p)))))))) (fun l => nth_error l 3)) (fun p => obind p (fun p => obind (nth_error (ps_files s46) (fst p)) (fun w => nth_error (f_Artifacts w) (snd p)))))) (Some ("http://example.com/4/uri.whatever"))));
   (option_map negb (olift Bool.eqb (failed r47) (Some false)));
   (option_map negb (olift String.eqb (option_map (fun x => f_Comment x) (obind (Some (option_map (fun i => (i, 0)) (ps_file s48))) (fun p => obind p (fun p => nth_error (ps_files s48) (fst p))))) (Some ("this is a comment"))));
   (option_map negb (olift Bool.eqb (failed r49) (Some false)));
   (option_map negb (olift String.eqb (option_map (fun x => f_Notice x) (obind (Some (option_map (fun i => (i, 0)) (ps_file s50))) (fun p => obind p (fun p => nth_error (ps_files s50) (fst p))))) (Some ("this is a Notice"))));
   (option_map negb (olift Bool.eqb (failed r51) (Some false)));
   (option_map negb (olift Bool.eqb (failed r53) (Some false)));
   (option_map negb (option_map (mem ("John Doe jdoe@example.com")) (option_map (fun x => f_Contributors x) (obind (Some (option_map (fun i => (i, 0)) (ps_file s54))) (fun p => obind p (fun p => nth_error (ps_files s54) (fst p)))))));
   (option_map negb (option_map (mem ("EvilCorp")) (option_map (fun x => f_Contributors x) (obind (Some (option_map (fun i => (i, 0)) (ps_file s54))) (fun p => obind p (fun p => nth_error (ps_files s54) (fst p)))))));
   (option_map negb (olift Nat.eqb (option_map (@List.length _) (option_map (fun x => f_Contributors x) (obind (Some (option_map (fun i => (i, 0)) (ps_file s54))) (fun p => obind p (fun p => nth_error (ps_files s54) (fst p)))))) (Some 2)));
   (option_map negb (olift Bool.eqb (failed r55) (Some false)));
   (option_map negb (olift Bool.eqb (failed r57) (Some false)));
   (option_map negb (option_map (mem ("f-1.txt")) (option_map (fun x => f_Dependencies x) (obind (Some (option_map (fun i => (i, 0)) (ps_file s58))) (fun p => obind p (fun p => nth_error (ps_files s58) (fst p)))))));
   (option_map negb (option_map (mem ("g.txt")) (option_map (fun x => f_Dependencies x) (obind (Some (option_map (fun i => (i, 0)) (ps_file s58))) (fun p => obind p (fun p => nth_error (ps_files s58) (fst p)))))));
   (option_map negb (olift Nat.eqb (option_map (@List.length _) (option_map (fun x => f_Dependencies x) (obind (Some (option_map (fun i => (i, 0)) (ps_file s58))) (fun p => obind p (fun p => nth_error (ps_files s58) (fst p)))))) (Some 2)));
   (option_map negb (olift Bool.eqb (failed r59) (Some false)));
   (option_map negb (olift Bool.eqb (failed r61) (Some false)));
   (option_map negb (option_map (mem ("Include this notice in all advertising materials")) (option_map (fun x => f_AttributionTexts x) (obind (Some (option_map (fun i => (i, 0)) (ps_file s62))) (fun p => obind p (fun p => nth_error (ps_files s62) (fst p)))))));
   (option_map negb (option_map (mem ("This is a 
multi-line string")) (option_map (fun x => f_AttributionTexts x) (obind (Some (option_map (fun i => (i, 0)) (ps_file s62))) (fun p => obind p (fun p => nth_error (ps_files s62) (fst p)))))));
   (option_map negb (olift Nat.eqb (option_map (@List.length _) (option_map (fun x => f_AttributionTexts x) (obind (Some (option_map (fun i => (i, 0)) (ps_file s62))) (fun p => obind p (fun p => nth_error (ps_files s62) (fst p)))))) (Some 2)))]) = true.
Proof. vm_compute. reflexivity. Qed.
(** /repo/spdx/v2/v2_2/tagvalue/reader/parse_file_test.go 694 *)
Example v22_TestParserFileCreatesRelationshipInDocument : forallb is_false (
  let s1 := (set_ps_st PsFile (set_ps_doc (Some (set_d_Packages [] zero_DocumentOf)) (set_ps_files [(set_f_SPDXIdentifier ("f1") (set_f_FileName ("f1.txt") zero_FileOf))] (set_ps_file (Some 0) (set_ps_pkgs [(set_p_Files [] (set_p_SPDXIdentifier ("test") (set_p_PackageName ("test") zero_PackageOf)))] (set_ps_pkg (Some 0) zero_pstate)))))) in
  let s2 := push_doc_packages (Some (option_map (fun i => (i, 0)) (ps_pkg s1))) s1 in
  let s3 := push_pkg_files (Some (option_map (fun i => (i, 0)) (ps_pkg s2))) (Some (option_map (fun i => (i, 0)) (ps_file s2))) s2 in
  let r4 := parse_pair V22 s3 (("Relationship"), ("SPDXRef-blah CONTAINS SPDXRef-blah-whatever")) in
  let s5 := after s3 r4 in
  [(option_map negb (olift Bool.eqb (failed r4) (Some false)));
   (olift ptr_eqb (Some (option_map (fun i => (i, 0)) (ps_rln s5))) (Some None));
   (option_map negb (olift ptr_eqb (Some (option_map (fun i => (i, 0)) (ps_rln s5))) (obind (option_map (fun l => map (fun i => Some (i, 0)) (seq 0 (List.length l))) (option_map (fun x => d_Relationships x) (obind (Some (ps_doc s5)) (fun o => o)))) (fun l => nth_error l 0))))]) = true.
Proof. vm_compute. reflexivity. Qed.
(** /repo/spdx/v2/v2_2/tagvalue/reader/parse_file_test.go 716 *)
Example v22_TestParserFileCreatesAnnotationInDocument : forallb is_false (
  let s1 := (set_ps_st PsFile (set_ps_doc (Some (set_d_Packages [] zero_DocumentOf)) (set_ps_files [(set_f_SPDXIdentifier ("f1") (set_f_FileName ("f1.txt") zero_FileOf))] (set_ps_file (Some 0) (set_ps_pkgs [(set_p_Files [] (set_p_SPDXIdentifier ("test") (set_p_PackageName ("test") zero_PackageOf)))] (set_ps_pkg (Some 0) zero_pstate)))))) in
  let s2 := push_doc_packages (Some (option_map (fun i => (i, 0)) (ps_pkg s1))) s1 in
  let s3 := push_pkg_files (Some (option_map (fun i => (i, 0)) (ps_pkg s2))) (Some (option_map (fun i => (i, 0)) (ps_file s2))) s2 in
  let r4 := parse_pair V22 s3 (("Annotator"), ("Person: John Doe ()")) in
  let s5 := after s3 r4 in
  [(option_map negb (olift Bool.eqb (failed r4) (Some false)));
   (olift ptr_eqb (Some (option_map (fun i => (i, 0)) (ps_ann s5))) (Some None));
   (option_map negb (olift ptr_eqb (Some (option_map (fun i => (i, 0)) (ps_ann s5))) (obind (option_map (fun l => map (fun i => Some (i, 0)) (seq 0 (List.length l))) (option_map (fun x => d_Annotations x) (obind (Some (ps_doc s5)) (fun o => o)))) (fun l => nth_error l 0))))]) = true.
Proof. vm_compute. reflexivity. Qed.
(** /repo/spdx/v2/v2_2/tagvalue/reader/parse_file_test.go 738 *)
Example v22_TestParserFileUnknownTagFails : forallb is_false (
  let s1 := (set_ps_st PsFile (set_ps_doc (Some (set_d_Packages [] zero_DocumentOf)) (set_ps_files [(set_f_SPDXIdentifier ("f1") (set_f_FileName ("f1.txt") zero_FileOf))] (set_ps_file (Some 0) (set_ps_pkgs [(set_p_Files [] (set_p_SPDXIdentifier ("test") (set_p_PackageName ("test") zero_PackageOf)))] (set_ps_pkg (Some 0) zero_pstate)))))) in
  let s2 := push_doc_packages (Some (option_map (fun i => (i, 0)) (ps_pkg s1))) s1 in
  let s3 := push_pkg_files (Some (option_map (fun i => (i, 0)) (ps_pkg s2))) (Some (option_map (fun i => (i, 0)) (ps_file s2))) s2 in
  let r4 := parse_file V22 ("blah") ("something") s3 in
  let s5 := after s3 r4 in
  [(olift Bool.eqb (failed r4) (Some false))]) = true.
Proof. vm_compute. reflexivity. Qed.
(** /repo/spdx/v2/v2_2/tagvalue/reader/parse_file_test.go 754 *)
Example v22_TestFileAOPPointerChangesAfterTags : forallb is_false (
  let s1 := (set_ps_st PsFile (set_ps_doc (Some (set_d_Packages [] zero_DocumentOf)) (set_ps_files [(set_f_SPDXIdentifier ("f1") (set_f_FileName ("f1.txt") zero_FileOf))] (set_ps_file (Some 0) (set_ps_pkgs [(set_p_Files [] (set_p_SPDXIdentifier ("test") (set_p_PackageName ("test") zero_PackageOf)))] (set_ps_pkg (Some 0) zero_pstate)))))) in
  let s2 := push_doc_packages (Some (option_map (fun i => (i, 0)) (ps_pkg s1))) s1 in
  let s3 := push_pkg_files (Some (option_map (fun i => (i, 0)) (ps_pkg s2))) (Some (option_map (fun i => (i, 0)) (ps_file s2))) s2 in
  let r4 := parse_file V22 ("ArtifactOfProjectName") ("project1") s3 in
  let s5 := after s3 r4 in
  let r6 := parse_file V22 ("ArtifactOfProjectHomePage") ("http://example.com/1/") s5 in
  let s7 := after s5 r6 in
  let r8 := parse_file V22 ("ArtifactOfProjectURI") ("http://example.com/1/uri.whatever") s7 in
  let s9 := after s7 r8 in
  let r10 := parse_file V22 ("ArtifactOfProjectName") ("project2") s9 in
  let s11 := after s9 r10 in
  let r12 := parse_file V22 ("FileComment") ("whatever") s11 in
  let s13 := after s11 r12 in
  [(option_map negb (olift Bool.eqb (failed r4) (Some false)));
   (olift ptr_eqb (Some (ps_aop s5)) (Some None));
   (option_map negb (olift Bool.eqb (failed r6) (Some false)));
   (option_map negb (olift ptr_eqb (Some (ps_aop s7)) (Some (ps_aop s5))));
   (option_map negb (olift Bool.eqb (failed r8) (Some false)));
   (option_map negb (olift ptr_eqb (Some (ps_aop s9)) (Some (ps_aop s5))));
   (option_map negb (olift Bool.eqb (failed r10) (Some false)));
   (olift ptr_eqb (Some (ps_aop s11)) (Some (ps_aop s5)));
   (option_map negb (olift Bool.eqb (failed r12) (Some false)));
   (option_map negb (olift ptr_eqb (Some (ps_aop s13)) (Some None)))]) = true.
Proof. vm_compute. reflexivity. Qed.
(** /repo/spdx/v2/v2_2/tagvalue/reader/parse_file_test.go 811 *)
Example v22_TestParserFailsIfInvalidSPDXIDInFileSection : forallb is_false (
  let s1 := (set_ps_st PsFile (set_ps_doc (Some (set_d_Packages [] zero_DocumentOf)) (set_ps_pkgs [(set_p_Files [] (set_p_SPDXIdentifier ("test") (set_p_PackageName ("test") zero_PackageOf)))] (set_ps_pkg (Some 0) zero_pstate)))) in
  let s2 := push_doc_packages (Some (option_map (fun i => (i, 0)) (ps_pkg s1))) s1 in
  let r3 := parse_file V22 ("FileName") ("f1.txt") s2 in
  let s4 := after s2 r3 in
  let r5 := parse_file V22 ("SPDXID") ("whoops") s4 in
  let s6 := after s4 r5 in
  [(option_map negb (olift Bool.eqb (failed r3) (Some false)));
   (olift Bool.eqb (failed r5) (Some false))]) = true.
Proof. vm_compute. reflexivity. Qed.
(** /repo/spdx/v2/v2_2/tagvalue/reader/parse_file_test.go 831 *)
Example v22_TestParserFailsIfInvalidChecksumFormatInFileSection : forallb is_false (
  let s1 := (set_ps_st PsFile (set_ps_doc (Some (set_d_Packages [] zero_DocumentOf)) (set_ps_pkgs [(set_p_Files [] (set_p_SPDXIdentifier ("test") (set_p_PackageName ("test") zero_PackageOf)))] (set_ps_pkg (Some 0) zero_pstate)))) in
  let s2 := push_doc_packages (Some (option_map (fun i => (i, 0)) (ps_pkg s1))) s1 in
  let r3 := parse_file V22 ("FileName") ("f1.txt") s2 in
  let s4 := after s2 r3 in
  let r5 := parse_file V22 ("FileChecksum") ("SHA1 85ed0817af83a24ad8da68c2b5094de69833983c") s4 in
  let s6 := after s4 r5 in
  [(option_map negb (olift Bool.eqb (failed r3) (Some false)));
   (olift Bool.eqb (failed r5) (Some false))]) = true.
Proof. vm_compute. reflexivity. Qed.
(** /repo/spdx/v2/v2_2/tagvalue/reader/parse_file_test.go 851 *)
Example v22_TestParserFailsIfUnknownChecksumTypeInFileSection : forallb is_false (
  let s1 := (set_ps_st PsFile (set_ps_doc (Some (set_d_Packages [] zero_DocumentOf)) (set_ps_pkgs [(set_p_Files [] (set_p_SPDXIdentifier ("test") (set_p_PackageName ("test") zero_PackageOf)))] (set_ps_pkg (Some 0) zero_pstate)))) in
  let s2 := push_doc_packages (Some (option_map (fun i => (i, 0)) (ps_pkg s1))) s1 in
  let r3 := parse_file V22 ("FileName") ("f1.txt") s2 in
  let s4 := after s2 r3 in
  let r5 := parse_file V22 ("FileChecksum") ("Special: 85ed0817af83a24ad8da68c2b5094de69833983c") s4 in
  let s6 := after s4 r5 in
  [(option_map negb (olift Bool.eqb (failed r3) (Some false)));
   (olift Bool.eqb (failed r5) (Some false))]) = true.
Proof. vm_compute. reflexivity. Qed.
(** /repo/spdx/v2/v2_2/tagvalue/reader/parse_file_test.go 871 *)
Example v22_TestParserFailsIfArtifactHomePageBeforeArtifactName : forallb is_false (
  let s1 := (set_ps_st PsFile (set_ps_doc (Some (set_d_Packages [] zero_DocumentOf)) (set_ps_pkgs [(set_p_Files [] (set_p_SPDXIdentifier ("test") (set_p_PackageName ("test") zero_PackageOf)))] (set_ps_pkg (Some 0) zero_pstate)))) in
  let s2 := push_doc_packages (Some (option_map (fun i => (i, 0)) (ps_pkg s1))) s1 in
  let r3 := parse_file V22 ("FileName") ("f1.txt") s2 in
  let s4 := after s2 r3 in
  let r5 := parse_file V22 ("ArtifactOfProjectHomePage") ("https://example.com") s4 in
  let s6 := after s4 r5 in
  [(option_map negb (olift Bool.eqb (failed r3) (Some false)));
   (olift Bool.eqb (failed r5) (Some false))]) = true.
Proof. vm_compute. reflexivity. Qed.
(** /repo/spdx/v2/v2_2/tagvalue/reader/parse_file_test.go 891 *)
Example v22_TestParserFailsIfArtifactURIBeforeArtifactName : forallb is_false (
  let s1 := (set_ps_st PsFile (set_ps_doc (Some (set_d_Packages [] zero_DocumentOf)) (set_ps_pkgs [(set_p_Files [] (set_p_SPDXIdentifier ("test") (set_p_PackageName ("test") zero_PackageOf)))] (set_ps_pkg (Some 0) zero_pstate)))) in
  let s2 := push_doc_packages (Some (option_map (fun i => (i, 0)) (ps_pkg s1))) s1 in
  let r3 := parse_file V22 ("FileName") ("f1.txt") s2 in
  let s4 := after s2 r3 in
  let r5 := parse_file V22 ("ArtifactOfProjectURI") ("https://example.com") s4 in
  let s6 := after s4 r5 in
  [(option_map negb (olift Bool.eqb (failed r3) (Some false)));
   (olift Bool.eqb (failed r5) (Some false))]) = true.
Proof. vm_compute. reflexivity. Qed.
(** /repo/spdx/v2/v2_2/tagvalue/reader/parse_file_test.go 911 *)
Example v22_TestParserFilesWithoutSpdxIdThrowError : forallb is_false (
  let s1 := (set_ps_st PsFile (set_ps_doc (Some (set_d_Packages [] zero_DocumentOf)) (set_ps_files [(set_f_FileName ("FileName") zero_FileOf)] (set_ps_file (Some 0) zero_pstate)))) in
  let r2 := parse_pair V22 s1 (("FileName"), ("f2")) in
  let s3 := after s1 r2 in
  let s4 := (set_ps_st PsCreationInfo (set_ps_doc (Some zero_DocumentOf) (set_ps_files [(set_f_FileName ("f2.txt") zero_FileOf)] (set_ps_file (Some 0) zero_pstate)))) in
  let r5 := parse_pair V22 s4 (("SnippetSPDXID"), ("s1")) in
  let s6 := after s4 r5 in
  let s7 := (set_ps_st PsCreationInfo (set_ps_doc (Some zero_DocumentOf) zero_pstate)) in
  let r8 := parse_pair V22 s7 (("FileName"), ("f3.txt")) in
  let s9 := after s7 r8 in
  let r10 := parse_pair V22 s9 (("PackageName"), ("p2")) in
  let s11 := after s9 r10 in
  [(olift Bool.eqb (failed r2) (Some false));
   (olift Bool.eqb (failed r5) (Some false));
   (option_map negb (olift Bool.eqb (failed r8) (Some false)));
   (olift Bool.eqb (failed r10) (Some false))]) = true.
Proof. vm_compute. reflexivity. Qed.
(** /repo/spdx/v2/v2_2/tagvalue/reader/parse_other_license_test.go 11 *)
Example v22_TestParserOLStartsNewOtherLicenseAfterParsingLicenseIDTag : forallb is_false (
  let s1 := (set_ps_st PsOtherLicense (set_ps_doc (Some (set_d_OtherLicenses [(set_ol_LicenseName ("License 11") (set_ol_LicenseIdentifier ("LicenseRef-Lic11") zero_OtherLicense))] (set_d_Packages [] zero_DocumentOf))) (set_ps_lic (Some 0) (set_ps_files [(set_f_SPDXIdentifier ("f1") (set_f_FileName ("f1.txt") zero_FileOf))] (set_ps_file (Some 0) (set_ps_pkgs [(set_p_Files [] (set_p_SPDXIdentifier ("test") (set_p_PackageName ("test") zero_PackageOf)))] (set_ps_pkg (Some 0) zero_pstate))))))) in
  let s2 := push_doc_packages (Some (option_map (fun i => (i, 0)) (ps_pkg s1))) s1 in
  let s3 := push_pkg_files (Some (option_map (fun i => (i, 0)) (ps_pkg s2))) (Some (option_map (fun i => (i, 0)) (ps_file s2))) s2 in
  let r4 := parse_pair V22 s3 (("LicenseID"), ("LicenseRef-22")) in
  let s5 := after s3 r4 in
  let r6 := parse_pair V22 s5 (("LicenseName"), ("License 22")) in
  let s7 := after s5 r6 in
  [(option_map negb (olift ptr_eqb (obind (option_map (fun l => map (fun i => Some (i, 0)) (seq 0 (List.length l))) (option_map (fun x => d_OtherLicenses x) (obind (Some (ps_doc s3)) (fun o => o)))) (fun l => nth_error l 0)) (Some (option_map (fun i => (i, 0)) (ps_lic s1)))));
   (option_map negb (olift String.eqb (option_map (fun x => ol_LicenseName x) (obind (obind (option_map (fun l => map (fun i => Some (i, 0)) (seq 0 (List.length l))) (option_map (fun x => d_OtherLicenses x) (obind (Some (ps_doc s3)) (fun o => o)))) (fun l => nth_error l 0)) (fun p => obind p (fun p => obind (ps_doc s3) (fun d => nth_error (d_OtherLicenses d) (fst p)))))) (Some ("License 11"))));
   (option_map negb (olift Bool.eqb (failed r4) (Some false)));
   (option_map negb (olift pst_eqb (Some (ps_st s5)) (Some PsOtherLicense)));
   (olift ptr_eqb (Some (option_map (fun i => (i, 0)) (ps_lic s5))) (Some None));
   (option_map negb (olift Bool.eqb (failed r6) (Some false)));
   (option_map negb (olift pst_eqb (Some (ps_st s7)) (Some PsOtherLicense)));
   (option_map negb (olift String.eqb (option_map (fun x => ol_LicenseName x) (obind (Some (option_map (fun i => (i, 0)) (ps_lic s7))) (fun p => obind p (fun p => obind (ps_doc s7) (fun d => nth_error (d_OtherLicenses d) (fst p)))))) (Some ("License 22"))));
   (option_map negb (olift Nat.eqb (option_map (@List.length _) (option_map (fun l => map (fun i => Some (i, 0)) (seq 0 (List.length l))) (option_map (fun x => d_OtherLicenses x) (obind (Some (ps_doc s7)) (fun o => o))))) (Some 2)));
   (option_map negb (olift ptr_eqb (obind (option_map (fun l => map (fun i => Some (i, 0)) (seq 0 (List.length l))) (option_map (fun x => d_OtherLicenses x) (obind (Some (ps_doc s7)) (fun o => o)))) (fun l => nth_error l 0)) (Some (option_map (fun i => (i, 0)) (ps_lic s1)))));
   (option_map negb (olift String.eqb (option_map (fun x => ol_LicenseIdentifier x) (obind (obind (option_map (fun l => map (fun i => Some (i, 0)) (seq 0 (List.length l))) (option_map (fun x => d_OtherLicenses x) (obind (Some (ps_doc s7)) (fun o => o)))) (fun l => nth_error l 0)) (fun p => obind p (fun p => obind (ps_doc s7) (fun d => nth_error (d_OtherLicenses d) (fst p)))))) (Some ("LicenseRef-Lic11"))));
   (option_map negb (olift String.eqb (option_map (fun x => ol_LicenseName x) (obind (obind (option_map (fun l => map (fun i => Some (i, 0)) (seq 0 (List.length l))) (option_map (fun x => d_OtherLicenses x) (obind (Some (ps_doc s7)) (fun o => o)))) (fun l => nth_error l 0)) (fun p => obind p (fun p => obind (ps_doc s7) (fun d => nth_error (d_OtherLicenses d) (fst p)))))) (Some ("License 11"))));
   (option_map negb (olift ptr_eqb (obind (option_map (fun l => map (fun i => Some (i, 0)) (seq 0 (List.length l))) (option_map (fun x => d_OtherLicenses x) (obind (Some (ps_doc s7)) (fun o => o)))) (fun l => nth_error l 1)) (Some (option_map (fun i => (i, 0)) (ps_lic s7)))));
   (option_map negb (olift String.eqb (option_map (fun x => ol_LicenseIdentifier x) (obind (obind (option_map (fun l => map (fun i => Some (i, 0)) (seq 0 (List.length l))) (option_map (fun x => d_OtherLicenses x) (obind (Some (ps_doc s7)) (fun o => o)))) (fun l => nth_error l 1)) (fun p => obind p (fun p => obind (ps_doc s7) (fun d => nth_error (d_OtherLicenses d) (fst p)))))) (Some ("LicenseRef-22"))));
   (option_map negb (olift String.eqb (option_map (fun x => ol_LicenseName x) (obind (obind (option_map (fun l => map (fun i => Some (i, 0)) (seq 0 (List.length l))) (option_map (fun x => d_OtherLicenses x) (obind (Some (ps_doc s7)) (fun o => o)))) (fun l => nth_error l 1)) (fun p => obind p (fun p => obind (ps_doc s7) (fun d => nth_error (d_OtherLicenses d) (fst p)))))) (Some ("License 22"))))]) = true.
Proof. vm_compute. reflexivity. Qed.
(** /repo/spdx/v2/v2_2/tagvalue/reader/parse_other_license_test.go 91 *)
Example v22_TestParserOLMovesToReviewAfterParsingReviewerTag : forallb is_false (
  let s1 := (set_ps_st PsOtherLicense (set_ps_doc (Some (set_d_Packages [] zero_DocumentOf)) (set_ps_files [(set_f_SPDXIdentifier ("f1") (set_f_FileName ("f1.txt") zero_FileOf))] (set_ps_file (Some 0) (set_ps_pkgs [(set_p_Files [] (set_p_SPDXIdentifier ("test") (set_p_PackageName ("test") zero_PackageOf)))] (set_ps_pkg (Some 0) zero_pstate)))))) in
  let s2 := push_doc_packages (Some (option_map (fun i => (i, 0)) (ps_pkg s1))) s1 in
  let s3 := push_pkg_files (Some (option_map (fun i => (i, 0)) (ps_pkg s2))) (Some (option_map (fun i => (i, 0)) (ps_file s2))) s2 in
  let r4 := parse_pair V22 s3 (("Reviewer"), ("Person: John Doe")) in
  let s5 := after s3 r4 in
  [(option_map negb (olift Bool.eqb (failed r4) (Some false)));
   (option_map negb (olift pst_eqb (Some (ps_st s5)) (Some PsReview)))]) = true.
Proof. vm_compute. reflexivity. Qed.
(** /repo/spdx/v2/v2_2/tagvalue/reader/parse_other_license_test.go 111 *)
Example v22_TestParserOtherLicenseStaysAfterParsingRelationshipTags : forallb is_false (
  let s1 := (set_ps_st PsOtherLicense (set_ps_doc (Some (set_d_OtherLicenses [(set_ol_LicenseName ("the whatever license") (set_ol_LicenseIdentifier ("LicenseRef-whatever") zero_OtherLicense))] (set_d_Packages [] zero_DocumentOf))) (set_ps_lic (Some 0) (set_ps_files [(set_f_SPDXIdentifier ("f1") (set_f_FileName ("f1.txt") zero_FileOf))] (set_ps_file (Some 0) (set_ps_pkgs [(set_p_Files [] (set_p_SPDXIdentifier ("test") (set_p_PackageName ("test") zero_PackageOf)))] (set_ps_pkg (Some 0) zero_pstate))))))) in
  let s2 := push_doc_packages (Some (option_map (fun i => (i, 0)) (ps_pkg s1))) s1 in
  let s3 := push_pkg_files (Some (option_map (fun i => (i, 0)) (ps_pkg s2))) (Some (option_map (fun i => (i, 0)) (ps_file s2))) s2 in
  let r4 := parse_pair V22 s3 (("Relationship"), ("SPDXRef-blah CONTAINS SPDXRef-blah-else")) in
  let s5 := after s3 r4 in
  let r6 := parse_pair V22 s5 (("RelationshipComment"), ("blah")) in
  let s7 := after s5 r6 in
  [(option_map negb (olift Bool.eqb (failed r4) (Some false)));
   (option_map negb (olift pst_eqb (Some (ps_st s5)) (Some PsOtherLicense)));
   (option_map negb (olift Nat.eqb (option_map (@List.length _) (option_map (fun l => map (fun i => Some (i, 0)) (seq 0 (List.length l))) (option_map (fun x => d_Relationships x) (obind (Some (ps_doc s5)) (fun o => o))))) (Some 1)));
   (olift orb (option_map negb (olift String.eqb (option_map (fun x => de_DocumentRefID x) (option_map (fun x => r_RefA x) (obind (obind (option_map (fun l => map (fun i => Some (i, 0)) (seq 0 (List.length l))) (option_map (fun x => d_Relationships x) (obind (Some (ps_doc s5)) (fun o => o)))) (fun l => nth_error l 0)) (fun p => obind p (fun p => obind (ps_doc s5) (fun d => nth_error (d_Relationships d) (fst p))))))) (Some ("")))) (option_map negb (olift String.eqb (option_map (fun x => de_ElementRefID x) (option_map (fun x => r_RefA x) (obind (obind (option_map (fun l => map (fun i => Some (i, 0)) (seq 0 (List.length l))) (option_map (fun x => d_Relationships x) (obind (Some (ps_doc s5)) (fun o => o)))) (fun l => nth_error l 0)) (fun p => obind p (fun p => obind (ps_doc s5) (fun d => nth_error (d_Relationships d) (fst p))))))) (Some ("blah")))));
   (option_map negb (olift Bool.eqb (failed r6) (Some false)));
   (option_map negb (olift pst_eqb (Some (ps_st s7)) (Some PsOtherLicense)))]) = true.
Proof. vm_compute. reflexivity. Qed.
(** /repo/spdx/v2/v2_2/tagvalue/reader/parse_other_license_test.go 153 *)
Example v22_TestParserOtherLicenseStaysAfterParsingAnnotationTags : forallb is_false (
  let s1 := (set_ps_st PsOtherLicense (set_ps_doc (Some (set_d_OtherLicenses [(set_ol_LicenseName ("the whatever license") (set_ol_LicenseIdentifier ("LicenseRef-whatever") zero_OtherLicense))] (set_d_Packages [] zero_DocumentOf))) (set_ps_lic (Some 0) (set_ps_files [(set_f_SPDXIdentifier ("f1") (set_f_FileName ("f1.txt") zero_FileOf))] (set_ps_file (Some 0) (set_ps_pkgs [(set_p_Files [] (set_p_SPDXIdentifier ("test") (set_p_PackageName ("test") zero_PackageOf)))] (set_ps_pkg (Some 0) zero_pstate))))))) in
  let s2 := push_doc_packages (Some (option_map (fun i => (i, 0)) (ps_pkg s1))) s1 in
  let s3 := push_pkg_files (Some (option_map (fun i => (i, 0)) (ps_pkg s2))) (Some (option_map (fun i => (i, 0)) (ps_file s2))) s2 in
  let r4 := parse_pair V22 s3 (("Annotator"), ("Person: John Doe ()")) in
  let s5 := after s3 r4 in
  let r6 := parse_pair V22 s5 (("AnnotationDate"), ("2018-09-15T00:36:00Z")) in
  let s7 := after s5 r6 in
  let r8 := parse_pair V22 s7 (("AnnotationType"), ("REVIEW")) in
  let s9 := after s7 r8 in
  let r10 := parse_pair V22 s9 (("SPDXREF"), ("SPDXRef-45")) in
  let s11 := after s9 r10 in
  let r12 := parse_pair V22 s11 (("AnnotationComment"), ("i guess i had something to say about this particular file")) in
  let s13 := after s11 r12 in
  [(option_map negb (olift Bool.eqb (failed r4) (Some false)));
   (option_map negb (olift pst_eqb (Some (ps_st s5)) (Some PsOtherLicense)));
   (option_map negb (olift Bool.eqb (failed r6) (Some false)));
   (option_map negb (olift pst_eqb (Some (ps_st s7)) (Some PsOtherLicense)));
   (option_map negb (olift Bool.eqb (failed r8) (Some false)));
   (option_map negb (olift pst_eqb (Some (ps_st s9)) (Some PsOtherLicense)));
   (option_map negb (olift Bool.eqb (failed r10) (Some false)));
   (option_map negb (olift pst_eqb (Some (ps_st s11)) (Some PsOtherLicense)));
   (option_map negb (olift Bool.eqb (failed r12) (Some false)));
   (option_map negb (olift pst_eqb (Some (ps_st s13)) (Some PsOtherLicense)));
   (option_map negb (olift Nat.eqb (option_map (@List.length _) (option_map (fun l => map (fun i => Some (i, 0)) (seq 0 (List.length l))) (option_map (fun x => d_Annotations x) (obind (Some (ps_doc s13)) (fun o => o))))) (Some 1)));
   (option_map negb (olift String.eqb (option_map (fun x => an_Annotator x) (option_map (fun x => a_Annotator x) (obind (obind (option_map (fun l => map (fun i => Some (i, 0)) (seq 0 (List.length l))) (option_map (fun x => d_Annotations x) (obind (Some (ps_doc s13)) (fun o => o)))) (fun l => nth_error l 0)) (fun p => obind p (fun p => obind (ps_doc s13) (fun d => nth_error (d_Annotations d) (fst p))))))) (Some ("John Doe ()"))))]) = true.
Proof. vm_compute. reflexivity. Qed.
(** /repo/spdx/v2/v2_2/tagvalue/reader/parse_other_license_test.go 217 *)
Example v22_TestParserOLFailsAfterParsingOtherSectionTags : forallb is_false (
  let s1 := (set_ps_st PsOtherLicense (set_ps_doc (Some (set_d_OtherLicenses [(set_ol_LicenseName ("License 11") (set_ol_LicenseIdentifier ("LicenseRef-Lic11") zero_OtherLicense))] (set_d_Packages [] zero_DocumentOf))) (set_ps_lic (Some 0) (set_ps_files [(set_f_SPDXIdentifier ("f1") (set_f_FileName ("f1.txt") zero_FileOf))] (set_ps_file (Some 0) (set_ps_pkgs [(set_p_Files [] (set_p_SPDXIdentifier ("test") (set_p_PackageName ("test") zero_PackageOf)))] (set_ps_pkg (Some 0) zero_pstate))))))) in
  let s2 := push_doc_packages (Some (option_map (fun i => (i, 0)) (ps_pkg s1))) s1 in
  let s3 := push_pkg_files (Some (option_map (fun i => (i, 0)) (ps_pkg s2))) (Some (option_map (fun i => (i, 0)) (ps_file s2))) s2 in
  let r4 := parse_pair V22 s3 (("SPDXVersion"), ("SPDX-2.2")) in
  let s5 := after s3 r4 in
  let r6 := parse_pair V22 s5 (("PackageName"), ("whatever")) in
  let s7 := after s5 r6 in
  let r8 := parse_pair V22 s7 (("FileName"), ("whatever")) in
  let s9 := after s7 r8 in
  [(olift Bool.eqb (failed r4) (Some false));
   (olift Bool.eqb (failed r6) (Some false));
   (olift Bool.eqb (failed r8) (Some false))]) = true.
Proof. vm_compute. reflexivity. Qed.
(** /repo/spdx/v2/v2_2/tagvalue/reader/parse_other_license_test.go 248 *)
Example v22_TestParserCanParseOtherLicenseTags : forallb is_false (
  let s1 := (set_ps_st PsOtherLicense (set_ps_doc (Some (set_d_Packages [] zero_DocumentOf)) (set_ps_files [(set_f_SPDXIdentifier ("f1") (set_f_FileName ("f1.txt") zero_FileOf))] (set_ps_file (Some 0) (set_ps_pkgs [(set_p_Files [] (set_p_SPDXIdentifier ("test") (set_p_PackageName ("test") zero_PackageOf)))] (set_ps_pkg (Some 0) zero_pstate)))))) in
  let s2 := push_doc_packages (Some (option_map (fun i => (i, 0)) (ps_pkg s1))) s1 in
  let s3 := push_pkg_files (Some (option_map (fun i => (i, 0)) (ps_pkg s2))) (Some (option_map (fun i => (i, 0)) (ps_file s2))) s2 in
  let r4 := parse_license V22 ("LicenseID") ("LicenseRef-Lic11") s3 in
  let s5 := after s3 r4 in
  let r6 := parse_license V22 ("ExtractedText") ("You are permitted to do anything with the software, hooray!") s5 in
  let s7 := after s5 r6 in
  let r8 := parse_license V22 ("LicenseName") ("License 11") s7 in
  let s9 := after s7 r8 in
  let r10 := parse_license V22 ("LicenseCrossReference") ("https://example.com/1") s9 in
  let s11 := after s9 r10 in
  let r12 := parse_license V22 ("LicenseCrossReference") ("https://example.com/2") s11 in
  let s13 := after s11 r12 in
  let r14 := parse_license V22 ("LicenseCrossReference") ("https://example.com/3") s13 in
  let s15 := after s13 r14 in
  let r16 := parse_license V22 ("LicenseComment") ("this is a comment") s15 in
  let s17 := after s15 r16 in
  [(option_map negb (olift Bool.eqb (failed r4) (Some false)));
   (option_map negb (olift String.eqb (option_map (fun x => ol_LicenseIdentifier x) (obind (Some (option_map (fun i => (i, 0)) (ps_lic s5))) (fun p => obind p (fun p => obind (ps_doc s5) (fun d => nth_error (d_OtherLicenses d) (fst p)))))) (Some ("LicenseRef-Lic11"))));
   (option_map negb (olift Bool.eqb (failed r6) (Some false)));
   (option_map negb (olift String.eqb (option_map (fun x => ol_ExtractedText x) (obind (Some (option_map (fun i => (i, 0)) (ps_lic s7))) (fun p => obind p (fun p => obind (ps_doc s7) (fun d => nth_error (d_OtherLicenses d) (fst p)))))) (Some ("You are permitted to do anything with the software, hooray!"))));
   (option_map negb (olift Bool.eqb (failed r8) (Some false)));
   (option_map negb (olift String.eqb (option_map (fun x => ol_LicenseName x) (obind (Some (option_map (fun i => (i, 0)) (ps_lic s9))) (fun p => obind p (fun p => obind (ps_doc s9) (fun d => nth_error (d_OtherLicenses d) (fst p)))))) (Some ("License 11"))));
   (option_map negb (olift Bool.eqb (failed r10) (Some false)));
   (option_map negb (olift Bool.eqb (failed r12) (Some false)));
   (option_map negb (olift Bool.eqb (failed r14) (Some false)));
   (option_map negb (option_map (mem ("https://example.com/1")) (option_map (fun x => ol_CrossReferences x) (obind (Some (option_map (fun i => (i, 0)) (ps_lic s15))) (fun p => obind p (fun p => obind (ps_doc s15) (fun d => nth_error (d_OtherLicenses d) (fst p))))))));
   (option_map negb (option_map (mem ("https://example.com/2")) (option_map (fun x => ol_CrossReferences x) (obind (Some (option_map (fun i => (i, 0)) (ps_lic s15))) (fun p => obind p (fun p => obind (ps_doc s15) (fun d => nth_error (d_OtherLicenses d) (fst p))))))));
   (option_map negb (option_map (mem ("https://example.com/3")) (option_map (fun x => ol_CrossReferences x) (obind (Some (option_map (fun i => (i, 0)) (ps_lic s15))) (fun p => obind p (fun p => obind (ps_doc s15) (fun d => nth_error (d_OtherLicenses d) (fst p))))))));
   (option_map negb (olift Nat.eqb (option_map (@List.length _) (option_map (fun x => ol_CrossReferences x) (obind (Some (option_map (fun i => (i, 0)) (ps_lic s15))) (fun p => obind p (fun p => obind (ps_doc s15) (fun d => nth_error (d_OtherLicenses d) (fst p))))))) (Some 3)));
   (option_map negb (olift Bool.eqb (failed r16) (Some false)));
   (option_map negb (olift String.eqb (option_map (fun x => ol_Comment x) (obind (Some (option_map (fun i => (i, 0)) (ps_lic s17))) (fun p => obind p (fun p => obind (ps_doc s17) (fun d => nth_error (d_OtherLicenses d) (fst p)))))) (Some ("this is a comment"))))]) = true.
Proof. vm_compute. reflexivity. Qed.
(** /repo/spdx/v2/v2_2/tagvalue/reader/parse_other_license_test.go 324 *)
Example v22_TestParserOLUnknownTagFails : forallb is_false (
  let s1 := (set_ps_st PsOtherLicense (set_ps_doc (Some (set_d_Packages [] zero_DocumentOf)) (set_ps_files [(set_f_SPDXIdentifier ("f1") (set_f_FileName ("f1.txt") zero_FileOf))] (set_ps_file (Some 0) (set_ps_pkgs [(set_p_Files [] (set_p_SPDXIdentifier ("test") (set_p_PackageName ("test") zero_PackageOf)))] (set_ps_pkg (Some 0) zero_pstate)))))) in
  let s2 := push_doc_packages (Some (option_map (fun i => (i, 0)) (ps_pkg s1))) s1 in
  let s3 := push_pkg_files (Some (option_map (fun i => (i, 0)) (ps_pkg s2))) (Some (option_map (fun i => (i, 0)) (ps_file s2))) s2 in
  let r4 := parse_license V22 ("blah") ("something") s3 in
  let s5 := after s3 r4 in
  [(olift Bool.eqb (failed r4) (Some false))]) = true.
Proof. vm_compute. reflexivity. Qed.
(** /repo/spdx/v2/v2_2/tagvalue/reader/parse_package_test.go 13 *)
Example v22_TestParserPackageStartsNewPackageAfterParsingPackageNameTag : forallb is_false (
  let s1 := (set_ps_st PsPackage (set_ps_doc (Some (set_d_Packages [] zero_DocumentOf)) (set_ps_pkgs [(set_p_SPDXIdentifier ("p1") (set_p_PackageName ("p1") zero_PackageOf))] (set_ps_pkg (Some 0) zero_pstate)))) in
  let s2 := push_doc_packages (Some (option_map (fun i => (i, 0)) (ps_pkg s1))) s1 in
  let r3 := parse_pair V22 s2 (("PackageName"), ("p2")) in
  let s4 := after s2 r3 in
  [(option_map negb (olift ptr_eqb (obind (option_map (map (fun i => Some (i, 0))) (option_map (fun x => d_Packages x) (obind (Some (ps_doc s2)) (fun o => o)))) (fun l => nth_error l 0)) (Some (option_map (fun i => (i, 0)) (ps_pkg s1)))));
   (option_map negb (olift Nat.eqb (option_map (@List.length _) (option_map (map (fun i => Some (i, 0))) (option_map (fun x => d_Packages x) (obind (Some (ps_doc s2)) (fun o => o))))) (Some 1)));
   (option_map negb (olift Bool.eqb (failed r3) (Some false)));
   (option_map negb (olift pst_eqb (Some (ps_st s4)) (Some PsPackage)));
   (olift ptr_eqb (Some (option_map (fun i => (i, 0)) (ps_pkg s4))) (Some None));
   (olift ptr_eqb (Some (option_map (fun i => (i, 0)) (ps_pkg s4))) (Some (option_map (fun i => (i, 0)) (ps_pkg s1))));
   (option_map negb (olift String.eqb (option_map (fun x => p_PackageName x) (obind (Some (option_map (fun i => (i, 0)) (ps_pkg s4))) (fun p => obind p (fun p => nth_error (ps_pkgs s4) (fst p))))) (Some ("p2"))));
   (option_map negb (option_map (fun x => p_FilesAnalyzed x) (obind (Some (option_map (fun i => (i, 0)) (ps_pkg s4))) (fun p => obind p (fun p => nth_error (ps_pkgs s4) (fst p))))));
   (option_map (fun x => p_IsFilesAnalyzedTagPresent x) (obind (Some (option_map (fun i => (i, 0)) (ps_pkg s4))) (fun p => obind p (fun p => nth_error (ps_pkgs s4) (fst p)))));
   (option_map negb (olift ptr_eqb (obind (option_map (map (fun i => Some (i, 0))) (option_map (fun x => d_Packages x) (obind (Some (ps_doc s4)) (fun o => o)))) (fun l => nth_error l 0)) (Some (option_map (fun i => (i, 0)) (ps_pkg s1)))));
   (option_map negb (olift Nat.eqb (option_map (@List.length _) (option_map (map (fun i => Some (i, 0))) (option_map (fun x => d_Packages x) (obind (Some (ps_doc s4)) (fun o => o))))) (Some 1)))]) = true.
Proof. vm_compute. reflexivity. Qed.
(** /repo/spdx/v2/v2_2/tagvalue/reader/parse_package_test.go 70 *)
Example v22_TestParserPackageStartsNewPackageAfterParsingPackageNameTagWhileInUnpackaged : forallb is_false (
  let s1 := (set_ps_st PsFile (set_ps_doc (Some (set_d_Packages [] zero_DocumentOf)) zero_pstate)) in
  let r2 := parse_pair V22 s1 (("PackageName"), ("p2")) in
  let s3 := after s1 r2 in
  [(option_map negb (olift Nat.eqb (option_map (@List.length _) (option_map (map (fun i => Some (i, 0))) (option_map (fun x => d_Packages x) (obind (Some (ps_doc s1)) (fun o => o))))) (Some 0)));
   (option_map negb (olift Bool.eqb (failed r2) (Some false)));
   (option_map negb (olift pst_eqb (Some (ps_st s3)) (Some PsPackage)));
   (olift ptr_eqb (Some (option_map (fun i => (i, 0)) (ps_pkg s3))) (Some None));
   (option_map negb (olift String.eqb (option_map (fun x => p_PackageName x) (obind (Some (option_map (fun i => (i, 0)) (ps_pkg s3))) (fun p => obind p (fun p => nth_error (ps_pkgs s3) (fst p))))) (Some ("p2"))));
   (option_map negb (option_map (fun x => p_FilesAnalyzed x) (obind (Some (option_map (fun i => (i, 0)) (ps_pkg s3))) (fun p => obind p (fun p => nth_error (ps_pkgs s3) (fst p))))));
   (option_map (fun x => p_IsFilesAnalyzedTagPresent x) (obind (Some (option_map (fun i => (i, 0)) (ps_pkg s3))) (fun p => obind p (fun p => nth_error (ps_pkgs s3) (fst p)))));
   (option_map negb (olift Nat.eqb (option_map (@List.length _) (option_map (map (fun i => Some (i, 0))) (option_map (fun x => d_Packages x) (obind (Some (ps_doc s3)) (fun o => o))))) (Some 0)))]) = true.
Proof. vm_compute. reflexivity. Qed.
(** /repo/spdx/v2/v2_2/tagvalue/reader/parse_package_test.go 115 *)
Example v22_TestParserPackageMovesToFileAfterParsingFileNameTag : forallb is_false (
  let s1 := (set_ps_st PsPackage (set_ps_doc (Some (set_d_Packages [] zero_DocumentOf)) (set_ps_pkgs [(set_p_SPDXIdentifier ("p1") (set_p_PackageName ("p1") zero_PackageOf))] (set_ps_pkg (Some 0) zero_pstate)))) in
  let s2 := push_doc_packages (Some (option_map (fun i => (i, 0)) (ps_pkg s1))) s1 in
  let r3 := parse_pair V22 s2 (("FileName"), ("testFile")) in
  let s4 := after s2 r3 in
  [(option_map negb (olift Bool.eqb (failed r3) (Some false)));
   (option_map negb (olift pst_eqb (Some (ps_st s4)) (Some PsFile)));
   (option_map negb (olift ptr_eqb (Some (option_map (fun i => (i, 0)) (ps_pkg s4))) (Some (option_map (fun i => (i, 0)) (ps_pkg s2)))))]) = true.
Proof. vm_compute. reflexivity. Qed.
(** /repo/spdx/v2/v2_2/tagvalue/reader/parse_package_test.go 138 *)
Example v22_TestParserPackageMovesToOtherLicenseAfterParsingLicenseIDTag : forallb is_false (
  let s1 := (set_ps_st PsPackage (set_ps_doc (Some (set_d_Packages [] zero_DocumentOf)) (set_ps_pkgs [(set_p_SPDXIdentifier ("p1") (set_p_PackageName ("p1") zero_PackageOf))] (set_ps_pkg (Some 0) zero_pstate)))) in
  let s2 := push_doc_packages (Some (option_map (fun i => (i, 0)) (ps_pkg s1))) s1 in
  let r3 := parse_pair V22 s2 (("LicenseID"), ("LicenseRef-TestLic")) in
  let s4 := after s2 r3 in
  [(option_map negb (olift Bool.eqb (failed r3) (Some false)));
   (option_map negb (olift pst_eqb (Some (ps_st s4)) (Some PsOtherLicense)))]) = true.
Proof. vm_compute. reflexivity. Qed.
(** /repo/spdx/v2/v2_2/tagvalue/reader/parse_package_test.go 155 *)
Example v22_TestParserPackageMovesToReviewAfterParsingReviewerTag : forallb is_false (
  let s1 := (set_ps_st PsPackage (set_ps_doc (Some (set_d_Packages [] zero_DocumentOf)) (set_ps_pkgs [(set_p_SPDXIdentifier ("p1") (set_p_PackageName ("p1") zero_PackageOf))] (set_ps_pkg (Some 0) zero_pstate)))) in
  let s2 := push_doc_packages (Some (option_map (fun i => (i, 0)) (ps_pkg s1))) s1 in
  let r3 := parse_pair V22 s2 (("Reviewer"), ("Person: John Doe")) in
  let s4 := after s2 r3 in
  [(option_map negb (olift Bool.eqb (failed r3) (Some false)));
   (option_map negb (olift pst_eqb (Some (ps_st s4)) (Some PsReview)))]) = true.
Proof. vm_compute. reflexivity. Qed.
(** /repo/spdx/v2/v2_2/tagvalue/reader/parse_package_test.go 172 *)
Example v22_TestParserPackageStaysAfterParsingRelationshipTags : forallb is_false (
  let s1 := (set_ps_st PsPackage (set_ps_doc (Some (set_d_Packages [] zero_DocumentOf)) (set_ps_pkgs [(set_p_SPDXIdentifier ("p1") (set_p_PackageName ("p1") zero_PackageOf))] (set_ps_pkg (Some 0) zero_pstate)))) in
  let s2 := push_doc_packages (Some (option_map (fun i => (i, 0)) (ps_pkg s1))) s1 in
  let r3 := parse_pair V22 s2 (("Relationship"), ("SPDXRef-blah CONTAINS SPDXRef-blah-else")) in
  let s4 := after s2 r3 in
  let r5 := parse_pair V22 s4 (("RelationshipComment"), ("blah")) in
  let s6 := after s4 r5 in
  [(option_map negb (olift Bool.eqb (failed r3) (Some false)));
   (option_map negb (olift pst_eqb (Some (ps_st s4)) (Some PsPackage)));
   (option_map negb (olift Bool.eqb (failed r5) (Some false)));
   (option_map negb (olift pst_eqb (Some (ps_st s6)) (Some PsPackage)))]) = true.
Proof. vm_compute. reflexivity. Qed.
(** /repo/spdx/v2/v2_2/tagvalue/reader/parse_package_test.go 199 *)
Example v22_TestParserPackageStaysAfterParsingAnnotationTags : forallb is_false (
  let s1 := (set_ps_st PsPackage (set_ps_doc (Some (set_d_Packages [] zero_DocumentOf)) (set_ps_pkgs [(set_p_SPDXIdentifier ("p1") (set_p_PackageName ("p1") zero_PackageOf))] (set_ps_pkg (Some 0) zero_pstate)))) in
  let s2 := push_doc_packages (Some (option_map (fun i => (i, 0)) (ps_pkg s1))) s1 in
  let r3 := parse_pair V22 s2 (("Annotator"), ("Person: John Doe ()")) in
  let s4 := after s2 r3 in
  let r5 := parse_pair V22 s4 (("AnnotationDate"), ("2018-09-15T00:36:00Z")) in
  let s6 := after s4 r5 in
  let r7 := parse_pair V22 s6 (("AnnotationType"), ("REVIEW")) in
  let s8 := after s6 r7 in
  let r9 := parse_pair V22 s8 (("SPDXREF"), ("SPDXRef-45")) in
  let s10 := after s8 r9 in
  let r11 := parse_pair V22 s10 (("AnnotationComment"), ("i guess i had something to say about this package")) in
  let s12 := after s10 r11 in
  [(option_map negb (olift Bool.eqb (failed r3) (Some false)));
   (option_map negb (olift pst_eqb (Some (ps_st s4)) (Some PsPackage)));
   (option_map negb (olift Bool.eqb (failed r5) (Some false)));
   (option_map negb (olift pst_eqb (Some (ps_st s6)) (Some PsPackage)));
   (option_map negb (olift Bool.eqb (failed r7) (Some false)));
   (option_map negb (olift pst_eqb (Some (ps_st s8)) (Some PsPackage)));
   (option_map negb (olift Bool.eqb (failed r9) (Some false)));
   (option_map negb (olift pst_eqb (Some (ps_st s10)) (Some PsPackage)));
   (option_map negb (olift Bool.eqb (failed r11) (Some false)));
   (option_map negb (olift pst_eqb (Some (ps_st s12)) (Some PsPackage)))]) = true.
Proof. vm_compute. reflexivity. Qed.
(** /repo/spdx/v2/v2_2/tagvalue/reader/parse_package_test.go 249 *)
Example v22_TestParserCanParsePackageTags : forallb is_false (
  let s1 := (set_ps_st PsPackage (set_ps_doc (Some (set_d_Packages [] zero_DocumentOf)) (set_ps_pkgs [zero_PackageOf] (set_ps_pkg (Some 0) zero_pstate)))) in
  let r2 := parse_package V22 ("PackageName") ("p1") s1 in
  let s3 := after s1 r2 in
  let r4 := parse_package V22 ("SPDXID") ("SPDXRef-p1") s3 in
  let s5 := after s3 r4 in
  let r6 := parse_package V22 ("PackageVersion") ("2.1.1") s5 in
  let s7 := after s5 r6 in
  let r8 := parse_package V22 ("PackageFileName") ("p1-2.1.1.tar.gz") s7 in
  let s9 := after s7 r8 in
  let r10 := parse_package V22 ("PackageDownloadLocation") ("https://example.com/whatever") s9 in
  let s11 := after s9 r10 in
  let r12 := parse_package V22 ("FilesAnalyzed") ("false") s11 in
  let s13 := after s11 r12 in
  let r14 := parse_package V22 ("PackageChecksum") ("MD5: 624c1abb3664f4b35547e7c73864ad24") s13 in
  let s15 := after s13 r14 in
  let r16 := parse_package V22 ("PackageChecksum") ("SHA1: 85ed0817af83a24ad8da68c2b5094de69833983c") s15 in
  let s17 := after s15 r16 in
  let r18 := parse_package V22 ("PackageChecksum") ("SHA256: 11b6d3ee554eedf79299905a98f9b9a04e498210b59f15094c916c91d150efcd") s17 in
  let s19 := after s17 r18 in
  let r20 := parse_package V22 ("PackageChecksum") ("SHA512: 4ced3267f5ed38df65ceebc43e97aa6c2948cc7ef3288c2e5074e7df7fab544cc93339604513ea5f65616f9ed1c48581465043c8a9b693ef20fd4fddaf25e1b9") s19 in
  let s21 := after s19 r20 in
  let r22 := parse_package V22 ("PackageHomePage") ("https://example.com/whatever2") s21 in
  let s23 := after s21 r22 in
  let r24 := parse_package V22 ("PackageSourceInfo") ("random comment") s23 in
  let s25 := after s23 r24 in
  let r26 := parse_package V22 ("PackageLicenseConcluded") ("Apache-2.0 OR GPL-2.0-or-later") s25 in
  let s27 := after s25 r26 in
  let r28 := parse_package V22 ("PackageLicenseInfoFromFiles") ("Apache-2.0") s27 in
  let s29 := after s27 r28 in
  let r30 := parse_package V22 ("PackageLicenseInfoFromFiles") ("GPL-2.0-or-later") s29 in
  let s31 := after s29 r30 in
  let r32 := parse_package V22 ("PackageLicenseInfoFromFiles") ("CC0-1.0") s31 in
  let s33 := after s31 r32 in
  let r34 := parse_package V22 ("PackageLicenseDeclared") ("Apache-2.0 OR GPL-2.0-or-later") s33 in
  let s35 := after s33 r34 in
  let r36 := parse_package V22 ("PackageLicenseComments") ("this is a license comment") s35 in
  let s37 := after s35 r36 in
  let r38 := parse_package V22 ("PackageCopyrightText") ("Copyright (c) me myself and i") s37 in
  let s39 := after s37 r38 in
  let r40 := parse_package V22 ("PackageSummary") ("i wrote this package") s39 in
  let s41 := after s39 r40 in
  let r42 := parse_package V22 ("PackageDescription") ("i wrote this package a lot") s41 in
  let s43 := after s41 r42 in
  let r44 := parse_package V22 ("PackageComment") ("i scanned this package") s43 in
  let s45 := after s43 r44 in
  let r46 := parse_package V22 ("PackageAttributionText") ("Include this notice in all advertising materials") s45 in
  let s47 := after s45 r46 in
  let r48 := parse_package V22 ("PackageAttributionText") ("This is a 
multi-line string") s47 in
  let s49 := after s47 r48 in
  let r50 := parse_package V22 ("ExternalRef") ("SECURITY cpe23Type cpe:2.3:a:pivotal_software:spring_framework:4.1.0:*:*:*:*:*:*:*") s49 in
  let s51 := after s49 r50 in
  let r52 := parse_package V22 ("ExternalRefComment") ("this is comment #1") s51 in
  let s53 := after s51 r52 in
  let r54 := parse_package V22 ("ExternalRef") ("OTHER LocationRef-acmeforge acmecorp/acmenator/4.1.3alpha") s53 in
  let s55 := after s53 r54 in
  let r56 := parse_package V22 ("ExternalRefComment") ("this is comment #2") s55 in
  let s57 := after s55 r56 in
  [(option_map negb (olift Nat.eqb (option_map (@List.length _) (option_map (map (fun i => Some (i, 0))) (option_map (fun x => d_Packages x) (obind (Some (ps_doc s1)) (fun o => o))))) (Some 0)));
   (option_map negb (olift Bool.eqb (failed r2) (Some false)));
   (option_map negb (olift String.eqb (option_map (fun x => p_PackageName x) (obind (Some (option_map (fun i => (i, 0)) (ps_pkg s3))) (fun p => obind p (fun p => nth_error (ps_pkgs s3) (fst p))))) (Some ("p1"))));
   (option_map negb (olift Nat.eqb (option_map (@List.length _) (option_map (map (fun i => Some (i, 0))) (option_map (fun x => d_Packages x) (obind (Some (ps_doc s3)) (fun o => o))))) (Some 0)));
   (option_map negb (olift Bool.eqb (failed r4) (Some false)));
   (option_map negb (olift String.eqb (option_map (fun x => p_SPDXIdentifier x) (obind (Some (option_map (fun i => (i, 0)) (ps_pkg s5))) (fun p => obind p (fun p => nth_error (ps_pkgs s5) (fst p))))) (Some ("p1"))));
   (option_map negb (olift Nat.eqb (option_map (@List.length _) (option_map (map (fun i => Some (i, 0))) (option_map (fun x => d_Packages x) (obind (Some (ps_doc s5)) (fun o => o))))) (Some 1)));
   (option_map negb (olift ptr_eqb (obind (option_map (map (fun i => Some (i, 0))) (option_map (fun x => d_Packages x) (obind (Some (ps_doc s5)) (fun o => o)))) (fun l => nth_error l 0)) (Some (option_map (fun i => (i, 0)) (ps_pkg s5)))));
   (option_map negb (olift Bool.eqb (failed r6) (Some false)));
   (option_map negb (olift String.eqb (option_map (fun x => p_Version x) (obind (Some (option_map (fun i => (i, 0)) (ps_pkg s7))) (fun p => obind p (fun p => nth_error (ps_pkgs s7) (fst p))))) (Some ("2.1.1"))));
   (option_map negb (olift Bool.eqb (failed r8) (Some false)));
   (option_map negb (olift String.eqb (option_map (fun x => p_FileName x) (obind (Some (option_map (fun i => (i, 0)) (ps_pkg s9))) (fun p => obind p (fun p => nth_error (ps_pkgs s9) (fst p))))) (Some ("p1-2.1.1.tar.gz"))));
   (option_map negb (olift Bool.eqb (failed r10) (Some false)));
   (option_map negb (olift String.eqb (option_map (fun x => p_DownloadLocation x) (obind (Some (option_map (fun i => (i, 0)) (ps_pkg s11))) (fun p => obind p (fun p => nth_error (ps_pkgs s11) (fst p))))) (Some ("https://example.com/whatever"))));
   (option_map negb (olift Bool.eqb (failed r12) (Some false)));
   (option_map (fun x => p_FilesAnalyzed x) (obind (Some (option_map (fun i => (i, 0)) (ps_pkg s13))) (fun p => obind p (fun p => nth_error (ps_pkgs s13) (fst p)))));
   (option_map negb (option_map (fun x => p_IsFilesAnalyzedTagPresent x) (obind (Some (option_map (fun i => (i, 0)) (ps_pkg s13))) (fun p => obind p (fun p => nth_error (ps_pkgs s13) (fst p))))));
   (option_map negb (olift Bool.eqb (failed r14) (Some false)));
   (option_map negb (olift Bool.eqb (failed r16) (Some false)));
   (option_map negb (olift Bool.eqb (failed r18) (Some false)));
   (option_map negb (olift Bool.eqb (failed r20) (Some false)));
   (obind (option_map (fun x => p_Checksums x) (obind (Some (option_map (fun i => (i, 0)) (ps_pkg s21))) (fun p => obind p (fun p => nth_error (ps_pkgs s21) (fst p))))) (oexists (fun it => (option_map negb (olift String.eqb (option_map (fun x => ck_Value x) (Some it)) (obind (option_map (fun x => ck_Algorithm x) (Some it)) (fun k => lookup k [("MD5", "624c1abb3664f4b35547e7c73864ad24"); ("SHA1", "85ed0817af83a24ad8da68c2b5094de69833983c"); ("SHA256", "11b6d3ee554eedf79299905a98f9b9a04e498210b59f15094c916c91d150efcd"); ("SHA512", "4ced3267f5ed38df65ceebc43e97aa6c2948cc7ef3288c2e5074e7df7fab544cc93339604513ea5f65616f9ed1c48581465043c8a9b693ef20fd4fddaf25e1b9")])))))));
   (option_map negb (olift Bool.eqb (failed r22) (Some false)));
   (option_map negb (olift String.eqb (option_map (fun x => p_HomePage x) (obind (Some (option_map (fun i => (i, 0)) (ps_pkg s23))) (fun p => obind p (fun p => nth_error (ps_pkgs s23) (fst p))))) (Some ("https://example.com/whatever2"))));
   (option_map negb (olift Bool.eqb (failed r24) (Some false)));
   (option_map negb (olift String.eqb (option_map (fun x => p_SourceInfo x) (obind (Some (option_map (fun i => (i, 0)) (ps_pkg s25))) (fun p => obind p (fun p => nth_error (ps_pkgs s25) (fst p))))) (Some ("random comment"))));
   (option_map negb (olift Bool.eqb (failed r26) (Some false)));
   (option_map negb (olift String.eqb (option_map (fun x => p_LicenseConcluded x) (obind (Some (option_map (fun i => (i, 0)) (ps_pkg s27))) (fun p => obind p (fun p => nth_error (ps_pkgs s27) (fst p))))) (Some ("Apache-2.0 OR GPL-2.0-or-later"))));
   (option_map negb (olift Bool.eqb (failed r28) (Some false)));
   (option_map negb (olift Bool.eqb (failed r30) (Some false)));
   (option_map negb (olift Bool.eqb (failed r32) (Some false)));
   (option_map negb (option_map (mem ("Apache-2.0")) (option_map (fun x => p_LicenseInfoFromFiles x) (obind (Some (option_map (fun i => (i, 0)) (ps_pkg s33))) (fun p => obind p (fun p => nth_error (ps_pkgs s33) (fst p)))))));
   (option_map negb (option_map (mem ("GPL-2.0-or-later")) (option_map (fun x => p_LicenseInfoFromFiles x) (obind (Some (option_map (fun i => (i, 0)) (ps_pkg s33))) (fun p => obind p (fun p => nth_error (ps_pkgs s33) (fst p)))))));
   (option_map negb (option_map (mem ("CC0-1.0")) (option_map (fun x => p_LicenseInfoFromFiles x) (obind (Some (option_map (fun i => (i, 0)) (ps_pkg s33))) (fun p => obind p (fun p => nth_error (ps_pkgs s33) (fst p)))))));
   (option_map negb (olift Nat.eqb (option_map (@List.length _) (option_map (fun x => p_LicenseInfoFromFiles x) (obind (Some (option_map (fun i => (i, 0)) (ps_pkg s33))) (fun p => obind p (fun p => nth_error (ps_pkgs s33) (fst p)))))) (Some 3)));
   (option_map negb (olift Bool.eqb (failed r34) (Some false)));
   (option_map negb (olift String.eqb (option_map (fun x => p_LicenseDeclared x) (obind (Some (option_map (fun i => (i, 0)) (ps_pkg s35))) (fun p => obind p (fun p => nth_error (ps_pkgs s35) (fst p))))) (Some ("Apache-2.0 OR GPL-2.0-or-later"))));
   (option_map negb (olift Bool.eqb (failed r36) (Some false)));
   (option_map negb (olift String.eqb (option_map (fun x => p_LicenseComments x) (obind (Some (option_map (fun i => (i, 0)) (ps_pkg s37))) (fun p => obind p (fun p => nth_error (ps_pkgs s37) (fst p))))) (Some ("this is a license comment"))));
   (option_map negb (olift Bool.eqb (failed r38) (Some false)));
   (option_map negb (olift String.eqb (option_map (fun x => p_CopyrightText x) (obind (Some (option_map (fun i => (i, 0)) (ps_pkg s39))) (fun p => obind p (fun p => nth_error (ps_pkgs s39) (fst p))))) (Some ("Copyright (c) me myself and i"))));
   (option_map negb (olift Bool.eqb (failed r40) (Some false)));
   (option_map negb (olift String.eqb (option_map (fun x => p_Summary x) (obind (Some (option_map (fun i => (i, 0)) (ps_pkg s41))) (fun p => obind p (fun p => nth_error (ps_pkgs s41) (fst p))))) (Some ("i wrote this package"))));
   (option_map negb (olift Bool.eqb (failed r42) (Some false)));
   (option_map negb (olift String.eqb (option_map (fun x => p_Description x) (obind (Some (option_map (fun i => (i, 0)) (ps_pkg s43))) (fun p => obind p (fun p => nth_error (ps_pkgs s43) (fst p))))) (Some ("i wrote this package a lot"))));
   (option_map negb (olift Bool.eqb (failed r44) (Some false)));
   (option_map negb (olift String.eqb (option_map (fun x => p_Comment x) (obind (Some (option_map (fun i => (i, 0)) (ps_pkg s45))) (fun p => obind p (fun p => nth_error (ps_pkgs s45) (fst p))))) (Some ("i scanned this package"))));
   (option_map negb (olift Bool.eqb (failed r46) (Some false)));
   (option_map negb (olift Bool.eqb (failed r48) (Some false)));
   (option_map negb (option_map (mem ("Include this notice in all advertising materials")) (option_map (fun x => p_AttributionTexts x) (obind (Some (option_map (fun i => (i, 0)) (ps_pkg s49))) (fun p => obind p (fun p => nth_error (ps_pkgs s49) (fst p)))))));
   (option_map negb (option_map (mem ("This is a 
multi-line string")) (option_map (fun x => p_AttributionTexts x) (obind (Some (option_map (fun i => (i, 0)) (ps_pkg s49))) (fun p => obind p (fun p => nth_error (ps_pkgs s49) (fst p)))))));
   (option_map negb (olift Nat.eqb (option_map (@List.length _) (option_map (fun x => p_AttributionTexts x) (obind (Some (option_map (fun i => (i, 0)) (ps_pkg s49))) (fun p => obind p (fun p => nth_error (ps_pkgs s49) (fst p)))))) (Some 2)));
   (option_map negb (olift Bool.eqb (failed r50) (Some false)));
   (option_map negb (olift Nat.eqb (option_map (@List.length _) (obind (Some (option_map (fun i => (i, 0)) (ps_pkg s51))) (fun p => obind p (fun p => option_map (fun l => map (fun j => Some (fst p, j)) (seq 0 (List.length l))) (option_map (fun x => p_ExternalReferences x) (obind (Some (option_map (fun i => (i, 0)) (ps_pkg s51))) (fun p => obind p (fun p => nth_error (ps_pkgs s51) (fst p))))))))) (Some 1)));
   (olift ptr_eqb (Some (ps_extref s51)) (Some None));
   (olift ptr_eqb (obind (obind (Some (option_map (fun i => (i, 0)) (ps_pkg s51))) (fun p => obind p (fun p => option_map (fun l => map (fun j => Some (fst p, j)) (seq 0 (List.length l))) (option_map (fun x => p_ExternalReferences x) (obind (Some (option_map (fun i => (i, 0)) (ps_pkg s51))) (fun p => obind p (fun p => nth_error (ps_pkgs s51) (fst p)))))))) (fun l => nth_error l 0)) (Some None));
   (option_map negb (olift ptr_eqb (Some (ps_extref s51)) (obind (obind (Some (option_map (fun i => (i, 0)) (ps_pkg s51))) (fun p => obind p (fun p => option_map (fun l => map (fun j => Some (fst p, j)) (seq 0 (List.length l))) (option_map (fun x => p_ExternalReferences x) (obind (Some (option_map (fun i => (i, 0)) (ps_pkg s51))) (fun p => obind p (fun p => nth_error (ps_pkgs s51) (fst p)))))))) (fun l => nth_error l 0))));
   (option_map negb (olift Bool.eqb (failed r52) (Some false)));
   (option_map negb (olift Bool.eqb (failed r54) (Some false)));
   (option_map negb (olift Nat.eqb (option_map (@List.length _) (obind (Some (option_map (fun i => (i, 0)) (ps_pkg s55))) (fun p => obind p (fun p => option_map (fun l => map (fun j => Some (fst p, j)) (seq 0 (List.length l))) (option_map (fun x => p_ExternalReferences x) (obind (Some (option_map (fun i => (i, 0)) (ps_pkg s55))) (fun p => obind p (fun p => nth_error (ps_pkgs s55) (fst p))))))))) (Some 2)));
   (olift ptr_eqb (Some (ps_extref s55)) (Some None));
   (olift ptr_eqb (obind (obind (Some (option_map (fun i => (i, 0)) (ps_pkg s55))) (fun p => obind p (fun p => option_map (fun l => map (fun j => Some (fst p, j)) (seq 0 (List.length l))) (option_map (fun x => p_ExternalReferences x) (obind (Some (option_map (fun i => (i, 0)) (ps_pkg s55))) (fun p => obind p (fun p => nth_error (ps_pkgs s55) (fst p)))))))) (fun l => nth_error l 1)) (Some None));
   (option_map negb (olift ptr_eqb (Some (ps_extref s55)) (obind (obind (Some (option_map (fun i => (i, 0)) (ps_pkg s55))) (fun p => obind p (fun p => option_map (fun l => map (fun j => Some (fst p, j)) (seq 0 (List.length l))) (option_map (fun x => p_ExternalReferences x) (obind (Some (option_map (fun i => (i, 0)) (ps_pkg s55))) (fun p => obind p (fun p => nth_error (ps_pkgs s55) (fst p)))))))) (fun l => nth_error l 1))));
   (option_map negb (olift Bool.eqb (failed r56) (Some false)));
   (option_map negb (olift String.eqb (option_map (fun x => er_Category x) (obind (obind (obind (Some (option_map (fun i => (i, 0)) (ps_pkg s57))) (fun p => obind p (fun p => option_map (fun l => map (fun j => Some (fst p, j)) (seq 0 (List.length l))) (option_map (fun x => p_ExternalReferences x) (obind (Some (option_map (fun i => (i, 0)) (ps_pkg s57))) (fun p => obind p (fun p => nth_error (ps_pkgs s57) (fst p)))))))) (fun l => nth_error l 0)) (fun p => obind p (fun p => obind (nth_error (ps_pkgs s57) (fst p)) (fun w => nth_error (p_ExternalReferences w) (snd p)))))) (Some ("SECURITY"))));
   (option_map negb (olift String.eqb (option_map (fun x => er_RefType x) (obind (obind (obind (Some (option_map (fun i => (i, 0)) (ps_pkg s57))) (fun p => obind p (fun p => option_map (fun l => map (fun j => Some (fst p, j)) (seq 0 (List.length l))) (option_map (fun x => p_ExternalReferences x) (obind (Some (option_map (fun i => (i, 0)) (ps_pkg s57))) (fun p => obind p (fun p => nth_error (ps_pkgs s57) (fst p)))))))) (fun l => nth_error l 0)) (fun p => obind p (fun p => obind (nth_error (ps_pkgs s57) (fst p)) (fun w => nth_error (p_ExternalReferences w) (snd p)))))) (Some ("cpe23Type"))));
   (option_map negb (olift String.eqb (option_map (fun x => er_Locator x) (obind (obind (obind (Some (option_map (fun i => (i, 0)) (ps_pkg s57))) (fun p => obind p (fun p => option_map (fun l => map (fun j => Some (fst p, j)) (seq 0 (List.length l))) (option_map (fun x => p_ExternalReferences x) (obind (Some (option_map (fun i => (i, 0)) (ps_pkg s57))) (fun p => obind p (fun p => nth_error (ps_pkgs s57) (fst p)))))))) (fun l => nth_error l 0)) (fun p => obind p (fun p => obind (nth_error (ps_pkgs s57) (fst p)) (fun w => nth_error (p_ExternalReferences w) (snd p)))))) (Some ("cpe:2.3:a:pivotal_software:spring_framework:4.1.0:*:*:*:*:*:*:*"))));
   (option_map negb (olift String.eqb (option_map (fun x => er_Comment x) (obind (obind (obind (Some (option_map (fun i => (i, 0)) (ps_pkg s57))) (fun p => obind p (fun p => option_map (fun l => map (fun j => Some (fst p, j)) (seq 0 (List.length l))) (option_map (fun x => p_ExternalReferences x) (obind (Some (option_map (fun i => (i, 0)) (ps_pkg s57))) (fun p => obind p (fun p => nth_error (ps_pkgs s57) (fst p)))))))) (fun l => nth_error l 0)) (fun p => obind p (fun p => obind (nth_error (ps_pkgs s57) (fst p)) (fun w => nth_error (p_ExternalReferences w) (snd p)))))) (Some ("this is comment #1"))));
   (option_map negb (olift String.eqb (option_map (fun x => er_Category x) (obind (obind (obind (Some (option_map (fun i => (i, 0)) (ps_pkg s57))) (fun p => obind p (fun p => option_map (fun l => map (fun j => Some (fst p, j)) (seq 0 (List.length l))) (option_map (fun x => p_ExternalReferences x) (obind (Some (option_map (fun i => (i, 0)) (ps_pkg s57))) (fun p => obind p (fun p => nth_error (ps_pkgs s57) (fst p)))))))) (fun l => nth_error l 1)) (fun p => obind p (fun p => obind (nth_error (ps_pkgs s57) (fst p)) (fun w => nth_error (p_ExternalReferences w) (snd p)))))) (Some ("OTHER"))));
   (option_map negb (olift String.eqb (option_map (fun x => er_RefType x) (obind (obind (obind (Some (option_map (fun i => (i, 0)) (ps_pkg s57))) (fun p => obind p (fun p => option_map (fun l => map (fun j => Some (fst p, j)) (seq 0 (List.length l))) (option_map (fun x => p_ExternalReferences x) (obind (Some (option_map (fun i => (i, 0)) (ps_pkg s57))) (fun p => obind p (fun p => nth_error (ps_pkgs s57) (fst p)))))))) (fun l => nth_error l 1)) (fun p => obind p (fun p => obind (nth_error (ps_pkgs s57) (fst p)) (fun w => nth_error (p_ExternalReferences w) (snd p)))))) (Some ("LocationRef-acmeforge"))));
   (option_map negb (olift String.eqb (option_map (fun x => er_Locator x) (obind (obind (obind (Some (option_map (fun i => (i, 0)) (ps_pkg s57))) (fun p => obind p (fun p => option_map (fun l => map (fun j => Some (fst p, j)) (seq 0 (List.length l))) (option_map (fun x => p_ExternalReferences x) (obind (Some (option_map (fun i => (i, 0)) (ps_pkg s57))) (fun p => obind p (fun p => nth_error (ps_pkgs s57) (fst p)))))))) (fun l => nth_error l 1)) (fun p => obind p (fun p => obind (nth_error (ps_pkgs s57) (fst p)) (fun w => nth_error (p_ExternalReferences w) (snd p)))))) (Some ("acmecorp/acmenator/4.1.3alpha"))));
   (option_map negb (olift String.eqb (option_map (fun x => er_Comment x) (obind (obind (obind (Some (option_map (fun i => (i, 0)) (ps_pkg s57))) (fun p => obind p (fun p => option_map (fun l => map (fun j => Some (fst p, j)) (seq 0 (List.length l))) (option_map (fun x => p_ExternalReferences x) (obind (Some (option_map (fun i => (i, 0)) (ps_pkg s57))) (fun p => obind p (fun p => nth_error (ps_pkgs s57) (fst p)))))))) (fun l => nth_error l 1)) (fun p => obind p (fun p => obind (nth_error (ps_pkgs s57) (fst p)) (fun w => nth_error (p_ExternalReferences w) (snd p)))))) (Some ("this is comment #2"))))]) = true.
Proof. vm_compute. reflexivity. Qed.
(** /repo/spdx/v2/v2_2/tagvalue/reader/parse_package_test.go 579 *)
Example v22_TestParserCanParsePackageSupplierPersonTag : forallb is_false (
  let s1 := (set_ps_st PsPackage (set_ps_doc (Some (set_d_Packages [] zero_DocumentOf)) (set_ps_pkgs [(set_p_SPDXIdentifier ("p1") (set_p_PackageName ("p1") zero_PackageOf))] (set_ps_pkg (Some 0) zero_pstate)))) in
  let s2 := push_doc_packages (Some (option_map (fun i => (i, 0)) (ps_pkg s1))) s1 in
  let r3 := parse_package V22 ("PackageSupplier") ("Person: John Doe") s2 in
  let s4 := after s2 r3 in
  [(option_map negb (olift Bool.eqb (failed r3) (Some false)));
   (option_map negb (olift String.eqb (option_map (fun x => su_Supplier x) (obind (option_map (fun x => p_Supplier x) (obind (Some (option_map (fun i => (i, 0)) (ps_pkg s4))) (fun p => obind p (fun p => nth_error (ps_pkgs s4) (fst p))))) (fun o => o))) (Some ("John Doe"))))]) = true.
Proof. vm_compute. reflexivity. Qed.
(** /repo/spdx/v2/v2_2/tagvalue/reader/parse_package_test.go 597 *)
Example v22_TestParserCanParsePackageSupplierOrganizationTag : forallb is_false (
  let s1 := (set_ps_st PsPackage (set_ps_doc (Some (set_d_Packages [] zero_DocumentOf)) (set_ps_pkgs [(set_p_SPDXIdentifier ("p1") (set_p_PackageName ("p1") zero_PackageOf))] (set_ps_pkg (Some 0) zero_pstate)))) in
  let s2 := push_doc_packages (Some (option_map (fun i => (i, 0)) (ps_pkg s1))) s1 in
  let r3 := parse_package V22 ("PackageSupplier") ("Organization: John Doe, Inc.") s2 in
  let s4 := after s2 r3 in
  [(option_map negb (olift Bool.eqb (failed r3) (Some false)));
   (option_map negb (olift String.eqb (option_map (fun x => su_Supplier x) (obind (option_map (fun x => p_Supplier x) (obind (Some (option_map (fun i => (i, 0)) (ps_pkg s4))) (fun p => obind p (fun p => nth_error (ps_pkgs s4) (fst p))))) (fun o => o))) (Some ("John Doe, Inc."))))]) = true.
Proof. vm_compute. reflexivity. Qed.
(** /repo/spdx/v2/v2_2/tagvalue/reader/parse_package_test.go 615 *)
Example v22_TestParserCanParsePackageSupplierNOASSERTIONTag : forallb is_false (
  let s1 := (set_ps_st PsPackage (set_ps_doc (Some (set_d_Packages [] zero_DocumentOf)) (set_ps_pkgs [(set_p_SPDXIdentifier ("p1") (set_p_PackageName ("p1") zero_PackageOf))] (set_ps_pkg (Some 0) zero_pstate)))) in
  let s2 := push_doc_packages (Some (option_map (fun i => (i, 0)) (ps_pkg s1))) s1 in
  let r3 := parse_package V22 ("PackageSupplier") ("NOASSERTION") s2 in
  let s4 := after s2 r3 in
  [(option_map negb (olift Bool.eqb (failed r3) (Some false)));
   (option_map negb (olift String.eqb (option_map (fun x => su_Supplier x) (obind (option_map (fun x => p_Supplier x) (obind (Some (option_map (fun i => (i, 0)) (ps_pkg s4))) (fun p => obind p (fun p => nth_error (ps_pkgs s4) (fst p))))) (fun o => o))) (Some ("NOASSERTION"))))]) = true.
Proof. vm_compute. reflexivity. Qed.
(** /repo/spdx/v2/v2_2/tagvalue/reader/parse_package_test.go 633 *)
Example v22_TestParserCanParsePackageOriginatorPersonTag : forallb is_false (
  let s1 := (set_ps_st PsPackage (set_ps_doc (Some (set_d_Packages [] zero_DocumentOf)) (set_ps_pkgs [(set_p_SPDXIdentifier ("p1") (set_p_PackageName ("p1") zero_PackageOf))] (set_ps_pkg (Some 0) zero_pstate)))) in
  let s2 := push_doc_packages (Some (option_map (fun i => (i, 0)) (ps_pkg s1))) s1 in
  let r3 := parse_package V22 ("PackageOriginator") ("Person: John Doe") s2 in
  let s4 := after s2 r3 in
  [(option_map negb (olift Bool.eqb (failed r3) (Some false)));
   (option_map negb (olift String.eqb (option_map (fun x => or_Originator x) (obind (option_map (fun x => p_Originator x) (obind (Some (option_map (fun i => (i, 0)) (ps_pkg s4))) (fun p => obind p (fun p => nth_error (ps_pkgs s4) (fst p))))) (fun o => o))) (Some ("John Doe"))))]) = true.
Proof. vm_compute. reflexivity. Qed.
(** /repo/spdx/v2/v2_2/tagvalue/reader/parse_package_test.go 651 *)
Example v22_TestParserCanParsePackageOriginatorOrganizationTag : forallb is_false (
  let s1 := (set_ps_st PsPackage (set_ps_doc (Some (set_d_Packages [] zero_DocumentOf)) (set_ps_pkgs [(set_p_SPDXIdentifier ("p1") (set_p_PackageName ("p1") zero_PackageOf))] (set_ps_pkg (Some 0) zero_pstate)))) in
  let s2 := push_doc_packages (Some (option_map (fun i => (i, 0)) (ps_pkg s1))) s1 in
  let r3 := parse_package V22 ("PackageOriginator") ("Organization: John Doe, Inc.") s2 in
  let s4 := after s2 r3 in
  [(option_map negb (olift Bool.eqb (failed r3) (Some false)));
   (option_map negb (olift String.eqb (option_map (fun x => or_Originator x) (obind (option_map (fun x => p_Originator x) (obind (Some (option_map (fun i => (i, 0)) (ps_pkg s4))) (fun p => obind p (fun p => nth_error (ps_pkgs s4) (fst p))))) (fun o => o))) (Some ("John Doe, Inc."))))]) = true.
Proof. vm_compute. reflexivity. Qed.
(** /repo/spdx/v2/v2_2/tagvalue/reader/parse_package_test.go 669 *)
Example v22_TestParserCanParsePackageOriginatorNOASSERTIONTag : forallb is_false (
  let s1 := (set_ps_st PsPackage (set_ps_doc (Some (set_d_Packages [] zero_DocumentOf)) (set_ps_pkgs [(set_p_SPDXIdentifier ("p1") (set_p_PackageName ("p1") zero_PackageOf))] (set_ps_pkg (Some 0) zero_pstate)))) in
  let s2 := push_doc_packages (Some (option_map (fun i => (i, 0)) (ps_pkg s1))) s1 in
  let r3 := parse_package V22 ("PackageOriginator") ("NOASSERTION") s2 in
  let s4 := after s2 r3 in
  [(option_map negb (olift Bool.eqb (failed r3) (Some false)));
   (option_map negb (olift String.eqb (option_map (fun x => or_Originator x) (obind (option_map (fun x => p_Originator x) (obind (Some (option_map (fun i => (i, 0)) (ps_pkg s4))) (fun p => obind p (fun p => nth_error (ps_pkgs s4) (fst p))))) (fun o => o))) (Some ("NOASSERTION"))))]) = true.
Proof. vm_compute. reflexivity. Qed.
(** /repo/spdx/v2/v2_2/tagvalue/reader/parse_package_test.go 687 *)
Example v22_TestParserCanParsePackageVerificationCodeTagWithExcludes : forallb is_false (
  let s1 := (set_ps_st PsPackage (set_ps_doc (Some (set_d_Packages [] zero_DocumentOf)) (set_ps_pkgs [(set_p_SPDXIdentifier ("p1") (set_p_PackageName ("p1") zero_PackageOf))] (set_ps_pkg (Some 0) zero_pstate)))) in
  let s2 := push_doc_packages (Some (option_map (fun i => (i, 0)) (ps_pkg s1))) s1 in
  let r3 := parse_package V22 ("PackageVerificationCode") ("d6a770ba38583ed4bb4525bd96e50461655d2758 (excludes: ./package.spdx)") s2 in
  let s4 := after s2 r3 in
  [(option_map negb (olift Bool.eqb (failed r3) (Some false)));
   (option_map negb (olift String.eqb (option_map (fun x => vc_Value x) (option_map (fun o => match o with Some c => c | None => zero_VerificationCode end) (option_map (fun x => p_VerificationCode x) (obind (Some (option_map (fun i => (i, 0)) (ps_pkg s4))) (fun p => obind p (fun p => nth_error (ps_pkgs s4) (fst p))))))) (Some ("d6a770ba38583ed4bb4525bd96e50461655d2758"))));
   (olift orb (option_map negb (olift Nat.eqb (option_map (@List.length _) (option_map (fun x => vc_ExcludedFiles x) (option_map (fun o => match o with Some c => c | None => zero_VerificationCode end) (option_map (fun x => p_VerificationCode x) (obind (Some (option_map (fun i => (i, 0)) (ps_pkg s4))) (fun p => obind p (fun p => nth_error (ps_pkgs s4) (fst p)))))))) (Some 1))) (option_map negb (olift String.eqb (obind (option_map (fun x => vc_ExcludedFiles x) (option_map (fun o => match o with Some c => c | None => zero_VerificationCode end) (option_map (fun x => p_VerificationCode x) (obind (Some (option_map (fun i => (i, 0)) (ps_pkg s4))) (fun p => obind p (fun p => nth_error (ps_pkgs s4) (fst p))))))) (fun l => nth_error l 0)) (Some ("./package.spdx")))))]) = true.
Proof. vm_compute. reflexivity. Qed.
(** /repo/spdx/v2/v2_2/tagvalue/reader/parse_package_test.go 712 *)
Example v22_TestParserCanParsePackageVerificationCodeTagWithoutExcludes : forallb is_false (
  let s1 := (set_ps_st PsPackage (set_ps_doc (Some (set_d_Packages [] zero_DocumentOf)) (set_ps_pkgs [(set_p_SPDXIdentifier ("p1") (set_p_PackageName ("p1") zero_PackageOf))] (set_ps_pkg (Some 0) zero_pstate)))) in
  let s2 := push_doc_packages (Some (option_map (fun i => (i, 0)) (ps_pkg s1))) s1 in
  let r3 := parse_package V22 ("PackageVerificationCode") ("d6a770ba38583ed4bb4525bd96e50461655d2758") s2 in
  let s4 := after s2 r3 in
  [(option_map negb (olift Bool.eqb (failed r3) (Some false)));
   (option_map negb (olift String.eqb (option_map (fun x => vc_Value x) (option_map (fun o => match o with Some c => c | None => zero_VerificationCode end) (option_map (fun x => p_VerificationCode x) (obind (Some (option_map (fun i => (i, 0)) (ps_pkg s4))) (fun p => obind p (fun p => nth_error (ps_pkgs s4) (fst p))))))) (Some ("d6a770ba38583ed4bb4525bd96e50461655d2758"))));
   (option_map negb (olift Nat.eqb (option_map (@List.length _) (option_map (fun x => vc_ExcludedFiles x) (option_map (fun o => match o with Some c => c | None => zero_VerificationCode end) (option_map (fun x => p_VerificationCode x) (obind (Some (option_map (fun i => (i, 0)) (ps_pkg s4))) (fun p => obind p (fun p => nth_error (ps_pkgs s4) (fst p)))))))) (Some 0)))]) = true.
Proof. vm_compute. reflexivity. Qed.
(** /repo/spdx/v2/v2_2/tagvalue/reader/parse_package_test.go 735 *)
Example v22_TestParserPackageExternalRefPointerChangesAfterTags : forallb is_false (
  let s1 := (set_ps_st PsPackage (set_ps_doc (Some (set_d_Packages [] zero_DocumentOf)) (set_ps_pkgs [(set_p_SPDXIdentifier ("p1") (set_p_PackageName ("p1") zero_PackageOf))] (set_ps_pkg (Some 0) zero_pstate)))) in
  let s2 := push_doc_packages (Some (option_map (fun i => (i, 0)) (ps_pkg s1))) s1 in
  let r3 := parse_package V22 ("ExternalRef") ("SECURITY cpe23Type cpe:2.3:a:pivotal_software:spring_framework:4.1.0:*:*:*:*:*:*:*") s2 in
  let s4 := after s2 r3 in
  let r5 := parse_package V22 ("ExternalRefComment") ("whatever") s4 in
  let s6 := after s4 r5 in
  let r7 := parse_package V22 ("ExternalRef") ("Other LocationRef-something https://example.com/whatever") s6 in
  let s8 := after s6 r7 in
  let r9 := parse_package V22 ("PackageSummary") ("whatever") s8 in
  let s10 := after s8 r9 in
  [(option_map negb (olift Bool.eqb (failed r3) (Some false)));
   (olift ptr_eqb (Some (ps_extref s4)) (Some None));
   (option_map negb (olift Bool.eqb (failed r5) (Some false)));
   (option_map negb (olift ptr_eqb (Some (ps_extref s6)) (Some None)));
   (option_map negb (olift Bool.eqb (failed r7) (Some false)));
   (olift ptr_eqb (Some (ps_extref s8)) (Some None));
   (option_map negb (olift Bool.eqb (failed r9) (Some false)));
   (option_map negb (olift ptr_eqb (Some (ps_extref s10)) (Some None)))]) = true.
Proof. vm_compute. reflexivity. Qed.
(** /repo/spdx/v2/v2_2/tagvalue/reader/parse_package_test.go 780 *)
Example v22_TestParserPackageCreatesRelationshipInDocument : forallb is_false (
  let s1 := (set_ps_st PsPackage (set_ps_doc (Some (set_d_Packages [] zero_DocumentOf)) (set_ps_pkgs [(set_p_SPDXIdentifier ("p1") (set_p_PackageName ("p1") zero_PackageOf))] (set_ps_pkg (Some 0) zero_pstate)))) in
  let s2 := push_doc_packages (Some (option_map (fun i => (i, 0)) (ps_pkg s1))) s1 in
  let r3 := parse_pair V22 s2 (("Relationship"), ("SPDXRef-blah CONTAINS SPDXRef-blah-whatever")) in
  let s4 := after s2 r3 in
  [(option_map negb (olift Bool.eqb (failed r3) (Some false)));
   (olift ptr_eqb (Some (option_map (fun i => (i, 0)) (ps_rln s4))) (Some None));
   (option_map negb (olift ptr_eqb (Some (option_map (fun i => (i, 0)) (ps_rln s4))) (obind (option_map (fun l => map (fun i => Some (i, 0)) (seq 0 (List.length l))) (option_map (fun x => d_Relationships x) (obind (Some (ps_doc s4)) (fun o => o)))) (fun l => nth_error l 0))))]) = true.
Proof. vm_compute. reflexivity. Qed.
(** /repo/spdx/v2/v2_2/tagvalue/reader/parse_package_test.go 800 *)
Example v22_TestParserPackageCreatesAnnotationInDocument : forallb is_false (
  let s1 := (set_ps_st PsPackage (set_ps_doc (Some (set_d_Packages [] zero_DocumentOf)) (set_ps_pkgs [(set_p_SPDXIdentifier ("p1") (set_p_PackageName ("p1") zero_PackageOf))] (set_ps_pkg (Some 0) zero_pstate)))) in
  let s2 := push_doc_packages (Some (option_map (fun i => (i, 0)) (ps_pkg s1))) s1 in
  let r3 := parse_pair V22 s2 (("Annotator"), ("Person: John Doe ()")) in
  let s4 := after s2 r3 in
  [(option_map negb (olift Bool.eqb (failed r3) (Some false)));
   (olift ptr_eqb (Some (option_map (fun i => (i, 0)) (ps_ann s4))) (Some None));
   (option_map negb (olift ptr_eqb (Some (option_map (fun i => (i, 0)) (ps_ann s4))) (obind (option_map (fun l => map (fun i => Some (i, 0)) (seq 0 (List.length l))) (option_map (fun x => d_Annotations x) (obind (Some (ps_doc s4)) (fun o => o)))) (fun l => nth_error l 0))))]) = true.
Proof. vm_compute. reflexivity. Qed.
(** /repo/spdx/v2/v2_2/tagvalue/reader/parse_package_test.go 820 *)
Example v22_TestParserPackageUnknownTagFails : forallb is_false (
  let s1 := (set_ps_st PsPackage (set_ps_doc (Some (set_d_Packages [] zero_DocumentOf)) (set_ps_pkgs [(set_p_SPDXIdentifier ("p1") (set_p_PackageName ("p1") zero_PackageOf))] (set_ps_pkg (Some 0) zero_pstate)))) in
  let s2 := push_doc_packages (Some (option_map (fun i => (i, 0)) (ps_pkg s1))) s1 in
  let r3 := parse_package V22 ("blah") ("something") s2 in
  let s4 := after s2 r3 in
  [(olift Bool.eqb (failed r3) (Some false))]) = true.
Proof. vm_compute. reflexivity. Qed.
(** /repo/spdx/v2/v2_2/tagvalue/reader/parse_package_test.go 834 *)
Example v22_TestParserFailsIfInvalidSPDXIDInPackageSection : forallb is_false (
  let s1 := (set_ps_st PsPackage (set_ps_doc (Some (set_d_Packages [] zero_DocumentOf)) (set_ps_pkgs [zero_PackageOf] (set_ps_pkg (Some 0) zero_pstate)))) in
  let r2 := parse_package V22 ("PackageName") ("p1") s1 in
  let s3 := after s1 r2 in
  let r4 := parse_package V22 ("SPDXID") ("whoops") s3 in
  let s5 := after s3 r4 in
  [(option_map negb (olift Bool.eqb (failed r2) (Some false)));
   (olift Bool.eqb (failed r4) (Some false))]) = true.
Proof. vm_compute. reflexivity. Qed.
(** /repo/spdx/v2/v2_2/tagvalue/reader/parse_package_test.go 853 *)
Example v22_TestParserFailsIfInvalidPackageSupplierFormat : forallb is_false (
  let s1 := (set_ps_st PsPackage (set_ps_doc (Some (set_d_Packages [] zero_DocumentOf)) (set_ps_pkgs [zero_PackageOf] (set_ps_pkg (Some 0) zero_pstate)))) in
  let r2 := parse_package V22 ("PackageName") ("p1") s1 in
  let s3 := after s1 r2 in
  let r4 := parse_package V22 ("PackageSupplier") ("whoops") s3 in
  let s5 := after s3 r4 in
  [(option_map negb (olift Bool.eqb (failed r2) (Some false)));
   (olift Bool.eqb (failed r4) (Some false))]) = true.
Proof. vm_compute. reflexivity. Qed.
(** /repo/spdx/v2/v2_2/tagvalue/reader/parse_package_test.go 872 *)
Example v22_TestParserFailsIfUnknownPackageSupplierType : forallb is_false (
  let s1 := (set_ps_st PsPackage (set_ps_doc (Some (set_d_Packages [] zero_DocumentOf)) (set_ps_pkgs [zero_PackageOf] (set_ps_pkg (Some 0) zero_pstate)))) in
  let r2 := parse_package V22 ("PackageName") ("p1") s1 in
  let s3 := after s1 r2 in
  let r4 := parse_package V22 ("PackageSupplier") ("whoops: John Doe") s3 in
  let s5 := after s3 r4 in
  [(option_map negb (olift Bool.eqb (failed r2) (Some false)));
   (olift Bool.eqb (failed r4) (Some false))]) = true.
Proof. vm_compute. reflexivity. Qed.
(** /repo/spdx/v2/v2_2/tagvalue/reader/parse_package_test.go 891 *)
Example v22_TestParserFailsIfInvalidPackageOriginatorFormat : forallb is_false (
  let s1 := (set_ps_st PsPackage (set_ps_doc (Some (set_d_Packages [] zero_DocumentOf)) (set_ps_pkgs [zero_PackageOf] (set_ps_pkg (Some 0) zero_pstate)))) in
  let r2 := parse_package V22 ("PackageName") ("p1") s1 in
  let s3 := after s1 r2 in
  let r4 := parse_package V22 ("PackageOriginator") ("whoops") s3 in
  let s5 := after s3 r4 in
  [(option_map negb (olift Bool.eqb (failed r2) (Some false)));
   (olift Bool.eqb (failed r4) (Some false))]) = true.
Proof. vm_compute. reflexivity. Qed.
(** /repo/spdx/v2/v2_2/tagvalue/reader/parse_package_test.go 910 *)
Example v22_TestParserFailsIfUnknownPackageOriginatorType : forallb is_false (
  let s1 := (set_ps_st PsPackage (set_ps_doc (Some (set_d_Packages [] zero_DocumentOf)) (set_ps_pkgs [zero_PackageOf] (set_ps_pkg (Some 0) zero_pstate)))) in
  let r2 := parse_package V22 ("PackageName") ("p1") s1 in
  let s3 := after s1 r2 in
  let r4 := parse_package V22 ("PackageOriginator") ("whoops: John Doe") s3 in
  let s5 := after s3 r4 in
  [(option_map negb (olift Bool.eqb (failed r2) (Some false)));
   (olift Bool.eqb (failed r4) (Some false))]) = true.
Proof. vm_compute. reflexivity. Qed.
(** /repo/spdx/v2/v2_2/tagvalue/reader/parse_package_test.go 929 *)
Example v22_TestParserSetsFilesAnalyzedTagsCorrectly : forallb is_false (
  let s1 := (set_ps_st PsPackage (set_ps_doc (Some (set_d_Packages [] zero_DocumentOf)) (set_ps_pkgs [zero_PackageOf] (set_ps_pkg (Some 0) zero_pstate)))) in
  let r2 := parse_package V22 ("PackageName") ("p1") s1 in
  let s3 := after s1 r2 in
  let r4 := parse_package V22 ("FilesAnalyzed") ("true") s3 in
  let s5 := after s3 r4 in
  [(option_map negb (olift Bool.eqb (failed r2) (Some false)));
   (option_map negb (olift Bool.eqb (failed r4) (Some false)));
   (option_map negb (option_map (fun x => p_FilesAnalyzed x) (obind (Some (option_map (fun i => (i, 0)) (ps_pkg s5))) (fun p => obind p (fun p => nth_error (ps_pkgs s5) (fst p))))));
   (option_map negb (option_map (fun x => p_IsFilesAnalyzedTagPresent x) (obind (Some (option_map (fun i => (i, 0)) (ps_pkg s5))) (fun p => obind p (fun p => nth_error (ps_pkgs s5) (fst p))))))]) = true.
Proof. vm_compute. reflexivity. Qed.
(** /repo/spdx/v2/v2_2/tagvalue/reader/parse_package_test.go 954 *)
Example v22_TestParserFailsIfInvalidPackageChecksumFormat : forallb is_false (
  let s1 := (set_ps_st PsPackage (set_ps_doc (Some (set_d_Packages [] zero_DocumentOf)) (set_ps_pkgs [zero_PackageOf] (set_ps_pkg (Some 0) zero_pstate)))) in
  let r2 := parse_package V22 ("PackageName") ("p1") s1 in
  let s3 := after s1 r2 in
  let r4 := parse_package V22 ("PackageChecksum") ("whoops") s3 in
  let s5 := after s3 r4 in
  [(option_map negb (olift Bool.eqb (failed r2) (Some false)));
   (olift Bool.eqb (failed r4) (Some false))]) = true.
Proof. vm_compute. reflexivity. Qed.
(** /repo/spdx/v2/v2_2/tagvalue/reader/parse_package_test.go 973 *)
Example v22_TestParserFailsIfInvalidPackageChecksumType : forallb is_false (
  let s1 := (set_ps_st PsPackage (set_ps_doc (Some (set_d_Packages [] zero_DocumentOf)) (set_ps_pkgs [zero_PackageOf] (set_ps_pkg (Some 0) zero_pstate)))) in
  let r2 := parse_package V22 ("PackageName") ("p1") s1 in
  let s3 := after s1 r2 in
  let r4 := parse_package V22 ("PackageChecksum") ("whoops: blah") s3 in
  let s5 := after s3 r4 in
  [(option_map negb (olift Bool.eqb (failed r2) (Some false)));
   (olift Bool.eqb (failed r4) (Some false))]) = true.
Proof. vm_compute. reflexivity. Qed.
(** /repo/spdx/v2/v2_2/tagvalue/reader/parse_package_test.go 992 *)
Example v22_TestParserFailsIfInvalidExternalRefFormat : forallb is_false (
  let s1 := (set_ps_st PsPackage (set_ps_doc (Some (set_d_Packages [] zero_DocumentOf)) (set_ps_pkgs [zero_PackageOf] (set_ps_pkg (Some 0) zero_pstate)))) in
  let r2 := parse_package V22 ("PackageName") ("p1") s1 in
  let s3 := after s1 r2 in
  let r4 := parse_package V22 ("ExternalRef") ("whoops") s3 in
  let s5 := after s3 r4 in
  [(option_map negb (olift Bool.eqb (failed r2) (Some false)));
   (olift Bool.eqb (failed r4) (Some false))]) = true.
Proof. vm_compute. reflexivity. Qed.
(** /repo/spdx/v2/v2_2/tagvalue/reader/parse_package_test.go 1011 *)
Example v22_TestParserFailsIfExternalRefCommentBeforeExternalRef : forallb is_false (
  let s1 := (set_ps_st PsPackage (set_ps_doc (Some (set_d_Packages [] zero_DocumentOf)) (set_ps_pkgs [zero_PackageOf] (set_ps_pkg (Some 0) zero_pstate)))) in
  let r2 := parse_package V22 ("PackageName") ("p1") s1 in
  let s3 := after s1 r2 in
  let r4 := parse_package V22 ("ExternalRefComment") ("whoops") s3 in
  let s5 := after s3 r4 in
  [(option_map negb (olift Bool.eqb (failed r2) (Some false)));
   (olift Bool.eqb (failed r4) (Some false))]) = true.
Proof. vm_compute. reflexivity. Qed.
(** /repo/spdx/v2/v2_2/tagvalue/reader/parse_package_test.go 1032 *)
Example v22_TestCanCheckAndExtractExcludesFilenameAndCode : forallb is_false (
  [(option_map negb (olift String.eqb (option_map (fun x => vc_Value x) (Some (extract_code_and_excludes ("d6a770ba38583ed4bb4525bd96e50461655d2758 (excludes: ./package.spdx)")))) (Some ("d6a770ba38583ed4bb4525bd96e50461655d2758"))));
   (olift orb (option_map negb (olift Nat.eqb (option_map (@List.length _) (option_map (fun x => vc_ExcludedFiles x) (Some (extract_code_and_excludes ("d6a770ba38583ed4bb4525bd96e50461655d2758 (excludes: ./package.spdx)"))))) (Some 1))) (option_map negb (olift String.eqb (obind (option_map (fun x => vc_ExcludedFiles x) (Some (extract_code_and_excludes ("d6a770ba38583ed4bb4525bd96e50461655d2758 (excludes: ./package.spdx)")))) (fun l => nth_error l 0)) (Some ("./package.spdx")))))]) = true.
Proof. vm_compute. reflexivity. Qed.
(** /repo/spdx/v2/v2_2/tagvalue/reader/parse_package_test.go 1046 *)
Example v22_TestCanExtractPackageExternalReference : forallb is_false (
  let r1 := extract_package_external_reference ("SECURITY cpe23Type cpe:2.3:a:pivotal_software:spring_framework:4.1.0:*:*:*:*:*:*:*") in
  let w2 := match r1 with Ok x => x | _ => ("", "", "") end in
  [(option_map negb (olift Bool.eqb (failed r1) (Some false)));
   (option_map negb (olift String.eqb (Some (fst (fst w2))) (Some ("SECURITY"))));
   (option_map negb (olift String.eqb (Some (snd (fst w2))) (Some ("cpe23Type"))));
   (option_map negb (olift String.eqb (Some (snd w2)) (Some ("cpe:2.3:a:pivotal_software:spring_framework:4.1.0:*:*:*:*:*:*:*"))))]) = true.
Proof. vm_compute. reflexivity. Qed.
(** /repo/spdx/v2/v2_2/tagvalue/reader/parse_package_test.go 1067 *)
Example v22_TestCanExtractPackageExternalReferenceWithExtraWhitespace : forallb is_false (
  let r1 := extract_package_external_reference ("  SECURITY    	 cpe23Type   cpe:2.3:a:pivotal_software:spring_framework:4.1.0:*:*:*:*:*:*:* 	 ") in
  let w2 := match r1 with Ok x => x | _ => ("", "", "") end in
  [(option_map negb (olift Bool.eqb (failed r1) (Some false)));
   (option_map negb (olift String.eqb (Some (fst (fst w2))) (Some ("SECURITY"))));
   (option_map negb (olift String.eqb (Some (snd (fst w2))) (Some ("cpe23Type"))));
   (option_map negb (olift String.eqb (Some (snd w2)) (Some ("cpe:2.3:a:pivotal_software:spring_framework:4.1.0:*:*:*:*:*:*:*"))))]) = true.
Proof. vm_compute. reflexivity. Qed.
(** /repo/spdx/v2/v2_2/tagvalue/reader/parse_package_test.go 1088 *)
Example v22_TestFailsPackageExternalRefWithInvalidFormat : forallb is_false (
  let r1 := extract_package_external_reference ("whoops") in
  let w2 := match r1 with Ok x => x | _ => ("", "", "") end in
  [(olift Bool.eqb (failed r1) (Some false))]) = true.
Proof. vm_compute. reflexivity. Qed.
(** /repo/spdx/v2/v2_2/tagvalue/reader/parse_package_test.go 1095 *)
Example v22_TestParserPackageWithoutSpdxIdentifierThrowsError : forallb is_false (
  let s1 := (set_ps_st PsPackage (set_ps_doc (Some (set_d_Packages [] zero_DocumentOf)) (set_ps_pkgs [(set_p_PackageName ("p1") zero_PackageOf)] (set_ps_pkg (Some 0) zero_pstate)))) in
  let s2 := push_doc_packages (Some (option_map (fun i => (i, 0)) (ps_pkg s1))) s1 in
  let r3 := parse_pair V22 s2 (("PackageName"), ("p2")) in
  let s4 := after s2 r3 in
  [(option_map negb (olift ptr_eqb (obind (option_map (map (fun i => Some (i, 0))) (option_map (fun x => d_Packages x) (obind (Some (ps_doc s2)) (fun o => o)))) (fun l => nth_error l 0)) (Some (option_map (fun i => (i, 0)) (ps_pkg s1)))));
   (option_map negb (olift Nat.eqb (option_map (@List.length _) (option_map (map (fun i => Some (i, 0))) (option_map (fun x => d_Packages x) (obind (Some (ps_doc s2)) (fun o => o))))) (Some 1)));
   (olift Bool.eqb (failed r3) (Some false))]) = true.
Proof. vm_compute. reflexivity. Qed.
(** /repo/spdx/v2/v2_2/tagvalue/reader/parse_relationship_test.go 22 *)
Example v22_TestParserFailsIfRelationshipCommentWithoutRelationship : forallb is_false (
  let s1 := (set_ps_st PsCreationInfo (set_ps_doc (Some zero_DocumentOf) zero_pstate)) in
  let r2 := parse_pair V22 s1 (("RelationshipComment"), ("comment whatever")) in
  let s3 := after s1 r2 in
  [(olift Bool.eqb (failed r2) (Some false))]) = true.
Proof. vm_compute. reflexivity. Qed.
(** /repo/spdx/v2/v2_2/tagvalue/reader/parse_relationship_test.go 33 *)
Example v22_TestParserCanParseRelationshipTags : forallb is_false (
  let s1 := (set_ps_st PsCreationInfo (set_ps_doc (Some zero_DocumentOf) zero_pstate)) in
  let r2 := parse_pair V22 s1 (("Relationship"), ("SPDXRef-something CONTAINS DocumentRef-otherdoc:SPDXRef-something-else")) in
  let s3 := after s1 r2 in
  let r4 := parse_pair V22 s3 (("RelationshipComment"), ("this is a comment")) in
  let s5 := after s3 r4 in
  [(option_map negb (olift Bool.eqb (failed r2) (Some false)));
   (olift orb (option_map negb (olift String.eqb (option_map (fun x => de_DocumentRefID x) (option_map (fun x => r_RefA x) (obind (Some (option_map (fun i => (i, 0)) (ps_rln s3))) (fun p => obind p (fun p => obind (ps_doc s3) (fun d => nth_error (d_Relationships d) (fst p))))))) (Some ("")))) (option_map negb (olift String.eqb (option_map (fun x => de_ElementRefID x) (option_map (fun x => r_RefA x) (obind (Some (option_map (fun i => (i, 0)) (ps_rln s3))) (fun p => obind p (fun p => obind (ps_doc s3) (fun d => nth_error (d_Relationships d) (fst p))))))) (Some ("something")))));
   (olift orb (option_map negb (olift String.eqb (option_map (fun x => de_DocumentRefID x) (option_map (fun x => r_RefB x) (obind (Some (option_map (fun i => (i, 0)) (ps_rln s3))) (fun p => obind p (fun p => obind (ps_doc s3) (fun d => nth_error (d_Relationships d) (fst p))))))) (Some ("otherdoc")))) (option_map negb (olift String.eqb (option_map (fun x => de_ElementRefID x) (option_map (fun x => r_RefB x) (obind (Some (option_map (fun i => (i, 0)) (ps_rln s3))) (fun p => obind p (fun p => obind (ps_doc s3) (fun d => nth_error (d_Relationships d) (fst p))))))) (Some ("something-else")))));
   (option_map negb (olift String.eqb (option_map (fun x => r_Relationship x) (obind (Some (option_map (fun i => (i, 0)) (ps_rln s3))) (fun p => obind p (fun p => obind (ps_doc s3) (fun d => nth_error (d_Relationships d) (fst p)))))) (Some ("CONTAINS"))));
   (option_map negb (olift Bool.eqb (failed r4) (Some false)));
   (option_map negb (olift String.eqb (option_map (fun x => r_Comment x) (obind (Some (option_map (fun i => (i, 0)) (ps_rln s5))) (fun p => obind p (fun p => obind (ps_doc s5) (fun d => nth_error (d_Relationships d) (fst p)))))) (Some ("this is a comment"))))]) = true.
Proof. vm_compute. reflexivity. Qed.
(** /repo/spdx/v2/v2_2/tagvalue/reader/parse_relationship_test.go 65 *)
Example v22_TestParserInvalidRelationshipTagsNoValueFail : forallb is_false (
  let s1 := (set_ps_st PsCreationInfo (set_ps_doc (Some zero_DocumentOf) zero_pstate)) in
  let s2 := set_ps_rln None s1 in
  let r3 := parse_pair V22 s2 (("Relationship"), ("")) in
  let s4 := after s2 r3 in
  [(olift Bool.eqb (failed r3) (Some false))]) = true.
Proof. vm_compute. reflexivity. Qed.
(** /repo/spdx/v2/v2_2/tagvalue/reader/parse_relationship_test.go 79 *)
Example v22_TestParserInvalidRelationshipTagsOneValueFail : forallb is_false (
  let s1 := (set_ps_st PsCreationInfo (set_ps_doc (Some zero_DocumentOf) zero_pstate)) in
  let s2 := set_ps_rln None s1 in
  let r3 := parse_pair V22 s2 (("Relationship"), ("DESCRIBES")) in
  let s4 := after s2 r3 in
  [(olift Bool.eqb (failed r3) (Some false))]) = true.
Proof. vm_compute. reflexivity. Qed.
(** /repo/spdx/v2/v2_2/tagvalue/reader/parse_relationship_test.go 93 *)
Example v22_TestParserInvalidRelationshipTagsTwoValuesFail : forallb is_false (
  let s1 := (set_ps_st PsCreationInfo (set_ps_doc (Some zero_DocumentOf) zero_pstate)) in
  let s2 := set_ps_rln None s1 in
  let r3 := parse_pair V22 s2 (("Relationship"), ("SPDXRef-DOCUMENT DESCRIBES")) in
  let s4 := after s2 r3 in
  [(olift Bool.eqb (failed r3) (Some false))]) = true.
Proof. vm_compute. reflexivity. Qed.
(** /repo/spdx/v2/v2_2/tagvalue/reader/parse_relationship_test.go 107 *)
Example v22_TestParserInvalidRelationshipTagsThreeValuesSucceed : forallb is_false (
  let s1 := (set_ps_st PsCreationInfo (set_ps_doc (Some zero_DocumentOf) zero_pstate)) in
  let s2 := set_ps_rln None s1 in
  let r3 := parse_pair V22 s2 (("Relationship"), ("  SPDXRef-DOCUMENT 	   DESCRIBES  SPDXRef-something-else    ")) in
  let s4 := after s2 r3 in
  [(option_map negb (olift Bool.eqb (failed r3) (Some false)))]) = true.
Proof. vm_compute. reflexivity. Qed.
(** /repo/spdx/v2/v2_2/tagvalue/reader/parse_relationship_test.go 121 *)
Example v22_TestParserInvalidRelationshipTagsFourValuesFail : forallb is_false (
  let s1 := (set_ps_st PsCreationInfo (set_ps_doc (Some zero_DocumentOf) zero_pstate)) in
  let s2 := set_ps_rln None s1 in
  let r3 := parse_pair V22 s2 (("Relationship"), ("SPDXRef-a DESCRIBES SPDXRef-b SPDXRef-c")) in
  let s4 := after s2 r3 in
  [(olift Bool.eqb (failed r3) (Some false))]) = true.
Proof. vm_compute. reflexivity. Qed.
(** /repo/spdx/v2/v2_2/tagvalue/reader/parse_relationship_test.go 135 *)
Example v22_TestParserInvalidRelationshipTagsInvalidRefIDs : forallb is_false (
  let s1 := (set_ps_st PsCreationInfo (set_ps_doc (Some zero_DocumentOf) zero_pstate)) in
  let s2 := set_ps_rln None s1 in
  let r3 := parse_pair V22 s2 (("Relationship"), ("SPDXRef-a DESCRIBES b")) in
  let s4 := after s2 r3 in
  let s5 := set_ps_rln None s4 in
  let r6 := parse_pair V22 s5 (("Relationship"), ("a DESCRIBES SPDXRef-b")) in
  let s7 := after s5 r6 in
  [(olift Bool.eqb (failed r3) (Some false));
   (olift Bool.eqb (failed r6) (Some false))]) = true.
Proof. vm_compute. reflexivity. Qed.
(** /repo/spdx/v2/v2_2/tagvalue/reader/parse_relationship_test.go 155 *)
Example v22_TestParserSpecialValuesValidForRightSideOfRelationship : forallb is_false (
  let s1 := (set_ps_st PsCreationInfo (set_ps_doc (Some zero_DocumentOf) zero_pstate)) in
  let r2 := parse_pair V22 s1 (("Relationship"), ("SPDXRef-a CONTAINS NONE")) in
  let s3 := after s1 r2 in
  let r4 := parse_pair V22 s3 (("Relationship"), ("SPDXRef-a CONTAINS NOASSERTION")) in
  let s5 := after s3 r4 in
  let r6 := parse_pair V22 s5 (("Relationship"), ("NONE CONTAINS SPDXRef-a")) in
  let s7 := after s5 r6 in
  let r8 := parse_pair V22 s7 (("Relationship"), ("NOASSERTION CONTAINS SPDXRef-a")) in
  let s9 := after s7 r8 in
  [(option_map negb (olift Bool.eqb (failed r2) (Some false)));
   (option_map negb (olift Bool.eqb (failed r4) (Some false)));
   (olift Bool.eqb (failed r6) (Some false));
   (olift Bool.eqb (failed r8) (Some false))]) = true.
Proof. vm_compute. reflexivity. Qed.
(** /repo/spdx/v2/v2_2/tagvalue/reader/parse_review_test.go 11 *)
Example v22_TestParserReviewStartsNewReviewAfterParsingReviewerTag : forallb is_false (
  let s1 := (set_ps_st PsReview (set_ps_doc (Some (set_d_Reviews [(set_rv_ReviewerType ("Person") (set_rv_Reviewer ("John Doe") zero_Review))] (set_d_OtherLicenses [(set_ol_LicenseName ("License 11") (set_ol_LicenseIdentifier ("LicenseRef-Lic11") zero_OtherLicense))] (set_d_Packages [] zero_DocumentOf)))) (set_ps_rev (Some 0) (set_ps_lic (Some 0) (set_ps_files [(set_f_SPDXIdentifier ("f1") (set_f_FileName ("f1.txt") zero_FileOf))] (set_ps_file (Some 0) (set_ps_pkgs [(set_p_Files [] (set_p_SPDXIdentifier ("test") (set_p_PackageName ("test") zero_PackageOf)))] (set_ps_pkg (Some 0) zero_pstate)))))))) in
  let s2 := push_doc_packages (Some (option_map (fun i => (i, 0)) (ps_pkg s1))) s1 in
  let s3 := push_pkg_files (Some (option_map (fun i => (i, 0)) (ps_pkg s2))) (Some (option_map (fun i => (i, 0)) (ps_file s2))) s2 in
  let r4 := parse_pair V22 s3 (("Reviewer"), ("Person: Steve")) in
  let s5 := after s3 r4 in
  [(option_map negb (olift Nat.eqb (option_map (@List.length _) (option_map (fun l => map (fun i => Some (i, 0)) (seq 0 (List.length l))) (option_map (fun x => d_Reviews x) (obind (Some (ps_doc s3)) (fun o => o))))) (Some 1)));
   (option_map negb (olift ptr_eqb (obind (option_map (fun l => map (fun i => Some (i, 0)) (seq 0 (List.length l))) (option_map (fun x => d_Reviews x) (obind (Some (ps_doc s3)) (fun o => o)))) (fun l => nth_error l 0)) (Some (option_map (fun i => (i, 0)) (ps_rev s3)))));
   (option_map negb (olift String.eqb (option_map (fun x => rv_Reviewer x) (obind (obind (option_map (fun l => map (fun i => Some (i, 0)) (seq 0 (List.length l))) (option_map (fun x => d_Reviews x) (obind (Some (ps_doc s3)) (fun o => o)))) (fun l => nth_error l 0)) (fun p => obind p (fun p => obind (ps_doc s3) (fun d => nth_error (d_Reviews d) (fst p)))))) (Some ("John Doe"))));
   (option_map negb (olift Bool.eqb (failed r4) (Some false)));
   (option_map negb (olift pst_eqb (Some (ps_st s5)) (Some PsReview)));
   (olift ptr_eqb (Some (option_map (fun i => (i, 0)) (ps_rev s5))) (Some None));
   (option_map negb (olift String.eqb (option_map (fun x => rv_Reviewer x) (obind (Some (option_map (fun i => (i, 0)) (ps_rev s5))) (fun p => obind p (fun p => obind (ps_doc s5) (fun d => nth_error (d_Reviews d) (fst p)))))) (Some ("Steve"))));
   (option_map negb (olift Nat.eqb (option_map (@List.length _) (option_map (fun l => map (fun i => Some (i, 0)) (seq 0 (List.length l))) (option_map (fun x => d_Reviews x) (obind (Some (ps_doc s5)) (fun o => o))))) (Some 2)));
   (option_map negb (olift ptr_eqb (obind (option_map (fun l => map (fun i => Some (i, 0)) (seq 0 (List.length l))) (option_map (fun x => d_Reviews x) (obind (Some (ps_doc s5)) (fun o => o)))) (fun l => nth_error l 0)) (Some (option_map (fun i => (i, 0)) (ps_rev s3)))));
   (option_map negb (olift String.eqb (option_map (fun x => rv_Reviewer x) (obind (obind (option_map (fun l => map (fun i => Some (i, 0)) (seq 0 (List.length l))) (option_map (fun x => d_Reviews x) (obind (Some (ps_doc s5)) (fun o => o)))) (fun l => nth_error l 0)) (fun p => obind p (fun p => obind (ps_doc s5) (fun d => nth_error (d_Reviews d) (fst p)))))) (Some ("John Doe"))));
   (option_map negb (olift ptr_eqb (obind (option_map (fun l => map (fun i => Some (i, 0)) (seq 0 (List.length l))) (option_map (fun x => d_Reviews x) (obind (Some (ps_doc s5)) (fun o => o)))) (fun l => nth_error l 1)) (Some (option_map (fun i => (i, 0)) (ps_rev s5)))));
   (option_map negb (olift String.eqb (option_map (fun x => rv_Reviewer x) (obind (obind (option_map (fun l => map (fun i => Some (i, 0)) (seq 0 (List.length l))) (option_map (fun x => d_Reviews x) (obind (Some (ps_doc s5)) (fun o => o)))) (fun l => nth_error l 1)) (fun p => obind p (fun p => obind (ps_doc s5) (fun d => nth_error (d_Reviews d) (fst p)))))) (Some ("Steve"))))]) = true.
Proof. vm_compute. reflexivity. Qed.
(** /repo/spdx/v2/v2_2/tagvalue/reader/parse_review_test.go 83 *)
Example v22_TestParserReviewStaysAfterParsingRelationshipTags : forallb is_false (
  let s1 := (set_ps_st PsReview (set_ps_doc (Some (set_d_Reviews [(set_rv_ReviewerType ("Person") (set_rv_Reviewer ("Jane Doe") zero_Review))] (set_d_OtherLicenses [(set_ol_LicenseName ("License 11") (set_ol_LicenseIdentifier ("LicenseRef-Lic11") zero_OtherLicense))] (set_d_Packages [] zero_DocumentOf)))) (set_ps_rev (Some 0) (set_ps_lic (Some 0) (set_ps_files [(set_f_SPDXIdentifier ("f1") (set_f_FileName ("f1.txt") zero_FileOf))] (set_ps_file (Some 0) (set_ps_pkgs [(set_p_Files [] (set_p_SPDXIdentifier ("test") (set_p_PackageName ("test") zero_PackageOf)))] (set_ps_pkg (Some 0) zero_pstate)))))))) in
  let s2 := push_doc_packages (Some (option_map (fun i => (i, 0)) (ps_pkg s1))) s1 in
  let s3 := push_pkg_files (Some (option_map (fun i => (i, 0)) (ps_pkg s2))) (Some (option_map (fun i => (i, 0)) (ps_file s2))) s2 in
  let r4 := parse_pair V22 s3 (("Relationship"), ("SPDXRef-blah CONTAINS SPDXRef-blah-else")) in
  let s5 := after s3 r4 in
  let r6 := parse_pair V22 s5 (("RelationshipComment"), ("blah")) in
  let s7 := after s5 r6 in
  [(option_map negb (olift Bool.eqb (failed r4) (Some false)));
   (option_map negb (olift pst_eqb (Some (ps_st s5)) (Some PsReview)));
   (option_map negb (olift Nat.eqb (option_map (@List.length _) (option_map (fun l => map (fun i => Some (i, 0)) (seq 0 (List.length l))) (option_map (fun x => d_Relationships x) (obind (Some (ps_doc s5)) (fun o => o))))) (Some 1)));
   (olift orb (option_map negb (olift String.eqb (option_map (fun x => de_DocumentRefID x) (option_map (fun x => r_RefA x) (obind (obind (option_map (fun l => map (fun i => Some (i, 0)) (seq 0 (List.length l))) (option_map (fun x => d_Relationships x) (obind (Some (ps_doc s5)) (fun o => o)))) (fun l => nth_error l 0)) (fun p => obind p (fun p => obind (ps_doc s5) (fun d => nth_error (d_Relationships d) (fst p))))))) (Some ("")))) (option_map negb (olift String.eqb (option_map (fun x => de_ElementRefID x) (option_map (fun x => r_RefA x) (obind (obind (option_map (fun l => map (fun i => Some (i, 0)) (seq 0 (List.length l))) (option_map (fun x => d_Relationships x) (obind (Some (ps_doc s5)) (fun o => o)))) (fun l => nth_error l 0)) (fun p => obind p (fun p => obind (ps_doc s5) (fun d => nth_error (d_Relationships d) (fst p))))))) (Some ("blah")))));
   (option_map negb (olift Bool.eqb (failed r6) (Some false)));
   (option_map negb (olift pst_eqb (Some (ps_st s7)) (Some PsReview)))]) = true.
Proof. vm_compute. reflexivity. Qed.
(** /repo/spdx/v2/v2_2/tagvalue/reader/parse_review_test.go 130 *)
Example v22_TestParserReviewStaysAfterParsingAnnotationTags : forallb is_false (
  let s1 := (set_ps_st PsReview (set_ps_doc (Some (set_d_Reviews [(set_rv_ReviewerType ("Person") (set_rv_Reviewer ("Jane Doe") zero_Review))] (set_d_OtherLicenses [(set_ol_LicenseName ("License 11") (set_ol_LicenseIdentifier ("LicenseRef-Lic11") zero_OtherLicense))] (set_d_Packages [] zero_DocumentOf)))) (set_ps_rev (Some 0) (set_ps_lic (Some 0) (set_ps_files [(set_f_SPDXIdentifier ("f1") (set_f_FileName ("f1.txt") zero_FileOf))] (set_ps_file (Some 0) (set_ps_pkgs [(set_p_Files [] (set_p_SPDXIdentifier ("test") (set_p_PackageName ("test") zero_PackageOf)))] (set_ps_pkg (Some 0) zero_pstate)))))))) in
  let s2 := push_doc_packages (Some (option_map (fun i => (i, 0)) (ps_pkg s1))) s1 in
  let s3 := push_pkg_files (Some (option_map (fun i => (i, 0)) (ps_pkg s2))) (Some (option_map (fun i => (i, 0)) (ps_file s2))) s2 in
  let r4 := parse_pair V22 s3 (("Annotator"), ("Person: John Doe ()")) in
  let s5 := after s3 r4 in
  let r6 := parse_pair V22 s5 (("AnnotationDate"), ("2018-09-15T00:36:00Z")) in
  let s7 := after s5 r6 in
  let r8 := parse_pair V22 s7 (("AnnotationType"), ("REVIEW")) in
  let s9 := after s7 r8 in
  let r10 := parse_pair V22 s9 (("SPDXREF"), ("SPDXRef-45")) in
  let s11 := after s9 r10 in
  let r12 := parse_pair V22 s11 (("AnnotationComment"), ("i guess i had something to say about this particular file")) in
  let s13 := after s11 r12 in
  [(option_map negb (olift Bool.eqb (failed r4) (Some false)));
   (option_map negb (olift pst_eqb (Some (ps_st s5)) (Some PsReview)));
   (option_map negb (olift Bool.eqb (failed r6) (Some false)));
   (option_map negb (olift pst_eqb (Some (ps_st s7)) (Some PsReview)));
   (option_map negb (olift Bool.eqb (failed r8) (Some false)));
   (option_map negb (olift pst_eqb (Some (ps_st s9)) (Some PsReview)));
   (option_map negb (olift Bool.eqb (failed r10) (Some false)));
   (option_map negb (olift pst_eqb (Some (ps_st s11)) (Some PsReview)));
   (option_map negb (olift Bool.eqb (failed r12) (Some false)));
   (option_map negb (olift pst_eqb (Some (ps_st s13)) (Some PsReview)));
   (option_map negb (olift Nat.eqb (option_map (@List.length _) (option_map (fun l => map (fun i => Some (i, 0)) (seq 0 (List.length l))) (option_map (fun x => d_Annotations x) (obind (Some (ps_doc s13)) (fun o => o))))) (Some 1)));
   (option_map negb (olift String.eqb (option_map (fun x => an_Annotator x) (option_map (fun x => a_Annotator x) (obind (obind (option_map (fun l => map (fun i => Some (i, 0)) (seq 0 (List.length l))) (option_map (fun x => d_Annotations x) (obind (Some (ps_doc s13)) (fun o => o)))) (fun l => nth_error l 0)) (fun p => obind p (fun p => obind (ps_doc s13) (fun d => nth_error (d_Annotations d) (fst p))))))) (Some ("John Doe ()"))))]) = true.
Proof. vm_compute. reflexivity. Qed.
(** /repo/spdx/v2/v2_2/tagvalue/reader/parse_review_test.go 199 *)
Example v22_TestParserReviewFailsAfterParsingOtherSectionTags : forallb is_false (
  let s1 := (set_ps_st PsReview (set_ps_doc (Some (set_d_Reviews [zero_Review] (set_d_OtherLicenses [(set_ol_LicenseName ("License 11") (set_ol_LicenseIdentifier ("LicenseRef-Lic11") zero_OtherLicense))] (set_d_Packages [] zero_DocumentOf)))) (set_ps_rev (Some 0) (set_ps_lic (Some 0) (set_ps_files [(set_f_SPDXIdentifier ("f1") (set_f_FileName ("f1.txt") zero_FileOf))] (set_ps_file (Some 0) (set_ps_pkgs [(set_p_Files [] (set_p_SPDXIdentifier ("test") (set_p_PackageName ("test") zero_PackageOf)))] (set_ps_pkg (Some 0) zero_pstate)))))))) in
  let s2 := push_doc_packages (Some (option_map (fun i => (i, 0)) (ps_pkg s1))) s1 in
  let s3 := push_pkg_files (Some (option_map (fun i => (i, 0)) (ps_pkg s2))) (Some (option_map (fun i => (i, 0)) (ps_file s2))) s2 in
  let r4 := parse_pair V22 s3 (("SPDXVersion"), ("SPDX-2.2")) in
  let s5 := after s3 r4 in
  let r6 := parse_pair V22 s5 (("PackageName"), ("whatever")) in
  let s7 := after s5 r6 in
  let r8 := parse_pair V22 s7 (("FileName"), ("whatever")) in
  let s9 := after s7 r8 in
  let r10 := parse_pair V22 s9 (("LicenseID"), ("LicenseRef-Lic22")) in
  let s11 := after s9 r10 in
  [(olift Bool.eqb (failed r4) (Some false));
   (olift Bool.eqb (failed r6) (Some false));
   (olift Bool.eqb (failed r8) (Some false));
   (olift Bool.eqb (failed r10) (Some false))]) = true.
Proof. vm_compute. reflexivity. Qed.
(** /repo/spdx/v2/v2_2/tagvalue/reader/parse_review_test.go 236 *)
Example v22_TestParserCanParseReviewTags : forallb is_false (
  let s1 := (set_ps_st PsReview (set_ps_doc (Some (set_d_Reviews [zero_Review] (set_d_OtherLicenses [(set_ol_LicenseName ("License 11") (set_ol_LicenseIdentifier ("LicenseRef-Lic11") zero_OtherLicense))] (set_d_Packages [] zero_DocumentOf)))) (set_ps_rev (Some 0) (set_ps_lic (Some 0) (set_ps_files [(set_f_SPDXIdentifier ("f1") (set_f_FileName ("f1.txt") zero_FileOf))] (set_ps_file (Some 0) (set_ps_pkgs [(set_p_Files [] (set_p_SPDXIdentifier ("test") (set_p_PackageName ("test") zero_PackageOf)))] (set_ps_pkg (Some 0) zero_pstate)))))))) in
  let s2 := push_doc_packages (Some (option_map (fun i => (i, 0)) (ps_pkg s1))) s1 in
  let s3 := push_pkg_files (Some (option_map (fun i => (i, 0)) (ps_pkg s2))) (Some (option_map (fun i => (i, 0)) (ps_file s2))) s2 in
  let r4 := parse_review V22 ("ReviewDate") ("2018-09-23T08:30:00Z") s3 in
  let s5 := after s3 r4 in
  let r6 := parse_review V22 ("ReviewComment") ("this is a comment") s5 in
  let s7 := after s5 r6 in
  [(option_map negb (olift Bool.eqb (failed r4) (Some false)));
   (option_map negb (olift String.eqb (option_map (fun x => rv_Date x) (obind (Some (option_map (fun i => (i, 0)) (ps_rev s5))) (fun p => obind p (fun p => obind (ps_doc s5) (fun d => nth_error (d_Reviews d) (fst p)))))) (Some ("2018-09-23T08:30:00Z"))));
   (option_map negb (olift Bool.eqb (failed r6) (Some false)));
   (option_map negb (olift String.eqb (option_map (fun x => rv_Comment x) (obind (Some (option_map (fun i => (i, 0)) (ps_rev s7))) (fun p => obind p (fun p => obind (ps_doc s7) (fun d => nth_error (d_Reviews d) (fst p)))))) (Some ("this is a comment"))))]) = true.
Proof. vm_compute. reflexivity. Qed.
(** /repo/spdx/v2/v2_2/tagvalue/reader/parse_review_test.go 275 *)
Example v22_TestParserCanParseReviewerPersonTag : forallb is_false (
  let s1 := (set_ps_st PsReview (set_ps_doc (Some (set_d_Reviews [zero_Review] (set_d_OtherLicenses [(set_ol_LicenseName ("License 11") (set_ol_LicenseIdentifier ("LicenseRef-Lic11") zero_OtherLicense))] (set_d_Packages [] zero_DocumentOf)))) (set_ps_rev (Some 0) (set_ps_lic (Some 0) (set_ps_files [(set_f_SPDXIdentifier ("f1") (set_f_FileName ("f1.txt") zero_FileOf))] (set_ps_file (Some 0) (set_ps_pkgs [(set_p_Files [] (set_p_SPDXIdentifier ("test") (set_p_PackageName ("test") zero_PackageOf)))] (set_ps_pkg (Some 0) zero_pstate)))))))) in
  let s2 := push_doc_packages (Some (option_map (fun i => (i, 0)) (ps_pkg s1))) s1 in
  let s3 := push_pkg_files (Some (option_map (fun i => (i, 0)) (ps_pkg s2))) (Some (option_map (fun i => (i, 0)) (ps_file s2))) s2 in
  let r4 := parse_review V22 ("Reviewer") ("Person: John Doe") s3 in
  let s5 := after s3 r4 in
  [(option_map negb (olift Bool.eqb (failed r4) (Some false)));
   (option_map negb (olift String.eqb (option_map (fun x => rv_Reviewer x) (obind (Some (option_map (fun i => (i, 0)) (ps_rev s5))) (fun p => obind p (fun p => obind (ps_doc s5) (fun d => nth_error (d_Reviews d) (fst p)))))) (Some ("John Doe"))));
   (option_map negb (olift String.eqb (option_map (fun x => rv_ReviewerType x) (obind (Some (option_map (fun i => (i, 0)) (ps_rev s5))) (fun p => obind p (fun p => obind (ps_doc s5) (fun d => nth_error (d_Reviews d) (fst p)))))) (Some ("Person"))))]) = true.
Proof. vm_compute. reflexivity. Qed.
(** /repo/spdx/v2/v2_2/tagvalue/reader/parse_review_test.go 305 *)
Example v22_TestParserCanParseReviewerOrganizationTag : forallb is_false (
  let s1 := (set_ps_st PsReview (set_ps_doc (Some (set_d_Reviews [zero_Review] (set_d_OtherLicenses [(set_ol_LicenseName ("License 11") (set_ol_LicenseIdentifier ("LicenseRef-Lic11") zero_OtherLicense))] (set_d_Packages [] zero_DocumentOf)))) (set_ps_rev (Some 0) (set_ps_lic (Some 0) (set_ps_files [(set_f_SPDXIdentifier ("f1") (set_f_FileName ("f1.txt") zero_FileOf))] (set_ps_file (Some 0) (set_ps_pkgs [(set_p_Files [] (set_p_SPDXIdentifier ("test") (set_p_PackageName ("test") zero_PackageOf)))] (set_ps_pkg (Some 0) zero_pstate)))))))) in
  let s2 := push_doc_packages (Some (option_map (fun i => (i, 0)) (ps_pkg s1))) s1 in
  let s3 := push_pkg_files (Some (option_map (fun i => (i, 0)) (ps_pkg s2))) (Some (option_map (fun i => (i, 0)) (ps_file s2))) s2 in
  let r4 := parse_review V22 ("Reviewer") ("Organization: John Doe, Inc.") s3 in
  let s5 := after s3 r4 in
  [(option_map negb (olift Bool.eqb (failed r4) (Some false)));
   (option_map negb (olift String.eqb (option_map (fun x => rv_Reviewer x) (obind (Some (option_map (fun i => (i, 0)) (ps_rev s5))) (fun p => obind p (fun p => obind (ps_doc s5) (fun d => nth_error (d_Reviews d) (fst p)))))) (Some ("John Doe, Inc."))));
   (option_map negb (olift String.eqb (option_map (fun x => rv_ReviewerType x) (obind (Some (option_map (fun i => (i, 0)) (ps_rev s5))) (fun p => obind p (fun p => obind (ps_doc s5) (fun d => nth_error (d_Reviews d) (fst p)))))) (Some ("Organization"))))]) = true.
Proof. vm_compute. reflexivity. Qed.
(** /repo/spdx/v2/v2_2/tagvalue/reader/parse_review_test.go 335 *)
Example v22_TestParserCanParseReviewerToolTag : forallb is_false (
  let s1 := (set_ps_st PsReview (set_ps_doc (Some (set_d_Reviews [zero_Review] (set_d_OtherLicenses [(set_ol_LicenseName ("License 11") (set_ol_LicenseIdentifier ("LicenseRef-Lic11") zero_OtherLicense))] (set_d_Packages [] zero_DocumentOf)))) (set_ps_rev (Some 0) (set_ps_lic (Some 0) (set_ps_files [(set_f_SPDXIdentifier ("f1") (set_f_FileName ("f1.txt") zero_FileOf))] (set_ps_file (Some 0) (set_ps_pkgs [(set_p_Files [] (set_p_SPDXIdentifier ("test") (set_p_PackageName ("test") zero_PackageOf)))] (set_ps_pkg (Some 0) zero_pstate)))))))) in
  let s2 := push_doc_packages (Some (option_map (fun i => (i, 0)) (ps_pkg s1))) s1 in
  let s3 := push_pkg_files (Some (option_map (fun i => (i, 0)) (ps_pkg s2))) (Some (option_map (fun i => (i, 0)) (ps_file s2))) s2 in
  let r4 := parse_review V22 ("Reviewer") ("Tool: scannertool - 1.2.12") s3 in
  let s5 := after s3 r4 in
  [(option_map negb (olift Bool.eqb (failed r4) (Some false)));
   (option_map negb (olift String.eqb (option_map (fun x => rv_Reviewer x) (obind (Some (option_map (fun i => (i, 0)) (ps_rev s5))) (fun p => obind p (fun p => obind (ps_doc s5) (fun d => nth_error (d_Reviews d) (fst p)))))) (Some ("scannertool - 1.2.12"))));
   (option_map negb (olift String.eqb (option_map (fun x => rv_ReviewerType x) (obind (Some (option_map (fun i => (i, 0)) (ps_rev s5))) (fun p => obind p (fun p => obind (ps_doc s5) (fun d => nth_error (d_Reviews d) (fst p)))))) (Some ("Tool"))))]) = true.
Proof. vm_compute. reflexivity. Qed.
(** /repo/spdx/v2/v2_2/tagvalue/reader/parse_review_test.go 365 *)
Example v22_TestParserFailsIfReviewerInvalidFormat : forallb is_false (
  let s1 := (set_ps_st PsReview (set_ps_doc (Some (set_d_Reviews [zero_Review] (set_d_Packages [] zero_DocumentOf))) (set_ps_rev (Some 0) zero_pstate))) in
  let r2 := parse_review V22 ("Reviewer") ("oops") s1 in
  let s3 := after s1 r2 in
  [(olift Bool.eqb (failed r2) (Some false))]) = true.
Proof. vm_compute. reflexivity. Qed.
(** /repo/spdx/v2/v2_2/tagvalue/reader/parse_review_test.go 379 *)
Example v22_TestParserFailsIfReviewerUnknownType : forallb is_false (
  let s1 := (set_ps_st PsReview (set_ps_doc (Some (set_d_Reviews [zero_Review] (set_d_Packages [] zero_DocumentOf))) (set_ps_rev (Some 0) zero_pstate))) in
  let r2 := parse_review V22 ("Reviewer") ("whoops: John Doe") s1 in
  let s3 := after s1 r2 in
  [(olift Bool.eqb (failed r2) (Some false))]) = true.
Proof. vm_compute. reflexivity. Qed.
(** /repo/spdx/v2/v2_2/tagvalue/reader/parse_review_test.go 393 *)
Example v22_TestParserReviewUnknownTagFails : forallb is_false (
  let s1 := (set_ps_st PsReview (set_ps_doc (Some (set_d_Reviews [zero_Review] (set_d_OtherLicenses [(set_ol_LicenseName ("License 11") (set_ol_LicenseIdentifier ("LicenseRef-Lic11") zero_OtherLicense))] (set_d_Packages [] zero_DocumentOf)))) (set_ps_rev (Some 0) (set_ps_lic (Some 0) (set_ps_files [(set_f_SPDXIdentifier ("f1") (set_f_FileName ("f1.txt") zero_FileOf))] (set_ps_file (Some 0) (set_ps_pkgs [(set_p_Files [] (set_p_SPDXIdentifier ("test") (set_p_PackageName ("test") zero_PackageOf)))] (set_ps_pkg (Some 0) zero_pstate)))))))) in
  let s2 := push_doc_packages (Some (option_map (fun i => (i, 0)) (ps_pkg s1))) s1 in
  let s3 := push_pkg_files (Some (option_map (fun i => (i, 0)) (ps_pkg s2))) (Some (option_map (fun i => (i, 0)) (ps_file s2))) s2 in
  let r4 := parse_review V22 ("blah") ("something") s3 in
  let s5 := after s3 r4 in
  [(olift Bool.eqb (failed r4) (Some false))]) = true.
Proof. vm_compute. reflexivity. Qed.
(** /repo/spdx/v2/v2_2/tagvalue/reader/parse_snippet_test.go 12 *)
Example v22_TestParserSnippetStartsNewSnippetAfterParsingSnippetSPDXIDTag : forallb is_false (
  let s1 := (set_ps_st PsSnippet (set_ps_doc (Some (set_d_Packages [] zero_DocumentOf)) (set_ps_snips [(set_s_SPDXIdentifier ("s1") zero_Snippet)] (set_ps_snip (Some 0) (set_ps_files [(set_f_Snippets [] (set_f_SPDXIdentifier ("f1") (set_f_FileName ("f1.txt") zero_FileOf)))] (set_ps_file (Some 0) (set_ps_pkgs [(set_p_Files [] (set_p_SPDXIdentifier ("test") (set_p_PackageName ("test") zero_PackageOf)))] (set_ps_pkg (Some 0) zero_pstate)))))))) in
  let s2 := push_doc_packages (Some (option_map (fun i => (i, 0)) (ps_pkg s1))) s1 in
  let s3 := push_pkg_files (Some (option_map (fun i => (i, 0)) (ps_pkg s2))) (Some (option_map (fun i => (i, 0)) (ps_file s2))) s2 in
  let s4 := put_snippet (Some (option_map (fun i => (i, 0)) (ps_file s3))) ("s1") (Some (option_map (fun i => (i, 0)) (ps_snip s3))) s3 in
  let r5 := parse_pair V22 s4 (("SnippetSPDXID"), ("SPDXRef-s2")) in
  let s6 := after s4 r5 in
  [(option_map negb (olift Nat.eqb (option_map (@List.length _) (option_map (fun x => f_Snippets x) (obind (Some (option_map (fun i => (i, 0)) (ps_file s4))) (fun p => obind p (fun p => nth_error (ps_files s4) (fst p)))))) (Some 1)));
   (option_map negb (olift ptr_eqb (obind (option_map (fun x => f_Snippets x) (obind (Some (option_map (fun i => (i, 0)) (ps_file s4))) (fun p => obind p (fun p => nth_error (ps_files s4) (fst p))))) (fun m => option_map (fun i => Some (i, 0)) (lookup ("s1") m))) (Some (option_map (fun i => (i, 0)) (ps_snip s1)))));
   (option_map negb (olift String.eqb (option_map (fun x => s_SPDXIdentifier x) (obind (obind (option_map (fun x => f_Snippets x) (obind (Some (option_map (fun i => (i, 0)) (ps_file s4))) (fun p => obind p (fun p => nth_error (ps_files s4) (fst p))))) (fun m => option_map (fun i => Some (i, 0)) (lookup ("s1") m))) (fun p => obind p (fun p => nth_error (ps_snips s4) (fst p))))) (Some ("s1"))));
   (option_map negb (olift Bool.eqb (failed r5) (Some false)));
   (option_map negb (olift pst_eqb (Some (ps_st s6)) (Some PsSnippet)));
   (olift ptr_eqb (Some (option_map (fun i => (i, 0)) (ps_snip s6))) (Some None));
   (option_map negb (olift String.eqb (option_map (fun x => s_SPDXIdentifier x) (obind (Some (option_map (fun i => (i, 0)) (ps_snip s6))) (fun p => obind p (fun p => nth_error (ps_snips s6) (fst p))))) (Some ("s2"))));
   (option_map negb (olift Nat.eqb (option_map (@List.length _) (option_map (fun x => f_Snippets x) (obind (Some (option_map (fun i => (i, 0)) (ps_file s6))) (fun p => obind p (fun p => nth_error (ps_files s6) (fst p)))))) (Some 2)));
   (option_map negb (olift ptr_eqb (obind (option_map (fun x => f_Snippets x) (obind (Some (option_map (fun i => (i, 0)) (ps_file s6))) (fun p => obind p (fun p => nth_error (ps_files s6) (fst p))))) (fun m => option_map (fun i => Some (i, 0)) (lookup ("s1") m))) (Some (option_map (fun i => (i, 0)) (ps_snip s1)))));
   (option_map negb (olift String.eqb (option_map (fun x => s_SPDXIdentifier x) (obind (obind (option_map (fun x => f_Snippets x) (obind (Some (option_map (fun i => (i, 0)) (ps_file s6))) (fun p => obind p (fun p => nth_error (ps_files s6) (fst p))))) (fun m => option_map (fun i => Some (i, 0)) (lookup ("s1") m))) (fun p => obind p (fun p => nth_error (ps_snips s6) (fst p))))) (Some ("s1"))));
   (option_map negb (olift ptr_eqb (obind (option_map (fun x => f_Snippets x) (obind (Some (option_map (fun i => (i, 0)) (ps_file s6))) (fun p => obind p (fun p => nth_error (ps_files s6) (fst p))))) (fun m => option_map (fun i => Some (i, 0)) (lookup ("s2") m))) (Some (option_map (fun i => (i, 0)) (ps_snip s6)))));
   (option_map negb (olift String.eqb (option_map (fun x => s_SPDXIdentifier x) (obind (obind (option_map (fun x => f_Snippets x) (obind (Some (option_map (fun i => (i, 0)) (ps_file s6))) (fun p => obind p (fun p => nth_error (ps_files s6) (fst p))))) (fun m => option_map (fun i => Some (i, 0)) (lookup ("s2") m))) (fun p => obind p (fun p => nth_error (ps_snips s6) (fst p))))) (Some ("s2"))))]) = true.
Proof. vm_compute. reflexivity. Qed.
(** /repo/spdx/v2/v2_2/tagvalue/reader/parse_snippet_test.go 73 *)
Example v22_TestParserSnippetStartsNewPackageAfterParsingPackageNameTag : forallb is_false (
  let s1 := (set_ps_st PsSnippet (set_ps_doc (Some (set_d_Packages [] zero_DocumentOf)) (set_ps_snips [(set_s_SPDXIdentifier ("s1") zero_Snippet)] (set_ps_snip (Some 0) (set_ps_files [(set_f_Snippets [] (set_f_SPDXIdentifier ("f1") (set_f_FileName ("f1.txt") zero_FileOf)))] (set_ps_file (Some 0) (set_ps_pkgs [(set_p_Files [] (set_p_SPDXIdentifier ("package1") (set_p_PackageName ("package1") zero_PackageOf)))] (set_ps_pkg (Some 0) zero_pstate)))))))) in
  let s2 := push_doc_packages (Some (option_map (fun i => (i, 0)) (ps_pkg s1))) s1 in
  let s3 := push_pkg_files (Some (option_map (fun i => (i, 0)) (ps_pkg s2))) (Some (option_map (fun i => (i, 0)) (ps_file s2))) s2 in
  let s4 := put_snippet (Some (option_map (fun i => (i, 0)) (ps_file s3))) ("s1") (Some (option_map (fun i => (i, 0)) (ps_snip s3))) s3 in
  let r5 := parse_pair V22 s4 (("PackageName"), ("package2")) in
  let s6 := after s4 r5 in
  [(option_map negb (olift Bool.eqb (failed r5) (Some false)));
   (option_map negb (olift pst_eqb (Some (ps_st s6)) (Some PsPackage)));
   (olift ptr_eqb (Some (option_map (fun i => (i, 0)) (ps_pkg s6))) (Some None));
   (option_map negb (olift String.eqb (option_map (fun x => p_PackageName x) (obind (Some (option_map (fun i => (i, 0)) (ps_pkg s6))) (fun p => obind p (fun p => nth_error (ps_pkgs s6) (fst p))))) (Some ("package2"))));
   (option_map negb (option_map (fun x => p_FilesAnalyzed x) (obind (Some (option_map (fun i => (i, 0)) (ps_pkg s6))) (fun p => obind p (fun p => nth_error (ps_pkgs s6) (fst p))))));
   (option_map (fun x => p_IsFilesAnalyzedTagPresent x) (obind (Some (option_map (fun i => (i, 0)) (ps_pkg s6))) (fun p => obind p (fun p => nth_error (ps_pkgs s6) (fst p)))));
   (option_map negb (olift Nat.eqb (option_map (@List.length _) (option_map (map (fun i => Some (i, 0))) (option_map (fun x => d_Packages x) (obind (Some (ps_doc s6)) (fun o => o))))) (Some 1)));
   (option_map negb (olift ptr_eqb (obind (option_map (map (fun i => Some (i, 0))) (option_map (fun x => d_Packages x) (obind (Some (ps_doc s6)) (fun o => o)))) (fun l => nth_error l 0)) (Some (option_map (fun i => (i, 0)) (ps_pkg s1)))));
   (option_map negb (olift String.eqb (option_map (fun x => p_PackageName x) (obind (obind (option_map (map (fun i => Some (i, 0))) (option_map (fun x => d_Packages x) (obind (Some (ps_doc s6)) (fun o => o)))) (fun l => nth_error l 0)) (fun p => obind p (fun p => nth_error (ps_pkgs s6) (fst p))))) (Some ("package1"))));
   (option_map negb (olift Nat.eqb (option_map (@List.length _) (option_map (map (fun i => Some (i, 0))) (option_map (fun x => p_Files x) (obind (obind (option_map (map (fun i => Some (i, 0))) (option_map (fun x => d_Packages x) (obind (Some (ps_doc s6)) (fun o => o)))) (fun l => nth_error l 0)) (fun p => obind p (fun p => nth_error (ps_pkgs s6) (fst p))))))) (Some 1)));
   (option_map negb (olift ptr_eqb (obind (option_map (map (fun i => Some (i, 0))) (option_map (fun x => p_Files x) (obind (obind (option_map (map (fun i => Some (i, 0))) (option_map (fun x => d_Packages x) (obind (Some (ps_doc s6)) (fun o => o)))) (fun l => nth_error l 0)) (fun p => obind p (fun p => nth_error (ps_pkgs s6) (fst p)))))) (fun l => nth_error l 0)) (Some (option_map (fun i => (i, 0)) (ps_file s1)))));
   (option_map negb (olift String.eqb (option_map (fun x => f_FileName x) (obind (obind (option_map (map (fun i => Some (i, 0))) (option_map (fun x => p_Files x) (obind (obind (option_map (map (fun i => Some (i, 0))) (option_map (fun x => d_Packages x) (obind (Some (ps_doc s6)) (fun o => o)))) (fun l => nth_error l 0)) (fun p => obind p (fun p => nth_error (ps_pkgs s6) (fst p)))))) (fun l => nth_error l 0)) (fun p => obind p (fun p => nth_error (ps_files s6) (fst p))))) (Some ("f1.txt"))));
   (option_map negb (olift Nat.eqb (option_map (@List.length _) (option_map (map (fun i => Some (i, 0))) (option_map (fun x => p_Files x) (obind (Some (option_map (fun i => (i, 0)) (ps_pkg s6))) (fun p => obind p (fun p => nth_error (ps_pkgs s6) (fst p))))))) (Some 0)));
   (option_map negb (olift ptr_eqb (Some (option_map (fun i => (i, 0)) (ps_file s6))) (Some None)));
   (option_map negb (olift ptr_eqb (Some (option_map (fun i => (i, 0)) (ps_snip s6))) (Some None)))]) = true.
Proof. vm_compute. reflexivity. Qed.
(** /repo/spdx/v2/v2_2/tagvalue/reader/parse_snippet_test.go 147 *)
Example v22_TestParserSnippetMovesToFileAfterParsingFileNameTag : forallb is_false (
  let s1 := (set_ps_st PsSnippet (set_ps_doc (Some (set_d_Packages [] zero_DocumentOf)) (set_ps_snips [(set_s_SPDXIdentifier ("s1") zero_Snippet)] (set_ps_snip (Some 0) (set_ps_files [(set_f_Snippets [] (set_f_SPDXIdentifier ("f1") (set_f_FileName ("f1.txt") zero_FileOf)))] (set_ps_file (Some 0) (set_ps_pkgs [(set_p_Files [] (set_p_SPDXIdentifier ("package1") (set_p_PackageName ("package1") zero_PackageOf)))] (set_ps_pkg (Some 0) zero_pstate)))))))) in
  let s2 := push_doc_packages (Some (option_map (fun i => (i, 0)) (ps_pkg s1))) s1 in
  let s3 := push_pkg_files (Some (option_map (fun i => (i, 0)) (ps_pkg s2))) (Some (option_map (fun i => (i, 0)) (ps_file s2))) s2 in
  let s4 := put_snippet (Some (option_map (fun i => (i, 0)) (ps_file s3))) ("s1") (Some (option_map (fun i => (i, 0)) (ps_snip s3))) s3 in
  let r5 := parse_pair V22 s4 (("FileName"), ("f2.txt")) in
  let s6 := after s4 r5 in
  [(option_map negb (olift Bool.eqb (failed r5) (Some false)));
   (option_map negb (olift pst_eqb (Some (ps_st s6)) (Some PsFile)));
   (option_map negb (olift ptr_eqb (Some (option_map (fun i => (i, 0)) (ps_pkg s6))) (Some (option_map (fun i => (i, 0)) (ps_pkg s1)))));
   (olift ptr_eqb (Some (option_map (fun i => (i, 0)) (ps_file s6))) (Some None));
   (option_map negb (olift String.eqb (option_map (fun x => f_FileName x) (obind (Some (option_map (fun i => (i, 0)) (ps_file s6))) (fun p => obind p (fun p => nth_error (ps_files s6) (fst p))))) (Some ("f2.txt"))));
   (option_map negb (olift Nat.eqb (option_map (@List.length _) (option_map (map (fun i => Some (i, 0))) (option_map (fun x => p_Files x) (obind (Some (option_map (fun i => (i, 0)) (ps_pkg s6))) (fun p => obind p (fun p => nth_error (ps_pkgs s6) (fst p))))))) (Some 1)));
   (option_map negb (olift ptr_eqb (obind (option_map (map (fun i => Some (i, 0))) (option_map (fun x => p_Files x) (obind (Some (option_map (fun i => (i, 0)) (ps_pkg s6))) (fun p => obind p (fun p => nth_error (ps_pkgs s6) (fst p)))))) (fun l => nth_error l 0)) (Some (option_map (fun i => (i, 0)) (ps_file s1)))));
   (option_map negb (olift String.eqb (option_map (fun x => f_FileName x) (obind (obind (option_map (map (fun i => Some (i, 0))) (option_map (fun x => p_Files x) (obind (Some (option_map (fun i => (i, 0)) (ps_pkg s6))) (fun p => obind p (fun p => nth_error (ps_pkgs s6) (fst p)))))) (fun l => nth_error l 0)) (fun p => obind p (fun p => nth_error (ps_files s6) (fst p))))) (Some ("f1.txt"))));
   (option_map negb (olift ptr_eqb (Some (option_map (fun i => (i, 0)) (ps_snip s6))) (Some None)))]) = true.
Proof. vm_compute. reflexivity. Qed.
(** /repo/spdx/v2/v2_2/tagvalue/reader/parse_snippet_test.go 200 *)
Example v22_TestParserSnippetMovesToOtherLicenseAfterParsingLicenseIDTag : forallb is_false (
  let s1 := (set_ps_st PsSnippet (set_ps_doc (Some (set_d_Packages [] zero_DocumentOf)) (set_ps_snips [(set_s_SPDXIdentifier ("s1") zero_Snippet)] (set_ps_snip (Some 0) (set_ps_files [(set_f_Snippets [] (set_f_SPDXIdentifier ("f1") (set_f_FileName ("f1.txt") zero_FileOf)))] (set_ps_file (Some 0) (set_ps_pkgs [(set_p_Files [] (set_p_SPDXIdentifier ("package1") (set_p_PackageName ("package1") zero_PackageOf)))] (set_ps_pkg (Some 0) zero_pstate)))))))) in
  let s2 := push_doc_packages (Some (option_map (fun i => (i, 0)) (ps_pkg s1))) s1 in
  let s3 := push_pkg_files (Some (option_map (fun i => (i, 0)) (ps_pkg s2))) (Some (option_map (fun i => (i, 0)) (ps_file s2))) s2 in
  let s4 := put_snippet (Some (option_map (fun i => (i, 0)) (ps_file s3))) ("s1") (Some (option_map (fun i => (i, 0)) (ps_snip s3))) s3 in
  let r5 := parse_pair V22 s4 (("LicenseID"), ("LicenseRef-TestLic")) in
  let s6 := after s4 r5 in
  [(option_map negb (olift Bool.eqb (failed r5) (Some false)));
   (option_map negb (olift pst_eqb (Some (ps_st s6)) (Some PsOtherLicense)))]) = true.
Proof. vm_compute. reflexivity. Qed.
(** /repo/spdx/v2/v2_2/tagvalue/reader/parse_snippet_test.go 221 *)
Example v22_TestParserSnippetMovesToReviewAfterParsingReviewerTag : forallb is_false (
  let s1 := (set_ps_st PsSnippet (set_ps_doc (Some (set_d_Packages [] zero_DocumentOf)) (set_ps_snips [(set_s_SPDXIdentifier ("s1") zero_Snippet)] (set_ps_snip (Some 0) (set_ps_files [(set_f_Snippets [] (set_f_SPDXIdentifier ("f1") (set_f_FileName ("f1.txt") zero_FileOf)))] (set_ps_file (Some 0) (set_ps_pkgs [(set_p_Files [] (set_p_SPDXIdentifier ("package1") (set_p_PackageName ("package1") zero_PackageOf)))] (set_ps_pkg (Some 0) zero_pstate)))))))) in
  let s2 := push_doc_packages (Some (option_map (fun i => (i, 0)) (ps_pkg s1))) s1 in
  let s3 := push_pkg_files (Some (option_map (fun i => (i, 0)) (ps_pkg s2))) (Some (option_map (fun i => (i, 0)) (ps_file s2))) s2 in
  let s4 := put_snippet (Some (option_map (fun i => (i, 0)) (ps_file s3))) ("s1") (Some (option_map (fun i => (i, 0)) (ps_snip s3))) s3 in
  let r5 := parse_pair V22 s4 (("Reviewer"), ("Person: John Doe")) in
  let s6 := after s4 r5 in
  [(option_map negb (olift Bool.eqb (failed r5) (Some false)));
   (option_map negb (olift pst_eqb (Some (ps_st s6)) (Some PsReview)))]) = true.
Proof. vm_compute. reflexivity. Qed.
(** /repo/spdx/v2/v2_2/tagvalue/reader/parse_snippet_test.go 242 *)
Example v22_TestParserSnippetStaysAfterParsingRelationshipTags : forallb is_false (
  let s1 := (set_ps_st PsSnippet (set_ps_doc (Some (set_d_Packages [] zero_DocumentOf)) (set_ps_snips [(set_s_SPDXIdentifier ("s1") zero_Snippet)] (set_ps_snip (Some 0) (set_ps_files [(set_f_Snippets [] (set_f_SPDXIdentifier ("f1") (set_f_FileName ("f1.txt") zero_FileOf)))] (set_ps_file (Some 0) (set_ps_pkgs [(set_p_Files [] (set_p_SPDXIdentifier ("package1") (set_p_PackageName ("package1") zero_PackageOf)))] (set_ps_pkg (Some 0) zero_pstate)))))))) in
  let s2 := push_doc_packages (Some (option_map (fun i => (i, 0)) (ps_pkg s1))) s1 in
  let s3 := push_pkg_files (Some (option_map (fun i => (i, 0)) (ps_pkg s2))) (Some (option_map (fun i => (i, 0)) (ps_file s2))) s2 in
  let s4 := put_snippet (Some (option_map (fun i => (i, 0)) (ps_file s3))) ("s1") (Some (option_map (fun i => (i, 0)) (ps_snip s3))) s3 in
  let r5 := parse_pair V22 s4 (("Relationship"), ("SPDXRef-blah CONTAINS SPDXRef-blah-else")) in
  let s6 := after s4 r5 in
  let r7 := parse_pair V22 s6 (("RelationshipComment"), ("blah")) in
  let s8 := after s6 r7 in
  [(option_map negb (olift Bool.eqb (failed r5) (Some false)));
   (option_map negb (olift pst_eqb (Some (ps_st s6)) (Some PsSnippet)));
   (option_map negb (olift Nat.eqb (option_map (@List.length _) (option_map (fun l => map (fun i => Some (i, 0)) (seq 0 (List.length l))) (option_map (fun x => d_Relationships x) (obind (Some (ps_doc s6)) (fun o => o))))) (Some 1)));
   (olift orb (option_map negb (olift String.eqb (option_map (fun x => de_DocumentRefID x) (option_map (fun x => r_RefA x) (obind (obind (option_map (fun l => map (fun i => Some (i, 0)) (seq 0 (List.length l))) (option_map (fun x => d_Relationships x) (obind (Some (ps_doc s6)) (fun o => o)))) (fun l => nth_error l 0)) (fun p => obind p (fun p => obind (ps_doc s6) (fun d => nth_error (d_Relationships d) (fst p))))))) (Some ("")))) (option_map negb (olift String.eqb (option_map (fun x => de_ElementRefID x) (option_map (fun x => r_RefA x) (obind (obind (option_map (fun l => map (fun i => Some (i, 0)) (seq 0 (List.length l))) (option_map (fun x => d_Relationships x) (obind (Some (ps_doc s6)) (fun o => o)))) (fun l => nth_error l 0)) (fun p => obind p (fun p => obind (ps_doc s6) (fun d => nth_error (d_Relationships d) (fst p))))))) (Some ("blah")))));
   (option_map negb (olift Bool.eqb (failed r7) (Some false)));
   (option_map negb (olift pst_eqb (Some (ps_st s8)) (Some PsSnippet)))]) = true.
Proof. vm_compute. reflexivity. Qed.
(** /repo/spdx/v2/v2_2/tagvalue/reader/parse_snippet_test.go 281 *)
Example v22_TestParserSnippetStaysAfterParsingAnnotationTags : forallb is_false (
  let s1 := (set_ps_st PsSnippet (set_ps_doc (Some (set_d_Packages [] zero_DocumentOf)) (set_ps_snips [(set_s_SPDXIdentifier ("s1") zero_Snippet)] (set_ps_snip (Some 0) (set_ps_files [(set_f_Snippets [] (set_f_SPDXIdentifier ("f1") (set_f_FileName ("f1.txt") zero_FileOf)))] (set_ps_file (Some 0) (set_ps_pkgs [(set_p_Files [] (set_p_SPDXIdentifier ("package1") (set_p_PackageName ("package1") zero_PackageOf)))] (set_ps_pkg (Some 0) zero_pstate)))))))) in
  let s2 := push_doc_packages (Some (option_map (fun i => (i, 0)) (ps_pkg s1))) s1 in
  let s3 := push_pkg_files (Some (option_map (fun i => (i, 0)) (ps_pkg s2))) (Some (option_map (fun i => (i, 0)) (ps_file s2))) s2 in
  let s4 := put_snippet (Some (option_map (fun i => (i, 0)) (ps_file s3))) ("s1") (Some (option_map (fun i => (i, 0)) (ps_snip s3))) s3 in
  let r5 := parse_pair V22 s4 (("Annotator"), ("Person: John Doe ()")) in
  let s6 := after s4 r5 in
  let r7 := parse_pair V22 s6 (("AnnotationDate"), ("2018-09-15T00:36:00Z")) in
  let s8 := after s6 r7 in
  let r9 := parse_pair V22 s8 (("AnnotationType"), ("REVIEW")) in
  let s10 := after s8 r9 in
  let r11 := parse_pair V22 s10 (("SPDXREF"), ("SPDXRef-45")) in
  let s12 := after s10 r11 in
  let r13 := parse_pair V22 s12 (("AnnotationComment"), ("i guess i had something to say about this particular file")) in
  let s14 := after s12 r13 in
  [(option_map negb (olift Bool.eqb (failed r5) (Some false)));
   (option_map negb (olift pst_eqb (Some (ps_st s6)) (Some PsSnippet)));
   (option_map negb (olift Bool.eqb (failed r7) (Some false)));
   (option_map negb (olift pst_eqb (Some (ps_st s8)) (Some PsSnippet)));
   (option_map negb (olift Bool.eqb (failed r9) (Some false)));
   (option_map negb (olift pst_eqb (Some (ps_st s10)) (Some PsSnippet)));
   (option_map negb (olift Bool.eqb (failed r11) (Some false)));
   (option_map negb (olift pst_eqb (Some (ps_st s12)) (Some PsSnippet)));
   (option_map negb (olift Bool.eqb (failed r13) (Some false)));
   (option_map negb (olift pst_eqb (Some (ps_st s14)) (Some PsSnippet)));
   (option_map negb (olift Nat.eqb (option_map (@List.length _) (option_map (fun l => map (fun i => Some (i, 0)) (seq 0 (List.length l))) (option_map (fun x => d_Annotations x) (obind (Some (ps_doc s14)) (fun o => o))))) (Some 1)));
   (option_map negb (olift String.eqb (option_map (fun x => an_Annotator x) (option_map (fun x => a_Annotator x) (obind (obind (option_map (fun l => map (fun i => Some (i, 0)) (seq 0 (List.length l))) (option_map (fun x => d_Annotations x) (obind (Some (ps_doc s14)) (fun o => o)))) (fun l => nth_error l 0)) (fun p => obind p (fun p => obind (ps_doc s14) (fun d => nth_error (d_Annotations d) (fst p))))))) (Some ("John Doe ()"))))]) = true.
Proof. vm_compute. reflexivity. Qed.
(** /repo/spdx/v2/v2_2/tagvalue/reader/parse_snippet_test.go 343 *)
Example v22_TestParserCanParseSnippetTags : forallb is_false (
  let s1 := (set_ps_st PsSnippet (set_ps_doc (Some (set_d_Packages [] zero_DocumentOf)) (set_ps_snips [zero_Snippet] (set_ps_snip (Some 0) (set_ps_files [(set_f_Snippets [] (set_f_SPDXIdentifier ("f1") (set_f_FileName ("f1.txt") zero_FileOf)))] (set_ps_file (Some 0) (set_ps_pkgs [(set_p_Files [] (set_p_SPDXIdentifier ("package1") (set_p_PackageName ("package1") zero_PackageOf)))] (set_ps_pkg (Some 0) zero_pstate)))))))) in
  let s2 := push_doc_packages (Some (option_map (fun i => (i, 0)) (ps_pkg s1))) s1 in
  let s3 := push_pkg_files (Some (option_map (fun i => (i, 0)) (ps_pkg s2))) (Some (option_map (fun i => (i, 0)) (ps_file s2))) s2 in
  let r4 := parse_snippet V22 ("SnippetSPDXID") ("SPDXRef-s1") s3 in
  let s5 := after s3 r4 in
  let r6 := parse_snippet V22 ("SnippetFromFileSPDXID") ("SPDXRef-f1") s5 in
  let s7 := after s5 r6 in
  let r8 := parse_snippet V22 ("SnippetByteRange") ("20:320") s7 in
  let s9 := after s7 r8 in
  let r10 := parse_snippet V22 ("SnippetLineRange") ("5:12") s9 in
  let s11 := after s9 r10 in
  let r12 := parse_snippet V22 ("SnippetLicenseConcluded") ("BSD-3-Clause") s11 in
  let s13 := after s11 r12 in
  let r14 := parse_snippet V22 ("LicenseInfoInSnippet") ("Apache-2.0") s13 in
  let s15 := after s13 r14 in
  let r16 := parse_snippet V22 ("LicenseInfoInSnippet") ("GPL-2.0-or-later") s15 in
  let s17 := after s15 r16 in
  let r18 := parse_snippet V22 ("LicenseInfoInSnippet") ("CC0-1.0") s17 in
  let s19 := after s17 r18 in
  let r20 := parse_snippet V22 ("SnippetLicenseComments") ("this is a comment about the licenses") s19 in
  let s21 := after s19 r20 in
  let r22 := parse_snippet V22 ("SnippetCopyrightText") ("copyright (c) John Doe and friends") s21 in
  let s23 := after s21 r22 in
  let r24 := parse_snippet V22 ("SnippetComment") ("this is a comment about the snippet") s23 in
  let s25 := after s23 r24 in
  let r26 := parse_snippet V22 ("SnippetName") ("from some other package called abc") s25 in
  let s27 := after s25 r26 in
  let r28 := parse_snippet V22 ("SnippetAttributionText") ("Include this notice in all advertising materials") s27 in
  let s29 := after s27 r28 in
  let r30 := parse_snippet V22 ("SnippetAttributionText") ("This is a 
multi-line string") s29 in
  let s31 := after s29 r30 in
  [(option_map negb (olift Bool.eqb (failed r4) (Some false)));
   (option_map negb (olift String.eqb (option_map (fun x => s_SPDXIdentifier x) (obind (Some (option_map (fun i => (i, 0)) (ps_snip s5))) (fun p => obind p (fun p => nth_error (ps_snips s5) (fst p))))) (Some ("s1"))));
   (option_map negb (olift Bool.eqb (failed r6) (Some false)));
   (option_map negb (olift String.eqb (option_map (fun x => s_FromFile x) (obind (Some (option_map (fun i => (i, 0)) (ps_snip s7))) (fun p => obind p (fun p => nth_error (ps_snips s7) (fst p))))) (Some ("f1"))));
   (option_map negb (olift Bool.eqb (failed r8) (Some false)));
   (option_map negb (olift Z.eqb (option_map (fun x => rp_Offset x) (option_map (fun x => sr_StartPointer x) (obind (option_map (fun x => s_Ranges x) (obind (Some (option_map (fun i => (i, 0)) (ps_snip s9))) (fun p => obind p (fun p => nth_error (ps_snips s9) (fst p))))) (fun l => nth_error l 0)))) (Some 20%Z)));
   (option_map negb (olift Z.eqb (option_map (fun x => rp_Offset x) (option_map (fun x => sr_EndPointer x) (obind (option_map (fun x => s_Ranges x) (obind (Some (option_map (fun i => (i, 0)) (ps_snip s9))) (fun p => obind p (fun p => nth_error (ps_snips s9) (fst p))))) (fun l => nth_error l 0)))) (Some 320%Z)));
   (option_map negb (olift Bool.eqb (failed r10) (Some false)));
   (option_map negb (olift Z.eqb (option_map (fun x => rp_LineNumber x) (option_map (fun x => sr_StartPointer x) (obind (option_map (fun x => s_Ranges x) (obind (Some (option_map (fun i => (i, 0)) (ps_snip s11))) (fun p => obind p (fun p => nth_error (ps_snips s11) (fst p))))) (fun l => nth_error l 1)))) (Some 5%Z)));
   (option_map negb (olift Z.eqb (option_map (fun x => rp_LineNumber x) (option_map (fun x => sr_EndPointer x) (obind (option_map (fun x => s_Ranges x) (obind (Some (option_map (fun i => (i, 0)) (ps_snip s11))) (fun p => obind p (fun p => nth_error (ps_snips s11) (fst p))))) (fun l => nth_error l 1)))) (Some 12%Z)));
   (option_map negb (olift Bool.eqb (failed r12) (Some false)));
   (option_map negb (olift String.eqb (option_map (fun x => s_LicenseConcluded x) (obind (Some (option_map (fun i => (i, 0)) (ps_snip s13))) (fun p => obind p (fun p => nth_error (ps_snips s13) (fst p))))) (Some ("BSD-3-Clause"))));
   (option_map negb (olift Bool.eqb (failed r14) (Some false)));
   (option_map negb (olift Bool.eqb (failed r16) (Some false)));
   (option_map negb (olift Bool.eqb (failed r18) (Some false)));
   (option_map negb (option_map (mem ("Apache-2.0")) (option_map (fun x => s_LicenseInfoInSnippet x) (obind (Some (option_map (fun i => (i, 0)) (ps_snip s19))) (fun p => obind p (fun p => nth_error (ps_snips s19) (fst p)))))));
   (option_map negb (option_map (mem ("GPL-2.0-or-later")) (option_map (fun x => s_LicenseInfoInSnippet x) (obind (Some (option_map (fun i => (i, 0)) (ps_snip s19))) (fun p => obind p (fun p => nth_error (ps_snips s19) (fst p)))))));
   (option_map negb (option_map (mem ("CC0-1.0")) (option_map (fun x => s_LicenseInfoInSnippet x) (obind (Some (option_map (fun i => (i, 0)) (ps_snip s19))) (fun p => obind p (fun p => nth_error (ps_snips s19) (fst p)))))));
   (option_map negb (olift Nat.eqb (option_map (@List.length _) (option_map (fun x => s_LicenseInfoInSnippet x) (obind (Some (option_map (fun i => (i, 0)) (ps_snip s19))) (fun p => obind p (fun p => nth_error (ps_snips s19) (fst p)))))) (Some 3)));
   (option_map negb (olift Bool.eqb (failed r20) (Some false)));
   (option_map negb (olift String.eqb (option_map (fun x => s_LicenseComments x) (obind (Some (option_map (fun i => (i, 0)) (ps_snip s21))) (fun p => obind p (fun p => nth_error (ps_snips s21) (fst p))))) (Some ("this is a comment about the licenses"))));
   (option_map negb (olift Bool.eqb (failed r22) (Some false)));
   (option_map negb (olift String.eqb (option_map (fun x => s_CopyrightText x) (obind (Some (option_map (fun i => (i, 0)) (ps_snip s23))) (fun p => obind p (fun p => nth_error (ps_snips s23) (fst p))))) (Some ("copyright (c) John Doe and friends"))));
   (option_map negb (olift Bool.eqb (failed r24) (Some false)));
   (option_map negb (olift String.eqb (option_map (fun x => s_Comment x) (obind (Some (option_map (fun i => (i, 0)) (ps_snip s25))) (fun p => obind p (fun p => nth_error (ps_snips s25) (fst p))))) (Some ("this is a comment about the snippet"))));
   (option_map negb (olift Bool.eqb (failed r26) (Some false)));
   (option_map negb (olift String.eqb (option_map (fun x => s_Name x) (obind (Some (option_map (fun i => (i, 0)) (ps_snip s27))) (fun p => obind p (fun p => nth_error (ps_snips s27) (fst p))))) (Some ("from some other package called abc"))));
   (option_map negb (olift Bool.eqb (failed r28) (Some false)));
   (option_map negb (olift Bool.eqb (failed r30) (Some false)));
   (option_map negb (option_map (mem ("Include this notice in all advertising materials")) (option_map (fun x => s_AttributionTexts x) (obind (Some (option_map (fun i => (i, 0)) (ps_snip s31))) (fun p => obind p (fun p => nth_error (ps_snips s31) (fst p)))))));
   (option_map negb (option_map (mem ("This is a 
multi-line string")) (option_map (fun x => s_AttributionTexts x) (obind (Some (option_map (fun i => (i, 0)) (ps_snip s31))) (fun p => obind p (fun p => nth_error (ps_snips s31) (fst p)))))));
   (option_map negb (olift Nat.eqb (option_map (@List.length _) (option_map (fun x => s_AttributionTexts x) (obind (Some (option_map (fun i => (i, 0)) (ps_snip s31))) (fun p => obind p (fun p => nth_error (ps_snips s31) (fst p)))))) (Some 2)))]) = true.
Proof. vm_compute. reflexivity. Qed.
(** /repo/spdx/v2/v2_2/tagvalue/reader/parse_snippet_test.go 499 *)
Example v22_TestParserSnippetUnknownTagFails : forallb is_false (
  let s1 := (set_ps_st PsSnippet (set_ps_doc (Some (set_d_Packages [] zero_DocumentOf)) (set_ps_snips [(set_s_SPDXIdentifier ("s1") zero_Snippet)] (set_ps_snip (Some 0) (set_ps_files [(set_f_Snippets [] (set_f_SPDXIdentifier ("f1") (set_f_FileName ("f1.txt") zero_FileOf)))] (set_ps_file (Some 0) (set_ps_pkgs [(set_p_Files [] (set_p_SPDXIdentifier ("package1") (set_p_PackageName ("package1") zero_PackageOf)))] (set_ps_pkg (Some 0) zero_pstate)))))))) in
  let s2 := push_doc_packages (Some (option_map (fun i => (i, 0)) (ps_pkg s1))) s1 in
  let s3 := push_pkg_files (Some (option_map (fun i => (i, 0)) (ps_pkg s2))) (Some (option_map (fun i => (i, 0)) (ps_file s2))) s2 in
  let r4 := parse_snippet V22 ("blah") ("something") s3 in
  let s5 := after s3 r4 in
  [(olift Bool.eqb (failed r4) (Some false))]) = true.
Proof. vm_compute. reflexivity. Qed.
(** /repo/spdx/v2/v2_2/tagvalue/reader/parse_snippet_test.go 516 *)
Example v22_TestParserFailsForInvalidSnippetSPDXID : forallb is_false (
  let s1 := (set_ps_st PsSnippet (set_ps_doc (Some (set_d_Packages [] zero_DocumentOf)) (set_ps_snips [zero_Snippet] (set_ps_snip (Some 0) (set_ps_files [(set_f_Snippets [] (set_f_SPDXIdentifier ("f1") (set_f_FileName ("f1.txt") zero_FileOf)))] (set_ps_file (Some 0) (set_ps_pkgs [(set_p_Files [] (set_p_SPDXIdentifier ("package1") (set_p_PackageName ("package1") zero_PackageOf)))] (set_ps_pkg (Some 0) zero_pstate)))))))) in
  let s2 := push_doc_packages (Some (option_map (fun i => (i, 0)) (ps_pkg s1))) s1 in
  let s3 := push_pkg_files (Some (option_map (fun i => (i, 0)) (ps_pkg s2))) (Some (option_map (fun i => (i, 0)) (ps_file s2))) s2 in
  let r4 := parse_snippet V22 ("SnippetSPDXID") ("whoops") s3 in
  let s5 := after s3 r4 in
  [(olift Bool.eqb (failed r4) (Some false))]) = true.
Proof. vm_compute. reflexivity. Qed.
(** /repo/spdx/v2/v2_2/tagvalue/reader/parse_snippet_test.go 534 *)
Example v22_TestParserFailsForInvalidSnippetFromFileSPDXID : forallb is_false (
  let s1 := (set_ps_st PsSnippet (set_ps_doc (Some (set_d_Packages [] zero_DocumentOf)) (set_ps_snips [zero_Snippet] (set_ps_snip (Some 0) (set_ps_files [(set_f_Snippets [] (set_f_SPDXIdentifier ("f1") (set_f_FileName ("f1.txt") zero_FileOf)))] (set_ps_file (Some 0) (set_ps_pkgs [(set_p_Files [] (set_p_SPDXIdentifier ("package1") (set_p_PackageName ("package1") zero_PackageOf)))] (set_ps_pkg (Some 0) zero_pstate)))))))) in
  let s2 := push_doc_packages (Some (option_map (fun i => (i, 0)) (ps_pkg s1))) s1 in
  let s3 := push_pkg_files (Some (option_map (fun i => (i, 0)) (ps_pkg s2))) (Some (option_map (fun i => (i, 0)) (ps_file s2))) s2 in
  let r4 := parse_snippet V22 ("SnippetSPDXID") ("SPDXRef-s1") s3 in
  let s5 := after s3 r4 in
  let r6 := parse_snippet V22 ("SnippetFromFileSPDXID") ("whoops") s5 in
  let s7 := after s5 r6 in
  [(option_map negb (olift Bool.eqb (failed r4) (Some false)));
   (olift Bool.eqb (failed r6) (Some false))]) = true.
Proof. vm_compute. reflexivity. Qed.
(** /repo/spdx/v2/v2_2/tagvalue/reader/parse_snippet_test.go 557 *)
Example v22_TestParserFailsForInvalidSnippetByteValues : forallb is_false (
  let s1 := (set_ps_st PsSnippet (set_ps_doc (Some (set_d_Packages [] zero_DocumentOf)) (set_ps_snips [zero_Snippet] (set_ps_snip (Some 0) (set_ps_files [(set_f_Snippets [] (set_f_SPDXIdentifier ("f1") (set_f_FileName ("f1.txt") zero_FileOf)))] (set_ps_file (Some 0) (set_ps_pkgs [(set_p_Files [] (set_p_SPDXIdentifier ("package1") (set_p_PackageName ("package1") zero_PackageOf)))] (set_ps_pkg (Some 0) zero_pstate)))))))) in
  let s2 := push_doc_packages (Some (option_map (fun i => (i, 0)) (ps_pkg s1))) s1 in
  let s3 := push_pkg_files (Some (option_map (fun i => (i, 0)) (ps_pkg s2))) (Some (option_map (fun i => (i, 0)) (ps_file s2))) s2 in
  let r4 := parse_snippet V22 ("SnippetSPDXID") ("SPDXRef-s1") s3 in
  let s5 := after s3 r4 in
  let r6 := parse_snippet V22 ("SnippetByteRange") ("200 210") s5 in
  let s7 := after s5 r6 in
  let r8 := parse_snippet V22 ("SnippetByteRange") ("a:210") s7 in
  let s9 := after s7 r8 in
  let r10 := parse_snippet V22 ("SnippetByteRange") ("200:a") s9 in
  let s11 := after s9 r10 in
  [(option_map negb (olift Bool.eqb (failed r4) (Some false)));
   (olift Bool.eqb (failed r6) (Some false));
   (olift Bool.eqb (failed r8) (Some false));
   (olift Bool.eqb (failed r10) (Some false))]) = true.
Proof. vm_compute. reflexivity. Qed.
(** /repo/spdx/v2/v2_2/tagvalue/reader/parse_snippet_test.go 588 *)
Example v22_TestParserFailsForInvalidSnippetLineValues : forallb is_false (
  let s1 := (set_ps_st PsSnippet (set_ps_doc (Some (set_d_Packages [] zero_DocumentOf)) (set_ps_snips [zero_Snippet] (set_ps_snip (Some 0) (set_ps_files [(set_f_Snippets [] (set_f_SPDXIdentifier ("f1") (set_f_FileName ("f1.txt") zero_FileOf)))] (set_ps_file (Some 0) (set_ps_pkgs [(set_p_Files [] (set_p_SPDXIdentifier ("package1") (set_p_PackageName ("package1") zero_PackageOf)))] (set_ps_pkg (Some 0) zero_pstate)))))))) in
  let s2 := push_doc_packages (Some (option_map (fun i => (i, 0)) (ps_pkg s1))) s1 in
  let s3 := push_pkg_files (Some (option_map (fun i => (i, 0)) (ps_pkg s2))) (Some (option_map (fun i => (i, 0)) (ps_file s2))) s2 in
  let r4 := parse_snippet V22 ("SnippetSPDXID") ("SPDXRef-s1") s3 in
  let s5 := after s3 r4 in
  let r6 := parse_snippet V22 ("SnippetLineRange") ("200 210") s5 in
  let s7 := after s5 r6 in
  let r8 := parse_snippet V22 ("SnippetLineRange") ("a:210") s7 in
  let s9 := after s7 r8 in
  let r10 := parse_snippet V22 ("SnippetLineRange") ("200:a") s9 in
  let s11 := after s9 r10 in
  [(option_map negb (olift Bool.eqb (failed r4) (Some false)));
   (olift Bool.eqb (failed r6) (Some false));
   (olift Bool.eqb (failed r8) (Some false));
   (olift Bool.eqb (failed r10) (Some false))]) = true.
Proof. vm_compute. reflexivity. Qed.
(** /repo/spdx/v2/v2_2/tagvalue/reader/parse_snippet_test.go 619 *)
Example v22_TestParserFilesWithoutSpdxIdThrowErrorWithSnippets : forallb is_false (
  let s1 := (set_ps_st PsCreationInfo (set_ps_doc (Some zero_DocumentOf) (set_ps_files [(set_f_FileName ("f2.txt") zero_FileOf)] (set_ps_file (Some 0) zero_pstate)))) in
  let r2 := parse_pair V22 s1 (("SnippetSPDXID"), ("s1")) in
  let s3 := after s1 r2 in
  [(olift Bool.eqb (failed r2) (Some false))]) = true.
Proof. vm_compute. reflexivity. Qed.
(** /repo/spdx/v2/v2_2/tagvalue/reader/parser_test.go 12 *)
Example v22_TestParserCanParseTagValues : forallb is_false (
  let r1 := parse_tag_values V22 [("SPDXVersion", "SPDX-2.2"); ("DataLicense", "CC0-1.0"); ("SPDXID", "SPDXRef-DOCUMENT")] in
  [(option_map negb (olift Bool.eqb (failed r1) (Some false)));
   (option_map negb (olift String.eqb (option_map (fun x => d_SPDXVersion x) (obind match r1 with Ok o => Some o | _ => None end (fun o => o))) (Some ("SPDX-2.2"))));
   (option_map negb (olift String.eqb (option_map (fun x => d_DataLicense x) (obind match r1 with Ok o => Some o | _ => None end (fun o => o))) (Some ("CC0-1.0"))));
   (option_map negb (olift String.eqb (option_map (fun x => d_SPDXIdentifier x) (obind match r1 with Ok o => Some o | _ => None end (fun o => o))) (Some ("DOCUMENT"))))]) = true.
Proof. vm_compute. reflexivity. Qed.
(** /repo/spdx/v2/v2_2/tagvalue/reader/parser_test.go 41 *)
Example v22_TestParserInitCreatesResetStatus : forallb is_false (
  let s1 := zero_pstate in
  [(option_map negb (olift pst_eqb (Some (ps_st s1)) (Some PsStart)));
   (option_map negb (option_map (fun o => match o with None => true | Some _ => false end) (Some (ps_doc s1))))]) = true.
Proof. vm_compute. reflexivity. Qed.
(** /repo/spdx/v2/v2_2/tagvalue/reader/parser_test.go 51 *)
Example v22_TestParserHasDocumentAfterCallToParseFirstTag : forallb is_false (
  let s1 := zero_pstate in
  let r2 := parse_pair V22 s1 (("SPDXVersion"), ("SPDX-2.2")) in
  let s3 := after s1 r2 in
  [(option_map negb (olift Bool.eqb (failed r2) (Some false)));
   (option_map (fun o => match o with None => true | Some _ => false end) (Some (ps_doc s3)))]) = true.
Proof. vm_compute. reflexivity. Qed.
(** /repo/spdx/v2/v2_2/tagvalue/reader/parser_test.go 70 *)
Example v22_TestParserFilesWithoutSpdxIdThrowErrorAtCompleteParse : forallb is_false (
  let r1 := parse_tag_values V22 [("SPDXVersion", "SPDX-2.2"); ("DataLicense", "CC0-1.0"); ("SPDXID", "SPDXRef-DOCUMENT"); ("FileName", "f1")] in
  [(olift Bool.eqb (failed r1) (Some false))]) = true.
Proof. vm_compute. reflexivity. Qed.
(** /repo/spdx/v2/v2_2/tagvalue/reader/parser_test.go 86 *)
Example v22_TestParserPackageWithoutSpdxIdThrowErrorAtCompleteParse : forallb is_false (
  let r1 := parse_tag_values V22 [("SPDXVersion", "SPDX-2.2"); ("DataLicense", "CC0-1.0"); ("SPDXID", "SPDXRef-DOCUMENT"); ("PackageName", "p1")] in
  [(olift Bool.eqb (failed r1) (Some false))]) = true.
Proof. vm_compute. reflexivity. Qed.
(** /repo/spdx/v2/v2_2/tagvalue/reader/util_test.go 12 *)
Example v22_TestCanExtractSubvalues : forallb is_false (
  let r1 := extract_subs ("SHA1: abc123") in
  let w2 := match r1 with Ok x => x | _ => ("", "") end in
  [(option_map negb (olift Bool.eqb (failed r1) (Some false)));
   (option_map negb (olift String.eqb (Some (fst w2)) (Some ("SHA1"))));
   (option_map negb (olift String.eqb (Some (snd w2)) (Some ("abc123"))))]) = true.
Proof. vm_compute. reflexivity. Qed.
(** /repo/spdx/v2/v2_2/tagvalue/reader/util_test.go 25 *)
Example v22_TestReturnsErrorForInvalidSubvalueFormat : forallb is_false (
  let r1 := extract_subs ("blah") in
  let w2 := match r1 with Ok x => x | _ => ("", "") end in
  [(olift Bool.eqb (failed r1) (Some false))]) = true.
Proof. vm_compute. reflexivity. Qed.
(** /repo/spdx/v2/v2_2/tagvalue/reader/util_test.go 32 *)
Example v22_TestCanExtractDocumentAndElementRefsFromID : forallb is_false (
  let r1 := extract_doc_element_id ("SPDXRef-file1") in
  let w2 := match r1 with Ok x => x | _ => (MkDEID "" "" "") end in
  let r3 := extract_doc_element_id ("DocumentRef-doc2:SPDXRef-file2") in
  let w4 := match r3 with Ok x => x | _ => (MkDEID "" "" "") end in
  let r5 := extract_doc_element_id ("a:SPDXRef-file1") in
  let w6 := match r5 with Ok x => x | _ => (MkDEID "" "" "") end in
  let r7 := extract_doc_element_id ("file1") in
  let w8 := match r7 with Ok x => x | _ => (MkDEID "" "" "") end in
  let r9 := extract_doc_element_id ("SPDXRef-") in
  let w10 := match r9 with Ok x => x | _ => (MkDEID "" "" "") end in
  let r11 := extract_doc_element_id ("SPDXRef-file1:") in
  let w12 := match r11 with Ok x => x | _ => (MkDEID "" "" "") end in
  let r13 := extract_doc_element_id ("DocumentRef-doc2") in
  let w14 := match r13 with Ok x => x | _ => (MkDEID "" "" "") end in
  let r15 := extract_doc_element_id ("DocumentRef-doc2:") in
  let w16 := match r15 with Ok x => x | _ => (MkDEID "" "" "") end in
  let r17 := extract_doc_element_id ("DocumentRef-doc2:SPDXRef-") in
  let w18 := match r17 with Ok x => x | _ => (MkDEID "" "" "") end in
  let r19 := extract_doc_element_id ("DocumentRef-doc2:a") in
  let w20 := match r19 with Ok x => x | _ => (MkDEID "" "" "") end in
  let r21 := extract_doc_element_id ("DocumentRef-:") in
  let w22 := match r21 with Ok x => x | _ => (MkDEID "" "" "") end in
  let r23 := extract_doc_element_id ("DocumentRef-:SPDXRef-file1") in
  let w24 := match r23 with Ok x => x | _ => (MkDEID "" "" "") end in
  let r25 := extract_doc_element_id ("DocumentRef-doc2:SPDXRef-file1:file2") in
  let w26 := match r25 with Ok x => x | _ => (MkDEID "" "" "") end in
  [(option_map negb (olift Bool.eqb (failed r1) (Some false)));
   (option_map negb (olift String.eqb (option_map (fun x => de_DocumentRefID x) (Some (w2))) (Some (""))));
   (option_map negb (olift String.eqb (option_map (fun x => de_ElementRefID x) (Some (w2))) (Some ("file1"))));
   (option_map negb (olift Bool.eqb (failed r3) (Some false)));
   (option_map negb (olift String.eqb (option_map (fun x => de_DocumentRefID x) (Some (w4))) (Some ("doc2"))));
   (option_map negb (olift String.eqb (option_map (fun x => de_ElementRefID x) (Some (w4))) (Some ("file2"))));
   (olift Bool.eqb (failed r5) (Some false));
   (option_map negb (olift String.eqb (option_map (fun x => de_DocumentRefID x) (Some (w6))) (Some (""))));
   (option_map negb (olift String.eqb (option_map (fun x => de_ElementRefID x) (Some (w6))) (Some (""))));
   (olift Bool.eqb (failed r7) (Some false));
   (option_map negb (olift String.eqb (option_map (fun x => de_DocumentRefID x) (Some (w8))) (Some (""))));
   (option_map negb (olift String.eqb (option_map (fun x => de_ElementRefID x) (Some (w8))) (Some (""))));
   (olift Bool.eqb (failed r9) (Some false));
   (option_map negb (olift String.eqb (option_map (fun x => de_DocumentRefID x) (Some (w10))) (Some (""))));
   (option_map negb (olift String.eqb (option_map (fun x => de_ElementRefID x) (Some (w10))) (Some (""))));
   (olift Bool.eqb (failed r11) (Some false));
   (option_map negb (olift String.eqb (option_map (fun x => de_DocumentRefID x) (Some (w12))) (Some (""))));
   (option_map negb (olift String.eqb (option_map (fun x => de_ElementRefID x) (Some (w12))) (Some (""))));
   (olift Bool.eqb (failed r13) (Some false));
   (option_map negb (olift String.eqb (option_map (fun x => de_DocumentRefID x) (Some (w14))) (Some (""))));
   (option_map negb (olift String.eqb (option_map (fun x => de_ElementRefID x) (Some (w14))) (Some (""))));
   (olift Bool.eqb (failed r15) (Some false));
   (option_map negb (olift String.eqb (option_map (fun x => de_DocumentRefID x) (Some (w16))) (Some (""))));
   (option_map negb (olift String.eqb (option_map (fun x => de_ElementRefID x) (Some (w16))) (Some (""))));
   (olift Bool.eqb (failed r17) (Some false));
   (option_map negb (olift String.eqb (option_map (fun x => de_DocumentRefID x) (Some (w18))) (Some (""))));
   (option_map negb (olift String.eqb (option_map (fun x => de_ElementRefID x) (Some (w18))) (Some (""))));
   (olift Bool.eqb (failed r19) (Some false));
   (option_map negb (olift String.eqb (option_map (fun x => de_DocumentRefID x) (Some (w20))) (Some (""))));
   (option_map negb (olift String.eqb (option_map (fun x => de_ElementRefID x) (Some (w20))) (Some (""))));
   (olift Bool.eqb (failed r21) (Some false));
   (option_map negb (olift String.eqb (option_map (fun x => de_DocumentRefID x) (Some (w22))) (Some (""))));
   (option_map negb (olift String.eqb (option_map (fun x => de_ElementRefID x) (Some (w22))) (Some (""))));
   (olift Bool.eqb (failed r23) (Some false));
   (option_map negb (olift String.eqb (option_map (fun x => de_DocumentRefID x) (Some (w24))) (Some (""))));
   (option_map negb (olift String.eqb (option_map (fun x => de_ElementRefID x) (Some (w24))) (Some (""))));
   (olift Bool.eqb (failed r25) (Some false));
   (option_map negb (olift String.eqb (option_map (fun x => de_DocumentRefID x) (Some (w26))) (Some (""))));
   (option_map negb (olift String.eqb (option_map (fun x => de_ElementRefID x) (Some (w26))) (Some (""))))]) = true.
Proof. vm_compute. reflexivity. Qed.
(** /repo/spdx/v2/v2_2/tagvalue/reader/util_test.go 77 *)
Example v22_TestCanExtractSpecialDocumentIDs : forallb is_false (
  let r1 := extract_doc_element_special ("NONE") ["NONE"; "NOASSERTION"] in
  let w2 := match r1 with Ok x => x | _ => MkDEID "" "" "" end in
  let r3 := extract_doc_element_special ("NOASSERTION") ["NONE"; "NOASSERTION"] in
  let w4 := match r3 with Ok x => x | _ => MkDEID "" "" "" end in
  let r5 := extract_doc_element_special ("SPDXRef-file1") ["NONE"; "NOASSERTION"] in
  let w6 := match r5 with Ok x => x | _ => MkDEID "" "" "" end in
  let r7 := extract_doc_element_special ("DocumentRef-doc2:SPDXRef-file2") ["NONE"; "NOASSERTION"] in
  let w8 := match r7 with Ok x => x | _ => MkDEID "" "" "" end in
  let r9 := extract_doc_element_special ("a:SPDXRef-file1") ["NONE"; "NOASSERTION"] in
  let w10 := match r9 with Ok x => x | _ => MkDEID "" "" "" end in
  let r11 := extract_doc_element_special ("DocumentRef-doc2") ["NONE"; "NOASSERTION"] in
  let w12 := match r11 with Ok x => x | _ => MkDEID "" "" "" end in
  let r13 := extract_doc_element_special ("FOO") ["NONE"; "NOASSERTION"] in
  let w14 := match r13 with Ok x => x | _ => MkDEID "" "" "" end in
  [(option_map negb (olift Bool.eqb (failed r1) (Some false)));
   (option_map negb (olift String.eqb (option_map (fun x => de_DocumentRefID x) (Some w2)) (Some (""))));
   (option_map negb (olift String.eqb (option_map (fun x => de_ElementRefID x) (Some w2)) (Some (""))));
   (option_map negb (olift String.eqb (option_map (fun x => de_SpecialID x) (Some w2)) (Some ("NONE"))));
   (option_map negb (olift Bool.eqb (failed r3) (Some false)));
   (option_map negb (olift String.eqb (option_map (fun x => de_DocumentRefID x) (Some w4)) (Some (""))));
   (option_map negb (olift String.eqb (option_map (fun x => de_ElementRefID x) (Some w4)) (Some (""))));
   (option_map negb (olift String.eqb (option_map (fun x => de_SpecialID x) (Some w4)) (Some ("NOASSERTION"))));
   (option_map negb (olift Bool.eqb (failed r5) (Some false)));
   (option_map negb (olift String.eqb (option_map (fun x => de_DocumentRefID x) (Some w6)) (Some (""))));
   (option_map negb (olift String.eqb (option_map (fun x => de_ElementRefID x) (Some w6)) (Some ("file1"))));
   (option_map negb (olift String.eqb (option_map (fun x => de_SpecialID x) (Some w6)) (Some (""))));
   (option_map negb (olift Bool.eqb (failed r7) (Some false)));
   (option_map negb (olift String.eqb (option_map (fun x => de_DocumentRefID x) (Some w8)) (Some ("doc2"))));
   (option_map negb (olift String.eqb (option_map (fun x => de_ElementRefID x) (Some w8)) (Some ("file2"))));
   (option_map negb (olift String.eqb (option_map (fun x => de_SpecialID x) (Some w8)) (Some (""))));
   (olift Bool.eqb (failed r9) (Some false));
   (option_map negb (olift String.eqb (option_map (fun x => de_DocumentRefID x) (Some w10)) (Some (""))));
   (option_map negb (olift String.eqb (option_map (fun x => de_ElementRefID x) (Some w10)) (Some (""))));
   (option_map negb (olift String.eqb (option_map (fun x => de_SpecialID x) (Some w10)) (Some (""))));
   (olift Bool.eqb (failed r11) (Some false));
   (option_map negb (olift String.eqb (option_map (fun x => de_DocumentRefID x) (Some w12)) (Some (""))));
   (option_map negb (olift String.eqb (option_map (fun x => de_ElementRefID x) (Some w12)) (Some (""))));
   (option_map negb (olift String.eqb (option_map (fun x => de_SpecialID x) (Some w12)) (Some (""))));
   (olift Bool.eqb (failed r13) (Some false));
   (option_map negb (olift String.eqb (option_map (fun x => de_DocumentRefID x) (Some w14)) (Some (""))));
   (option_map negb (olift String.eqb (option_map (fun x => de_ElementRefID x) (Some w14)) (Some (""))));
   (option_map negb (olift String.eqb (option_map (fun x => de_SpecialID x) (Some w14)) (Some (""))))]) = true.
Proof. vm_compute. reflexivity. Qed.
(** /repo/spdx/v2/v2_2/tagvalue/reader/util_test.go 122 *)
Example v22_TestCanExtractElementRefsOnlyFromID : forallb is_false (
  let r1 := extract_element_id ("SPDXRef-file1") in
  let w2 := match r1 with Ok x => x | _ => "" end in
  let r3 := extract_element_id ("DocumentRef-doc2:SPDXRef-file2") in
  let w4 := match r3 with Ok x => x | _ => "" end in
  let r5 := extract_element_id ("a:SPDXRef-file1") in
  let w6 := match r5 with Ok x => x | _ => "" end in
  let r7 := extract_element_id ("file1") in
  let w8 := match r7 with Ok x => x | _ => "" end in
  let r9 := extract_element_id ("SPDXRef-") in
  let w10 := match r9 with Ok x => x | _ => "" end in
  let r11 := extract_element_id ("SPDXRef-file1:") in
  let w12 := match r11 with Ok x => x | _ => "" end in
  let r13 := extract_element_id ("DocumentRef-doc2") in
  let w14 := match r13 with Ok x => x | _ => "" end in
  let r15 := extract_element_id ("DocumentRef-doc2:") in
  let w16 := match r15 with Ok x => x | _ => "" end in
  let r17 := extract_element_id ("DocumentRef-doc2:SPDXRef-") in
  let w18 := match r17 with Ok x => x | _ => "" end in
  let r19 := extract_element_id ("DocumentRef-doc2:a") in
  let w20 := match r19 with Ok x => x | _ => "" end in
  let r21 := extract_element_id ("DocumentRef-:") in
  let w22 := match r21 with Ok x => x | _ => "" end in
  let r23 := extract_element_id ("DocumentRef-:SPDXRef-file1") in
  let w24 := match r23 with Ok x => x | _ => "" end in
  [(option_map negb (olift Bool.eqb (failed r1) (Some false)));
   (option_map negb (olift String.eqb (Some (w2)) (Some ("file1"))));
   (olift Bool.eqb (failed r3) (Some false));
   (option_map negb (olift String.eqb (Some (w4)) (Some (""))));
   (olift Bool.eqb (failed r5) (Some false));
   (option_map negb (olift String.eqb (Some (w6)) (Some (""))));
   (olift Bool.eqb (failed r7) (Some false));
   (option_map negb (olift String.eqb (Some (w8)) (Some (""))));
   (olift Bool.eqb (failed r9) (Some false));
   (option_map negb (olift String.eqb (Some (w10)) (Some (""))));
   (olift Bool.eqb (failed r11) (Some false));
   (option_map negb (olift String.eqb (Some (w12)) (Some (""))));
   (olift Bool.eqb (failed r13) (Some false));
   (option_map negb (olift String.eqb (Some (w14)) (Some (""))));
   (olift Bool.eqb (failed r15) (Some false));
   (option_map negb (olift String.eqb (Some (w16)) (Some (""))));
   (olift Bool.eqb (failed r17) (Some false));
   (option_map negb (olift String.eqb (Some (w18)) (Some (""))));
   (olift Bool.eqb (failed r19) (Some false));
   (option_map negb (olift String.eqb (Some (w20)) (Some (""))));
   (olift Bool.eqb (failed r21) (Some false));
   (option_map negb (olift String.eqb (Some (w22)) (Some (""))));
   (olift Bool.eqb (failed r23) (Some false));
   (option_map negb (olift String.eqb (Some (w24)) (Some (""))))]) = true.
Proof. vm_compute. reflexivity. Qed.
(** /repo/spdx/v2/v2_3/tagvalue/reader/parse_annotation_test.go 39 *)
Example v23_TestParserFailsIfAnnotationFieldsWithoutAnnotation : forallb is_false (
  let s1 := (set_ps_st PsCreationInfo (set_ps_doc (Some zero_DocumentOf) zero_pstate)) in
  let r2 := parse_pair V23 s1 (("AnnotationDate"), ("2018-09-15T17:25:00Z")) in
  let s3 := after s1 r2 in
  let r4 := parse_pair V23 s3 (("AnnotationType"), ("REVIEW")) in
  let s5 := after s3 r4 in
  let r6 := parse_pair V23 s5 (("SPDXREF"), ("SPDXRef-45")) in
  let s7 := after s5 r6 in
  let r8 := parse_pair V23 s7 (("AnnotationComment"), ("comment whatever")) in
  let s9 := after s7 r8 in
  [(olift Bool.eqb (failed r2) (Some false));
   (olift Bool.eqb (failed r4) (Some false));
   (olift Bool.eqb (failed r6) (Some false));
   (olift Bool.eqb (failed r8) (Some false))]) = true.
Proof. vm_compute. reflexivity. Qed.
(** /repo/spdx/v2/v2_3/tagvalue/reader/parse_annotation_test.go 62 *)
Example v23_TestParserCanParseAnnotationTags : forallb is_false (
  let s1 := (set_ps_st PsCreationInfo (set_ps_doc (Some zero_DocumentOf) zero_pstate)) in
  let r2 := parse_pair V23 s1 (("Annotator"), ("Person: John Doe")) in
  let s3 := after s1 r2 in
  let r4 := parse_pair V23 s3 (("AnnotationDate"), ("2018-09-15T17:32:00Z")) in
  let s5 := after s3 r4 in
  let r6 := parse_pair V23 s5 (("AnnotationType"), ("REVIEW")) in
  let s7 := after s5 r6 in
  let r8 := parse_pair V23 s7 (("SPDXREF"), ("SPDXRef-30")) in
  let s9 := after s7 r8 in
  let r10 := parse_pair V23 s9 (("AnnotationComment"), ("this is a comment")) in
  let s11 := after s9 r10 in
  [(option_map negb (olift Bool.eqb (failed r2) (Some false)));
   (option_map negb (olift String.eqb (option_map (fun x => an_Annotator x) (option_map (fun x => a_Annotator x) (obind (Some (option_map (fun i => (i, 0)) (ps_ann s3))) (fun p => obind p (fun p => obind (ps_doc s3) (fun d => nth_error (d_Annotations d) (fst p))))))) (Some ("John Doe"))));
   (option_map negb (olift String.eqb (option_map (fun x => an_AnnotatorType x) (option_map (fun x => a_Annotator x) (obind (Some (option_map (fun i => (i, 0)) (ps_ann s3))) (fun p => obind p (fun p => obind (ps_doc s3) (fun d => nth_error (d_Annotations d) (fst p))))))) (Some ("Person"))));
   (option_map negb (olift Bool.eqb (failed r4) (Some false)));
   (option_map negb (olift String.eqb (option_map (fun x => a_Date x) (obind (Some (option_map (fun i => (i, 0)) (ps_ann s5))) (fun p => obind p (fun p => obind (ps_doc s5) (fun d => nth_error (d_Annotations d) (fst p)))))) (Some ("2018-09-15T17:32:00Z"))));
   (option_map negb (olift Bool.eqb (failed r6) (Some false)));
   (option_map negb (olift String.eqb (option_map (fun x => a_Type x) (obind (Some (option_map (fun i => (i, 0)) (ps_ann s7))) (fun p => obind p (fun p => obind (ps_doc s7) (fun d => nth_error (d_Annotations d) (fst p)))))) (Some ("REVIEW"))));
   (option_map negb (olift Bool.eqb (failed r8) (Some false)));
   (olift orb (option_map negb (olift String.eqb (option_map (fun x => de_DocumentRefID x) (option_map (fun x => a_SPDXIdentifier x) (obind (Some (option_map (fun i => (i, 0)) (ps_ann s9))) (fun p => obind p (fun p => obind (ps_doc s9) (fun d => nth_error (d_Annotations d) (fst p))))))) (Some ("")))) (option_map negb (olift String.eqb (option_map (fun x => de_ElementRefID x) (option_map (fun x => a_SPDXIdentifier x) (obind (Some (option_map (fun i => (i, 0)) (ps_ann s9))) (fun p => obind p (fun p => obind (ps_doc s9) (fun d => nth_error (d_Annotations d) (fst p))))))) (Some ("30")))));
   (option_map negb (olift Bool.eqb (failed r10) (Some false)));
   (option_map negb (olift String.eqb (option_map (fun x => a_Comment x) (obind (Some (option_map (fun i => (i, 0)) (ps_ann s11))) (fun p => obind p (fun p => obind (ps_doc s11) (fun d => nth_error (d_Annotations d) (fst p)))))) (Some ("this is a comment"))))]) = true.
Proof. vm_compute. reflexivity. Qed.
(** /repo/spdx/v2/v2_3/tagvalue/reader/parse_annotation_test.go 122 *)
Example v23_TestParserFailsIfAnnotatorInvalid : forallb is_false (
  let s1 := (set_ps_st PsCreationInfo (set_ps_doc (Some zero_DocumentOf) zero_pstate)) in
  let r2 := parse_pair V23 s1 (("Annotator"), ("John Doe (jdoe@example.com)")) in
  let s3 := after s1 r2 in
  [(olift Bool.eqb (failed r2) (Some false))]) = true.
Proof. vm_compute. reflexivity. Qed.
(** /repo/spdx/v2/v2_3/tagvalue/reader/parse_annotation_test.go 133 *)
Example v23_TestParserFailsIfAnnotatorTypeInvalid : forallb is_false (
  let s1 := (set_ps_st PsCreationInfo (set_ps_doc (Some zero_DocumentOf) zero_pstate)) in
  let r2 := parse_pair V23 s1 (("Annotator"), ("Human: John Doe (jdoe@example.com)")) in
  let s3 := after s1 r2 in
  [(olift Bool.eqb (failed r2) (Some false))]) = true.
Proof. vm_compute. reflexivity. Qed.
(** /repo/spdx/v2/v2_3/tagvalue/reader/parse_annotation_test.go 144 *)
Example v23_TestParserFailsIfAnnotationRefInvalid : forallb is_false (
  let s1 := (set_ps_st PsCreationInfo (set_ps_doc (Some zero_DocumentOf) zero_pstate)) in
  let r2 := parse_pair V23 s1 (("Annotator"), ("Person: John Doe (jdoe@example.com)")) in
  let s3 := after s1 r2 in
  let r4 := parse_pair V23 s3 (("SPDXREF"), ("blah:other")) in
  let s5 := after s3 r4 in
  [(option_map negb (olift Bool.eqb (failed r2) (Some false)));
   (olift Bool.eqb (failed r4) (Some false))]) = true.
Proof. vm_compute. reflexivity. Qed.
(** /repo/spdx/v2/v2_3/tagvalue/reader/parse_creation_info_test.go 11 *)
Example v23_TestParserCIMovesToPackageAfterParsingPackageNameTag : forallb is_false (
  let s1 := (set_ps_st PsCreationInfo (set_ps_doc (Some zero_DocumentOf) zero_pstate)) in
  let r2 := parse_pair V23 s1 (("PackageName"), ("testPkg")) in
  let s3 := after s1 r2 in
  [(option_map negb (olift Bool.eqb (failed r2) (Some false)));
   (option_map negb (olift pst_eqb (Some (ps_st s3)) (Some PsPackage)));
   (olift ptr_eqb (Some (option_map (fun i => (i, 0)) (ps_pkg s3))) (Some None));
   (option_map negb (olift String.eqb (option_map (fun x => p_PackageName x) (obind (Some (option_map (fun i => (i, 0)) (ps_pkg s3))) (fun p => obind p (fun p => nth_error (ps_pkgs s3) (fst p))))) (Some ("testPkg"))));
   (option_map negb (option_map (fun x => p_FilesAnalyzed x) (obind (Some (option_map (fun i => (i, 0)) (ps_pkg s3))) (fun p => obind p (fun p => nth_error (ps_pkgs s3) (fst p))))));
   (option_map (fun x => p_IsFilesAnalyzedTagPresent x) (obind (Some (option_map (fun i => (i, 0)) (ps_pkg s3))) (fun p => obind p (fun p => nth_error (ps_pkgs s3) (fst p)))));
   (option_map negb (olift Nat.eqb (option_map (@List.length _) (option_map (map (fun i => Some (i, 0))) (option_map (fun x => d_Packages x) (obind (Some (ps_doc s3)) (fun o => o))))) (Some 0)))]) = true.
Proof. vm_compute. reflexivity. Qed.
(** /repo/spdx/v2/v2_3/tagvalue/reader/parse_creation_info_test.go 47 *)
Example v23_TestParserCIMovesToFileAfterParsingFileNameTagWithNoPackages : forallb is_false (
  let s1 := (set_ps_st PsCreationInfo (set_ps_doc (Some zero_DocumentOf) zero_pstate)) in
  let r2 := parse_pair V23 s1 (("FileName"), ("testFile")) in
  let s3 := after s1 r2 in
  [(option_map negb (olift Bool.eqb (failed r2) (Some false)));
   (option_map negb (olift pst_eqb (Some (ps_st s3)) (Some PsFile)));
   (option_map negb (olift ptr_eqb (Some (option_map (fun i => (i, 0)) (ps_pkg s3))) (Some None)))]) = true.
Proof. vm_compute. reflexivity. Qed.
(** /repo/spdx/v2/v2_3/tagvalue/reader/parse_creation_info_test.go 67 *)
Example v23_TestParserCIMovesToOtherLicenseAfterParsingLicenseIDTag : forallb is_false (
  let s1 := (set_ps_st PsCreationInfo (set_ps_doc (Some zero_DocumentOf) zero_pstate)) in
  let r2 := parse_pair V23 s1 (("LicenseID"), ("LicenseRef-TestLic")) in
  let s3 := after s1 r2 in
  [(option_map negb (olift Bool.eqb (failed r2) (Some false)));
   (option_map negb (olift pst_eqb (Some (ps_st s3)) (Some PsOtherLicense)))]) = true.
Proof. vm_compute. reflexivity. Qed.
(** /repo/spdx/v2/v2_3/tagvalue/reader/parse_creation_info_test.go 81 *)
Example v23_TestParserCIMovesToReviewAfterParsingReviewerTag : forallb is_false (
  let s1 := (set_ps_st PsCreationInfo (set_ps_doc (Some zero_DocumentOf) zero_pstate)) in
  let r2 := parse_pair V23 s1 (("Reviewer"), ("Person: John Doe")) in
  let s3 := after s1 r2 in
  [(option_map negb (olift Bool.eqb (failed r2) (Some false)));
   (option_map negb (olift pst_eqb (Some (ps_st s3)) (Some PsReview)))]) = true.
Proof. vm_compute. reflexivity. Qed.
(** /repo/spdx/v2/v2_3/tagvalue/reader/parse_creation_info_test.go 95 *)
Example v23_TestParserCIStaysAfterParsingRelationshipTags : forallb is_false (
  let s1 := (set_ps_st PsCreationInfo (set_ps_doc (Some zero_DocumentOf) zero_pstate)) in
  let r2 := parse_pair V23 s1 (("Relationship"), ("SPDXRef-blah CONTAINS SPDXRef-blah-else")) in
  let s3 := after s1 r2 in
  let r4 := parse_pair V23 s3 (("RelationshipComment"), ("blah")) in
  let s5 := after s3 r4 in
  [(option_map negb (olift Bool.eqb (failed r2) (Some false)));
   (option_map negb (olift pst_eqb (Some (ps_st s3)) (Some PsCreationInfo)));
   (option_map negb (olift Bool.eqb (failed r4) (Some false)));
   (option_map negb (olift pst_eqb (Some (ps_st s5)) (Some PsCreationInfo)))]) = true.
Proof. vm_compute. reflexivity. Qed.
(** /repo/spdx/v2/v2_3/tagvalue/reader/parse_creation_info_test.go 118 *)
Example v23_TestParserCIStaysAfterParsingAnnotationTags : forallb is_false (
  let s1 := (set_ps_st PsCreationInfo (set_ps_doc (Some zero_DocumentOf) zero_pstate)) in
  let r2 := parse_pair V23 s1 (("Annotator"), ("Person: John Doe ()")) in
  let s3 := after s1 r2 in
  let r4 := parse_pair V23 s3 (("AnnotationDate"), ("2018-09-15T00:36:00Z")) in
  let s5 := after s3 r4 in
  let r6 := parse_pair V23 s5 (("AnnotationType"), ("REVIEW")) in
  let s7 := after s5 r6 in
  let r8 := parse_pair V23 s7 (("SPDXREF"), ("SPDXRef-45")) in
  let s9 := after s7 r8 in
  let r10 := parse_pair V23 s9 (("AnnotationComment"), ("i guess i had something to say about this spdx file")) in
  let s11 := after s9 r10 in
  [(option_map negb (olift Bool.eqb (failed r2) (Some false)));
   (option_map negb (olift pst_eqb (Some (ps_st s3)) (Some PsCreationInfo)));
   (option_map negb (olift Bool.eqb (failed r4) (Some false)));
   (option_map negb (olift pst_eqb (Some (ps_st s5)) (Some PsCreationInfo)));
   (option_map negb (olift Bool.eqb (failed r6) (Some false)));
   (option_map negb (olift pst_eqb (Some (ps_st s7)) (Some PsCreationInfo)));
   (option_map negb (olift Bool.eqb (failed r8) (Some false)));
   (option_map negb (olift pst_eqb (Some (ps_st s9)) (Some PsCreationInfo)));
   (option_map negb (olift Bool.eqb (failed r10) (Some false)));
   (option_map negb (olift pst_eqb (Some (ps_st s11)) (Some PsCreationInfo)))]) = true.
Proof. vm_compute. reflexivity. Qed.
(** /repo/spdx/v2/v2_3/tagvalue/reader/parse_creation_info_test.go 177 *)
Example v23_TestParserHasCreationInfoAfterCallToParseFirstTag : forallb is_false (
  let s1 := (set_ps_st PsCreationInfo (set_ps_doc (Some zero_DocumentOf) zero_pstate)) in
  let r2 := parse_creation_info V23 ("LicenseListVersion") ("3.9") s1 in
  let s3 := after s1 r2 in
  [(option_map negb (olift Bool.eqb (failed r2) (Some false)));
   (option_map (fun o => match o with None => true | Some _ => false end) (option_map (fun x => d_CreationInfo x) (obind (Some (ps_doc s3)) (fun o => o))))]) = true.
Proof. vm_compute. reflexivity. Qed.
(** /repo/spdx/v2/v2_3/tagvalue/reader/parse_creation_info_test.go 191 *)
Example v23_TestParserCanParseCreationInfoTags : forallb is_false (
  let s1 := (set_ps_st PsCreationInfo (set_ps_doc (Some zero_DocumentOf) zero_pstate)) in
  let r2 := parse_creation_info V23 ("LicenseListVersion") ("1.3") s1 in
  let s3 := after s1 r2 in
  let r4 := parse_creation_info V23 ("Creator") ("Person: Person A") s3 in
  let s5 := after s3 r4 in
  let r6 := parse_creation_info V23 ("Creator") ("Person: Person B") s5 in
  let s7 := after s5 r6 in
  let r8 := parse_creation_info V23 ("Creator") ("Organization: Organization A") s7 in
  let s9 := after s7 r8 in
  let r10 := parse_creation_info V23 ("Creator") ("Organization: Organization B") s9 in
  let s11 := after s9 r10 in
  let r12 := parse_creation_info V23 ("Creator") ("Tool: Tool A") s11 in
  let s13 := after s11 r12 in
  let r14 := parse_creation_info V23 ("Creator") ("Tool: Tool B") s13 in
  let s15 := after s13 r14 in
  let r16 := parse_creation_info V23 ("Created") ("2018-09-10T11:46:00Z") s15 in
  let s17 := after s15 r16 in
  let r18 := parse_creation_info V23 ("CreatorComment") ("Blah whatever") s17 in
  let s19 := after s17 r18 in
  [(option_map negb (olift Bool.eqb (failed r2) (Some false)));
   (option_map negb (olift String.eqb (option_map (fun x => ci_LicenseListVersion x) (obind (option_map (fun x => d_CreationInfo x) (obind (Some (ps_doc s3)) (fun o => o))) (fun o => o))) (Some ("1.3"))));
   (option_map negb (olift Bool.eqb (failed r4) (Some false)));
   (option_map negb (olift Bool.eqb (failed r6) (Some false)));
   (olift orb (olift orb (option_map negb (olift Nat.eqb (option_map (@List.length _) (option_map (fun x => ci_Creators x) (obind (option_map (fun x => d_CreationInfo x) (obind (Some (ps_doc s7)) (fun o => o))) (fun o => o)))) (Some 2))) (option_map negb (olift String.eqb (option_map (fun x => cr_Creator x) (obind (option_map (fun x => ci_Creators x) (obind (option_map (fun x => d_CreationInfo x) (obind (Some (ps_doc s7)) (fun o => o))) (fun o => o))) (fun l => nth_error l 0))) (Some ("Person A"))))) (option_map negb (olift String.eqb (option_map (fun x => cr_Creator x) (obind (option_map (fun x => ci_Creators x) (obind (option_map (fun x => d_CreationInfo x) (obind (Some (ps_doc s7)) (fun o => o))) (fun o => o))) (fun l => nth_error l 1))) (Some ("Person B")))));
   (option_map negb (olift Bool.eqb (failed r8) (Some false)));
   (option_map negb (olift Bool.eqb (failed r10) (Some false)));
   (olift orb (olift orb (option_map negb (olift Nat.eqb (option_map (@List.length _) (option_map (fun x => ci_Creators x) (obind (option_map (fun x => d_CreationInfo x) (obind (Some (ps_doc s11)) (fun o => o))) (fun o => o)))) (Some 4))) (option_map negb (olift String.eqb (option_map (fun x => cr_Creator x) (obind (option_map (fun x => ci_Creators x) (obind (option_map (fun x => d_CreationInfo x) (obind (Some (ps_doc s11)) (fun o => o))) (fun o => o))) (fun l => nth_error l 2))) (Some ("Organization A"))))) (option_map negb (olift String.eqb (option_map (fun x => cr_Creator x) (obind (option_map (fun x => ci_Creators x) (obind (option_map (fun x => d_CreationInfo x) (obind (Some (ps_doc s11)) (fun o => o))) (fun o => o))) (fun l => nth_error l 3))) (Some ("Organization B")))));
   (option_map negb (olift Bool.eqb (failed r12) (Some false)));
   (option_map negb (olift Bool.eqb (failed r14) (Some false)));
   (olift orb (olift orb (option_map negb (olift Nat.eqb (option_map (@List.length _) (option_map (fun x => ci_Creators x) (obind (option_map (fun x => d_CreationInfo x) (obind (Some (ps_doc s15)) (fun o => o))) (fun o => o)))) (Some 6))) (option_map negb (olift String.eqb (option_map (fun x => cr_Creator x) (obind (option_map (fun x => ci_Creators x) (obind (option_map (fun x => d_CreationInfo x) (obind (Some (ps_doc s15)) (fun o => o))) (fun o => o))) (fun l => nth_error l 4))) (Some ("Tool A"))))) (option_map negb (olift String.eqb (option_map (fun x => cr_Creator x) (obind (option_map (fun x => ci_Creators x) (obind (option_map (fun x => d_CreationInfo x) (obind (Some (ps_doc s15)) (fun o => o))) (fun o => o))) (fun l => nth_error l 5))) (Some ("Tool B")))));
   (option_map negb (olift Bool.eqb (failed r16) (Some false)));
   (option_map negb (olift String.eqb (option_map (fun x => ci_Created x) (obind (option_map (fun x => d_CreationInfo x) (obind (Some (ps_doc s17)) (fun o => o))) (fun o => o))) (Some ("2018-09-10T11:46:00Z"))));
   (option_map negb (olift Bool.eqb (failed r18) (Some false)));
   (option_map negb (olift String.eqb (option_map (fun x => ci_CreatorComment x) (obind (option_map (fun x => d_CreationInfo x) (obind (Some (ps_doc s19)) (fun o => o))) (fun o => o))) (Some ("Blah whatever"))))]) = true.
Proof. vm_compute. reflexivity. Qed.
(** /repo/spdx/v2/v2_3/tagvalue/reader/parse_creation_info_test.go 282 *)
Example v23_TestParserInvalidCreatorTagsFail : forallb is_false (
  let s1 := (set_ps_st PsCreationInfo (set_ps_doc (Some zero_DocumentOf) zero_pstate)) in
  let r2 := parse_creation_info V23 ("Creator") ("blah: somebody") s1 in
  let s3 := after s1 r2 in
  let r4 := parse_creation_info V23 ("Creator") ("Tool with no colons") s3 in
  let s5 := after s3 r4 in
  [(olift Bool.eqb (failed r2) (Some false));
   (olift Bool.eqb (failed r4) (Some false))]) = true.
Proof. vm_compute. reflexivity. Qed.
(** /repo/spdx/v2/v2_3/tagvalue/reader/parse_creation_info_test.go 299 *)
Example v23_TestParserCreatorTagWithMultipleColonsPasses : forallb is_false (
  let s1 := (set_ps_st PsCreationInfo (set_ps_doc (Some zero_DocumentOf) zero_pstate)) in
  let r2 := parse_creation_info V23 ("Creator") ("Tool: tool1:2:3") s1 in
  let s3 := after s1 r2 in
  [(option_map negb (olift Bool.eqb (failed r2) (Some false)))]) = true.
Proof. vm_compute. reflexivity. Qed.
(** /repo/spdx/v2/v2_3/tagvalue/reader/parse_creation_info_test.go 311 *)
Example v23_TestParserCIUnknownTagFails : forallb is_false (
  let s1 := (set_ps_st PsCreationInfo (set_ps_doc (Some zero_DocumentOf) zero_pstate)) in
  let r2 := parse_creation_info V23 ("blah") ("something") s1 in
  let s3 := after s1 r2 in
  [(olift Bool.eqb (failed r2) (Some false))]) = true.
Proof. vm_compute. reflexivity. Qed.
(** /repo/spdx/v2/v2_3/tagvalue/reader/parse_creation_info_test.go 323 *)
Example v23_TestParserCICreatesRelationship : forallb is_false (
  let s1 := (set_ps_st PsCreationInfo (set_ps_doc (Some zero_DocumentOf) zero_pstate)) in
  let r2 := parse_pair V23 s1 (("Relationship"), ("SPDXRef-blah CONTAINS SPDXRef-blah-whatever")) in
  let s3 := after s1 r2 in
  [(option_map negb (olift Bool.eqb (failed r2) (Some false)));
   (olift ptr_eqb (Some (option_map (fun i => (i, 0)) (ps_rln s3))) (Some None));
   (option_map negb (olift ptr_eqb (Some (option_map (fun i => (i, 0)) (ps_rln s3))) (obind (option_map (fun l => map (fun i => Some (i, 0)) (seq 0 (List.length l))) (option_map (fun x => d_Relationships x) (obind (Some (ps_doc s3)) (fun o => o)))) (fun l => nth_error l 0))))]) = true.
Proof. vm_compute. reflexivity. Qed.
(** /repo/spdx/v2/v2_3/tagvalue/reader/parse_creation_info_test.go 341 *)
Example v23_TestParserCICreatesAnnotation : forallb is_false (
  let s1 := (set_ps_st PsCreationInfo (set_ps_doc (Some zero_DocumentOf) zero_pstate)) in
  let r2 := parse_pair V23 s1 (("Annotator"), ("Person: John Doe ()")) in
  let s3 := after s1 r2 in
  [(option_map negb (olift Bool.eqb (failed r2) (Some false)));
   (olift ptr_eqb (Some (option_map (fun i => (i, 0)) (ps_ann s3))) (Some None));
   (option_map negb (olift ptr_eqb (Some (option_map (fun i => (i, 0)) (ps_ann s3))) (obind (option_map (fun l => map (fun i => Some (i, 0)) (seq 0 (List.length l))) (option_map (fun x => d_Annotations x) (obind (Some (ps_doc s3)) (fun o => o)))) (fun l => nth_error l 0))))]) = true.
Proof. vm_compute. reflexivity. Qed.
(** /repo/spdx/v2/v2_3/tagvalue/reader/parse_creation_info_test.go 361 *)
Example v23_TestCanExtractExternalDocumentReference : forallb is_false (
  let r1 := extract_external_document_reference ("DocumentRef-spdx-tool-1.2 http://spdx.org/spdxdocs/spdx-tools-v1.2-3F2504E0-4F89-41D3-9A0C-0305E82C3301 SHA1:d6a770ba38583ed4bb4525bd96e50461655d2759") in
  let w2 := match r1 with Ok x => x | _ => zero_ExternalDocumentRef end in
  [(option_map negb (olift Bool.eqb (failed r1) (Some false)));
   (option_map negb (olift String.eqb (Some (edr_DocumentRefID w2)) (Some ("spdx-tool-1.2"))));
   (option_map negb (olift String.eqb (Some (edr_URI w2)) (Some ("http://spdx.org/spdxdocs/spdx-tools-v1.2-3F2504E0-4F89-41D3-9A0C-0305E82C3301"))));
   (option_map negb (olift String.eqb (Some (ck_Algorithm (edr_Checksum w2))) (Some ("SHA1"))));
   (option_map negb (olift String.eqb (Some (ck_Value (edr_Checksum w2))) (Some ("d6a770ba38583ed4bb4525bd96e50461655d2759"))))]) = true.
Proof. vm_compute. reflexivity. Qed.
(** /repo/spdx/v2/v2_3/tagvalue/reader/parse_creation_info_test.go 386 *)
Example v23_TestCanExtractExternalDocumentReferenceWithExtraWhitespace : forallb is_false (
  let r1 := extract_external_document_reference ("   DocumentRef-spdx-tool-1.2    	 http://spdx.org/spdxdocs/spdx-tools-v1.2-3F2504E0-4F89-41D3-9A0C-0305E82C3301 	 SHA1:  	   d6a770ba38583ed4bb4525bd96e50461655d2759") in
  let w2 := match r1 with Ok x => x | _ => zero_ExternalDocumentRef end in
  [(option_map negb (olift Bool.eqb (failed r1) (Some false)));
   (option_map negb (olift String.eqb (Some (edr_DocumentRefID w2)) (Some ("spdx-tool-1.2"))));
   (option_map negb (olift String.eqb (Some (edr_URI w2)) (Some ("http://spdx.org/spdxdocs/spdx-tools-v1.2-3F2504E0-4F89-41D3-9A0C-0305E82C3301"))));
   (option_map negb (olift String.eqb (Some (ck_Algorithm (edr_Checksum w2))) (Some ("SHA1"))));
   (option_map negb (olift String.eqb (Some (ck_Value (edr_Checksum w2))) (Some ("d6a770ba38583ed4bb4525bd96e50461655d2759"))))]) = true.
Proof. vm_compute. reflexivity. Qed.
(** /repo/spdx/v2/v2_3/tagvalue/reader/parse_creation_info_test.go 411 *)
Example v23_TestFailsExternalDocumentReferenceWithInvalidFormats : forallb is_false (
  let r1 := extract_external_document_reference ("whoops") in
  let w2 := match r1 with Ok x => x | _ => zero_ExternalDocumentRef end in
  let r3 := extract_external_document_reference ("DocumentRef-") in
  let w4 := match r3 with Ok x => x | _ => zero_ExternalDocumentRef end in
  let r5 := extract_external_document_reference ("DocumentRef-   ") in
  let w6 := match r5 with Ok x => x | _ => zero_ExternalDocumentRef end in
  let r7 := extract_external_document_reference ("DocumentRef-spdx-tool-1.2 http://spdx.org/spdxdocs/spdx-tools-v1.2-3F2504E0-4F89-41D3-9A0C-0305E82C3301") in
  let w8 := match r7 with Ok x => x | _ => zero_ExternalDocumentRef end in
  let r9 := extract_external_document_reference ("DocumentRef-spdx-tool-1.2 http://spdx.org/spdxdocs/spdx-tools-v1.2-3F2504E0-4F89-41D3-9A0C-0305E82C3301 d6a770ba38583ed4bb4525bd96e50461655d2759") in
  let w10 := match r9 with Ok x => x | _ => zero_ExternalDocumentRef end in
  let r11 := extract_external_document_reference ("DocumentRef-spdx-tool-1.2") in
  let w12 := match r11 with Ok x => x | _ => zero_ExternalDocumentRef end in
  let r13 := extract_external_document_reference ("spdx-tool-1.2 http://spdx.org/spdxdocs/spdx-tools-v1.2-3F2504E0-4F89-41D3-9A0C-0305E82C3301 SHA1:d6a770ba38583ed4bb4525bd96e50461655d2759") in
  let w14 := match r13 with Ok x => x | _ => zero_ExternalDocumentRef end in
  [(olift Bool.eqb (failed r1) (Some false));
   (olift Bool.eqb (failed r3) (Some false));
   (olift Bool.eqb (failed r5) (Some false));
   (olift Bool.eqb (failed r7) (Some false));
   (olift Bool.eqb (failed r9) (Some false));
   (olift Bool.eqb (failed r11) (Some false));
   (olift Bool.eqb (failed r13) (Some false))]) = true.
Proof. vm_compute. reflexivity. Qed.
(** /repo/spdx/v2/v2_3/tagvalue/reader/parse_creation_info_test.go 428 *)
Example v23_TestParserForExternalDocumentRefAfterCreationInfo : forallb is_false (
  let s1 := (set_ps_st PsCreationInfo (set_ps_doc (Some (set_d_ExternalDocumentReferences [] zero_DocumentOf)) zero_pstate)) in
  let r2 := parse_pair V23 s1 (("ExternalDocumentRef"), ("DocumentRef-spdx-tool-1.2 http://spdx.org/spdxdocs/spdx-tools-v1.2-3F2504E0-4F89-41D3-9A0C-0305E82C3301 SHA1:d6a770ba38583ed4bb4525bd96e50461655d2759")) in
  let s3 := after s1 r2 in
  [(option_map negb (olift Bool.eqb (failed r2) (Some false)));
   (option_map negb (olift Nat.eqb (option_map (@List.length _) (option_map (fun x => d_ExternalDocumentReferences x) (obind (Some (ps_doc s3)) (fun o => o)))) (Some 1)));
   (option_map negb (olift String.eqb (option_map (fun x => edr_DocumentRefID x) (obind (option_map (fun x => d_ExternalDocumentReferences x) (obind (Some (ps_doc s3)) (fun o => o))) (fun l => nth_error l 0))) (Some ("spdx-tool-1.2"))));
   (option_map negb (olift String.eqb (option_map (fun x => edr_URI x) (obind (option_map (fun x => d_ExternalDocumentReferences x) (obind (Some (ps_doc s3)) (fun o => o))) (fun l => nth_error l 0))) (Some ("http://spdx.org/spdxdocs/spdx-tools-v1.2-3F2504E0-4F89-41D3-9A0C-0305E82C3301"))));
   (option_map negb (olift String.eqb (option_map (fun x => ck_Algorithm x) (option_map (fun x => edr_Checksum x) (obind (option_map (fun x => d_ExternalDocumentReferences x) (obind (Some (ps_doc s3)) (fun o => o))) (fun l => nth_error l 0)))) (Some ("SHA1"))));
   (option_map negb (olift String.eqb (option_map (fun x => ck_Value x) (option_map (fun x => edr_Checksum x) (obind (option_map (fun x => d_ExternalDocumentReferences x) (obind (Some (ps_doc s3)) (fun o => o))) (fun l => nth_error l 0)))) (Some ("d6a770ba38583ed4bb4525bd96e50461655d2759"))))]) = true.
Proof. vm_compute. reflexivity. Qed.
(** /repo/spdx/v2/v2_3/tagvalue/reader/parse_creation_info_test.go 456 *)
Example v23_TestParserForDocumentComment : forallb is_false (
  let s1 := (set_ps_st PsCreationInfo (set_ps_doc (Some zero_DocumentOf) zero_pstate)) in
  let r2 := parse_pair V23 s1 (("DocumentComment"), ("document comment")) in
  let s3 := after s1 r2 in
  [(option_map negb (olift Bool.eqb (failed r2) (Some false)))]) = true.
Proof. vm_compute. reflexivity. Qed.
(** /repo/spdx/v2/v2_3/tagvalue/reader/parse_file_test.go 13 *)
Example v23_TestParserFileStartsNewFileAfterParsingFileNameTag : forallb is_false (
  let s1 := (set_ps_st PsFile (set_ps_doc (Some (set_d_Packages [] zero_DocumentOf)) (set_ps_files [(set_f_SPDXIdentifier ("f1") (set_f_FileName ("f1.txt") zero_FileOf))] (set_ps_file (Some 0) (set_ps_pkgs [(set_p_Files [] (set_p_SPDXIdentifier ("test") (set_p_PackageName ("test") zero_PackageOf)))] (set_ps_pkg (Some 0) zero_pstate)))))) in
  let s2 := push_doc_packages (Some (option_map (fun i => (i, 0)) (ps_pkg s1))) s1 in
  let s3 := push_pkg_files (Some (option_map (fun i => (i, 0)) (ps_pkg s2))) (Some (option_map (fun i => (i, 0)) (ps_file s1))) s2 in
  let r4 := parse_pair V23 s3 (("FileName"), ("f2.txt")) in
  let s5 := after s3 r4 in
  let r6 := parse_pair V23 s5 (("SPDXID"), ("SPDXRef-f2ID")) in
  let s7 := after s5 r6 in
  [(option_map negb (olift Nat.eqb (option_map (@List.length _) (option_map (map (fun i => Some (i, 0))) (option_map (fun x => p_Files x) (obind (Some (option_map (fun i => (i, 0)) (ps_pkg s3))) (fun p => obind p (fun p => nth_error (ps_pkgs s3) (fst p))))))) (Some 1)));
   (option_map negb (olift ptr_eqb (obind (option_map (map (fun i => Some (i, 0))) (option_map (fun x => p_Files x) (obind (Some (option_map (fun i => (i, 0)) (ps_pkg s3))) (fun p => obind p (fun p => nth_error (ps_pkgs s3) (fst p)))))) (fun l => nth_error l 0)) (Some (option_map (fun i => (i, 0)) (ps_file s1)))));
   (option_map negb (olift String.eqb (option_map (fun x => f_FileName x) (obind (obind (option_map (map (fun i => Some (i, 0))) (option_map (fun x => p_Files x) (obind (Some (option_map (fun i => (i, 0)) (ps_pkg s3))) (fun p => obind p (fun p => nth_error (ps_pkgs s3) (fst p)))))) (fun l => nth_error l 0)) (fun p => obind p (fun p => nth_error (ps_files s3) (fst p))))) (Some ("f1.txt"))));
   (option_map negb (olift Bool.eqb (failed r4) (Some false)));
   (option_map negb (olift pst_eqb (Some (ps_st s5)) (Some PsFile)));
   (olift ptr_eqb (Some (option_map (fun i => (i, 0)) (ps_file s5))) (Some None));
   (option_map negb (olift String.eqb (option_map (fun x => f_FileName x) (obind (Some (option_map (fun i => (i, 0)) (ps_file s5))) (fun p => obind p (fun p => nth_error (ps_files s5) (fst p))))) (Some ("f2.txt"))));
   (option_map negb (olift Nat.eqb (option_map (@List.length _) (option_map (map (fun i => Some (i, 0))) (option_map (fun x => p_Files x) (obind (Some (option_map (fun i => (i, 0)) (ps_pkg s5))) (fun p => obind p (fun p => nth_error (ps_pkgs s5) (fst p))))))) (Some 1)));
   (option_map negb (olift ptr_eqb (obind (option_map (map (fun i => Some (i, 0))) (option_map (fun x => p_Files x) (obind (Some (option_map (fun i => (i, 0)) (ps_pkg s5))) (fun p => obind p (fun p => nth_error (ps_pkgs s5) (fst p)))))) (fun l => nth_error l 0)) (Some (option_map (fun i => (i, 0)) (ps_file s1)))));
   (option_map negb (olift String.eqb (option_map (fun x => f_FileName x) (obind (obind (option_map (map (fun i => Some (i, 0))) (option_map (fun x => p_Files x) (obind (Some (option_map (fun i => (i, 0)) (ps_pkg s5))) (fun p => obind p (fun p => nth_error (ps_pkgs s5) (fst p)))))) (fun l => nth_error l 0)) (fun p => obind p (fun p => nth_error (ps_files s5) (fst p))))) (Some ("f1.txt"))));
   (option_map negb (olift Bool.eqb (failed r6) (Some false)));
   (option_map negb (olift Nat.eqb (option_map (@List.length _) (option_map (map (fun i => Some (i, 0))) (option_map (fun x => p_Files x) (obind (Some (option_map (fun i => (i, 0)) (ps_pkg s7))) (fun p => obind p (fun p => nth_error (ps_pkgs s7) (fst p))))))) (Some 2)));
   (option_map negb (olift ptr_eqb (obind (option_map (map (fun i => Some (i, 0))) (option_map (fun x => p_Files x) (obind (Some (option_map (fun i => (i, 0)) (ps_pkg s7))) (fun p => obind p (fun p => nth_error (ps_pkgs s7) (fst p)))))) (fun l => nth_error l 0)) (Some (option_map (fun i => (i, 0)) (ps_file s1)))));
   (option_map negb (olift String.eqb (option_map (fun x => f_FileName x) (obind (obind (option_map (map (fun i => Some (i, 0))) (option_map (fun x => p_Files x) (obind (Some (option_map (fun i => (i, 0)) (ps_pkg s7))) (fun p => obind p (fun p => nth_error (ps_pkgs s7) (fst p)))))) (fun l => nth_error l 0)) (fun p => obind p (fun p => nth_error (ps_files s7) (fst p))))) (Some ("f1.txt"))));
   (option_map negb (olift ptr_eqb (obind (option_map (map (fun i => Some (i, 0))) (option_map (fun x => p_Files x) (obind (Some (option_map (fun i => (i, 0)) (ps_pkg s7))) (fun p => obind p (fun p => nth_error (ps_pkgs s7) (fst p)))))) (fun l => nth_error l 1)) (Some (option_map (fun i => (i, 0)) (ps_file s7)))));
   (option_map negb (olift String.eqb (option_map (fun x => f_FileName x) (obind (obind (option_map (map (fun i => Some (i, 0))) (option_map (fun x => p_Files x) (obind (Some (option_map (fun i => (i, 0)) (ps_pkg s7))) (fun p => obind p (fun p => nth_error (ps_pkgs s7) (fst p)))))) (fun l => nth_error l 1)) (fun p => obind p (fun p => nth_error (ps_files s7) (fst p))))) (Some ("f2.txt"))))]) = true.
Proof. vm_compute. reflexivity. Qed.
(** /repo/spdx/v2/v2_3/tagvalue/reader/parse_file_test.go 90 *)
Example v23_TestParserFileAddsToPackageOrUnpackagedFiles : forallb is_false (
  let s1 := (set_ps_st PsCreationInfo (set_ps_doc (Some zero_DocumentOf) zero_pstate)) in
  let r2 := parse_pair V23 s1 (("FileName"), ("f2.txt")) in
  let s3 := after s1 r2 in
  let r4 := parse_pair V23 s3 (("SPDXID"), ("SPDXRef-f2ID")) in
  let s5 := after s3 r4 in
  let r6 := parse_pair V23 s5 (("PackageName"), ("package1")) in
  let s7 := after s5 r6 in
  let r8 := parse_pair V23 s7 (("SPDXID"), ("SPDXRef-pkg1")) in
  let s9 := after s7 r8 in
  let r10 := parse_pair V23 s9 (("FileName"), ("f3.txt")) in
  let s11 := after s9 r10 in
  let r12 := parse_pair V23 s11 (("SPDXID"), ("SPDXRef-f3ID")) in
  let s13 := after s11 r12 in
  [(option_map negb (olift Bool.eqb (failed r2) (Some false)));
   (option_map negb (olift Bool.eqb (failed r4) (Some false)));
   (option_map negb (olift Nat.eqb (option_map (@List.length _) (option_map (map (fun i => Some (i, 0))) (option_map (fun x => d_Files x) (obind (Some (ps_doc s5)) (fun o => o))))) (Some 1)));
   (option_map negb (olift ptr_eqb (obind (option_map (map (fun i => Some (i, 0))) (option_map (fun x => d_Files x) (obind (Some (ps_doc s5)) (fun o => o)))) (fun l => nth_error l 0)) (Some (option_map (fun i => (i, 0)) (ps_file s5)))));
   (option_map negb (olift Bool.eqb (failed r6) (Some false)));
   (option_map negb (olift Bool.eqb (failed r8) (Some false)));
   (option_map negb (olift Bool.eqb (failed r10) (Some false)));
   (option_map negb (olift Bool.eqb (failed r12) (Some false)));
   (option_map negb (olift Nat.eqb (option_map (@List.length _) (option_map (map (fun i => Some (i, 0))) (option_map (fun x => d_Files x) (obind (Some (ps_doc s13)) (fun o => o))))) (Some 1)));
   (option_map negb (olift ptr_eqb (obind (option_map (map (fun i => Some (i, 0))) (option_map (fun x => d_Files x) (obind (Some (ps_doc s13)) (fun o => o)))) (fun l => nth_error l 0)) (Some (option_map (fun i => (i, 0)) (ps_file s5)))));
   (option_map negb (olift Nat.eqb (option_map (@List.length _) (option_map (map (fun i => Some (i, 0))) (option_map (fun x => p_Files x) (obind (Some (option_map (fun i => (i, 0)) (ps_pkg s13))) (fun p => obind p (fun p => nth_error (ps_pkgs s13) (fst p))))))) (Some 1)));
   (option_map negb (olift ptr_eqb (obind (option_map (map (fun i => Some (i, 0))) (option_map (fun x => p_Files x) (obind (Some (option_map (fun i => (i, 0)) (ps_pkg s13))) (fun p => obind p (fun p => nth_error (ps_pkgs s13) (fst p)))))) (fun l => nth_error l 0)) (Some (option_map (fun i => (i, 0)) (ps_file s13)))))]) = true.
Proof. vm_compute. reflexivity. Qed.
(** /repo/spdx/v2/v2_3/tagvalue/reader/parse_file_test.go 148 *)
Example v23_TestParserFileStartsNewPackageAfterParsingPackageNameTag : forallb is_false (
  let s1 := (set_ps_st PsFile (set_ps_doc (Some (set_d_Packages [] zero_DocumentOf)) (set_ps_files [(set_f_SPDXIdentifier ("f1") (set_f_FileName ("f1.txt") zero_FileOf))] (set_ps_file (Some 0) (set_ps_pkgs [(set_p_Files [] (set_p_SPDXIdentifier ("package1") (set_p_PackageName ("package1") zero_PackageOf)))] (set_ps_pkg (Some 0) zero_pstate)))))) in
  let s2 := push_doc_packages (Some (option_map (fun i => (i, 0)) (ps_pkg s1))) s1 in
  let s3 := push_pkg_files (Some (option_map (fun i => (i, 0)) (ps_pkg s2))) (Some (option_map (fun i => (i, 0)) (ps_file s1))) s2 in
  let r4 := parse_pair V23 s3 (("PackageName"), ("package2")) in
  let s5 := after s3 r4 in
  [(option_map negb (olift Bool.eqb (failed r4) (Some false)));
   (option_map negb (olift pst_eqb (Some (ps_st s5)) (Some PsPackage)));
   (olift ptr_eqb (Some (option_map (fun i => (i, 0)) (ps_pkg s5))) (Some None));
   (option_map negb (olift String.eqb (option_map (fun x => p_PackageName x) (obind (Some (option_map (fun i => (i, 0)) (ps_pkg s5))) (fun p => obind p (fun p => nth_error (ps_pkgs s5) (fst p))))) (Some ("package2"))));
   (option_map negb (option_map (fun x => p_FilesAnalyzed x) (obind (Some (option_map (fun i => (i, 0)) (ps_pkg s5))) (fun p => obind p (fun p => nth_error (ps_pkgs s5) (fst p))))));
   (option_map (fun x => p_IsFilesAnalyzedTagPresent x) (obind (Some (option_map (fun i => (i, 0)) (ps_pkg s5))) (fun p => obind p (fun p => nth_error (ps_pkgs s5) (fst p)))));
   (option_map negb (olift Nat.eqb (option_map (@List.length _) (option_map (map (fun i => Some (i, 0))) (option_map (fun x => p_Files x) (obind (Some (option_map (fun i => (i, 0)) (ps_pkg s5))) (fun p => obind p (fun p => nth_error (ps_pkgs s5) (fst p))))))) (Some 0)));
   (option_map negb (olift Nat.eqb (option_map (@List.length _) (option_map (map (fun i => Some (i, 0))) (option_map (fun x => d_Packages x) (obind (Some (ps_doc s5)) (fun o => o))))) (Some 1)));
   (option_map negb (olift ptr_eqb (obind (option_map (map (fun i => Some (i, 0))) (option_map (fun x => d_Packages x) (obind (Some (ps_doc s5)) (fun o => o)))) (fun l => nth_error l 0)) (Some (option_map (fun i => (i, 0)) (ps_pkg s1)))));
   (option_map negb (olift String.eqb (option_map (fun x => p_PackageName x) (obind (obind (option_map (map (fun i => Some (i, 0))) (option_map (fun x => d_Packages x) (obind (Some (ps_doc s5)) (fun o => o)))) (fun l => nth_error l 0)) (fun p => obind p (fun p => nth_error (ps_pkgs s5) (fst p))))) (Some ("package1"))));
   (option_map negb (olift Nat.eqb (option_map (@List.length _) (option_map (map (fun i => Some (i, 0))) (option_map (fun x => p_Files x) (obind (obind (option_map (map (fun i => Some (i, 0))) (option_map (fun x => d_Packages x) (obind (Some (ps_doc s5)) (fun o => o)))) (fun l => nth_error l 0)) (fun p => obind p (fun p => nth_error (ps_pkgs s5) (fst p))))))) (Some 1)));
   (option_map negb (olift ptr_eqb (obind (option_map (map (fun i => Some (i, 0))) (option_map (fun x => p_Files x) (obind (obind (option_map (map (fun i => Some (i, 0))) (option_map (fun x => d_Packages x) (obind (Some (ps_doc s5)) (fun o => o)))) (fun l => nth_error l 0)) (fun p => obind p (fun p => nth_error (ps_pkgs s5) (fst p)))))) (fun l => nth_error l 0)) (Some (option_map (fun i => (i, 0)) (ps_file s1)))));
   (option_map negb (olift String.eqb (option_map (fun x => f_FileName x) (obind (obind (option_map (map (fun i => Some (i, 0))) (option_map (fun x => p_Files x) (obind (obind (option_map (map (fun i => Some (i, 0))) (option_map (fun x => d_Packages x) (obind (Some (ps_doc s5)) (fun o => o)))) (fun l => nth_error l 0)) (fun p => obind p (fun p => nth_error (ps_pkgs s5) (fst p)))))) (fun l => nth_error l 0)) (fun p => obind p (fun p => nth_error (ps_files s5) (fst p))))) (Some ("f1.txt"))));
   (option_map negb (olift ptr_eqb (Some (option_map (fun i => (i, 0)) (ps_file s5))) (Some None)))]) = true.
Proof. vm_compute. reflexivity. Qed.
(** /repo/spdx/v2/v2_3/tagvalue/reader/parse_file_test.go 220 *)
Example v23_TestParserFileMovesToSnippetAfterParsingSnippetSPDXIDTag : forallb is_false (
  let s1 := (set_ps_st PsFile (set_ps_doc (Some (set_d_Packages [] zero_DocumentOf)) (set_ps_files [(set_f_SPDXIdentifier ("f1") (set_f_FileName ("f1.txt") zero_FileOf))] (set_ps_file (Some 0) (set_ps_pkgs [(set_p_Files [] (set_p_SPDXIdentifier ("test") (set_p_PackageName ("test") zero_PackageOf)))] (set_ps_pkg (Some 0) zero_pstate)))))) in
  let s2 := push_doc_packages (Some (option_map (fun i => (i, 0)) (ps_pkg s1))) s1 in
  let s3 := push_pkg_files (Some (option_map (fun i => (i, 0)) (ps_pkg s2))) (Some (option_map (fun i => (i, 0)) (ps_file s2))) s2 in
  let r4 := parse_pair V23 s3 (("SnippetSPDXID"), ("SPDXRef-Test1")) in
  let s5 := after s3 r4 in
  [(option_map negb (olift Bool.eqb (failed r4) (Some false)));
   (option_map negb (olift pst_eqb (Some (ps_st s5)) (Some PsSnippet)));
   (option_map negb (olift ptr_eqb (Some (option_map (fun i => (i, 0)) (ps_file s5))) (Some (option_map (fun i => (i, 0)) (ps_file s3)))))]) = true.
Proof. vm_compute. reflexivity. Qed.
(** /repo/spdx/v2/v2_3/tagvalue/reader/parse_file_test.go 245 *)
Example v23_TestParserFileMovesToOtherLicenseAfterParsingLicenseIDTag : forallb is_false (
  let s1 := (set_ps_st PsFile (set_ps_doc (Some (set_d_Packages [] zero_DocumentOf)) (set_ps_files [(set_f_SPDXIdentifier ("f1") (set_f_FileName ("f1.txt") zero_FileOf))] (set_ps_file (Some 0) (set_ps_pkgs [(set_p_Files [] (set_p_SPDXIdentifier ("test") (set_p_PackageName ("test") zero_PackageOf)))] (set_ps_pkg (Some 0) zero_pstate)))))) in
  let s2 := push_doc_packages (Some (option_map (fun i => (i, 0)) (ps_pkg s1))) s1 in
  let s3 := push_pkg_files (Some (option_map (fun i => (i, 0)) (ps_pkg s2))) (Some (option_map (fun i => (i, 0)) (ps_file s2))) s2 in
  let r4 := parse_pair V23 s3 (("LicenseID"), ("LicenseRef-TestLic")) in
  let s5 := after s3 r4 in
  [(option_map negb (olift Bool.eqb (failed r4) (Some false)));
   (option_map negb (olift pst_eqb (Some (ps_st s5)) (Some PsOtherLicense)))]) = true.
Proof. vm_compute. reflexivity. Qed.
(** /repo/spdx/v2/v2_3/tagvalue/reader/parse_file_test.go 264 *)
Example v23_TestParserFileMovesToReviewAfterParsingReviewerTag : forallb is_false (
  let s1 := (set_ps_st PsFile (set_ps_doc (Some (set_d_Packages [] zero_DocumentOf)) (set_ps_files [(set_f_SPDXIdentifier ("f1") (set_f_FileName ("f1.txt") zero_FileOf))] (set_ps_file (Some 0) (set_ps_pkgs [(set_p_Files [] (set_p_SPDXIdentifier ("test") (set_p_PackageName ("test") zero_PackageOf)))] (set_ps_pkg (Some 0) zero_pstate)))))) in
  let s2 := push_doc_packages (Some (option_map (fun i => (i, 0)) (ps_pkg s1))) s1 in
  let s3 := push_pkg_files (Some (option_map (fun i => (i, 0)) (ps_pkg s2))) (Some (option_map (fun i => (i, 0)) (ps_file s2))) s2 in
  let r4 := parse_pair V23 s3 (("Reviewer"), ("Person: John Doe")) in
  let s5 := after s3 r4 in
  [(option_map negb (olift Bool.eqb (failed r4) (Some false)));
   (option_map negb (olift pst_eqb (Some (ps_st s5)) (Some PsReview)))]) = true.
Proof. vm_compute. reflexivity. Qed.
(** /repo/spdx/v2/v2_3/tagvalue/reader/parse_file_test.go 283 *)
Example v23_TestParserFileStaysAfterParsingRelationshipTags : forallb is_false (
  let s1 := (set_ps_st PsFile (set_ps_doc (Some (set_d_Packages [] zero_DocumentOf)) (set_ps_files [(set_f_SPDXIdentifier ("f1") (set_f_FileName ("f1.txt") zero_FileOf))] (set_ps_file (Some 0) (set_ps_pkgs [(set_p_Files [] (set_p_SPDXIdentifier ("test") (set_p_PackageName ("test") zero_PackageOf)))] (set_ps_pkg (Some 0) zero_pstate)))))) in
  let s2 := push_doc_packages (Some (option_map (fun i => (i, 0)) (ps_pkg s1))) s1 in
  let s3 := push_pkg_files (Some (option_map (fun i => (i, 0)) (ps_pkg s2))) (Some (option_map (fun i => (i, 0)) (ps_file s2))) s2 in
  let r4 := parse_pair V23 s3 (("Relationship"), ("SPDXRef-blah CONTAINS SPDXRef-blah-else")) in
  let s5 := after s3 r4 in
  let r6 := parse_pair V23 s5 (("RelationshipComment"), ("blah")) in
  let s7 := after s5 r6 in
  [(option_map negb (olift Bool.eqb (failed r4) (Some false)));
   (option_map negb (olift pst_eqb (Some (ps_st s5)) (Some PsFile)));
   (option_map negb (olift Bool.eqb (failed r6) (Some false)));
   (option_map negb (olift pst_eqb (Some (ps_st s7)) (Some PsFile)))]) = true.
Proof. vm_compute. reflexivity. Qed.
(** /repo/spdx/v2/v2_3/tagvalue/reader/parse_file_test.go 312 *)
Example v23_TestParserFileStaysAfterParsingAnnotationTags : forallb is_false (
  let s1 := (set_ps_st PsFile (set_ps_doc (Some (set_d_Packages [] zero_DocumentOf)) (set_ps_files [(set_f_SPDXIdentifier ("f1") (set_f_FileName ("f1.txt") zero_FileOf))] (set_ps_file (Some 0) (set_ps_pkgs [(set_p_Files [] (set_p_SPDXIdentifier ("test") (set_p_PackageName ("test") zero_PackageOf)))] (set_ps_pkg (Some 0) zero_pstate)))))) in
  let s2 := push_doc_packages (Some (option_map (fun i => (i, 0)) (ps_pkg s1))) s1 in
  let s3 := push_pkg_files (Some (option_map (fun i => (i, 0)) (ps_pkg s2))) (Some (option_map (fun i => (i, 0)) (ps_file s2))) s2 in
  let r4 := parse_pair V23 s3 (("Annotator"), ("Person: John Doe ()")) in
  let s5 := after s3 r4 in
  let r6 := parse_pair V23 s5 (("AnnotationDate"), ("2018-09-15T00:36:00Z")) in
  let s7 := after s5 r6 in
  let r8 := parse_pair V23 s7 (("AnnotationType"), ("REVIEW")) in
  let s9 := after s7 r8 in
  let r10 := parse_pair V23 s9 (("SPDXREF"), ("SPDXRef-45")) in
  let s11 := after s9 r10 in
  let r12 := parse_pair V23 s11 (("AnnotationComment"), ("i guess i had something to say about this particular file")) in
  let s13 := after s11 r12 in
  [(option_map negb (olift Bool.eqb (failed r4) (Some false)));
   (option_map negb (olift pst_eqb (Some (ps_st s5)) (Some PsFile)));
   (option_map negb (olift Bool.eqb (failed r6) (Some false)));
   (option_map negb (olift pst_eqb (Some (ps_st s7)) (Some PsFile)));
   (option_map negb (olift Bool.eqb (failed r8) (Some false)));
   (option_map negb (olift pst_eqb (Some (ps_st s9)) (Some PsFile)));
   (option_map negb (olift Bool.eqb (failed r10) (Some false)));
   (option_map negb (olift pst_eqb (Some (ps_st s11)) (Some PsFile)));
   (option_map negb (olift Bool.eqb (failed r12) (Some false)));
   (option_map negb (olift pst_eqb (Some (ps_st s13)) (Some PsFile)))]) = true.
Proof. vm_compute. reflexivity. Qed.
(** /repo/spdx/v2/v2_3/tagvalue/reader/parse_file_test.go 364 *)
Example v23_TestParserCanParseFileTags : forallb is_false (
  let s1 := (set_ps_st PsFile (set_ps_doc (Some (set_d_Packages [] zero_DocumentOf)) (set_ps_pkgs [(set_p_Files [] (set_p_SPDXIdentifier ("test") (set_p_PackageName ("test") zero_PackageOf)))] (set_ps_pkg (Some 0) zero_pstate)))) in
  let s2 := push_doc_packages (Some (option_map (fun i => (i, 0)) (ps_pkg s1))) s1 in
  let r3 := parse_file V23 ("FileName") ("f1.txt") s2 in
  let s4 := after s2 r3 in
  let r5 := parse_file V23 ("SPDXID") ("SPDXRef-f1") s4 in
  let s6 := after s4 r5 in
  let r7 := parse_file V23 ("FileType") ("TEXT") s6 in
  let s8 := after s6 r7 in
  let r9 := parse_file V23 ("FileType") ("DOCUMENTATION") s8 in
  let s10 := after s8 r9 in
  let r11 := parse_file V23 ("FileChecksum") ("MD5: 624c1abb3664f4b35547e7c73864ad24") s10 in
  let s12 := after s10 r11 in
  let r13 := parse_file V23 ("FileChecksum") ("SHA1: 85ed0817af83a24ad8da68c2b5094de69833983c") s12 in
  let s14 := after s12 r13 in
  let r15 := parse_file V23 ("FileChecksum") ("SHA256: 11b6d3ee554eedf79299905a98f9b9a04e498210b59f15094c916c91d150efcd") s14 in
  let s16 := after s14 r15 in
  let r17 := parse_file V23 ("FileChecksum") ("SHA512: 4ced3267f5ed38df65ceebc43e97aa6c2948cc7ef3288c2e5074e7df7fab544cc93339604513ea5f65616f9ed1c48581465043c8a9b693ef20fd4fddaf25e1b9") s16 in
  let s18 := after s16 r17 in
  let r19 := parse_file V23 ("FileChecksum") ("BLAKE3: 981d32ed7aad9e408c5c36f6346c915ba11c2bd8b3e7d44902a11d7a141abdd9") s18 in
  let s20 := after s18 r19 in
  let r21 := parse_file V23 ("LicenseConcluded") ("Apache-2.0 OR GPL-2.0-or-later") s20 in
  let s22 := after s20 r21 in
  let r23 := parse_file V23 ("LicenseInfoInFile") ("Apache-2.0") s22 in
  let s24 := after s22 r23 in
  let r25 := parse_file V23 ("LicenseInfoInFile") ("GPL-2.0-or-later") s24 in
  let s26 := after s24 r25 in
  let r27 := parse_file V23 ("LicenseInfoInFile") ("CC0-1.0") s26 in
  let s28 := after s26 r27 in
  let r29 := parse_file V23 ("LicenseComments") ("this is a comment") s28 in
  let s30 := after s28 r29 in
  let r31 := parse_file V23 ("FileCopyrightText") ("copyright (c) me") s30 in
  let s32 := after s30 r31 in
  let r33 := parse_file V23 ("ArtifactOfProjectName") ("project1") s32 in
  let s34 := after s32 r33 in
  let r35 := parse_file V23 ("ArtifactOfProjectHomePage") ("http://example.com/1/") s34 in
  let s36 := after s34 r35 in
  let r37 := parse_file V23 ("ArtifactOfProjectURI") ("http://example.com/1/uri.whatever") s36 in
  let s38 := after s36 r37 in
  let r39 := parse_file V23 ("ArtifactOfProjectName") ("project2") s38 in
  let s40 := after s38 r39 in
  let r41 := parse_file V23 ("ArtifactOfProjectName") ("project3") s40 in
  let s42 := after s40 r41 in
  let r43 := parse_file V23 ("ArtifactOfProjectHomePage") ("http://example.com/3/") s42 in
  let s44 := after s42 r43 in
  let r45 := parse_file V23 ("ArtifactOfProjectName") ("project4") s44 in
  let s46 := after s44 r45 in
  let r47 := parse_file V23 ("ArtifactOfProjectURI") ("http://example.com/4/uri.whatever") s46 in
  let s48 := after s46 r47 in
  let r49 := parse_file V23 ("FileComment") ("this is a comment") s48 in
  let s50 := after s48 r49 in
  let r51 := parse_file V23 ("FileNotice") ("this is a Notice") s50 in
  let s52 := after s50 r51 in
  let r53 := parse_file V23 ("FileContributor") ("John Doe jdoe@example.com") s52 in
  let s54 := after s52 r53 in
  let r55 := parse_file V23 ("FileContributor") ("EvilCorp") s54 in
  let s56 := after s54 r55 in
  let r57 := parse_file V23 ("FileDependency") ("f-1.txt") s56 in
  let s58 := after s56 r57 in
  let r59 := parse_file V23 ("FileDependency") ("g.txt") s58 in
  let s60 := after s58 r59 in
  let r61 := parse_file V23 ("FileAttributionText") ("Include this notice in all advertising materials") s60 in
  let s62 := after s60 r61 in
  let r63 := parse_file V23 ("FileAttributionText") ("This is a 
multi-line string") s62 in
  let s64 := after s62 r63 in
  [(option_map negb (olift Bool.eqb (failed r3) (Some false)));
   (option_map negb (olift String.eqb (option_map (fun x => f_FileName x) (obind (Some (option_map (fun i => (i, 0)) (ps_file s4))) (fun p => obind p (fun p => nth_error (ps_files s4) (fst p))))) (Some ("f1.txt"))));
   (option_map negb (olift Nat.eqb (option_map (@List.length _) (option_map (map (fun i => Some (i, 0))) (option_map (fun x => p_Files x) (obind (Some (option_map (fun i => (i, 0)) (ps_pkg s4))) (fun p => obind p (fun p => nth_error (ps_pkgs s4) (fst p))))))) (Some 0)));
   (option_map negb (olift Bool.eqb (failed r5) (Some false)));
   (option_map negb (olift String.eqb (option_map (fun x => f_SPDXIdentifier x) (obind (Some (option_map (fun i => (i, 0)) (ps_file s6))) (fun p => obind p (fun p => nth_error (ps_files s6) (fst p))))) (Some ("f1"))));
   (option_map negb (olift Nat.eqb (option_map (@List.length _) (option_map (map (fun i => Some (i, 0))) (option_map (fun x => p_Files x) (obind (Some (option_map (fun i => (i, 0)) (ps_pkg s6))) (fun p => obind p (fun p => nth_error (ps_pkgs s6) (fst p))))))) (Some 1)));
   (option_map negb (olift ptr_eqb (obind (option_map (map (fun i => Some (i, 0))) (option_map (fun x => p_Files x) (obind (Some (option_map (fun i => (i, 0)) (ps_pkg s6))) (fun p => obind p (fun p => nth_error (ps_pkgs s6) (fst p)))))) (fun l => nth_error l 0)) (Some (option_map (fun i => (i, 0)) (ps_file s6)))));
   (option_map negb (olift Bool.eqb (failed r7) (Some false)));
   (option_map negb (olift Bool.eqb (failed r9) (Some false)));
   (option_map negb (option_map (mem ("TEXT")) (option_map (fun x => f_FileTypes x) (obind (Some (option_map (fun i => (i, 0)) (ps_file s10))) (fun p => obind p (fun p => nth_error (ps_files s10) (fst p)))))));
   (option_map negb (option_map (mem ("DOCUMENTATION")) (option_map (fun x => f_FileTypes x) (obind (Some (option_map (fun i => (i, 0)) (ps_file s10))) (fun p => obind p (fun p => nth_error (ps_files s10) (fst p)))))));
   (option_map negb (olift Nat.eqb (option_map (@List.length _) (option_map (fun x => f_FileTypes x) (obind (Some (option_map (fun i => (i, 0)) (ps_file s10))) (fun p => obind p (fun p => nth_error (ps_files s10) (fst p)))))) (Some 2)));
   (option_map negb (olift Bool.eqb (failed r11) (Some false)));
   (option_map negb (olift Bool.eqb (failed r13) (Some false)));
   (option_map negb (olift Bool.eqb (failed r15) (Some false)));
   (option_map negb (olift Bool.eqb (failed r17) (Some false)));
   (option_map negb (olift Bool.eqb (failed r19) (Some false)));
   (obind (option_map (fun x => f_Checksums x) (obind (Some (option_map (fun i => (i, 0)) (ps_file s20))) (fun p => obind p (fun p => nth_error (ps_files s20) (fst p))))) (oexists (fun it => (option_map negb (olift String.eqb (option_map (fun x => ck_Value x) (Some it)) (obind (option_map (fun x => ck_Algorithm x) (Some it)) (fun k => lookup k [("MD5", "624c1abb3664f4b35547e7c73864ad24"); ("SHA1", "85ed0817af83a24ad8da68c2b5094de69833983c"); ("SHA256", "11b6d3ee554eedf79299905a98f9b9a04e498210b59f15094c916c91d150efcd"); ("SHA512", "4ced3267f5ed38df65ceebc43e97aa6c2948cc7ef3288c2e5074e7df7fab544cc93339604513ea5f65616f9ed1c48581465043c8a9b693ef20fd4fddaf25e1b9"); ("BLAKE3", "981d32ed7aad9e408c5c36f6346c915ba11c2bd8b3e7d44902a11d7a141abdd9")])))))));
   (option_map negb (olift Bool.eqb (failed r21) (Some false)));
   (option_map negb (olift String.eqb (option_map (fun x => f_LicenseConcluded x) (obind (Some (option_map (fun i => (i, 0)) (ps_file s22))) (fun p => obind p (fun p => nth_error (ps_files s22) (fst p))))) (Some ("Apache-2.0 OR GPL-2.0-or-later"))));
   (option_map negb (olift Bool.eqb (failed r23) (Some false)));
   (option_map negb (olift Bool.eqb (failed r25) (Some false)));
   (option_map negb (olift Bool.eqb (failed r27) (Some false)));
   (option_map negb (option_map (mem ("Apache-2.0")) (option_map (fun x => f_LicenseInfoInFiles x) (obind (Some (option_map (fun i => (i, 0)) (ps_file s28))) (fun p => obind p (fun p => nth_error (ps_files s28) (fst p)))))));
   (option_map negb (option_map (mem ("GPL-2.0-or-later")) (option_map (fun x => f_LicenseInfoInFiles x) (obind (Some (option_map (fun i => (i, 0)) (ps_file s28))) (fun p => obind p (fun p => nth_error (ps_files s28) (fst p)))))));
   (option_map negb (option_map (mem ("CC0-1.0")) (option_map (fun x => f_LicenseInfoInFiles x) (obind (Some (option_map (fun i => (i, 0)) (ps_file s28))) (fun p => obind p (fun p => nth_error (ps_files s28) (fst p)))))));
   (option_map negb (olift Nat.eqb (option_map (@List.length _) (option_map (fun x => f_LicenseInfoInFiles x) (obind (Some (option_map (fun i => (i, 0)) (ps_file s28))) (fun p => obind p (fun p => nth_error (ps_files s28) (fst p)))))) (Some 3)));
   (option_map negb (olift Bool.eqb (failed r29) (Some false)));
   (option_map negb (olift String.eqb (option_map (fun x => f_LicenseComments x) (obind (Some (option_map (fun i => (i, 0)) (ps_file s30))) (fun p => obind p (fun p => nth_error (ps_files s30) (fst p))))) (Some ("this is a comment"))));
   (option_map negb (olift Bool.eqb (failed r31) (Some false)));
   (option_map negb (olift String.eqb (option_map (fun x => f_CopyrightText x) (obind (Some (option_map (fun i => (i, 0)) (ps_file s32))) (fun p => obind p (fun p => nth_error (ps_files s32) (fst p))))) (Some ("copyright (c) me"))));
   (option_map negb (olift Bool.eqb (failed r33) (Some false)));
   (option_map negb (olift Bool.eqb (failed r35) (Some false)));
   (option_map negb (olift Bool.eqb (failed r37) (Some false)));
   (option_map negb (olift Bool.eqb (failed r39) (Some false)));
   (option_map negb (olift Bool.eqb (failed r41) (Some false)));
   (option_map negb (olift Bool.eqb (failed r43) (Some false)));
   (option_map negb (olift Bool.eqb (failed r45) (Some false)));
   (option_map negb (olift Bool.eqb (failed r47) (Some false)));
   (option_map negb (olift Nat.eqb (option_map (@List.length _) (obind (Some (option_map (fun i => (i, 0)) (ps_file s48))) (fun p => obind p (fun p => option_map (fun l => map (fun j => Some (fst p, j)) (seq 0 (List.length l))) (option_map (fun x => f_Artifacts x) (obind (Some (option_map (fun i => (i, 0)) (ps_file s48))) (fun p => obind p (fun p => nth_error (ps_files s48) (fst p))))))))) (Some 4)));
   (option_map negb (olift String.eqb (option_map (fun x => ar_Name x) (obind (obind (obind (Some (option_map (fun i => (i, 0)) (ps_file s48))) (fun p => obind p (fun p => option_map (fun l => map (fun j => Some (fst p, j)) (seq 0 (List.length l))) (option_map (fun x => f_Artifacts x) (obind (Some (option_map (fun i => (i, 0)) (ps_file s48))) (fun p => obind p (fun p => nth_error (ps_files s48) (fst p)))))))) (fun l => nth_error l 0)) (fun p => obind p (fun p => obind (nth_error (ps_files s48) (fst p)) (fun w => nth_error (f_Artifacts w) (snd p)))))) (Some ("project1"))));
   (option_map negb (olift String.eqb (option_map (fun x => ar_HomePage x) (obind (obind (obind (Some (option_map (fun i => (i, 0)) (ps_file s48))) (fun p => obind p (fun p => option_map (fun l => map (fun j => Some (fst p, j)) (seq 0 (List.length l))) (option_map (fun x => f_Artifacts x) (obind (Some (option_map (fun i => (i, 0)) (ps_file s48))) (fun p => obind p (fun p => nth_error (ps_files s48) (fst p)))))))) (fun l => nth_error l 0)) (fun p => obind p (fun p => obind (nth_error (ps_files s48) (fst p)) (fun w => nth_error (f_Artifacts w) (snd p)))))) (Some ("http://example.com/1/"))));
   (option_map negb (olift String.eqb (option_map (fun x => ar_URI x) (obind (obind (obind (Some (option_map (fun i => (i, 0)) (ps_file s48))) (fun p => obind p (fun p => option_map (fun l => map (fun j => Some (fst p, j)) (seq 0 (List.length l))) (option_map (fun x => f_Artifacts x) (obind (Some (option_map (fun i => (i, 0)) (ps_file s48))) (fun p => obind p (fun p => nth_error (ps_files s48) (fst p)))))))) (fun l => nth_error l 0)) (fun p => obind p (fun p => obind (nth_error (ps_files s48) (fst p)) (fun w => nth_error (f_Artifacts w) (snd p)))))) (Some ("http://example.com/1/uri.whatever"))));
   (option_map negb (olift String.eqb (option_map (fun x => ar_Name x) (obind (obind (obind (Some (option_map (fun i => (i, 0)) (ps_file s48))) (fun p => obind p (fun p => option_map (fun l => map (fun j => Some (fst p, j)) (seq 0 (List.length l))) (option_map (fun x => f_Artifacts x) (obind (Some (option_map (fun i => (i, 0)) (ps_file s48))) (fun p => obind p (fun p => nth_error (ps_files s48) (fst p)))))))) (fun l => nth_error l 1)) (fun p => obind p (fun p => obind (nth_error (ps_files s48) (fst p)) (fun w => nth_error (f_Artifacts w) (snd p)))))) (Some ("project2"))));
   (option_map negb (olift String.eqb (option_map (fun x => ar_HomePage x) (obind (obind (obind (Some (option_map (fun i => (i, 0)) (ps_file s48))) (fun p => obind p (fun p => option_map (fun l => map (fun j => Some (fst p, j)) (seq 0 (List.length l))) (option_map (fun x => f_Artifacts x) (obind (Some (option_map (fun i => (i, 0)) (ps_file s48))) (fun p => obind p (fun p => nth_error (ps_files s48) (fst p)))))))) (fun l => nth_error l 1)) (fun p => obind p (fun p => obind (nth_error (ps_files s48) (fst p)) (fun w => nth_error (f_Artifacts w) (snd p)))))) (Some (""))));
   (option_map negb (olift String.eqb (option_map (fun x => ar_URI x) (obind (obind (obind (Some (option_map (fun i => (i, 0)) (ps_file s48))) (fun p => obind p (fun p => option_map (fun l => map (fun j => Some (fst p, j)) (seq 0 (List.length l))) (option_map (fun x => f_Artifacts x) (obind (Some (option_map (fun i => (i, 0)) (ps_file s48))) (fun p => obind p (fun p => nth_error (ps_files s48) (fst p)))))))) (fun l => nth_error l 1)) (fun p => obind p (fun p => obind (nth_error (ps_files s48) (fst p)) (fun w => nth_error (f_Artifacts w) (snd p)))))) (Some (""))));
   (option_map negb (olift String.eqb (option_map (fun x => ar_Name x) (obind (obind (obind (Some (option_map (fun i => (i, 0)) (ps_file s48))) (fun p => obind p (fun p => option_map (fun l => map (fun j => Some (fst p, j)) (seq 0 (List.length l))) (option_map (fun x => f_Artifacts x) (obind (Some (option_map (fun i => (i, 0)) (ps_file s48))) (fun p => obind p (fun p => nth_error (ps_files s48) (fst p)))))))) (fun l => nth_error l 2)) (fun p => obind p (fun p => obind (nth_error (ps_files s48) (fst p)) (fun w => nth_error (f_Artifacts w) (snd p)))))) (Some ("project3"))));
   (option_map negb (olift String.eqb (option_map (fun x => ar_HomePage x) (obind (obind (obind (Some (option_map (fun i => (i, 0)) (ps_file s48))) (fun p => obind p (fun p => option_map (fun l => map (fun j => Some (fst p, j)) (seq 0 (List.length l))) (option_map (fun x => f_Artifacts x) (obind (Some (option_map (fun i => (i, 0)) (ps_file s48))) (fun p => obind p (fun p => nth_error (ps_files s48) (fst p)))))))) (fun l => nth_error l 2)) (fun p => obind p (fun p => obind (nth_error (ps_files s48) (fst p)) (fun w => nth_error (f_Artifacts w) (snd p)))))) (Some ("http://example.com/3/"))));
   (option_map negb (olift String.eqb (option_map (fun x => ar_URI x) (obind (obind (obind (Some (option_map (fun i => (i, 0)) (ps_file s48))) (fun p => obind p (fun p => option_map (fun l => map (fun j => Some (fst p, j)) (seq 0 (List.length l))) (option_map (fun x => f_Artifacts x) (obind (Some (option_map (fun i => (i, 0)) (ps_file s48))) (fun p => obind p (fun p => nth_error (ps_files s48) (fst p)))))))) (fun l => nth_error l 2)) (fun p => obind p (fun p => obind (nth_error (ps_files s48) (fst p)) (fun w => nth_error (f_Artifacts w) (snd p)))))) (Some (""))));
   (option_map negb (olift String.eqb (option_map (fun x => ar_Name x) (obind (obind (obind (Some (option_map (fun i => (i, 0)) (ps_file s48))) (fun p => obind p (fun p => option_map (fun l => map (fun j => Some (fst p, j)) (seq 0 (List.length l))) (option_map (fun x => f_Artifacts x) (obind (Some (option_map (fun i => (i, 0)) (ps_file s48))) (fun p => obind p (fun p => nth_error (ps_files s48) (fst p)))))))) (fun l => nth_error l 3)) (fun p => obind p (fun p => obind (nth_error (ps_files s48) (fst p)) (fun w => nth_error (f_Artifacts w) (snd p)))))) (Some ("project4"))));
   (option_map negb (olift String.eqb (option_map (fun x => ar_HomePage x) (obind (obind (obind (Some (option_map (fun i => (i, 0)) (ps_file s48))) (fun p => obind p (fun p => option_map (fun l => map (fun j => Some (fst p, j)) (seq 0 (List.length l))) (option_map (fun x => f_Artifacts x) (obind (Some (option_map (fun i => (i, 0)) (ps_file s48))) (fun p => obind p (fun p => nth_error (ps_files s48) (fst p)))))))) (fun l => nth_error l 3)) (fun p => obind p (fun p => obind (nth_error (ps_files s48) (fst p)) (fun w => nth_error (f_Artifacts w) (snd p)))))) (Some (""))));
   (option_map negb (olift String.eqb (option_map (fun x => ar_URI x) (obind (obind (obind (Some (option_map (fun i => (i, 0)) (ps_file s48))) (fun p => obind p (fun p => option_map (fun l => map (fun j => Some (fst p, j)) (seq 0 (List.length l))) (option_map (fun x => f_Artifacts x) (obind (Some (option_map (fun i => (i, 0)) (ps_file s48))) (fun p => obind p (fun p => nth_error (ps_files s48) (fst p)))))))) (fun l => nth_error l 3)) (fun p => obind p (fun p => obind (nth_error (ps_files s48) (fst p)) (fun w => nth_error (f_Artifacts w) (snd p)))))) (Some ("http://example.com/4/uri.whatever"))));
   (option_map negb (olift Bool.eqb (failed r49) (Some false)));
   (option_map negb (olift String.eqb (option_map (fun x => f_Comment x) (obind (Some (option_map (fun i => (i, 0)) (ps_file s50))) (fun p => obind p (fun p => nth_error (ps_files s50) (fst p))))) (Some ("this is a comment"))));
   (option_map negb (olift Bool.eqb (failed r51) (Some false)));
   (option_map negb (olift String.eqb (option_map (fun x => f_Notice x) (obind (Some (option_map (fun i => (i, 0)) (ps_file s52))) (fun p => obind p (fun p => nth_error (ps_files s52) (fst p))))) (Some ("this is a Notice"))));
   (option_map negb (olift Bool.eqb (failed r53) (Some false)));
   (option_map negb (olift Bool.eqb (failed r55) (Some false)));
   (option_map negb (option_map (mem ("John Doe jdoe@example.com")) (option_map (fun x => f_Contributors x) (obind (Some (option_map (fun i => (i, 0)) (ps_file s56))) (fun p => obind p (fun p => nth_error (ps_files s56) (fst p)))))));
   (option_map negb (option_map (mem ("EvilCorp")) (option_map (fun x => f_Contributors x) (obind (Some (option_map (fun i => (i, 0)) (ps_file s56))) (fun p => obind p (fun p => nth_error (ps_files s56) (fst p)))))));
   (option_map negb (olift Nat.eqb (option_map (@List.length _) (option_map (fun x => f_Contributors x) (obind (Some (option_map (fun i => (i, 0)) (ps_file s56))) (fun p => obind p (fun p => nth_error (ps_files s56) (fst p)))))) (Some 2)));
   (option_map negb (olift Bool.eqb (failed r57) (Some false)));
   (option_map negb (olift Bool.eqb (failed r59) (Some false)));
   (option_map negb (option_map (mem ("f-1.txt")) (option_map (fun x => f_Dependencies x) (obind (Some (option_map (fun i => (i, 0)) (ps_file s60))) (fun p => obind p (fun p => nth_error (ps_files s60) (fst p)))))));
   (option_map negb (option_map (mem ("g.txt")) (option_map (fun x => f_Dependencies x) (obind (Some (option_map (fun i => (i, 0)) (ps_file s60))) (fun p => obind p (fun p => nth_error (ps_files s60) (fst p)))))));
   (option_map negb (olift Nat.eqb (option_map (@List.length _) (option_map (fun x => f_Dependencies x) (obind (Some (option_map (fun i => (i, 0)) (ps_file s60))) (fun p => obind p (fun p => nth_error (ps_files s60) (fst p)))))) (Some 2)));
   (option_map negb (olift Bool.eqb (failed r61) (Some false)));
   (option_map negb (olift Bool.eqb (failed r63) (Some false)));
   (option_map negb (option_map (mem ("Include this notice in all advertising materials")) (option_map (fun x => f_AttributionTexts x) (obind (Some (option_map (fun i => (i, 0)) (ps_file s64))) (fun p => obind p (fun p => nth_error (ps_files s64) (fst p)))))));
   (option_map negb (option_map (mem ("This is a 
multi-line string")) (option_map (fun x => f_AttributionTexts x) (obind (Some (option_map (fun i => (i, 0)) (ps_file s64))) (fun p => obind p (fun p => nth_error (ps_files s64) (fst p)))))));
   (option_map negb (olift Nat.eqb (option_map (@List.length _) (option_map (fun x => f_AttributionTexts x) (obind (Some (option_map (fun i => (i, 0)) (ps_file s64))) (fun p => obind p (fun p => nth_error (ps_files s64) (fst p)))))) (Some 2)))]) = true.
Proof. vm_compute. reflexivity. Qed.
(** /repo/spdx/v2/v2_3/tagvalue/reader/parse_file_test.go 695 *)
Example v23_TestParserFileCreatesRelationshipInDocument : forallb is_false (
  let s1 := (set_ps_st PsFile (set_ps_doc (Some (set_d_Packages [] zero_DocumentOf)) (set_ps_files [(set_f_SPDXIdentifier ("f1") (set_f_FileName ("f1.txt") zero_FileOf))] (set_ps_file (Some 0) (set_ps_pkgs [(set_p_Files [] (set_p_SPDXIdentifier ("test") (set_p_PackageName ("test") zero_PackageOf)))] (set_ps_pkg (Some 0) zero_pstate)))))) in
  let s2 := push_doc_packages (Some (option_map (fun i => (i, 0)) (ps_pkg s1))) s1 in
  let s3 := push_pkg_files (Some (option_map (fun i => (i, 0)) (ps_pkg s2))) (Some (option_map (fun i => (i, 0)) (ps_file s2))) s2 in
  let r4 := parse_pair V23 s3 (("Relationship"), ("SPDXRef-blah CONTAINS SPDXRef-blah-whatever")) in
  let s5 := after s3 r4 in
  [(option_map negb (olift Bool.eqb (failed r4) (Some false)));
   (olift ptr_eqb (Some (option_map (fun i => (i, 0)) (ps_rln s5))) (Some None));
   (option_map negb (olift ptr_eqb (Some (option_map (fun i => (i, 0)) (ps_rln s5))) (obind (option_map (fun l => map (fun i => Some (i, 0)) (seq 0 (List.length l))) (option_map (fun x => d_Relationships x) (obind (Some (ps_doc s5)) (fun o => o)))) (fun l => nth_error l 0))))]) = true.
Proof. vm_compute. reflexivity. Qed.
(** /repo/spdx/v2/v2_3/tagvalue/reader/parse_file_test.go 717 *)
Example v23_TestParserFileCreatesAnnotationInDocument : forallb is_false (
  let s1 := (set_ps_st PsFile (set_ps_doc (Some (set_d_Packages [] zero_DocumentOf)) (set_ps_files [(set_f_SPDXIdentifier ("f1") (set_f_FileName ("f1.txt") zero_FileOf))] (set_ps_file (Some 0) (set_ps_pkgs [(set_p_Files [] (set_p_SPDXIdentifier ("test") (set_p_PackageName ("test") zero_PackageOf)))] (set_ps_pkg (Some 0) zero_pstate)))))) in
  let s2 := push_doc_packages (Some (option_map (fun i => (i, 0)) (ps_pkg s1))) s1 in
  let s3 := push_pkg_files (Some (option_map (fun i => (i, 0)) (ps_pkg s2))) (Some (option_map (fun i => (i, 0)) (ps_file s2))) s2 in
  let r4 := parse_pair V23 s3 (("Annotator"), ("Person: John Doe ()")) in
  let s5 := after s3 r4 in
  [(option_map negb (olift Bool.eqb (failed r4) (Some false)));
   (olift ptr_eqb (Some (option_map (fun i => (i, 0)) (ps_ann s5))) (Some None));
   (option_map negb (olift ptr_eqb (Some (option_map (fun i => (i, 0)) (ps_ann s5))) (obind (option_map (fun l => map (fun i => Some (i, 0)) (seq 0 (List.length l))) (option_map (fun x => d_Annotations x) (obind (Some (ps_doc s5)) (fun o => o)))) (fun l => nth_error l 0))))]) = true.
Proof. vm_compute. reflexivity. Qed.
(** /repo/spdx/v2/v2_3/tagvalue/reader/parse_file_test.go 739 *)
Example v23_TestParserFileUnknownTagFails : forallb is_false (
  let s1 := (set_ps_st PsFile (set_ps_doc (Some (set_d_Packages [] zero_DocumentOf)) (set_ps_files [(set_f_SPDXIdentifier ("f1") (set_f_FileName ("f1.txt") zero_FileOf))] (set_ps_file (Some 0) (set_ps_pkgs [(set_p_Files [] (set_p_SPDXIdentifier ("test") (set_p_PackageName ("test") zero_PackageOf)))] (set_ps_pkg (Some 0) zero_pstate)))))) in
  let s2 := push_doc_packages (Some (option_map (fun i => (i, 0)) (ps_pkg s1))) s1 in
  let s3 := push_pkg_files (Some (option_map (fun i => (i, 0)) (ps_pkg s2))) (Some (option_map (fun i => (i, 0)) (ps_file s2))) s2 in
  let r4 := parse_file V23 ("blah") ("something") s3 in
  let s5 := after s3 r4 in
  [(olift Bool.eqb (failed r4) (Some false))]) = true.
Proof. vm_compute. reflexivity. Qed.
(** /repo/spdx/v2/v2_3/tagvalue/reader/parse_file_test.go 755 *)
Example v23_TestFileAOPPointerChangesAfterTags : forallb is_false (
  let s1 := (set_ps_st PsFile (set_ps_doc (Some (set_d_Packages [] zero_DocumentOf)) (set_ps_files [(set_f_SPDXIdentifier ("f1") (set_f_FileName ("f1.txt") zero_FileOf))] (set_ps_file (Some 0) (set_ps_pkgs [(set_p_Files [] (set_p_SPDXIdentifier ("test") (set_p_PackageName ("test") zero_PackageOf)))] (set_ps_pkg (Some 0) zero_pstate)))))) in
  let s2 := push_doc_packages (Some (option_map (fun i => (i, 0)) (ps_pkg s1))) s1 in
  let s3 := push_pkg_files (Some (option_map (fun i => (i, 0)) (ps_pkg s2))) (Some (option_map (fun i => (i, 0)) (ps_file s2))) s2 in
  let r4 := parse_file V23 ("ArtifactOfProjectName") ("project1") s3 in
  let s5 := after s3 r4 in
  let r6 := parse_file V23 ("ArtifactOfProjectHomePage") ("http://example.com/1/") s5 in
  let s7 := after s5 r6 in
  let r8 := parse_file V23 ("ArtifactOfProjectURI") ("http://example.com/1/uri.whatever") s7 in
  let s9 := after s7 r8 in
  let r10 := parse_file V23 ("ArtifactOfProjectName") ("project2") s9 in
  let s11 := after s9 r10 in
  let r12 := parse_file V23 ("FileComment") ("whatever") s11 in
  let s13 := after s11 r12 in
  [(option_map negb (olift Bool.eqb (failed r4) (Some false)));
   (olift ptr_eqb (Some (ps_aop s5)) (Some None));
   (option_map negb (olift Bool.eqb (failed r6) (Some false)));
   (option_map negb (olift ptr_eqb (Some (ps_aop s7)) (Some (ps_aop s5))));
   (option_map negb (olift Bool.eqb (failed r8) (Some false)));
   (option_map negb (olift ptr_eqb (Some (ps_aop s9)) (Some (ps_aop s5))));
   (option_map negb (olift Bool.eqb (failed r10) (Some false)));
   (olift ptr_eqb (Some (ps_aop s11)) (Some (ps_aop s5)));
   (option_map negb (olift Bool.eqb (failed r12) (Some false)));
   (option_map negb (olift ptr_eqb (Some (ps_aop s13)) (Some None)))]) = true.
Proof. vm_compute. reflexivity. Qed.
(** /repo/spdx/v2/v2_3/tagvalue/reader/parse_file_test.go 812 *)
Example v23_TestParserFailsIfInvalidSPDXIDInFileSection : forallb is_false (
  let s1 := (set_ps_st PsFile (set_ps_doc (Some (set_d_Packages [] zero_DocumentOf)) (set_ps_pkgs [(set_p_Files [] (set_p_SPDXIdentifier ("test") (set_p_PackageName ("test") zero_PackageOf)))] (set_ps_pkg (Some 0) zero_pstate)))) in
  let s2 := push_doc_packages (Some (option_map (fun i => (i, 0)) (ps_pkg s1))) s1 in
  let r3 := parse_file V23 ("FileName") ("f1.txt") s2 in
  let s4 := after s2 r3 in
  let r5 := parse_file V23 ("SPDXID") ("whoops") s4 in
  let s6 := after s4 r5 in
  [(option_map negb (olift Bool.eqb (failed r3) (Some false)));
   (olift Bool.eqb (failed r5) (Some false))]) = true.
Proof. vm_compute. reflexivity. Qed.
(** /repo/spdx/v2/v2_3/tagvalue/reader/parse_file_test.go 832 *)
Example v23_TestParserFailsIfInvalidChecksumFormatInFileSection : forallb is_false (
  let s1 := (set_ps_st PsFile (set_ps_doc (Some (set_d_Packages [] zero_DocumentOf)) (set_ps_pkgs [(set_p_Files [] (set_p_SPDXIdentifier ("test") (set_p_PackageName ("test") zero_PackageOf)))] (set_ps_pkg (Some 0) zero_pstate)))) in
  let s2 := push_doc_packages (Some (option_map (fun i => (i, 0)) (ps_pkg s1))) s1 in
  let r3 := parse_file V23 ("FileName") ("f1.txt") s2 in
  let s4 := after s2 r3 in
  let r5 := parse_file V23 ("FileChecksum") ("SHA1 85ed0817af83a24ad8da68c2b5094de69833983c") s4 in
  let s6 := after s4 r5 in
  [(option_map negb (olift Bool.eqb (failed r3) (Some false)));
   (olift Bool.eqb (failed r5) (Some false))]) = true.
Proof. vm_compute. reflexivity. Qed.
(** /repo/spdx/v2/v2_3/tagvalue/reader/parse_file_test.go 852 *)
Example v23_TestParserFailsIfUnknownChecksumTypeInFileSection : forallb is_false (
  let s1 := (set_ps_st PsFile (set_ps_doc (Some (set_d_Packages [] zero_DocumentOf)) (set_ps_pkgs [(set_p_Files [] (set_p_SPDXIdentifier ("test") (set_p_PackageName ("test") zero_PackageOf)))] (set_ps_pkg (Some 0) zero_pstate)))) in
  let s2 := push_doc_packages (Some (option_map (fun i => (i, 0)) (ps_pkg s1))) s1 in
  let r3 := parse_file V23 ("FileName") ("f1.txt") s2 in
  let s4 := after s2 r3 in
  let r5 := parse_file V23 ("FileChecksum") ("Special: 85ed0817af83a24ad8da68c2b5094de69833983c") s4 in
  let s6 := after s4 r5 in
  [(option_map negb (olift Bool.eqb (failed r3) (Some false)));
   (olift Bool.eqb (failed r5) (Some false))]) = true.
Proof. vm_compute. reflexivity. Qed.
(** /repo/spdx/v2/v2_3/tagvalue/reader/parse_file_test.go 872 *)
Example v23_TestParserFailsIfArtifactHomePageBeforeArtifactName : forallb is_false (
  let s1 := (set_ps_st PsFile (set_ps_doc (Some (set_d_Packages [] zero_DocumentOf)) (set_ps_pkgs [(set_p_Files [] (set_p_SPDXIdentifier ("test") (set_p_PackageName ("test") zero_PackageOf)))] (set_ps_pkg (Some 0) zero_pstate)))) in
  let s2 := push_doc_packages (Some (option_map (fun i => (i, 0)) (ps_pkg s1))) s1 in
  let r3 := parse_file V23 ("FileName") ("f1.txt") s2 in
  let s4 := after s2 r3 in
  let r5 := parse_file V23 ("ArtifactOfProjectHomePage") ("https://example.com") s4 in
  let s6 := after s4 r5 in
  [(option_map negb (olift Bool.eqb (failed r3) (Some false)));
   (olift Bool.eqb (failed r5) (Some false))]) = true.
Proof. vm_compute. reflexivity. Qed.
(** /repo/spdx/v2/v2_3/tagvalue/reader/parse_file_test.go 892 *)
Example v23_TestParserFailsIfArtifactURIBeforeArtifactName : forallb is_false (
  let s1 := (set_ps_st PsFile (set_ps_doc (Some (set_d_Packages [] zero_DocumentOf)) (set_ps_pkgs [(set_p_Files [] (set_p_SPDXIdentifier ("test") (set_p_PackageName ("test") zero_PackageOf)))] (set_ps_pkg (Some 0) zero_pstate)))) in
  let s2 := push_doc_packages (Some (option_map (fun i => (i, 0)) (ps_pkg s1))) s1 in
  let r3 := parse_file V23 ("FileName") ("f1.txt") s2 in
  let s4 := after s2 r3 in
  let r5 := parse_file V23 ("ArtifactOfProjectURI") ("https://example.com") s4 in
  let s6 := after s4 r5 in
  [(option_map negb (olift Bool.eqb (failed r3) (Some false)));
   (olift Bool.eqb (failed r5) (Some false))]) = true.
Proof. vm_compute. reflexivity. Qed.
(** /repo/spdx/v2/v2_3/tagvalue/reader/parse_file_test.go 912 *)
Example v23_TestParserFilesWithoutSpdxIdThrowError : forallb is_false (
  let s1 := (set_ps_st PsFile (set_ps_doc (Some (set_d_Packages [] zero_DocumentOf)) (set_ps_files [(set_f_FileName ("FileName") zero_FileOf)] (set_ps_file (Some 0) zero_pstate)))) in
  let r2 := parse_pair V23 s1 (("FileName"), ("f2")) in
  let s3 := after s1 r2 in
  let s4 := (set_ps_st PsCreationInfo (set_ps_doc (Some zero_DocumentOf) (set_ps_files [(set_f_FileName ("f2.txt") zero_FileOf)] (set_ps_file (Some 0) zero_pstate)))) in
  let r5 := parse_pair V23 s4 (("SnippetSPDXID"), ("s1")) in
  let s6 := after s4 r5 in
  let s7 := (set_ps_st PsCreationInfo (set_ps_doc (Some zero_DocumentOf) zero_pstate)) in
  let r8 := parse_pair V23 s7 (("FileName"), ("f3.txt")) in
  let s9 := after s7 r8 in
  let r10 := parse_pair V23 s9 (("PackageName"), ("p2")) in
  let s11 := after s9 r10 in
  [(olift Bool.eqb (failed r2) (Some false));
   (olift Bool.eqb (failed r5) (Some false));
   (option_map negb (olift Bool.eqb (failed r8) (Some false)));
   (olift Bool.eqb (failed r10) (Some false))]) = true.
Proof. vm_compute. reflexivity. Qed.
(** /repo/spdx/v2/v2_3/tagvalue/reader/parse_other_license_test.go 11 *)
Example v23_TestParserOLStartsNewOtherLicenseAfterParsingLicenseIDTag : forallb is_false (
  let s1 := (set_ps_st PsOtherLicense (set_ps_doc (Some (set_d_OtherLicenses [(set_ol_LicenseName ("License 11") (set_ol_LicenseIdentifier ("LicenseRef-Lic11") zero_OtherLicense))] (set_d_Packages [] zero_DocumentOf))) (set_ps_lic (Some 0) (set_ps_files [(set_f_SPDXIdentifier ("f1") (set_f_FileName ("f1.txt") zero_FileOf))] (set_ps_file (Some 0) (set_ps_pkgs [(set_p_Files [] (set_p_SPDXIdentifier ("test") (set_p_PackageName ("test") zero_PackageOf)))] (set_ps_pkg (Some 0) zero_pstate))))))) in
  let s2 := push_doc_packages (Some (option_map (fun i => (i, 0)) (ps_pkg s1))) s1 in
  let s3 := push_pkg_files (Some (option_map (fun i => (i, 0)) (ps_pkg s2))) (Some (option_map (fun i => (i, 0)) (ps_file s2))) s2 in
  let r4 := parse_pair V23 s3 (("LicenseID"), ("LicenseRef-22")) in
  let s5 := after s3 r4 in
  let r6 := parse_pair V23 s5 (("LicenseName"), ("License 22")) in
  let s7 := after s5 r6 in
  [(option_map negb (olift ptr_eqb (obind (option_map (fun l => map (fun i => Some (i, 0)) (seq 0 (List.length l))) (option_map (fun x => d_OtherLicenses x) (obind (Some (ps_doc s3)) (fun o => o)))) (fun l => nth_error l 0)) (Some (option_map (fun i => (i, 0)) (ps_lic s1)))));
   (option_map negb (olift String.eqb (option_map (fun x => ol_LicenseName x) (obind (obind (option_map (fun l => map (fun i => Some (i, 0)) (seq 0 (List.length l))) (option_map (fun x => d_OtherLicenses x) (obind (Some (ps_doc s3)) (fun o => o)))) (fun l => nth_error l 0)) (fun p => obind p (fun p => obind (ps_doc s3) (fun d => nth_error (d_OtherLicenses d) (fst p)))))) (Some ("License 11"))));
   (option_map negb (olift Bool.eqb (failed r4) (Some false)));
   (option_map negb (olift pst_eqb (Some (ps_st s5)) (Some PsOtherLicense)));
   (olift ptr_eqb (Some (option_map (fun i => (i, 0)) (ps_lic s5))) (Some None));
   (option_map negb (olift Bool.eqb (failed r6) (Some false)));
   (option_map negb (olift pst_eqb (Some (ps_st s7)) (Some PsOtherLicense)));
   (option_map negb (olift String.eqb (option_map (fun x => ol_LicenseName x) (obind (Some (option_map (fun i => (i, 0)) (ps_lic s7))) (fun p => obind p (fun p => obind (ps_doc s7) (fun d => nth_error (d_OtherLicenses d) (fst p)))))) (Some ("License 22"))));
   (option_map negb (olift Nat.eqb (option_map (@List.length _) (option_map (fun l => map (fun i => Some (i, 0)) (seq 0 (List.length l))) (option_map (fun x => d_OtherLicenses x) (obind (Some (ps_doc s7)) (fun o => o))))) (Some 2)));
   (option_map negb (olift ptr_eqb (obind (option_map (fun l => map (fun i => Some (i, 0)) (seq 0 (List.length l))) (option_map (fun x => d_OtherLicenses x) (obind (Some (ps_doc s7)) (fun o => o)))) (fun l => nth_error l 0)) (Some (option_map (fun i => (i, 0)) (ps_lic s1)))));
   (option_map negb (olift String.eqb (option_map (fun x => ol_LicenseIdentifier x) (obind (obind (option_map (fun l => map (fun i => Some (i, 0)) (seq 0 (List.length l))) (option_map (fun x => d_OtherLicenses x) (obind (Some (ps_doc s7)) (fun o => o)))) (fun l => nth_error l 0)) (fun p => obind p (fun p => obind (ps_doc s7) (fun d => nth_error (d_OtherLicenses d) (fst p)))))) (Some ("LicenseRef-Lic11"))));
   (option_map negb (olift String.eqb (option_map (fun x => ol_LicenseName x) (obind (obind (option_map (fun l => map (fun i => Some (i, 0)) (seq 0 (List.length l))) (option_map (fun x => d_OtherLicenses x) (obind (Some (ps_doc s7)) (fun o => o)))) (fun l => nth_error l 0)) (fun p => obind p (fun p => obind (ps_doc s7) (fun d => nth_error (d_OtherLicenses d) (fst p)))))) (Some ("License 11"))));
   (option_map negb (olift ptr_eqb (obind (option_map (fun l => map (fun i => Some (i, 0)) (seq 0 (List.length l))) (option_map (fun x => d_OtherLicenses x) (obind (Some (ps_doc s7)) (fun o => o)))) (fun l => nth_error l 1)) (Some (option_map (fun i => (i, 0)) (ps_lic s7)))));
   (option_map negb (olift String.eqb (option_map (fun x => ol_LicenseIdentifier x) (obind (obind (option_map (fun l => map (fun i => Some (i, 0)) (seq 0 (List.length l))) (option_map (fun x => d_OtherLicenses x) (obind (Some (ps_doc s7)) (fun o => o)))) (fun l => nth_error l 1)) (fun p => obind p (fun p => obind (ps_doc s7) (fun d => nth_error (d_OtherLicenses d) (fst p)))))) (Some ("LicenseRef-22"))));
   (option_map negb (olift String.eqb (option_map (fun x => ol_LicenseName x) (obind (obind (option_map (fun l => map (fun i => Some (i, 0)) (seq 0 (List.length l))) (option_map (fun x => d_OtherLicenses x) (obind (Some (ps_doc s7)) (fun o => o)))) (fun l => nth_error l 1)) (fun p => obind p (fun p => obind (ps_doc s7) (fun d => nth_error (d_OtherLicenses d) (fst p)))))) (Some ("License 22"))))]) = true.
Proof. vm_compute. reflexivity. Qed.
(** /repo/spdx/v2/v2_3/tagvalue/reader/parse_other_license_test.go 91 *)
Example v23_TestParserOLMovesToReviewAfterParsingReviewerTag : forallb is_false (
  let s1 := (set_ps_st PsOtherLicense (set_ps_doc (Some (set_d_Packages [] zero_DocumentOf)) (set_ps_files [(set_f_SPDXIdentifier ("f1") (set_f_FileName ("f1.txt") zero_FileOf))] (set_ps_file (Some 0) (set_ps_pkgs [(set_p_Files [] (set_p_SPDXIdentifier ("test") (set_p_PackageName ("test") zero_PackageOf)))] (set_ps_pkg (Some 0) zero_pstate)))))) in
  let s2 := push_doc_packages (Some (option_map (fun i => (i, 0)) (ps_pkg s1))) s1 in
  let s3 := push_pkg_files (Some (option_map (fun i => (i, 0)) (ps_pkg s2))) (Some (option_map (fun i => (i, 0)) (ps_file s2))) s2 in
  let r4 := parse_pair V23 s3 (("Reviewer"), ("Person: John Doe")) in
  let s5 := after s3 r4 in
  [(option_map negb (olift Bool.eqb (failed r4) (Some false)));
   (option_map negb (olift pst_eqb (Some (ps_st s5)) (Some PsReview)))]) = true.
Proof. vm_compute. reflexivity. Qed.
(** /repo/spdx/v2/v2_3/tagvalue/reader/parse_other_license_test.go 111 *)
Example v23_TestParserOtherLicenseStaysAfterParsingRelationshipTags : forallb is_false (
  let s1 := (set_ps_st PsOtherLicense (set_ps_doc (Some (set_d_OtherLicenses [(set_ol_LicenseName ("the whatever license") (set_ol_LicenseIdentifier ("LicenseRef-whatever") zero_OtherLicense))] (set_d_Packages [] zero_DocumentOf))) (set_ps_lic (Some 0) (set_ps_files [(set_f_SPDXIdentifier ("f1") (set_f_FileName ("f1.txt") zero_FileOf))] (set_ps_file (Some 0) (set_ps_pkgs [(set_p_Files [] (set_p_SPDXIdentifier ("test") (set_p_PackageName ("test") zero_PackageOf)))] (set_ps_pkg (Some 0) zero_pstate))))))) in
  let s2 := push_doc_packages (Some (option_map (fun i => (i, 0)) (ps_pkg s1))) s1 in
  let s3 := push_pkg_files (Some (option_map (fun i => (i, 0)) (ps_pkg s2))) (Some (option_map (fun i => (i, 0)) (ps_file s2))) s2 in
  let r4 := parse_pair V23 s3 (("Relationship"), ("SPDXRef-blah CONTAINS SPDXRef-blah-else")) in
  let s5 := after s3 r4 in
  let r6 := parse_pair V23 s5 (("RelationshipComment"), ("blah")) in
  let s7 := after s5 r6 in
  [(option_map negb (olift Bool.eqb (failed r4) (Some false)));
   (option_map negb (olift pst_eqb (Some (ps_st s5)) (Some PsOtherLicense)));
   (option_map negb (olift Nat.eqb (option_map (@List.length _) (option_map (fun l => map (fun i => Some (i, 0)) (seq 0 (List.length l))) (option_map (fun x => d_Relationships x) (obind (Some (ps_doc s5)) (fun o => o))))) (Some 1)));
   (olift orb (option_map negb (olift String.eqb (option_map (fun x => de_DocumentRefID x) (option_map (fun x => r_RefA x) (obind (obind (option_map (fun l => map (fun i => Some (i, 0)) (seq 0 (List.length l))) (option_map (fun x => d_Relationships x) (obind (Some (ps_doc s5)) (fun o => o)))) (fun l => nth_error l 0)) (fun p => obind p (fun p => obind (ps_doc s5) (fun d => nth_error (d_Relationships d) (fst p))))))) (Some ("")))) (option_map negb (olift String.eqb (option_map (fun x => de_ElementRefID x) (option_map (fun x => r_RefA x) (obind (obind (option_map (fun l => map (fun i => Some (i, 0)) (seq 0 (List.length l))) (option_map (fun x => d_Relationships x) (obind (Some (ps_doc s5)) (fun o => o)))) (fun l => nth_error l 0)) (fun p => obind p (fun p => obind (ps_doc s5) (fun d => nth_error (d_Relationships d) (fst p))))))) (Some ("blah")))));
   (option_map negb (olift Bool.eqb (failed r6) (Some false)));
   (option_map negb (olift pst_eqb (Some (ps_st s7)) (Some PsOtherLicense)))]) = true.
Proof. vm_compute. reflexivity. Qed.
(** /repo/spdx/v2/v2_3/tagvalue/reader/parse_other_license_test.go 153 *)
Example v23_TestParserOtherLicenseStaysAfterParsingAnnotationTags : forallb is_false (
  let s1 := (set_ps_st PsOtherLicense (set_ps_doc (Some (set_d_OtherLicenses [(set_ol_LicenseName ("the whatever license") (set_ol_LicenseIdentifier ("LicenseRef-whatever") zero_OtherLicense))] (set_d_Packages [] zero_DocumentOf))) (set_ps_lic (Some 0) (set_ps_files [(set_f_SPDXIdentifier ("f1") (set_f_FileName ("f1.txt") zero_FileOf))] (set_ps_file (Some 0) (set_ps_pkgs [(set_p_Files [] (set_p_SPDXIdentifier ("test") (set_p_PackageName ("test") zero_PackageOf)))] (set_ps_pkg (Some 0) zero_pstate))))))) in
  let s2 := push_doc_packages (Some (option_map (fun i => (i, 0)) (ps_pkg s1))) s1 in
  let s3 := push_pkg_files (Some (option_map (fun i => (i, 0)) (ps_pkg s2))) (Some (option_map (fun i => (i, 0)) (ps_file s2))) s2 in
  let r4 := parse_pair V23 s3 (("Annotator"), ("Person: John Doe ()")) in
  let s5 := after s3 r4 in
  let r6 := parse_pair V23 s5 (("AnnotationDate"), ("2018-09-15T00:36:00Z")) in
  let s7 := after s5 r6 in
  let r8 := parse_pair V23 s7 (("AnnotationType"), ("REVIEW")) in
  let s9 := after s7 r8 in
  let r10 := parse_pair V23 s9 (("SPDXREF"), ("SPDXRef-45")) in
  let s11 := after s9 r10 in
  let r12 := parse_pair V23 s11 (("AnnotationComment"), ("i guess i had something to say about this particular file")) in
  let s13 := after s11 r12 in
  [(option_map negb (olift Bool.eqb (failed r4) (Some false)));
   (option_map negb (olift pst_eqb (Some (ps_st s5)) (Some PsOtherLicense)));
   (option_map negb (olift Bool.eqb (failed r6) (Some false)));
   (option_map negb (olift pst_eqb (Some (ps_st s7)) (Some PsOtherLicense)));
   (option_map negb (olift Bool.eqb (failed r8) (Some false)));
   (option_map negb (olift pst_eqb (Some (ps_st s9)) (Some PsOtherLicense)));
   (option_map negb (olift Bool.eqb (failed r10) (Some false)));
   (option_map negb (olift pst_eqb (Some (ps_st s11)) (Some PsOtherLicense)));
   (option_map negb (olift Bool.eqb (failed r12) (Some false)));
   (option_map negb (olift pst_eqb (Some (ps_st s13)) (Some PsOtherLicense)));
   (option_map negb (olift Nat.eqb (option_map (@List.length _) (option_map (fun l => map (fun i => Some (i, 0)) (seq 0 (List.length l))) (option_map (fun x => d_Annotations x) (obind (Some (ps_doc s13)) (fun o => o))))) (Some 1)));
   (option_map negb (olift String.eqb (option_map (fun x => an_Annotator x) (option_map (fun x => a_Annotator x) (obind (obind (option_map (fun l => map (fun i => Some (i, 0)) (seq 0 (List.length l))) (option_map (fun x => d_Annotations x) (obind (Some (ps_doc s13)) (fun o => o)))) (fun l => nth_error l 0)) (fun p => obind p (fun p => obind (ps_doc s13) (fun d => nth_error (d_Annotations d) (fst p))))))) (Some ("John Doe ()"))))]) = true.
Proof. vm_compute. reflexivity. Qed.
(** /repo/spdx/v2/v2_3/tagvalue/reader/parse_other_license_test.go 217 *)
Example v23_TestParserOLFailsAfterParsingOtherSectionTags : forallb is_false (
  let s1 := (set_ps_st PsOtherLicense (set_ps_doc (Some (set_d_OtherLicenses [(set_ol_LicenseName ("License 11") (set_ol_LicenseIdentifier ("LicenseRef-Lic11") zero_OtherLicense))] (set_d_Packages [] zero_DocumentOf))) (set_ps_lic (Some 0) (set_ps_files [(set_f_SPDXIdentifier ("f1") (set_f_FileName ("f1.txt") zero_FileOf))] (set_ps_file (Some 0) (set_ps_pkgs [(set_p_Files [] (set_p_SPDXIdentifier ("test") (set_p_PackageName ("test") zero_PackageOf)))] (set_ps_pkg (Some 0) zero_pstate))))))) in
  let s2 := push_doc_packages (Some (option_map (fun i => (i, 0)) (ps_pkg s1))) s1 in
  let s3 := push_pkg_files (Some (option_map (fun i => (i, 0)) (ps_pkg s2))) (Some (option_map (fun i => (i, 0)) (ps_file s2))) s2 in
  let r4 := parse_pair V23 s3 (("SPDXVersion"), ("SPDX-2.3")) in
  let s5 := after s3 r4 in
  let r6 := parse_pair V23 s5 (("PackageName"), ("whatever")) in
  let s7 := after s5 r6 in
  let r8 := parse_pair V23 s7 (("FileName"), ("whatever")) in
  let s9 := after s7 r8 in
  [(olift Bool.eqb (failed r4) (Some false));
   (olift Bool.eqb (failed r6) (Some false));
   (olift Bool.eqb (failed r8) (Some false))]) = true.
Proof. vm_compute. reflexivity. Qed.
(** /repo/spdx/v2/v2_3/tagvalue/reader/parse_other_license_test.go 248 *)
Example v23_TestParserCanParseOtherLicenseTags : forallb is_false (
  let s1 := (set_ps_st PsOtherLicense (set_ps_doc (Some (set_d_Packages [] zero_DocumentOf)) (set_ps_files [(set_f_SPDXIdentifier ("f1") (set_f_FileName ("f1.txt") zero_FileOf))] (set_ps_file (Some 0) (set_ps_pkgs [(set_p_Files [] (set_p_SPDXIdentifier ("test") (set_p_PackageName ("test") zero_PackageOf)))] (set_ps_pkg (Some 0) zero_pstate)))))) in
  let s2 := push_doc_packages (Some (option_map (fun i => (i, 0)) (ps_pkg s1))) s1 in
  let s3 := push_pkg_files (Some (option_map (fun i => (i, 0)) (ps_pkg s2))) (Some (option_map (fun i => (i, 0)) (ps_file s2))) s2 in
  let r4 := parse_license V23 ("LicenseID") ("LicenseRef-Lic11") s3 in
  let s5 := after s3 r4 in
  let r6 := parse_license V23 ("ExtractedText") ("You are permitted to do anything with the software, hooray!") s5 in
  let s7 := after s5 r6 in
  let r8 := parse_license V23 ("LicenseName") ("License 11") s7 in
  let s9 := after s7 r8 in
  let r10 := parse_license V23 ("LicenseCrossReference") ("https://example.com/1") s9 in
  let s11 := after s9 r10 in
  let r12 := parse_license V23 ("LicenseCrossReference") ("https://example.com/2") s11 in
  let s13 := after s11 r12 in
  let r14 := parse_license V23 ("LicenseCrossReference") ("https://example.com/3") s13 in
  let s15 := after s13 r14 in
  let r16 := parse_license V23 ("LicenseComment") ("this is a comment") s15 in
  let s17 := after s15 r16 in
  [(option_map negb (olift Bool.eqb (failed r4) (Some false)));
   (option_map negb (olift String.eqb (option_map (fun x => ol_LicenseIdentifier x) (obind (Some (option_map (fun i => (i, 0)) (ps_lic s5))) (fun p => obind p (fun p => obind (ps_doc s5) (fun d => nth_error (d_OtherLicenses d) (fst p)))))) (Some ("LicenseRef-Lic11"))));
   (option_map negb (olift Bool.eqb (failed r6) (Some false)));
   (option_map negb (olift String.eqb (option_map (fun x => ol_ExtractedText x) (obind (Some (option_map (fun i => (i, 0)) (ps_lic s7))) (fun p => obind p (fun p => obind (ps_doc s7) (fun d => nth_error (d_OtherLicenses d) (fst p)))))) (Some ("You are permitted to do anything with the software, hooray!"))));
   (option_map negb (olift Bool.eqb (failed r8) (Some false)));
   (option_map negb (olift String.eqb (option_map (fun x => ol_LicenseName x) (obind (Some (option_map (fun i => (i, 0)) (ps_lic s9))) (fun p => obind p (fun p => obind (ps_doc s9) (fun d => nth_error (d_OtherLicenses d) (fst p)))))) (Some ("License 11"))));
   (option_map negb (olift Bool.eqb (failed r10) (Some false)));
   (option_map negb (olift Bool.eqb (failed r12) (Some false)));
   (option_map negb (olift Bool.eqb (failed r14) (Some false)));
   (option_map negb (option_map (mem ("https://example.com/1")) (option_map (fun x => ol_CrossReferences x) (obind (Some (option_map (fun i => (i, 0)) (ps_lic s15))) (fun p => obind p (fun p => obind (ps_doc s15) (fun d => nth_error (d_OtherLicenses d) (fst p))))))));
   (option_map negb (option_map (mem ("https://example.com/2")) (option_map (fun x => ol_CrossReferences x) (obind (Some (option_map (fun i => (i, 0)) (ps_lic s15))) (fun p => obind p (fun p => obind (ps_doc s15) (fun d => nth_error (d_OtherLicenses d) (fst p))))))));
   (option_map negb (option_map (mem ("https://example.com/3")) (option_map (fun x => ol_CrossReferences x) (obind (Some (option_map (fun i => (i, 0)) (ps_lic s15))) (fun p => obind p (fun p => obind (ps_doc s15) (fun d => nth_error (d_OtherLicenses d) (fst p))))))));
   (option_map negb (olift Nat.eqb (option_map (@List.length _) (option_map (fun x => ol_CrossReferences x) (obind (Some (option_map (fun i => (i, 0)) (ps_lic s15))) (fun p => obind p (fun p => obind (ps_doc s15) (fun d => nth_error (d_OtherLicenses d) (fst p))))))) (Some 3)));
   (option_map negb (olift Bool.eqb (failed r16) (Some false)));
   (option_map negb (olift String.eqb (option_map (fun x => ol_Comment x) (obind (Some (option_map (fun i => (i, 0)) (ps_lic s17))) (fun p => obind p (fun p => obind (ps_doc s17) (fun d => nth_error (d_OtherLicenses d) (fst p)))))) (Some ("this is a comment"))))]) = true.
Proof. vm_compute. reflexivity. Qed.
(** /repo/spdx/v2/v2_3/tagvalue/reader/parse_other_license_test.go 324 *)
Example v23_TestParserOLUnknownTagFails : forallb is_false (
  let s1 := (set_ps_st PsOtherLicense (set_ps_doc (Some (set_d_Packages [] zero_DocumentOf)) (set_ps_files [(set_f_SPDXIdentifier ("f1") (set_f_FileName ("f1.txt") zero_FileOf))] (set_ps_file (Some 0) (set_ps_pkgs [(set_p_Files [] (set_p_SPDXIdentifier ("test") (set_p_PackageName ("test") zero_PackageOf)))] (set_ps_pkg (Some 0) zero_pstate)))))) in
  let s2 := push_doc_packages (Some (option_map (fun i => (i, 0)) (ps_pkg s1))) s1 in
  let s3 := push_pkg_files (Some (option_map (fun i => (i, 0)) (ps_pkg s2))) (Some (option_map (fun i => (i, 0)) (ps_file s2))) s2 in
  let r4 := parse_license V23 ("blah") ("something") s3 in
  let s5 := after s3 r4 in
  [(olift Bool.eqb (failed r4) (Some false))]) = true.
Proof. vm_compute. reflexivity. Qed.
(** /repo/spdx/v2/v2_3/tagvalue/reader/parse_package_test.go 13 *)
Example v23_TestParserPackageStartsNewPackageAfterParsingPackageNameTag : forallb is_false (
  let s1 := (set_ps_st PsPackage (set_ps_doc (Some (set_d_Packages [] zero_DocumentOf)) (set_ps_pkgs [(set_p_SPDXIdentifier ("p1") (set_p_PackageName ("p1") zero_PackageOf))] (set_ps_pkg (Some 0) zero_pstate)))) in
  let s2 := push_doc_packages (Some (option_map (fun i => (i, 0)) (ps_pkg s1))) s1 in
  let r3 := parse_pair V23 s2 (("PackageName"), ("p2")) in
  let s4 := after s2 r3 in
  [(option_map negb (olift ptr_eqb (obind (option_map (map (fun i => Some (i, 0))) (option_map (fun x => d_Packages x) (obind (Some (ps_doc s2)) (fun o => o)))) (fun l => nth_error l 0)) (Some (option_map (fun i => (i, 0)) (ps_pkg s1)))));
   (option_map negb (olift Nat.eqb (option_map (@List.length _) (option_map (map (fun i => Some (i, 0))) (option_map (fun x => d_Packages x) (obind (Some (ps_doc s2)) (fun o => o))))) (Some 1)));
   (option_map negb (olift Bool.eqb (failed r3) (Some false)));
   (option_map negb (olift pst_eqb (Some (ps_st s4)) (Some PsPackage)));
   (olift ptr_eqb (Some (option_map (fun i => (i, 0)) (ps_pkg s4))) (Some None));
   (olift ptr_eqb (Some (option_map (fun i => (i, 0)) (ps_pkg s4))) (Some (option_map (fun i => (i, 0)) (ps_pkg s1))));
   (option_map negb (olift String.eqb (option_map (fun x => p_PackageName x) (obind (Some (option_map (fun i => (i, 0)) (ps_pkg s4))) (fun p => obind p (fun p => nth_error (ps_pkgs s4) (fst p))))) (Some ("p2"))));
   (option_map negb (option_map (fun x => p_FilesAnalyzed x) (obind (Some (option_map (fun i => (i, 0)) (ps_pkg s4))) (fun p => obind p (fun p => nth_error (ps_pkgs s4) (fst p))))));
   (option_map (fun x => p_IsFilesAnalyzedTagPresent x) (obind (Some (option_map (fun i => (i, 0)) (ps_pkg s4))) (fun p => obind p (fun p => nth_error (ps_pkgs s4) (fst p)))));
   (option_map negb (olift ptr_eqb (obind (option_map (map (fun i => Some (i, 0))) (option_map (fun x => d_Packages x) (obind (Some (ps_doc s4)) (fun o => o)))) (fun l => nth_error l 0)) (Some (option_map (fun i => (i, 0)) (ps_pkg s1)))));
   (option_map negb (olift Nat.eqb (option_map (@List.length _) (option_map (map (fun i => Some (i, 0))) (option_map (fun x => d_Packages x) (obind (Some (ps_doc s4)) (fun o => o))))) (Some 1)))]) = true.
Proof. vm_compute. reflexivity. Qed.
(** /repo/spdx/v2/v2_3/tagvalue/reader/parse_package_test.go 70 *)
Example v23_TestParserPackageStartsNewPackageAfterParsingPackageNameTagWhileInUnpackaged : forallb is_false (
  let s1 := (set_ps_st PsFile (set_ps_doc (Some (set_d_Packages [] zero_DocumentOf)) zero_pstate)) in
  let r2 := parse_pair V23 s1 (("PackageName"), ("p2")) in
  let s3 := after s1 r2 in
  [(option_map negb (olift Nat.eqb (option_map (@List.length _) (option_map (map (fun i => Some (i, 0))) (option_map (fun x => d_Packages x) (obind (Some (ps_doc s1)) (fun o => o))))) (Some 0)));
   (option_map negb (olift Bool.eqb (failed r2) (Some false)));
   (option_map negb (olift pst_eqb (Some (ps_st s3)) (Some PsPackage)));
   (olift ptr_eqb (Some (option_map (fun i => (i, 0)) (ps_pkg s3))) (Some None));
   (option_map negb (olift String.eqb (option_map (fun x => p_PackageName x) (obind (Some (option_map (fun i => (i, 0)) (ps_pkg s3))) (fun p => obind p (fun p => nth_error (ps_pkgs s3) (fst p))))) (Some ("p2"))));
   (option_map negb (option_map (fun x => p_FilesAnalyzed x) (obind (Some (option_map (fun i => (i, 0)) (ps_pkg s3))) (fun p => obind p (fun p => nth_error (ps_pkgs s3) (fst p))))));
   (option_map (fun x => p_IsFilesAnalyzedTagPresent x) (obind (Some (option_map (fun i => (i, 0)) (ps_pkg s3))) (fun p => obind p (fun p => nth_error (ps_pkgs s3) (fst p)))));
   (option_map negb (olift Nat.eqb (option_map (@List.length _) (option_map (map (fun i => Some (i, 0))) (option_map (fun x => d_Packages x) (obind (Some (ps_doc s3)) (fun o => o))))) (Some 0)))]) = true.
Proof. vm_compute. reflexivity. Qed.
(** /repo/spdx/v2/v2_3/tagvalue/reader/parse_package_test.go 115 *)
Example v23_TestParserPackageMovesToFileAfterParsingFileNameTag : forallb is_false (
  let s1 := (set_ps_st PsPackage (set_ps_doc (Some (set_d_Packages [] zero_DocumentOf)) (set_ps_pkgs [(set_p_SPDXIdentifier ("p1") (set_p_PackageName ("p1") zero_PackageOf))] (set_ps_pkg (Some 0) zero_pstate)))) in
  let s2 := push_doc_packages (Some (option_map (fun i => (i, 0)) (ps_pkg s1))) s1 in
  let r3 := parse_pair V23 s2 (("FileName"), ("testFile")) in
  let s4 := after s2 r3 in
  [(option_map negb (olift Bool.eqb (failed r3) (Some false)));
   (option_map negb (olift pst_eqb (Some (ps_st s4)) (Some PsFile)));
   (option_map negb (olift ptr_eqb (Some (option_map (fun i => (i, 0)) (ps_pkg s4))) (Some (option_map (fun i => (i, 0)) (ps_pkg s2)))))]) = true.
Proof. vm_compute. reflexivity. Qed.
(** /repo/spdx/v2/v2_3/tagvalue/reader/parse_package_test.go 138 *)
Example v23_TestParserPackageMovesToOtherLicenseAfterParsingLicenseIDTag : forallb is_false (
  let s1 := (set_ps_st PsPackage (set_ps_doc (Some (set_d_Packages [] zero_DocumentOf)) (set_ps_pkgs [(set_p_SPDXIdentifier ("p1") (set_p_PackageName ("p1") zero_PackageOf))] (set_ps_pkg (Some 0) zero_pstate)))) in
  let s2 := push_doc_packages (Some (option_map (fun i => (i, 0)) (ps_pkg s1))) s1 in
  let r3 := parse_pair V23 s2 (("LicenseID"), ("LicenseRef-TestLic")) in
  let s4 := after s2 r3 in
  [(option_map negb (olift Bool.eqb (failed r3) (Some false)));
   (option_map negb (olift pst_eqb (Some (ps_st s4)) (Some PsOtherLicense)))]) = true.
Proof. vm_compute. reflexivity. Qed.
(** /repo/spdx/v2/v2_3/tagvalue/reader/parse_package_test.go 155 *)
Example v23_TestParserPackageMovesToReviewAfterParsingReviewerTag : forallb is_false (
  let s1 := (set_ps_st PsPackage (set_ps_doc (Some (set_d_Packages [] zero_DocumentOf)) (set_ps_pkgs [(set_p_SPDXIdentifier ("p1") (set_p_PackageName ("p1") zero_PackageOf))] (set_ps_pkg (Some 0) zero_pstate)))) in
  let s2 := push_doc_packages (Some (option_map (fun i => (i, 0)) (ps_pkg s1))) s1 in
  let r3 := parse_pair V23 s2 (("Reviewer"), ("Person: John Doe")) in
  let s4 := after s2 r3 in
  [(option_map negb (olift Bool.eqb (failed r3) (Some false)));
   (option_map negb (olift pst_eqb (Some (ps_st s4)) (Some PsReview)))]) = true.
Proof. vm_compute. reflexivity. Qed.
(** /repo/spdx/v2/v2_3/tagvalue/reader/parse_package_test.go 172 *)
Example v23_TestParserPackageStaysAfterParsingRelationshipTags : forallb is_false (
  let s1 := (set_ps_st PsPackage (set_ps_doc (Some (set_d_Packages [] zero_DocumentOf)) (set_ps_pkgs [(set_p_SPDXIdentifier ("p1") (set_p_PackageName ("p1") zero_PackageOf))] (set_ps_pkg (Some 0) zero_pstate)))) in
  let s2 := push_doc_packages (Some (option_map (fun i => (i, 0)) (ps_pkg s1))) s1 in
  let r3 := parse_pair V23 s2 (("Relationship"), ("SPDXRef-blah CONTAINS SPDXRef-blah-else")) in
  let s4 := after s2 r3 in
  let r5 := parse_pair V23 s4 (("RelationshipComment"), ("blah")) in
  let s6 := after s4 r5 in
  [(option_map negb (olift Bool.eqb (failed r3) (Some false)));
   (option_map negb (olift pst_eqb (Some (ps_st s4)) (Some PsPackage)));
   (option_map negb (olift Bool.eqb (failed r5) (Some false)));
   (option_map negb (olift pst_eqb (Some (ps_st s6)) (Some PsPackage)))]) = true.
Proof. vm_compute. reflexivity. Qed.
(** /repo/spdx/v2/v2_3/tagvalue/reader/parse_package_test.go 199 *)
Example v23_TestParserPackageStaysAfterParsingAnnotationTags : forallb is_false (
  let s1 := (set_ps_st PsPackage (set_ps_doc (Some (set_d_Packages [] zero_DocumentOf)) (set_ps_pkgs [(set_p_SPDXIdentifier ("p1") (set_p_PackageName ("p1") zero_PackageOf))] (set_ps_pkg (Some 0) zero_pstate)))) in
  let s2 := push_doc_packages (Some (option_map (fun i => (i, 0)) (ps_pkg s1))) s1 in
  let r3 := parse_pair V23 s2 (("Annotator"), ("Person: John Doe ()")) in
  let s4 := after s2 r3 in
  let r5 := parse_pair V23 s4 (("AnnotationDate"), ("2018-09-15T00:36:00Z")) in
  let s6 := after s4 r5 in
  let r7 := parse_pair V23 s6 (("AnnotationType"), ("REVIEW")) in
  let s8 := after s6 r7 in
  let r9 := parse_pair V23 s8 (("SPDXREF"), ("SPDXRef-45")) in
  let s10 := after s8 r9 in
  let r11 := parse_pair V23 s10 (("AnnotationComment"), ("i guess i had something to say about this package")) in
  let s12 := after s10 r11 in
  [(option_map negb (olift Bool.eqb (failed r3) (Some false)));
   (option_map negb (olift pst_eqb (Some (ps_st s4)) (Some PsPackage)));
   (option_map negb (olift Bool.eqb (failed r5) (Some false)));
   (option_map negb (olift pst_eqb (Some (ps_st s6)) (Some PsPackage)));
   (option_map negb (olift Bool.eqb (failed r7) (Some false)));
   (option_map negb (olift pst_eqb (Some (ps_st s8)) (Some PsPackage)));
   (option_map negb (olift Bool.eqb (failed r9) (Some false)));
   (option_map negb (olift pst_eqb (Some (ps_st s10)) (Some PsPackage)));
   (option_map negb (olift Bool.eqb (failed r11) (Some false)));
   (option_map negb (olift pst_eqb (Some (ps_st s12)) (Some PsPackage)))]) = true.
Proof. vm_compute. reflexivity. Qed.
(** /repo/spdx/v2/v2_3/tagvalue/reader/parse_package_test.go 249 *)
Example v23_TestParserCanParsePackageTags : forallb is_false (
  let s1 := (set_ps_st PsPackage (set_ps_doc (Some (set_d_Packages [] zero_DocumentOf)) (set_ps_pkgs [zero_PackageOf] (set_ps_pkg (Some 0) zero_pstate)))) in
  let r2 := parse_package V23 ("PackageName") ("p1") s1 in
  let s3 := after s1 r2 in
  let r4 := parse_package V23 ("SPDXID") ("SPDXRef-p1") s3 in
  let s5 := after s3 r4 in
  let r6 := parse_package V23 ("PackageVersion") ("2.1.1") s5 in
  let s7 := after s5 r6 in
  let r8 := parse_package V23 ("PackageFileName") ("p1-2.1.1.tar.gz") s7 in
  let s9 := after s7 r8 in
  let r10 := parse_package V23 ("PackageDownloadLocation") ("https://example.com/whatever") s9 in
  let s11 := after s9 r10 in
  let r12 := parse_package V23 ("FilesAnalyzed") ("false") s11 in
  let s13 := after s11 r12 in
  let r14 := parse_package V23 ("PackageChecksum") ("MD5: 624c1abb3664f4b35547e7c73864ad24") s13 in
  let s15 := after s13 r14 in
  let r16 := parse_package V23 ("PackageChecksum") ("SHA1: 85ed0817af83a24ad8da68c2b5094de69833983c") s15 in
  let s17 := after s15 r16 in
  let r18 := parse_package V23 ("PackageChecksum") ("SHA256: 11b6d3ee554eedf79299905a98f9b9a04e498210b59f15094c916c91d150efcd") s17 in
  let s19 := after s17 r18 in
  let r20 := parse_package V23 ("PackageChecksum") ("SHA512: 4ced3267f5ed38df65ceebc43e97aa6c2948cc7ef3288c2e5074e7df7fab544cc93339604513ea5f65616f9ed1c48581465043c8a9b693ef20fd4fddaf25e1b9") s19 in
  let s21 := after s19 r20 in
  let r22 := parse_package V23 ("PackageChecksum") ("BLAKE3: 981d32ed7aad9e408c5c36f6346c915ba11c2bd8b3e7d44902a11d7a141abdd9") s21 in
  let s23 := after s21 r22 in
  let r24 := parse_package V23 ("PackageHomePage") ("https://example.com/whatever2") s23 in
  let s25 := after s23 r24 in
  let r26 := parse_package V23 ("PackageSourceInfo") ("random comment") s25 in
  let s27 := after s25 r26 in
  let r28 := parse_package V23 ("PackageLicenseConcluded") ("Apache-2.0 OR GPL-2.0-or-later") s27 in
  let s29 := after s27 r28 in
  let r30 := parse_package V23 ("PackageLicenseInfoFromFiles") ("Apache-2.0") s29 in
  let s31 := after s29 r30 in
  let r32 := parse_package V23 ("PackageLicenseInfoFromFiles") ("GPL-2.0-or-later") s31 in
  let s33 := after s31 r32 in
  let r34 := parse_package V23 ("PackageLicenseInfoFromFiles") ("CC0-1.0") s33 in
  let s35 := after s33 r34 in
  let r36 := parse_package V23 ("PackageLicenseDeclared") ("Apache-2.0 OR GPL-2.0-or-later") s35 in
  let s37 := after s35 r36 in
  let r38 := parse_package V23 ("PackageLicenseComments") ("this is a license comment") s37 in
  let s39 := after s37 r38 in
  let r40 := parse_package V23 ("PackageCopyrightText") ("Copyright (c) me myself and i") s39 in
  let s41 := after s39 r40 in
  let r42 := parse_package V23 ("PackageSummary") ("i wrote this package") s41 in
  let s43 := after s41 r42 in
  let r44 := parse_package V23 ("PackageDescription") ("i wrote this package a lot") s43 in
  let s45 := after s43 r44 in
  let r46 := parse_package V23 ("PackageComment") ("i scanned this package") s45 in
  let s47 := after s45 r46 in
  let r48 := parse_package V23 ("PackageAttributionText") ("Include this notice in all advertising materials") s47 in
  let s49 := after s47 r48 in
  let r50 := parse_package V23 ("PackageAttributionText") ("This is a 
multi-line string") s49 in
  let s51 := after s49 r50 in
  let r52 := parse_package V23 ("ExternalRef") ("SECURITY cpe23Type cpe:2.3:a:pivotal_software:spring_framework:4.1.0:*:*:*:*:*:*:*") s51 in
  let s53 := after s51 r52 in
  let r54 := parse_package V23 ("ExternalRefComment") ("this is comment #1") s53 in
  let s55 := after s53 r54 in
  let r56 := parse_package V23 ("ExternalRef") ("OTHER LocationRef-acmeforge acmecorp/acmenator/4.1.3alpha") s55 in
  let s57 := after s55 r56 in
  let r58 := parse_package V23 ("ExternalRefComment") ("this is comment #2") s57 in
  let s59 := after s57 r58 in
  [(option_map negb (olift Nat.eqb (option_map (@List.length _) (option_map (map (fun i => Some (i, 0))) (option_map (fun x => d_Packages x) (obind (Some (ps_doc s1)) (fun o => o))))) (Some 0)));
   (option_map negb (olift Bool.eqb (failed r2) (Some false)));
   (option_map negb (olift String.eqb (option_map (fun x => p_PackageName x) (obind (Some (option_map (fun i => (i, 0)) (ps_pkg s3))) (fun p => obind p (fun p => nth_error (ps_pkgs s3) (fst p))))) (Some ("p1"))));
   (option_map negb (olift Nat.eqb (option_map (@List.length _) (option_map (map (fun i => Some (i, 0))) (option_map (fun x => d_Packages x) (obind (Some (ps_doc s3)) (fun o => o))))) (Some 0)));
   (option_map negb (olift Bool.eqb (failed r4) (Some false)));
   (option_map negb (olift String.eqb (option_map (fun x => p_SPDXIdentifier x) (obind (Some (option_map (fun i => (i, 0)) (ps_pkg s5))) (fun p => obind p (fun p => nth_error (ps_pkgs s5) (fst p))))) (Some ("p1"))));
   (option_map negb (olift Nat.eqb (option_map (@List.length _) (option_map (map (fun i => Some (i, 0))) (option_map (fun x => d_Packages x) (obind (Some (ps_doc s5)) (fun o => o))))) (Some 1)));
   (option_map negb (olift ptr_eqb (obind (option_map (map (fun i => Some (i, 0))) (option_map (fun x => d_Packages x) (obind (Some (ps_doc s5)) (fun o => o)))) (fun l => nth_error l 0)) (Some (option_map (fun i => (i, 0)) (ps_pkg s5)))));
   (option_map negb (olift Bool.eqb (failed r6) (Some false)));
   (option_map negb (olift String.eqb (option_map (fun x => p_Version x) (obind (Some (option_map (fun i => (i, 0)) (ps_pkg s7))) (fun p => obind p (fun p => nth_error (ps_pkgs s7) (fst p))))) (Some ("2.1.1"))));
   (option_map negb (olift Bool.eqb (failed r8) (Some false)));
   (option_map negb (olift String.eqb (option_map (fun x => p_FileName x) (obind (Some (option_map (fun i => (i, 0)) (ps_pkg s9))) (fun p => obind p (fun p => nth_error (ps_pkgs s9) (fst p))))) (Some ("p1-2.1.1.tar.gz"))));
   (option_map negb (olift Bool.eqb (failed r10) (Some false)));
   (option_map negb (olift String.eqb (option_map (fun x => p_DownloadLocation x) (obind (Some (option_map (fun i => (i, 0)) (ps_pkg s11))) (fun p => obind p (fun p => nth_error (ps_pkgs s11) (fst p))))) (Some ("https://example.com/whatever"))));
   (option_map negb (olift Bool.eqb (failed r12) (Some false)));
   (option_map (fun x => p_FilesAnalyzed x) (obind (Some (option_map (fun i => (i, 0)) (ps_pkg s13))) (fun p => obind p (fun p => nth_error (ps_pkgs s13) (fst p)))));
   (option_map negb (option_map (fun x => p_IsFilesAnalyzedTagPresent x) (obind (Some (option_map (fun i => (i, 0)) (ps_pkg s13))) (fun p => obind p (fun p => nth_error (ps_pkgs s13) (fst p))))));
   (option_map negb (olift Bool.eqb (failed r14) (Some false)));
   (option_map negb (olift Bool.eqb (failed r16) (Some false)));
   (option_map negb (olift Bool.eqb (failed r18) (Some false)));
   (option_map negb (olift Bool.eqb (failed r20) (Some false)));
   (option_map negb (olift Bool.eqb (failed r22) (Some false)));
   (obind (option_map (fun x => p_Checksums x) (obind (Some (option_map (fun i => (i, 0)) (ps_pkg s23))) (fun p => obind p (fun p => nth_error (ps_pkgs s23) (fst p))))) (oexists (fun it => (option_map negb (olift String.eqb (option_map (fun x => ck_Value x) (Some it)) (obind (option_map (fun x => ck_Algorithm x) (Some it)) (fun k => lookup k [("MD5", "624c1abb3664f4b35547e7c73864ad24"); ("SHA1", "85ed0817af83a24ad8da68c2b5094de69833983c"); ("SHA256", "11b6d3ee554eedf79299905a98f9b9a04e498210b59f15094c916c91d150efcd"); ("SHA512", "4ced3267f5ed38df65ceebc43e97aa6c2948cc7ef3288c2e5074e7df7fab544cc93339604513ea5f65616f9ed1c48581465043c8a9b693ef20fd4fddaf25e1b9"); ("BLAKE3", "981d32ed7aad9e408c5c36f6346c915ba11c2bd8b3e7d44902a11d7a141abdd9")])))))));
   (option_map negb (olift Bool.eqb (failed r24) (Some false)));
   (option_map negb (olift String.eqb (option_map (fun x => p_HomePage x) (obind (Some (option_map (fun i => (i, 0)) (ps_pkg s25))) (fun p => obind p (fun p => nth_error (ps_pkgs s25) (fst p))))) (Some ("https://example.com/whatever2"))));
   (option_map negb (olift Bool.eqb (failed r26) (Some false)));
   (option_map negb (olift String.eqb (option_map (fun x => p_SourceInfo x) (obind (Some (option_map (fun i => (i, 0)) (ps_pkg s27))) (fun p => obind p (fun p => nth_error (ps_pkgs s27) (fst p))))) (Some ("random comment"))));
   (option_map negb (olift Bool.eqb (failed r28) (Some false)));
   (option_map negb (olift String.eqb (option_map (fun x => p_LicenseConcluded x) (obind (Some (option_map (fun i => (i, 0)) (ps_pkg s29))) (fun p => obind p (fun p => nth_error (ps_pkgs s29) (fst p))))) (Some ("Apache-2.0 OR GPL-2.0-or-later"))));
   (option_map negb (olift Bool.eqb (failed r30) (Some false)));
   (option_map negb (olift Bool.eqb (failed r32) (Some false)));
   (option_map negb (olift Bool.eqb (failed r34) (Some false)));
   (option_map negb (option_map (mem ("Apache-2.0")) (option_map (fun x => p_LicenseInfoFromFiles x) (obind (Some (option_map (fun i => (i, 0)) (ps_pkg s35))) (fun p => obind p (fun p => nth_error (ps_pkgs s35) (fst p)))))));
   (option_map negb (option_map (mem ("GPL-2.0-or-later")) (option_map (fun x => p_LicenseInfoFromFiles x) (obind (Some (option_map (fun i => (i, 0)) (ps_pkg s35))) (fun p => obind p (fun p => nth_error (ps_pkgs s35) (fst p)))))));
   (option_map negb (option_map (mem ("CC0-1.0")) (option_map (fun x => p_LicenseInfoFromFiles x) (obind (Some (option_map (fun i => (i, 0)) (ps_pkg s35))) (fun p => obind p (fun p => nth_error (ps_pkgs s35) (fst p)))))));
   (option_map negb (olift Nat.eqb (option_map (@List.length _) (option_map (fun x => p_LicenseInfoFromFiles x) (obind (Some (option_map (fun i => (i, 0)) (ps_pkg s35))) (fun p => obind p (fun p => nth_error (ps_pkgs s35) (fst p)))))) (Some 3)));
   (option_map negb (olift Bool.eqb (failed r36) (Some false)));
   (option_map negb (olift String.eqb (option_map (fun x => p_LicenseDeclared x) (obind (Some (option_map (fun i => (i, 0)) (ps_pkg s37))) (fun p => obind p (fun p => nth_error (ps_pkgs s37) (fst p))))) (Some ("Apache-2.0 OR GPL-2.0-or-later"))));
   (option_map negb (olift Bool.eqb (failed r38) (Some false)));
   (option_map negb (olift String.eqb (option_map (fun x => p_LicenseComments x) (obind (Some (option_map (fun i => (i, 0)) (ps_pkg s39))) (fun p => obind p (fun p => nth_error (ps_pkgs s39) (fst p))))) (Some ("this is a license comment"))));
   (option_map negb (olift Bool.eqb (failed r40) (Some false)));
   (option_map negb (olift String.eqb (option_map (fun x => p_CopyrightText x) (obind (Some (option_map (fun i => (i, 0)) (ps_pkg s41))) (fun p => obind p (fun p => nth_error (ps_pkgs s41) (fst p))))) (Some ("Copyright (c) me myself and i"))));
   (option_map negb (olift Bool.eqb (failed r42) (Some false)));
   (option_map negb (olift String.eqb (option_map (fun x => p_Summary x) (obind (Some (option_map (fun i => (i, 0)) (ps_pkg s43))) (fun p => obind p (fun p => nth_error (ps_pkgs s43) (fst p))))) (Some ("i wrote this package"))));
   (option_map negb (olift Bool.eqb (failed r44) (Some false)));
   (option_map negb (olift String.eqb (option_map (fun x => p_Description x) (obind (Some (option_map (fun i => (i, 0)) (ps_pkg s45))) (fun p => obind p (fun p => nth_error (ps_pkgs s45) (fst p))))) (Some ("i wrote this package a lot"))));
   (option_map negb (olift Bool.eqb (failed r46) (Some false)));
   (option_map negb (olift String.eqb (option_map (fun x => p_Comment x) (obind (Some (option_map (fun i => (i, 0)) (ps_pkg s47))) (fun p => obind p (fun p => nth_error (ps_pkgs s47) (fst p))))) (Some ("i scanned this package"))));
   (option_map negb (olift Bool.eqb (failed r48) (Some false)));
   (option_map negb (olift Bool.eqb (failed r50) (Some false)));
   (option_map negb (option_map (mem ("Include this notice in all advertising materials")) (option_map (fun x => p_AttributionTexts x) (obind (Some (option_map (fun i => (i, 0)) (ps_pkg s51))) (fun p => obind p (fun p => nth_error (ps_pkgs s51) (fst p)))))));
   (option_map negb (option_map (mem ("This is a 
multi-line string")) (option_map (fun x => p_AttributionTexts x) (obind (Some (option_map (fun i => (i, 0)) (ps_pkg s51))) (fun p => obind p (fun p => nth_error (ps_pkgs s51) (fst p)))))));
   (option_map negb (olift Nat.eqb (option_map (@List.length _) (option_map (fun x => p_AttributionTexts x) (obind (Some (option_map (fun i => (i, 0)) (ps_pkg s51))) (fun p => obind p (fun p => nth_error (ps_pkgs s51) (fst p)))))) (Some 2)));
   (option_map negb (olift Bool.eqb (failed r52) (Some false)));
   (option_map negb (olift Nat.eqb (option_map (@List.length _) (obind (Some (option_map (fun i => (i, 0)) (ps_pkg s53))) (fun p => obind p (fun p => option_map (fun l => map (fun j => Some (fst p, j)) (seq 0 (List.length l))) (option_map (fun x => p_ExternalReferences x) (obind (Some (option_map (fun i => (i, 0)) (ps_pkg s53))) (fun p => obind p (fun p => nth_error (ps_pkgs s53) (fst p))))))))) (Some 1)));
   (olift ptr_eqb (Some (ps_extref s53)) (Some None));
   (olift ptr_eqb (obind (obind (Some (option_map (fun i => (i, 0)) (ps_pkg s53))) (fun p => obind p (fun p => option_map (fun l => map (fun j => Some (fst p, j)) (seq 0 (List.length l))) (option_map (fun x => p_ExternalReferences x) (obind (Some (option_map (fun i => (i, 0)) (ps_pkg s53))) (fun p => obind p (fun p => nth_error (ps_pkgs s53) (fst p)))))))) (fun l => nth_error l 0)) (Some None));
   (option_map negb (olift ptr_eqb (Some (ps_extref s53)) (obind (obind (Some (option_map (fun i => (i, 0)) (ps_pkg s53))) (fun p => obind p (fun p => option_map (fun l => map (fun j => Some (fst p, j)) (seq 0 (List.length l))) (option_map (fun x => p_ExternalReferences x) (obind (Some (option_map (fun i => (i, 0)) (ps_pkg s53))) (fun p => obind p (fun p => nth_error (ps_pkgs s53) (fst p)))))))) (fun l => nth_error l 0))));
   (option_map negb (olift Bool.eqb (failed r54) (Some false)));
   (option_map negb (olift Bool.eqb (failed r56) (Some false)));
   (option_map negb (olift Nat.eqb (option_map (@List.length _) (obind (Some (option_map (fun i => (i, 0)) (ps_pkg s57))) (fun p => obind p (fun p => option_map (fun l => map (fun j => Some (fst p, j)) (seq 0 (List.length l))) (option_map (fun x => p_ExternalReferences x) (obind (Some (option_map (fun i => (i, 0)) (ps_pkg s57))) (fun p => obind p (fun p => nth_error (ps_pkgs s57) (fst p))))))))) (Some 2)));
   (olift ptr_eqb (Some (ps_extref s57)) (Some None));
   (olift ptr_eqb (obind (obind (Some (option_map (fun i => (i, 0)) (ps_pkg s57))) (fun p => obind p (fun p => option_map (fun l => map (fun j => Some (fst p, j)) (seq 0 (List.length l))) (option_map (fun x => p_ExternalReferences x) (obind (Some (option_map (fun i => (i, 0)) (ps_pkg s57))) (fun p => obind p (fun p => nth_error (ps_pkgs s57) (fst p)))))))) (fun l => nth_error l 1)) (Some None));
   (option_map negb (olift ptr_eqb (Some (ps_extref s57)) (obind (obind (Some (option_map (fun i => (i, 0)) (ps_pkg s57))) (fun p => obind p (fun p => option_map (fun l => map (fun j => Some (fst p, j)) (seq 0 (List.length l))) (option_map (fun x => p_ExternalReferences x) (obind (Some (option_map (fun i => (i, 0)) (ps_pkg s57))) (fun p => obind p (fun p => nth_error (ps_pkgs s57) (fst p)))))))) (fun l => nth_error l 1))));
   (option_map negb (olift Bool.eqb (failed r58) (Some false)));
   (option_map negb (olift String.eqb (option_map (fun x => er_Category x) (obind (obind (obind (Some (option_map (fun i => (i, 0)) (ps_pkg s59))) (fun p => obind p (fun p => option_map (fun l => map (fun j => Some (fst p, j)) (seq 0 (List.length l))) (option_map (fun x => p_ExternalReferences x) (obind (Some (option_map (fun i => (i, 0)) (ps_pkg s59))) (fun p => obind p (fun p => nth_error (ps_pkgs s59) (fst p)))))))) (fun l => nth_error l 0)) (fun p => obind p (fun p => obind (nth_error (ps_pkgs s59) (fst p)) (fun w => nth_error (p_ExternalReferences w) (snd p)))))) (Some ("SECURITY"))));
   (option_map negb (olift String.eqb (option_map (fun x => er_RefType x) (obind (obind (obind (Some (option_map (fun i => (i, 0)) (ps_pkg s59))) (fun p => obind p (fun p => option_map (fun l => map (fun j => Some (fst p, j)) (seq 0 (List.length l))) (option_map (fun x => p_ExternalReferences x) (obind (Some (option_map (fun i => (i, 0)) (ps_pkg s59))) (fun p => obind p (fun p => nth_error (ps_pkgs s59) (fst p)))))))) (fun l => nth_error l 0)) (fun p => obind p (fun p => obind (nth_error (ps_pkgs s59) (fst p)) (fun w => nth_error (p_ExternalReferences w) (snd p)))))) (Some ("cpe23Type"))));
   (option_map negb (olift String.eqb (option_map (fun x => er_Locator x) (obind (obind (obind (Some (option_map (fun i => (i, 0)) (ps_pkg s59))) (fun p => obind p (fun p => option_map (fun l => map (fun j => Some (fst p, j)) (seq 0 (List.length l))) (option_map (fun x => p_ExternalReferences x) (obind (Some (option_map (fun i => (i, 0)) (ps_pkg s59))) (fun p => obind p (fun p => nth_error (ps_pkgs s59) (fst p)))))))) (fun l => nth_error l 0)) (fun p => obind p (fun p => obind (nth_error (ps_pkgs s59) (fst p)) (fun w => nth_error (p_ExternalReferences w) (snd p)))))) (Some ("cpe:2.3:a:pivotal_software:spring_framework:4.1.0:*:*:*:*:*:*:*"))));
   (option_map negb (olift String.eqb (option_map (fun x => er_Comment x) (obind (obind (obind (Some (option_map (fun i => (i, 0)) (ps_pkg s59))) (fun p => obind p (fun p => option_map (fun l => map (fun j => Some (fst p, j)) (seq 0 (List.length l))) (option_map (fun x => p_ExternalReferences x) (obind (Some (option_map (fun i => (i, 0)) (ps_pkg s59))) (fun p => obind p (fun p => nth_error (ps_pkgs s59) (fst p)))))))) (fun l => nth_error l 0)) (fun p => obind p (fun p => obind (nth_error (ps_pkgs s59) (fst p)) (fun w => nth_error (p_ExternalReferences w) (snd p)))))) (Some ("this is comment #1"))));
   (option_map negb (olift String.eqb (option_map (fun x => er_Category x) (obind (obind (obind (Some (option_map (fun i => (i, 0)) (ps_pkg s59))) (fun p => obind p (fun p => option_map (fun l => map (fun j => Some (fst p, j)) (seq 0 (List.length l))) (option_map (fun x => p_ExternalReferences x) (obind (Some (option_map (fun i => (i, 0)) (ps_pkg s59))) (fun p => obind p (fun p => nth_error (ps_pkgs s59) (fst p)))))))) (fun l => nth_error l 1)) (fun p => obind p (fun p => obind (nth_error (ps_pkgs s59) (fst p)) (fun w => nth_error (p_ExternalReferences w) (snd p)))))) (Some ("OTHER"))));
   (option_map negb (olift String.eqb (option_map (fun x => er_RefType x) (obind (obind (obind (Some (option_map (fun i => (i, 0)) (ps_pkg s59))) (fun p => obind p (fun p => option_map (fun l => map (fun j => Some (fst p, j)) (seq 0 (List.length l))) (option_map (fun x => p_ExternalReferences x) (obind (Some (option_map (fun i => (i, 0)) (ps_pkg s59))) (fun p => obind p (fun p => nth_error (ps_pkgs s59) (fst p)))))))) (fun l => nth_error l 1)) (fun p => obind p (fun p => obind (nth_error (ps_pkgs s59) (fst p)) (fun w => nth_error (p_ExternalReferences w) (snd p)))))) (Some ("LocationRef-acmeforge"))));
   (option_map negb (olift String.eqb (option_map (fun x => er_Locator x) (obind (obind (obind (Some (option_map (fun i => (i, 0)) (ps_pkg s59))) (fun p => obind p (fun p => option_map (fun l => map (fun j => Some (fst p, j)) (seq 0 (List.length l))) (option_map (fun x => p_ExternalReferences x) (obind (Some (option_map (fun i => (i, 0)) (ps_pkg s59))) (fun p => obind p (fun p => nth_error (ps_pkgs s59) (fst p)))))))) (fun l => nth_error l 1)) (fun p => obind p (fun p => obind (nth_error (ps_pkgs s59) (fst p)) (fun w => nth_error (p_ExternalReferences w) (snd p)))))) (Some ("acmecorp/acmenator/4.1.3alpha"))));
   (option_map negb (olift String.eqb (option_map (fun x => er_Comment x) (obind (obind (obind (Some (option_map (fun i => (i, 0)) (ps_pkg s59))) (fun p => obind p (fun p => option_map (fun l => map (fun j => Some (fst p, j)) (seq 0 (List.length l))) (option_map (fun x => p_ExternalReferences x) (obind (Some (option_map (fun i => (i, 0)) (ps_pkg s59))) (fun p => obind p (fun p => nth_error (ps_pkgs s59) (fst p)))))))) (fun l => nth_error l 1)) (fun p => obind p (fun p => obind (nth_error (ps_pkgs s59) (fst p)) (fun w => nth_error (p_ExternalReferences w) (snd p)))))) (Some ("this is comment #2"))))]) = true.
Proof. vm_compute. reflexivity. Qed.
(** /repo/spdx/v2/v2_3/tagvalue/reader/parse_package_test.go 580 *)
Example v23_TestParserCanParsePackageSupplierPersonTag : forallb is_false (
  let s1 := (set_ps_st PsPackage (set_ps_doc (Some (set_d_Packages [] zero_DocumentOf)) (set_ps_pkgs [(set_p_SPDXIdentifier ("p1") (set_p_PackageName ("p1") zero_PackageOf))] (set_ps_pkg (Some 0) zero_pstate)))) in
  let s2 := push_doc_packages (Some (option_map (fun i => (i, 0)) (ps_pkg s1))) s1 in
  let r3 := parse_package V23 ("PackageSupplier") ("Person: John Doe") s2 in
  let s4 := after s2 r3 in
  [(option_map negb (olift Bool.eqb (failed r3) (Some false)));
   (option_map negb (olift String.eqb (option_map (fun x => su_Supplier x) (obind (option_map (fun x => p_Supplier x) (obind (Some (option_map (fun i => (i, 0)) (ps_pkg s4))) (fun p => obind p (fun p => nth_error (ps_pkgs s4) (fst p))))) (fun o => o))) (Some ("John Doe"))))]) = true.
Proof. vm_compute. reflexivity. Qed.
(** /repo/spdx/v2/v2_3/tagvalue/reader/parse_package_test.go 598 *)
Example v23_TestParserCanParsePackageSupplierOrganizationTag : forallb is_false (
  let s1 := (set_ps_st PsPackage (set_ps_doc (Some (set_d_Packages [] zero_DocumentOf)) (set_ps_pkgs [(set_p_SPDXIdentifier ("p1") (set_p_PackageName ("p1") zero_PackageOf))] (set_ps_pkg (Some 0) zero_pstate)))) in
  let s2 := push_doc_packages (Some (option_map (fun i => (i, 0)) (ps_pkg s1))) s1 in
  let r3 := parse_package V23 ("PackageSupplier") ("Organization: John Doe, Inc.") s2 in
  let s4 := after s2 r3 in
  [(option_map negb (olift Bool.eqb (failed r3) (Some false)));
   (option_map negb (olift String.eqb (option_map (fun x => su_Supplier x) (obind (option_map (fun x => p_Supplier x) (obind (Some (option_map (fun i => (i, 0)) (ps_pkg s4))) (fun p => obind p (fun p => nth_error (ps_pkgs s4) (fst p))))) (fun o => o))) (Some ("John Doe, Inc."))))]) = true.
Proof. vm_compute. reflexivity. Qed.
(** /repo/spdx/v2/v2_3/tagvalue/reader/parse_package_test.go 616 *)
Example v23_TestParserCanParsePackageSupplierNOASSERTIONTag : forallb is_false (
  let s1 := (set_ps_st PsPackage (set_ps_doc (Some (set_d_Packages [] zero_DocumentOf)) (set_ps_pkgs [(set_p_SPDXIdentifier ("p1") (set_p_PackageName ("p1") zero_PackageOf))] (set_ps_pkg (Some 0) zero_pstate)))) in
  let s2 := push_doc_packages (Some (option_map (fun i => (i, 0)) (ps_pkg s1))) s1 in
  let r3 := parse_package V23 ("PackageSupplier") ("NOASSERTION") s2 in
  let s4 := after s2 r3 in
  [(option_map negb (olift Bool.eqb (failed r3) (Some false)));
   (option_map negb (olift String.eqb (option_map (fun x => su_Supplier x) (obind (option_map (fun x => p_Supplier x) (obind (Some (option_map (fun i => (i, 0)) (ps_pkg s4))) (fun p => obind p (fun p => nth_error (ps_pkgs s4) (fst p))))) (fun o => o))) (Some ("NOASSERTION"))))]) = true.
Proof. vm_compute. reflexivity. Qed.
(** /repo/spdx/v2/v2_3/tagvalue/reader/parse_package_test.go 634 *)
Example v23_TestParserCanParsePackageOriginatorPersonTag : forallb is_false (
  let s1 := (set_ps_st PsPackage (set_ps_doc (Some (set_d_Packages [] zero_DocumentOf)) (set_ps_pkgs [(set_p_SPDXIdentifier ("p1") (set_p_PackageName ("p1") zero_PackageOf))] (set_ps_pkg (Some 0) zero_pstate)))) in
  let s2 := push_doc_packages (Some (option_map (fun i => (i, 0)) (ps_pkg s1))) s1 in
  let r3 := parse_package V23 ("PackageOriginator") ("Person: John Doe") s2 in
  let s4 := after s2 r3 in
  [(option_map negb (olift Bool.eqb (failed r3) (Some false)));
   (option_map negb (olift String.eqb (option_map (fun x => or_Originator x) (obind (option_map (fun x => p_Originator x) (obind (Some (option_map (fun i => (i, 0)) (ps_pkg s4))) (fun p => obind p (fun p => nth_error (ps_pkgs s4) (fst p))))) (fun o => o))) (Some ("John Doe"))))]) = true.
Proof. vm_compute. reflexivity. Qed.
(** /repo/spdx/v2/v2_3/tagvalue/reader/parse_package_test.go 652 *)
Example v23_TestParserCanParsePackageOriginatorOrganizationTag : forallb is_false (
  let s1 := (set_ps_st PsPackage (set_ps_doc (Some (set_d_Packages [] zero_DocumentOf)) (set_ps_pkgs [(set_p_SPDXIdentifier ("p1") (set_p_PackageName ("p1") zero_PackageOf))] (set_ps_pkg (Some 0) zero_pstate)))) in
  let s2 := push_doc_packages (Some (option_map (fun i => (i, 0)) (ps_pkg s1))) s1 in
  let r3 := parse_package V23 ("PackageOriginator") ("Organization: John Doe, Inc.") s2 in
  let s4 := after s2 r3 in
  [(option_map negb (olift Bool.eqb (failed r3) (Some false)));
   (option_map negb (olift String.eqb (option_map (fun x => or_Originator x) (obind (option_map (fun x => p_Originator x) (obind (Some (option_map (fun i => (i, 0)) (ps_pkg s4))) (fun p => obind p (fun p => nth_error (ps_pkgs s4) (fst p))))) (fun o => o))) (Some ("John Doe, Inc."))))]) = true.
Proof. vm_compute. reflexivity. Qed.
(** /repo/spdx/v2/v2_3/tagvalue/reader/parse_package_test.go 670 *)
Example v23_TestParserCanParsePackageOriginatorNOASSERTIONTag : forallb is_false (
  let s1 := (set_ps_st PsPackage (set_ps_doc (Some (set_d_Packages [] zero_DocumentOf)) (set_ps_pkgs [(set_p_SPDXIdentifier ("p1") (set_p_PackageName ("p1") zero_PackageOf))] (set_ps_pkg (Some 0) zero_pstate)))) in
  let s2 := push_doc_packages (Some (option_map (fun i => (i, 0)) (ps_pkg s1))) s1 in
  let r3 := parse_package V23 ("PackageOriginator") ("NOASSERTION") s2 in
  let s4 := after s2 r3 in
  [(option_map negb (olift Bool.eqb (failed r3) (Some false)));
   (option_map negb (olift String.eqb (option_map (fun x => or_Originator x) (obind (option_map (fun x => p_Originator x) (obind (Some (option_map (fun i => (i, 0)) (ps_pkg s4))) (fun p => obind p (fun p => nth_error (ps_pkgs s4) (fst p))))) (fun o => o))) (Some ("NOASSERTION"))))]) = true.
Proof. vm_compute. reflexivity. Qed.
(** /repo/spdx/v2/v2_3/tagvalue/reader/parse_package_test.go 688 *)
Example v23_TestParserCanParsePackageVerificationCodeTagWithExcludes : forallb is_false (
  let s1 := (set_ps_st PsPackage (set_ps_doc (Some (set_d_Packages [] zero_DocumentOf)) (set_ps_pkgs [(set_p_SPDXIdentifier ("p1") (set_p_PackageName ("p1") zero_PackageOf))] (set_ps_pkg (Some 0) zero_pstate)))) in
  let s2 := push_doc_packages (Some (option_map (fun i => (i, 0)) (ps_pkg s1))) s1 in
  let r3 := parse_package V23 ("PackageVerificationCode") ("d6a770ba38583ed4bb4525bd96e50461655d2758 (excludes: ./package.spdx)") s2 in
  let s4 := after s2 r3 in
  [(option_map negb (olift Bool.eqb (failed r3) (Some false)));
   (option_map negb (olift String.eqb (option_map (fun x => vc_Value x) (option_map (fun o => match o with Some c => c | None => zero_VerificationCode end) (option_map (fun x => p_VerificationCode x) (obind (Some (option_map (fun i => (i, 0)) (ps_pkg s4))) (fun p => obind p (fun p => nth_error (ps_pkgs s4) (fst p))))))) (Some ("d6a770ba38583ed4bb4525bd96e50461655d2758"))));
   (olift orb (option_map negb (olift Nat.eqb (option_map (@List.length _) (option_map (fun x => vc_ExcludedFiles x) (option_map (fun o => match o with Some c => c | None => zero_VerificationCode end) (option_map (fun x => p_VerificationCode x) (obind (Some (option_map (fun i => (i, 0)) (ps_pkg s4))) (fun p => obind p (fun p => nth_error (ps_pkgs s4) (fst p)))))))) (Some 1))) (option_map negb (olift String.eqb (obind (option_map (fun x => vc_ExcludedFiles x) (option_map (fun o => match o with Some c => c | None => zero_VerificationCode end) (option_map (fun x => p_VerificationCode x) (obind (Some (option_map (fun i => (i, 0)) (ps_pkg s4))) (fun p => obind p (fun p => nth_error (ps_pkgs s4) (fst p))))))) (fun l => nth_error l 0)) (Some ("./package.spdx")))))]) = true.
Proof. vm_compute. reflexivity. Qed.
(** /repo/spdx/v2/v2_3/tagvalue/reader/parse_package_test.go 713 *)
Example v23_TestParserCanParsePackageVerificationCodeTagWithoutExcludes : forallb is_false (
  let s1 := (set_ps_st PsPackage (set_ps_doc (Some (set_d_Packages [] zero_DocumentOf)) (set_ps_pkgs [(set_p_SPDXIdentifier ("p1") (set_p_PackageName ("p1") zero_PackageOf))] (set_ps_pkg (Some 0) zero_pstate)))) in
  let s2 := push_doc_packages (Some (option_map (fun i => (i, 0)) (ps_pkg s1))) s1 in
  let r3 := parse_package V23 ("PackageVerificationCode") ("d6a770ba38583ed4bb4525bd96e50461655d2758") s2 in
  let s4 := after s2 r3 in
  [(option_map negb (olift Bool.eqb (failed r3) (Some false)));
   (option_map negb (olift String.eqb (option_map (fun x => vc_Value x) (option_map (fun o => match o with Some c => c | None => zero_VerificationCode end) (option_map (fun x => p_VerificationCode x) (obind (Some (option_map (fun i => (i, 0)) (ps_pkg s4))) (fun p => obind p (fun p => nth_error (ps_pkgs s4) (fst p))))))) (Some ("d6a770ba38583ed4bb4525bd96e50461655d2758"))));
   (option_map negb (olift Nat.eqb (option_map (@List.length _) (option_map (fun x => vc_ExcludedFiles x) (option_map (fun o => match o with Some c => c | None => zero_VerificationCode end) (option_map (fun x => p_VerificationCode x) (obind (Some (option_map (fun i => (i, 0)) (ps_pkg s4))) (fun p => obind p (fun p => nth_error (ps_pkgs s4) (fst p)))))))) (Some 0)))]) = true.
Proof. vm_compute. reflexivity. Qed.
(** /repo/spdx/v2/v2_3/tagvalue/reader/parse_package_test.go 736 *)
Example v23_TestParserPackageExternalRefPointerChangesAfterTags : forallb is_false (
  let s1 := (set_ps_st PsPackage (set_ps_doc (Some (set_d_Packages [] zero_DocumentOf)) (set_ps_pkgs [(set_p_SPDXIdentifier ("p1") (set_p_PackageName ("p1") zero_PackageOf))] (set_ps_pkg (Some 0) zero_pstate)))) in
  let s2 := push_doc_packages (Some (option_map (fun i => (i, 0)) (ps_pkg s1))) s1 in
  let r3 := parse_package V23 ("ExternalRef") ("SECURITY cpe23Type cpe:2.3:a:pivotal_software:spring_framework:4.1.0:*:*:*:*:*:*:*") s2 in
  let s4 := after s2 r3 in
  let r5 := parse_package V23 ("ExternalRefComment") ("whatever") s4 in
  let s6 := after s4 r5 in
  let r7 := parse_package V23 ("ExternalRef") ("Other LocationRef-something https://example.com/whatever") s6 in
  let s8 := after s6 r7 in
  let r9 := parse_package V23 ("PackageSummary") ("whatever") s8 in
  let s10 := after s8 r9 in
  [(option_map negb (olift Bool.eqb (failed r3) (Some false)));
   (olift ptr_eqb (Some (ps_extref s4)) (Some None));
   (option_map negb (olift Bool.eqb (failed r5) (Some false)));
   (option_map negb (olift ptr_eqb (Some (ps_extref s6)) (Some None)));
   (option_map negb (olift Bool.eqb (failed r7) (Some false)));
   (olift ptr_eqb (Some (ps_extref s8)) (Some None));
   (option_map negb (olift Bool.eqb (failed r9) (Some false)));
   (option_map negb (olift ptr_eqb (Some (ps_extref s10)) (Some None)))]) = true.
Proof. vm_compute. reflexivity. Qed.
(** /repo/spdx/v2/v2_3/tagvalue/reader/parse_package_test.go 781 *)
Example v23_TestParserPackageCreatesRelationshipInDocument : forallb is_false (
  let s1 := (set_ps_st PsPackage (set_ps_doc (Some (set_d_Packages [] zero_DocumentOf)) (set_ps_pkgs [(set_p_SPDXIdentifier ("p1") (set_p_PackageName ("p1") zero_PackageOf))] (set_ps_pkg (Some 0) zero_pstate)))) in
  let s2 := push_doc_packages (Some (option_map (fun i => (i, 0)) (ps_pkg s1))) s1 in
  let r3 := parse_pair V23 s2 (("Relationship"), ("SPDXRef-blah CONTAINS SPDXRef-blah-whatever")) in
  let s4 := after s2 r3 in
  [(option_map negb (olift Bool.eqb (failed r3) (Some false)));
   (olift ptr_eqb (Some (option_map (fun i => (i, 0)) (ps_rln s4))) (Some None));
   (option_map negb (olift ptr_eqb (Some (option_map (fun i => (i, 0)) (ps_rln s4))) (obind (option_map (fun l => map (fun i => Some (i, 0)) (seq 0 (List.length l))) (option_map (fun x => d_Relationships x) (obind (Some (ps_doc s4)) (fun o => o)))) (fun l => nth_error l 0))))]) = true.
Proof. vm_compute. reflexivity. Qed.
(** /repo/spdx/v2/v2_3/tagvalue/reader/parse_package_test.go 801 *)
Example v23_TestParserPackageCreatesAnnotationInDocument : forallb is_false (
  let s1 := (set_ps_st PsPackage (set_ps_doc (Some (set_d_Packages [] zero_DocumentOf)) (set_ps_pkgs [(set_p_SPDXIdentifier ("p1") (set_p_PackageName ("p1") zero_PackageOf))] (set_ps_pkg (Some 0) zero_pstate)))) in
  let s2 := push_doc_packages (Some (option_map (fun i => (i, 0)) (ps_pkg s1))) s1 in
  let r3 := parse_pair V23 s2 (("Annotator"), ("Person: John Doe ()")) in
  let s4 := after s2 r3 in
  [(option_map negb (olift Bool.eqb (failed r3) (Some false)));
   (olift ptr_eqb (Some (option_map (fun i => (i, 0)) (ps_ann s4))) (Some None));
   (option_map negb (olift ptr_eqb (Some (option_map (fun i => (i, 0)) (ps_ann s4))) (obind (option_map (fun l => map (fun i => Some (i, 0)) (seq 0 (List.length l))) (option_map (fun x => d_Annotations x) (obind (Some (ps_doc s4)) (fun o => o)))) (fun l => nth_error l 0))))]) = true.
Proof. vm_compute. reflexivity. Qed.
(** /repo/spdx/v2/v2_3/tagvalue/reader/parse_package_test.go 821 *)
Example v23_TestParserPackageUnknownTagFails : forallb is_false (
  let s1 := (set_ps_st PsPackage (set_ps_doc (Some (set_d_Packages [] zero_DocumentOf)) (set_ps_pkgs [(set_p_SPDXIdentifier ("p1") (set_p_PackageName ("p1") zero_PackageOf))] (set_ps_pkg (Some 0) zero_pstate)))) in
  let s2 := push_doc_packages (Some (option_map (fun i => (i, 0)) (ps_pkg s1))) s1 in
  let r3 := parse_package V23 ("blah") ("something") s2 in
  let s4 := after s2 r3 in
  [(olift Bool.eqb (failed r3) (Some false))]) = true.
Proof. vm_compute. reflexivity. Qed.
(** /repo/spdx/v2/v2_3/tagvalue/reader/parse_package_test.go 835 *)
Example v23_TestParserFailsIfInvalidSPDXIDInPackageSection : forallb is_false (
  let s1 := (set_ps_st PsPackage (set_ps_doc (Some (set_d_Packages [] zero_DocumentOf)) (set_ps_pkgs [zero_PackageOf] (set_ps_pkg (Some 0) zero_pstate)))) in
  let r2 := parse_package V23 ("PackageName") ("p1") s1 in
  let s3 := after s1 r2 in
  let r4 := parse_package V23 ("SPDXID") ("whoops") s3 in
  let s5 := after s3 r4 in
  [(option_map negb (olift Bool.eqb (failed r2) (Some false)));
   (olift Bool.eqb (failed r4) (Some false))]) = true.
Proof. vm_compute. reflexivity. Qed.
(** /repo/spdx/v2/v2_3/tagvalue/reader/parse_package_test.go 854 *)
Example v23_TestParserFailsIfInvalidPackageSupplierFormat : forallb is_false (
  let s1 := (set_ps_st PsPackage (set_ps_doc (Some (set_d_Packages [] zero_DocumentOf)) (set_ps_pkgs [zero_PackageOf] (set_ps_pkg (Some 0) zero_pstate)))) in
  let r2 := parse_package V23 ("PackageName") ("p1") s1 in
  let s3 := after s1 r2 in
  let r4 := parse_package V23 ("PackageSupplier") ("whoops") s3 in
  let s5 := after s3 r4 in
  [(option_map negb (olift Bool.eqb (failed r2) (Some false)));
   (olift Bool.eqb (failed r4) (Some false))]) = true.
Proof. vm_compute. reflexivity. Qed.
(** /repo/spdx/v2/v2_3/tagvalue/reader/parse_package_test.go 873 *)
Example v23_TestParserFailsIfUnknownPackageSupplierType : forallb is_false (
  let s1 := (set_ps_st PsPackage (set_ps_doc (Some (set_d_Packages [] zero_DocumentOf)) (set_ps_pkgs [zero_PackageOf] (set_ps_pkg (Some 0) zero_pstate)))) in
  let r2 := parse_package V23 ("PackageName") ("p1") s1 in
  let s3 := after s1 r2 in
  let r4 := parse_package V23 ("PackageSupplier") ("whoops: John Doe") s3 in
  let s5 := after s3 r4 in
  [(option_map negb (olift Bool.eqb (failed r2) (Some false)));
   (olift Bool.eqb (failed r4) (Some false))]) = true.
Proof. vm_compute. reflexivity. Qed.
(** /repo/spdx/v2/v2_3/tagvalue/reader/parse_package_test.go 892 *)
Example v23_TestParserFailsIfInvalidPackageOriginatorFormat : forallb is_false (
  let s1 := (set_ps_st PsPackage (set_ps_doc (Some (set_d_Packages [] zero_DocumentOf)) (set_ps_pkgs [zero_PackageOf] (set_ps_pkg (Some 0) zero_pstate)))) in
  let r2 := parse_package V23 ("PackageName") ("p1") s1 in
  let s3 := after s1 r2 in
  let r4 := parse_package V23 ("PackageOriginator") ("whoops") s3 in
  let s5 := after s3 r4 in
  [(option_map negb (olift Bool.eqb (failed r2) (Some false)));
   (olift Bool.eqb (failed r4) (Some false))]) = true.
Proof. vm_compute. reflexivity. Qed.
(** /repo/spdx/v2/v2_3/tagvalue/reader/parse_package_test.go 911 *)
Example v23_TestParserFailsIfUnknownPackageOriginatorType : forallb is_false (
  let s1 := (set_ps_st PsPackage (set_ps_doc (Some (set_d_Packages [] zero_DocumentOf)) (set_ps_pkgs [zero_PackageOf] (set_ps_pkg (Some 0) zero_pstate)))) in
  let r2 := parse_package V23 ("PackageName") ("p1") s1 in
  let s3 := after s1 r2 in
  let r4 := parse_package V23 ("PackageOriginator") ("whoops: John Doe") s3 in
  let s5 := after s3 r4 in
  [(option_map negb (olift Bool.eqb (failed r2) (Some false)));
   (olift Bool.eqb (failed r4) (Some false))]) = true.
Proof. vm_compute. reflexivity. Qed.
(** /repo/spdx/v2/v2_3/tagvalue/reader/parse_package_test.go 930 *)
Example v23_TestParserSetsFilesAnalyzedTagsCorrectly : forallb is_false (
  let s1 := (set_ps_st PsPackage (set_ps_doc (Some (set_d_Packages [] zero_DocumentOf)) (set_ps_pkgs [zero_PackageOf] (set_ps_pkg (Some 0) zero_pstate)))) in
  let r2 := parse_package V23 ("PackageName") ("p1") s1 in
  let s3 := after s1 r2 in
  let r4 := parse_package V23 ("FilesAnalyzed") ("true") s3 in
  let s5 := after s3 r4 in
  [(option_map negb (olift Bool.eqb (failed r2) (Some false)));
   (option_map negb (olift Bool.eqb (failed r4) (Some false)));
   (option_map negb (option_map (fun x => p_FilesAnalyzed x) (obind (Some (option_map (fun i => (i, 0)) (ps_pkg s5))) (fun p => obind p (fun p => nth_error (ps_pkgs s5) (fst p))))));
   (option_map negb (option_map (fun x => p_IsFilesAnalyzedTagPresent x) (obind (Some (option_map (fun i => (i, 0)) (ps_pkg s5))) (fun p => obind p (fun p => nth_error (ps_pkgs s5) (fst p))))))]) = true.
Proof. vm_compute. reflexivity. Qed.
(** /repo/spdx/v2/v2_3/tagvalue/reader/parse_package_test.go 955 *)
Example v23_TestParserFailsIfInvalidPackageChecksumFormat : forallb is_false (
  let s1 := (set_ps_st PsPackage (set_ps_doc (Some (set_d_Packages [] zero_DocumentOf)) (set_ps_pkgs [zero_PackageOf] (set_ps_pkg (Some 0) zero_pstate)))) in
  let r2 := parse_package V23 ("PackageName") ("p1") s1 in
  let s3 := after s1 r2 in
  let r4 := parse_package V23 ("PackageChecksum") ("whoops") s3 in
  let s5 := after s3 r4 in
  [(option_map negb (olift Bool.eqb (failed r2) (Some false)));
   (olift Bool.eqb (failed r4) (Some false))]) = true.
Proof. vm_compute. reflexivity. Qed.
(** /repo/spdx/v2/v2_3/tagvalue/reader/parse_package_test.go 974 *)
Example v23_TestParserFailsIfInvalidPackageChecksumType : forallb is_false (
  let s1 := (set_ps_st PsPackage (set_ps_doc (Some (set_d_Packages [] zero_DocumentOf)) (set_ps_pkgs [zero_PackageOf] (set_ps_pkg (Some 0) zero_pstate)))) in
  let r2 := parse_package V23 ("PackageName") ("p1") s1 in
  let s3 := after s1 r2 in
  let r4 := parse_package V23 ("PackageChecksum") ("whoops: blah") s3 in
  let s5 := after s3 r4 in
  [(option_map negb (olift Bool.eqb (failed r2) (Some false)));
   (olift Bool.eqb (failed r4) (Some false))]) = true.
Proof. vm_compute. reflexivity. Qed.
(** /repo/spdx/v2/v2_3/tagvalue/reader/parse_package_test.go 993 *)
Example v23_TestParserFailsIfInvalidExternalRefFormat : forallb is_false (
  let s1 := (set_ps_st PsPackage (set_ps_doc (Some (set_d_Packages [] zero_DocumentOf)) (set_ps_pkgs [zero_PackageOf] (set_ps_pkg (Some 0) zero_pstate)))) in
  let r2 := parse_package V23 ("PackageName") ("p1") s1 in
  let s3 := after s1 r2 in
  let r4 := parse_package V23 ("ExternalRef") ("whoops") s3 in
  let s5 := after s3 r4 in
  [(option_map negb (olift Bool.eqb (failed r2) (Some false)));
   (olift Bool.eqb (failed r4) (Some false))]) = true.
Proof. vm_compute. reflexivity. Qed.
(** /repo/spdx/v2/v2_3/tagvalue/reader/parse_package_test.go 1012 *)
Example v23_TestParserFailsIfExternalRefCommentBeforeExternalRef : forallb is_false (
  let s1 := (set_ps_st PsPackage (set_ps_doc (Some (set_d_Packages [] zero_DocumentOf)) (set_ps_pkgs [zero_PackageOf] (set_ps_pkg (Some 0) zero_pstate)))) in
  let r2 := parse_package V23 ("PackageName") ("p1") s1 in
  let s3 := after s1 r2 in
  let r4 := parse_package V23 ("ExternalRefComment") ("whoops") s3 in
  let s5 := after s3 r4 in
  [(option_map negb (olift Bool.eqb (failed r2) (Some false)));
   (olift Bool.eqb (failed r4) (Some false))]) = true.
Proof. vm_compute. reflexivity. Qed.
(** /repo/spdx/v2/v2_3/tagvalue/reader/parse_package_test.go 1033 *)
Example v23_TestCanCheckAndExtractExcludesFilenameAndCode : forallb is_false (
  [(option_map negb (olift String.eqb (option_map (fun x => vc_Value x) (Some (extract_code_and_excludes ("d6a770ba38583ed4bb4525bd96e50461655d2758 (excludes: ./package.spdx)")))) (Some ("d6a770ba38583ed4bb4525bd96e50461655d2758"))));
   (olift orb (option_map negb (olift Nat.eqb (option_map (@List.length _) (option_map (fun x => vc_ExcludedFiles x) (Some (extract_code_and_excludes ("d6a770ba38583ed4bb4525bd96e50461655d2758 (excludes: ./package.spdx)"))))) (Some 1))) (option_map negb (olift String.eqb (obind (option_map (fun x => vc_ExcludedFiles x) (Some (extract_code_and_excludes ("d6a770ba38583ed4bb4525bd96e50461655d2758 (excludes: ./package.spdx)")))) (fun l => nth_error l 0)) (Some ("./package.spdx")))))]) = true.
Proof. vm_compute. reflexivity. Qed.
(** /repo/spdx/v2/v2_3/tagvalue/reader/parse_package_test.go 1047 *)
Example v23_TestCanExtractPackageExternalReference : forallb is_false (
  let r1 := extract_package_external_reference ("SECURITY cpe23Type cpe:2.3:a:pivotal_software:spring_framework:4.1.0:*:*:*:*:*:*:*") in
  let w2 := match r1 with Ok x => x | _ => ("", "", "") end in
  [(option_map negb (olift Bool.eqb (failed r1) (Some false)));
   (option_map negb (olift String.eqb (Some (fst (fst w2))) (Some ("SECURITY"))));
   (option_map negb (olift String.eqb (Some (snd (fst w2))) (Some ("cpe23Type"))));
   (option_map negb (olift String.eqb (Some (snd w2)) (Some ("cpe:2.3:a:pivotal_software:spring_framework:4.1.0:*:*:*:*:*:*:*"))))]) = true.
Proof. vm_compute. reflexivity. Qed.
(** /repo/spdx/v2/v2_3/tagvalue/reader/parse_package_test.go 1068 *)
Example v23_TestCanExtractPackageExternalReferenceWithExtraWhitespace : forallb is_false (
  let r1 := extract_package_external_reference ("  SECURITY    	 cpe23Type   cpe:2.3:a:pivotal_software:spring_framework:4.1.0:*:*:*:*:*:*:* 	 ") in
  let w2 := match r1 with Ok x => x | _ => ("", "", "") end in
  [(option_map negb (olift Bool.eqb (failed r1) (Some false)));
   (option_map negb (olift String.eqb (Some (fst (fst w2))) (Some ("SECURITY"))));
   (option_map negb (olift String.eqb (Some (snd (fst w2))) (Some ("cpe23Type"))));
   (option_map negb (olift String.eqb (Some (snd w2)) (Some ("cpe:2.3:a:pivotal_software:spring_framework:4.1.0:*:*:*:*:*:*:*"))))]) = true.
Proof. vm_compute. reflexivity. Qed.
(** /repo/spdx/v2/v2_3/tagvalue/reader/parse_package_test.go 1089 *)
Example v23_TestFailsPackageExternalRefWithInvalidFormat : forallb is_false (
  let r1 := extract_package_external_reference ("whoops") in
  let w2 := match r1 with Ok x => x | _ => ("", "", "") end in
  [(olift Bool.eqb (failed r1) (Some false))]) = true.
Proof. vm_compute. reflexivity. Qed.
(** /repo/spdx/v2/v2_3/tagvalue/reader/parse_package_test.go 1096 *)
Example v23_TestParserPackageWithoutSpdxIdentifierThrowsError : forallb is_false (
  let s1 := (set_ps_st PsPackage (set_ps_doc (Some (set_d_Packages [] zero_DocumentOf)) (set_ps_pkgs [(set_p_PackageName ("p1") zero_PackageOf)] (set_ps_pkg (Some 0) zero_pstate)))) in
  let s2 := push_doc_packages (Some (option_map (fun i => (i, 0)) (ps_pkg s1))) s1 in
  let r3 := parse_pair V23 s2 (("PackageName"), ("p2")) in
  let s4 := after s2 r3 in
  [(option_map negb (olift ptr_eqb (obind (option_map (map (fun i => Some (i, 0))) (option_map (fun x => d_Packages x) (obind (Some (ps_doc s2)) (fun o => o)))) (fun l => nth_error l 0)) (Some (option_map (fun i => (i, 0)) (ps_pkg s1)))));
   (option_map negb (olift Nat.eqb (option_map (@List.length _) (option_map (map (fun i => Some (i, 0))) (option_map (fun x => d_Packages x) (obind (Some (ps_doc s2)) (fun o => o))))) (Some 1)));
   (olift Bool.eqb (failed r3) (Some false))]) = true.
Proof. vm_compute. reflexivity. Qed.
(** /repo/spdx/v2/v2_3/tagvalue/reader/parse_relationship_test.go 22 *)
Example v23_TestParserFailsIfRelationshipCommentWithoutRelationship : forallb is_false (
  let s1 := (set_ps_st PsCreationInfo (set_ps_doc (Some zero_DocumentOf) zero_pstate)) in
  let r2 := parse_pair V23 s1 (("RelationshipComment"), ("comment whatever")) in
  let s3 := after s1 r2 in
  [(olift Bool.eqb (failed r2) (Some false))]) = true.
Proof. vm_compute. reflexivity. Qed.
(** /repo/spdx/v2/v2_3/tagvalue/reader/parse_relationship_test.go 33 *)
Example v23_TestParserCanParseRelationshipTags : forallb is_false (
  let s1 := (set_ps_st PsCreationInfo (set_ps_doc (Some zero_DocumentOf) zero_pstate)) in
  let r2 := parse_pair V23 s1 (("Relationship"), ("SPDXRef-something CONTAINS DocumentRef-otherdoc:SPDXRef-something-else")) in
  let s3 := after s1 r2 in
  let r4 := parse_pair V23 s3 (("RelationshipComment"), ("this is a comment")) in
  let s5 := after s3 r4 in
  [(option_map negb (olift Bool.eqb (failed r2) (Some false)));
   (olift orb (option_map negb (olift String.eqb (option_map (fun x => de_DocumentRefID x) (option_map (fun x => r_RefA x) (obind (Some (option_map (fun i => (i, 0)) (ps_rln s3))) (fun p => obind p (fun p => obind (ps_doc s3) (fun d => nth_error (d_Relationships d) (fst p))))))) (Some ("")))) (option_map negb (olift String.eqb (option_map (fun x => de_ElementRefID x) (option_map (fun x => r_RefA x) (obind (Some (option_map (fun i => (i, 0)) (ps_rln s3))) (fun p => obind p (fun p => obind (ps_doc s3) (fun d => nth_error (d_Relationships d) (fst p))))))) (Some ("something")))));
   (olift orb (option_map negb (olift String.eqb (option_map (fun x => de_DocumentRefID x) (option_map (fun x => r_RefB x) (obind (Some (option_map (fun i => (i, 0)) (ps_rln s3))) (fun p => obind p (fun p => obind (ps_doc s3) (fun d => nth_error (d_Relationships d) (fst p))))))) (Some ("otherdoc")))) (option_map negb (olift String.eqb (option_map (fun x => de_ElementRefID x) (option_map (fun x => r_RefB x) (obind (Some (option_map (fun i => (i, 0)) (ps_rln s3))) (fun p => obind p (fun p => obind (ps_doc s3) (fun d => nth_error (d_Relationships d) (fst p))))))) (Some ("something-else")))));
   (option_map negb (olift String.eqb (option_map (fun x => r_Relationship x) (obind (Some (option_map (fun i => (i, 0)) (ps_rln s3))) (fun p => obind p (fun p => obind (ps_doc s3) (fun d => nth_error (d_Relationships d) (fst p)))))) (Some ("CONTAINS"))));
   (option_map negb (olift Bool.eqb (failed r4) (Some false)));
   (option_map negb (olift String.eqb (option_map (fun x => r_Comment x) (obind (Some (option_map (fun i => (i, 0)) (ps_rln s5))) (fun p => obind p (fun p => obind (ps_doc s5) (fun d => nth_error (d_Relationships d) (fst p)))))) (Some ("this is a comment"))))]) = true.
Proof. vm_compute. reflexivity. Qed.
(** /repo/spdx/v2/v2_3/tagvalue/reader/parse_relationship_test.go 65 *)
Example v23_TestParserInvalidRelationshipTagsNoValueFail : forallb is_false (
  let s1 := (set_ps_st PsCreationInfo (set_ps_doc (Some zero_DocumentOf) zero_pstate)) in
  let s2 := set_ps_rln None s1 in
  let r3 := parse_pair V23 s2 (("Relationship"), ("")) in
  let s4 := after s2 r3 in
  [(olift Bool.eqb (failed r3) (Some false))]) = true.
Proof. vm_compute. reflexivity. Qed.
(** /repo/spdx/v2/v2_3/tagvalue/reader/parse_relationship_test.go 79 *)
Example v23_TestParserInvalidRelationshipTagsOneValueFail : forallb is_false (
  let s1 := (set_ps_st PsCreationInfo (set_ps_doc (Some zero_DocumentOf) zero_pstate)) in
  let s2 := set_ps_rln None s1 in
  let r3 := parse_pair V23 s2 (("Relationship"), ("DESCRIBES")) in
  let s4 := after s2 r3 in
  [(olift Bool.eqb (failed r3) (Some false))]) = true.
Proof. vm_compute. reflexivity. Qed.
(** /repo/spdx/v2/v2_3/tagvalue/reader/parse_relationship_test.go 93 *)
Example v23_TestParserInvalidRelationshipTagsTwoValuesFail : forallb is_false (
  let s1 := (set_ps_st PsCreationInfo (set_ps_doc (Some zero_DocumentOf) zero_pstate)) in
  let s2 := set_ps_rln None s1 in
  let r3 := parse_pair V23 s2 (("Relationship"), ("SPDXRef-DOCUMENT DESCRIBES")) in
  let s4 := after s2 r3 in
  [(olift Bool.eqb (failed r3) (Some false))]) = true.
Proof. vm_compute. reflexivity. Qed.
(** /repo/spdx/v2/v2_3/tagvalue/reader/parse_relationship_test.go 107 *)
Example v23_TestParserInvalidRelationshipTagsThreeValuesSucceed : forallb is_false (
  let s1 := (set_ps_st PsCreationInfo (set_ps_doc (Some zero_DocumentOf) zero_pstate)) in
  let s2 := set_ps_rln None s1 in
  let r3 := parse_pair V23 s2 (("Relationship"), ("  SPDXRef-DOCUMENT 	   DESCRIBES  SPDXRef-something-else    ")) in
  let s4 := after s2 r3 in
  [(option_map negb (olift Bool.eqb (failed r3) (Some false)))]) = true.
Proof. vm_compute. reflexivity. Qed.
(** /repo/spdx/v2/v2_3/tagvalue/reader/parse_relationship_test.go 121 *)
Example v23_TestParserInvalidRelationshipTagsFourValuesFail : forallb is_false (
  let s1 := (set_ps_st PsCreationInfo (set_ps_doc (Some zero_DocumentOf) zero_pstate)) in
  let s2 := set_ps_rln None s1 in
  let r3 := parse_pair V23 s2 (("Relationship"), ("SPDXRef-a DESCRIBES SPDXRef-b SPDXRef-c")) in
  let s4 := after s2 r3 in
  [(olift Bool.eqb (failed r3) (Some false))]) = true.
Proof. vm_compute. reflexivity. Qed.
(** /repo/spdx/v2/v2_3/tagvalue/reader/parse_relationship_test.go 135 *)
Example v23_TestParserInvalidRelationshipTagsInvalidRefIDs : forallb is_false (
  let s1 := (set_ps_st PsCreationInfo (set_ps_doc (Some zero_DocumentOf) zero_pstate)) in
  let s2 := set_ps_rln None s1 in
  let r3 := parse_pair V23 s2 (("Relationship"), ("SPDXRef-a DESCRIBES b")) in
  let s4 := after s2 r3 in
  let s5 := set_ps_rln None s4 in
  let r6 := parse_pair V23 s5 (("Relationship"), ("a DESCRIBES SPDXRef-b")) in
  let s7 := after s5 r6 in
  [(olift Bool.eqb (failed r3) (Some false));
   (olift Bool.eqb (failed r6) (Some false))]) = true.
Proof. vm_compute. reflexivity. Qed.
(** /repo/spdx/v2/v2_3/tagvalue/reader/parse_relationship_test.go 155 *)
Example v23_TestParserSpecialValuesValidForRightSideOfRelationship : forallb is_false (
  let s1 := (set_ps_st PsCreationInfo (set_ps_doc (Some zero_DocumentOf) zero_pstate)) in
  let r2 := parse_pair V23 s1 (("Relationship"), ("SPDXRef-a CONTAINS NONE")) in
  let s3 := after s1 r2 in
  let r4 := parse_pair V23 s3 (("Relationship"), ("SPDXRef-a CONTAINS NOASSERTION")) in
  let s5 := after s3 r4 in
  let r6 := parse_pair V23 s5 (("Relationship"), ("NONE CONTAINS SPDXRef-a")) in
  let s7 := after s5 r6 in
  let r8 := parse_pair V23 s7 (("Relationship"), ("NOASSERTION CONTAINS SPDXRef-a")) in
  let s9 := after s7 r8 in
  [(option_map negb (olift Bool.eqb (failed r2) (Some false)));
   (option_map negb (olift Bool.eqb (failed r4) (Some false)));
   (olift Bool.eqb (failed r6) (Some false));
   (olift Bool.eqb (failed r8) (Some false))]) = true.
Proof. vm_compute. reflexivity. Qed.
(** /repo/spdx/v2/v2_3/tagvalue/reader/parse_review_test.go 11 *)
Example v23_TestParserReviewStartsNewReviewAfterParsingReviewerTag : forallb is_false (
  let s1 := (set_ps_st PsReview (set_ps_doc (Some (set_d_Reviews [(set_rv_ReviewerType ("Person") (set_rv_Reviewer ("John Doe") zero_Review))] (set_d_OtherLicenses [(set_ol_LicenseName ("License 11") (set_ol_LicenseIdentifier ("LicenseRef-Lic11") zero_OtherLicense))] (set_d_Packages [] zero_DocumentOf)))) (set_ps_rev (Some 0) (set_ps_lic (Some 0) (set_ps_files [(set_f_SPDXIdentifier ("f1") (set_f_FileName ("f1.txt") zero_FileOf))] (set_ps_file (Some 0) (set_ps_pkgs [(set_p_Files [] (set_p_SPDXIdentifier ("test") (set_p_PackageName ("test") zero_PackageOf)))] (set_ps_pkg (Some 0) zero_pstate)))))))) in
  let s2 := push_doc_packages (Some (option_map (fun i => (i, 0)) (ps_pkg s1))) s1 in
  let s3 := push_pkg_files (Some (option_map (fun i => (i, 0)) (ps_pkg s2))) (Some (option_map (fun i => (i, 0)) (ps_file s2))) s2 in
  let r4 := parse_pair V23 s3 (("Reviewer"), ("Person: Steve")) in
  let s5 := after s3 r4 in
  [(option_map negb (olift Nat.eqb (option_map (@List.length _) (option_map (fun l => map (fun i => Some (i, 0)) (seq 0 (List.length l))) (option_map (fun x => d_Reviews x) (obind (Some (ps_doc s3)) (fun o => o))))) (Some 1)));
   (option_map negb (olift ptr_eqb (obind (option_map (fun l => map (fun i => Some (i, 0)) (seq 0 (List.length l))) (option_map (fun x => d_Reviews x) (obind (Some (ps_doc s3)) (fun o => o)))) (fun l => nth_error l 0)) (Some (option_map (fun i => (i, 0)) (ps_rev s3)))));
   (option_map negb (olift String.eqb (option_map (fun x => rv_Reviewer x) (obind (obind (option_map (fun l => map (fun i => Some (i, 0)) (seq 0 (List.length l))) (option_map (fun x => d_Reviews x) (obind (Some (ps_doc s3)) (fun o => o)))) (fun l => nth_error l 0)) (fun p => obind p (fun p => obind (ps_doc s3) (fun d => nth_error (d_Reviews d) (fst p)))))) (Some ("John Doe"))));
   (option_map negb (olift Bool.eqb (failed r4) (Some false)));
   (option_map negb (olift pst_eqb (Some (ps_st s5)) (Some PsReview)));
   (olift ptr_eqb (Some (option_map (fun i => (i, 0)) (ps_rev s5))) (Some None));
   (option_map negb (olift String.eqb (option_map (fun x => rv_Reviewer x) (obind (Some (option_map (fun i => (i, 0)) (ps_rev s5))) (fun p => obind p (fun p => obind (ps_doc s5) (fun d => nth_error (d_Reviews d) (fst p)))))) (Some ("Steve"))));
   (option_map negb (olift Nat.eqb (option_map (@List.length _) (option_map (fun l => map (fun i => Some (i, 0)) (seq 0 (List.length l))) (option_map (fun x => d_Reviews x) (obind (Some (ps_doc s5)) (fun o => o))))) (Some 2)));
   (option_map negb (olift ptr_eqb (obind (option_map (fun l => map (fun i => Some (i, 0)) (seq 0 (List.length l))) (option_map (fun x => d_Reviews x) (obind (Some (ps_doc s5)) (fun o => o)))) (fun l => nth_error l 0)) (Some (option_map (fun i => (i, 0)) (ps_rev s3)))));
   (option_map negb (olift String.eqb (option_map (fun x => rv_Reviewer x) (obind (obind (option_map (fun l => map (fun i => Some (i, 0)) (seq 0 (List.length l))) (option_map (fun x => d_Reviews x) (obind (Some (ps_doc s5)) (fun o => o)))) (fun l => nth_error l 0)) (fun p => obind p (fun p => obind (ps_doc s5) (fun d => nth_error (d_Reviews d) (fst p)))))) (Some ("John Doe"))));
   (option_map negb (olift ptr_eqb (obind (option_map (fun l => map (fun i => Some (i, 0)) (seq 0 (List.length l))) (option_map (fun x => d_Reviews x) (obind (Some (ps_doc s5)) (fun o => o)))) (fun l => nth_error l 1)) (Some (option_map (fun i => (i, 0)) (ps_rev s5)))));
   (option_map negb (olift String.eqb (option_map (fun x => rv_Reviewer x) (obind (obind (option_map (fun l => map (fun i => Some (i, 0)) (seq 0 (List.length l))) (option_map (fun x => d_Reviews x) (obind (Some (ps_doc s5)) (fun o => o)))) (fun l => nth_error l 1)) (fun p => obind p (fun p => obind (ps_doc s5) (fun d => nth_error (d_Reviews d) (fst p)))))) (Some ("Steve"))))]) = true.
Proof. vm_compute. reflexivity. Qed.
(** /repo/spdx/v2/v2_3/tagvalue/reader/parse_review_test.go 83 *)
Example v23_TestParserReviewStaysAfterParsingRelationshipTags : forallb is_false (
  let s1 := (set_ps_st PsReview (set_ps_doc (Some (set_d_Reviews [(set_rv_ReviewerType ("Person") (set_rv_Reviewer ("Jane Doe") zero_Review))] (set_d_OtherLicenses [(set_ol_LicenseName ("License 11") (set_ol_LicenseIdentifier ("LicenseRef-Lic11") zero_OtherLicense))] (set_d_Packages [] zero_DocumentOf)))) (set_ps_rev (Some 0) (set_ps_lic (Some 0) (set_ps_files [(set_f_SPDXIdentifier ("f1") (set_f_FileName ("f1.txt") zero_FileOf))] (set_ps_file (Some 0) (set_ps_pkgs [(set_p_Files [] (set_p_SPDXIdentifier ("test") (set_p_PackageName ("test") zero_PackageOf)))] (set_ps_pkg (Some 0) zero_pstate)))))))) in
  let s2 := push_doc_packages (Some (option_map (fun i => (i, 0)) (ps_pkg s1))) s1 in
  let s3 := push_pkg_files (Some (option_map (fun i => (i, 0)) (ps_pkg s2))) (Some (option_map (fun i => (i, 0)) (ps_file s2))) s2 in
  let r4 := parse_pair V23 s3 (("Relationship"), ("SPDXRef-blah CONTAINS SPDXRef-blah-else")) in
  let s5 := after s3 r4 in
  let r6 := parse_pair V23 s5 (("RelationshipComment"), ("blah")) in
  let s7 := after s5 r6 in
  [(option_map negb (olift Bool.eqb (failed r4) (Some false)));
   (option_map negb (olift pst_eqb (Some (ps_st s5)) (Some PsReview)));
   (option_map negb (olift Nat.eqb (option_map (@List.length _) (option_map (fun l => map (fun i => Some (i, 0)) (seq 0 (List.length l))) (option_map (fun x => d_Relationships x) (obind (Some (ps_doc s5)) (fun o => o))))) (Some 1)));
   (olift orb (option_map negb (olift String.eqb (option_map (fun x => de_DocumentRefID x) (option_map (fun x => r_RefA x) (obind (obind (option_map (fun l => map (fun i => Some (i, 0)) (seq 0 (List.length l))) (option_map (fun x => d_Relationships x) (obind (Some (ps_doc s5)) (fun o => o)))) (fun l => nth_error l 0)) (fun p => obind p (fun p => obind (ps_doc s5) (fun d => nth_error (d_Relationships d) (fst p))))))) (Some ("")))) (option_map negb (olift String.eqb (option_map (fun x => de_ElementRefID x) (option_map (fun x => r_RefA x) (obind (obind (option_map (fun l => map (fun i => Some (i, 0)) (seq 0 (List.length l))) (option_map (fun x => d_Relationships x) (obind (Some (ps_doc s5)) (fun o => o)))) (fun l => nth_error l 0)) (fun p => obind p (fun p => obind (ps_doc s5) (fun d => nth_error (d_Relationships d) (fst p))))))) (Some ("blah")))));
   (option_map negb (olift Bool.eqb (failed r6) (Some false)));
   (option_map negb (olift pst_eqb (Some (ps_st s7)) (Some PsReview)))]) = true.
Proof. vm_compute. reflexivity. Qed.
(** /repo/spdx/v2/v2_3/tagvalue/reader/parse_review_test.go 130 *)
Example v23_TestParserReviewStaysAfterParsingAnnotationTags : forallb is_false (
  let s1 := (set_ps_st PsReview (set_ps_doc (Some (set_d_Reviews [(set_rv_ReviewerType ("Person") (set_rv_Reviewer ("Jane Doe") zero_Review))] (set_d_OtherLicenses [(set_ol_LicenseName ("License 11") (set_ol_LicenseIdentifier ("LicenseRef-Lic11") zero_OtherLicense))] (set_d_Packages [] zero_DocumentOf)))) (set_ps_rev (Some 0) (set_ps_lic (Some 0) (set_ps_files [(set_f_SPDXIdentifier ("f1") (set_f_FileName ("f1.txt") zero_FileOf))] (set_ps_file (Some 0) (set_ps_pkgs [(set_p_Files [] (set_p_SPDXIdentifier ("test") (set_p_PackageName ("test") zero_PackageOf)))] (set_ps_pkg (Some 0) zero_pstate)))))))) in
  let s2 := push_doc_packages (Some (option_map (fun i => (i, 0)) (ps_pkg s1))) s1 in
  let s3 := push_pkg_files (Some (option_map (fun i => (i, 0)) (ps_pkg s2))) (Some (option_map (fun i => (i, 0)) (ps_file s2))) s2 in
  let r4 := parse_pair V23 s3 (("Annotator"), ("Person: John Doe ()")) in
  let s5 := after s3 r4 in
  let r6 := parse_pair V23 s5 (("AnnotationDate"), ("2018-09-15T00:36:00Z")) in
  let s7 := after s5 r6 in
  let r8 := parse_pair V23 s7 (("AnnotationType"), ("REVIEW")) in
  let s9 := after s7 r8 in
  let r10 := parse_pair V23 s9 (("SPDXREF"), ("SPDXRef-45")) in
  let s11 := after s9 r10 in
  let r12 := parse_pair V23 s11 (("AnnotationComment"), ("i guess i had something to say about this particular file")) in
  let s13 := after s11 r12 in
  [(option_map negb (olift Bool.eqb (failed r4) (Some false)));
   (option_map negb (olift pst_eqb (Some (ps_st s5)) (Some PsReview)));
   (option_map negb (olift Bool.eqb (failed r6) (Some false)));
   (option_map negb (olift pst_eqb (Some (ps_st s7)) (Some PsReview)));
   (option_map negb (olift Bool.eqb (failed r8) (Some false)));
   (option_map negb (olift pst_eqb (Some (ps_st s9)) (Some PsReview)));
   (option_map negb (olift Bool.eqb (failed r10) (Some false)));
   (option_map negb (olift pst_eqb (Some (ps_st s11)) (Some PsReview)));
   (option_map negb (olift Bool.eqb (failed r12) (Some false)));
   (option_map negb (olift pst_eqb (Some (ps_st s13)) (Some PsReview)));
   (option_map negb (olift Nat.eqb (option_map (@List.length _) (option_map (fun l => map (fun i => Some (i, 0)) (seq 0 (List.length l))) (option_map (fun x => d_Annotations x) (obind (Some (ps_doc s13)) (fun o => o))))) (Some 1)));
   (option_map negb (olift String.eqb (option_map (fun x => an_Annotator x) (option_map (fun x => a_Annotator x) (obind (obind (option_map (fun l => map (fun i => Some (i, 0)) (seq 0 (List.length l))) (option_map (fun x => d_Annotations x) (obind (Some (ps_doc s13)) (fun o => o)))) (fun l => nth_error l 0)) (fun p => obind p (fun p => obind (ps_doc s13) (fun d => nth_error (d_Annotations d) (fst p))))))) (Some ("John Doe ()"))))]) = true.
Proof. vm_compute. reflexivity. Qed.
(** /repo/spdx/v2/v2_3/tagvalue/reader/parse_review_test.go 199 *)
Example v23_TestParserReviewFailsAfterParsingOtherSectionTags : forallb is_false (
  let s1 := (set_ps_st PsReview (set_ps_doc (Some (set_d_Reviews [zero_Review] (set_d_OtherLicenses [(set_ol_LicenseName ("License 11") (set_ol_LicenseIdentifier ("LicenseRef-Lic11") zero_OtherLicense))] (set_d_Packages [] zero_DocumentOf)))) (set_ps_rev (Some 0) (set_ps_lic (Some 0) (set_ps_files [(set_f_SPDXIdentifier ("f1") (set_f_FileName ("f1.txt") zero_FileOf))] (set_ps_file (Some 0) (set_ps_pkgs [(set_p_Files [] (set_p_SPDXIdentifier ("test") (set_p_PackageName ("test") zero_PackageOf)))] (set_ps_pkg (Some 0) zero_pstate)))))))) in
  let s2 := push_doc_packages (Some (option_map (fun i => (i, 0)) (ps_pkg s1))) s1 in
  let s3 := push_pkg_files (Some (option_map (fun i => (i, 0)) (ps_pkg s2))) (Some (option_map (fun i => (i, 0)) (ps_file s2))) s2 in
  let r4 := parse_pair V23 s3 (("SPDXVersion"), ("SPDX-2.3")) in
  let s5 := after s3 r4 in
  let r6 := parse_pair V23 s5 (("PackageName"), ("whatever")) in
  let s7 := after s5 r6 in
  let r8 := parse_pair V23 s7 (("FileName"), ("whatever")) in
  let s9 := after s7 r8 in
  let r10 := parse_pair V23 s9 (("LicenseID"), ("LicenseRef-Lic22")) in
  let s11 := after s9 r10 in
  [(olift Bool.eqb (failed r4) (Some false));
   (olift Bool.eqb (failed r6) (Some false));
   (olift Bool.eqb (failed r8) (Some false));
   (olift Bool.eqb (failed r10) (Some false))]) = true.
Proof. vm_compute. reflexivity. Qed.
(** /repo/spdx/v2/v2_3/tagvalue/reader/parse_review_test.go 236 *)
Example v23_TestParserCanParseReviewTags : forallb is_false (
  let s1 := (set_ps_st PsReview (set_ps_doc (Some (set_d_Reviews [zero_Review] (set_d_OtherLicenses [(set_ol_LicenseName ("License 11") (set_ol_LicenseIdentifier ("LicenseRef-Lic11") zero_OtherLicense))] (set_d_Packages [] zero_DocumentOf)))) (set_ps_rev (Some 0) (set_ps_lic (Some 0) (set_ps_files [(set_f_SPDXIdentifier ("f1") (set_f_FileName ("f1.txt") zero_FileOf))] (set_ps_file (Some 0) (set_ps_pkgs [(set_p_Files [] (set_p_SPDXIdentifier ("test") (set_p_PackageName ("test") zero_PackageOf)))] (set_ps_pkg (Some 0) zero_pstate)))))))) in
  let s2 := push_doc_packages (Some (option_map (fun i => (i, 0)) (ps_pkg s1))) s1 in
  let s3 := push_pkg_files (Some (option_map (fun i => (i, 0)) (ps_pkg s2))) (Some (option_map (fun i => (i, 0)) (ps_file s2))) s2 in
  let r4 := parse_review V23 ("ReviewDate") ("2018-09-23T08:30:00Z") s3 in
  let s5 := after s3 r4 in
  let r6 := parse_review V23 ("ReviewComment") ("this is a comment") s5 in
  let s7 := after s5 r6 in
  [(option_map negb (olift Bool.eqb (failed r4) (Some false)));
   (option_map negb (olift String.eqb (option_map (fun x => rv_Date x) (obind (Some (option_map (fun i => (i, 0)) (ps_rev s5))) (fun p => obind p (fun p => obind (ps_doc s5) (fun d => nth_error (d_Reviews d) (fst p)))))) (Some ("2018-09-23T08:30:00Z"))));
   (option_map negb (olift Bool.eqb (failed r6) (Some false)));
   (option_map negb (olift String.eqb (option_map (fun x => rv_Comment x) (obind (Some (option_map (fun i => (i, 0)) (ps_rev s7))) (fun p => obind p (fun p => obind (ps_doc s7) (fun d => nth_error (d_Reviews d) (fst p)))))) (Some ("this is a comment"))))]) = true.
Proof. vm_compute. reflexivity. Qed.
(** /repo/spdx/v2/v2_3/tagvalue/reader/parse_review_test.go 275 *)
Example v23_TestParserCanParseReviewerPersonTag : forallb is_false (
  let s1 := (set_ps_st PsReview (set_ps_doc (Some (set_d_Reviews [zero_Review] (set_d_OtherLicenses [(set_ol_LicenseName ("License 11") (set_ol_LicenseIdentifier ("LicenseRef-Lic11") zero_OtherLicense))] (set_d_Packages [] zero_DocumentOf)))) (set_ps_rev (Some 0) (set_ps_lic (Some 0) (set_ps_files [(set_f_SPDXIdentifier ("f1") (set_f_FileName ("f1.txt") zero_FileOf))] (set_ps_file (Some 0) (set_ps_pkgs [(set_p_Files [] (set_p_SPDXIdentifier ("test") (set_p_PackageName ("test") zero_PackageOf)))] (set_ps_pkg (Some 0) zero_pstate)))))))) in
  let s2 := push_doc_packages (Some (option_map (fun i => (i, 0)) (ps_pkg s1))) s1 in
  let s3 := push_pkg_files (Some (option_map (fun i => (i, 0)) (ps_pkg s2))) (Some (option_map (fun i => (i, 0)) (ps_file s2))) s2 in
  let r4 := parse_review V23 ("Reviewer") ("Person: John Doe") s3 in
  let s5 := after s3 r4 in
  [(option_map negb (olift Bool.eqb (failed r4) (Some false)));
   (option_map negb (olift String.eqb (option_map (fun x => rv_Reviewer x) (obind (Some (option_map (fun i => (i, 0)) (ps_rev s5))) (fun p => obind p (fun p => obind (ps_doc s5) (fun d => nth_error (d_Reviews d) (fst p)))))) (Some ("John Doe"))));
   (option_map negb (olift String.eqb (option_map (fun x => rv_ReviewerType x) (obind (Some (option_map (fun i => (i, 0)) (ps_rev s5))) (fun p => obind p (fun p => obind (ps_doc s5) (fun d => nth_error (d_Reviews d) (fst p)))))) (Some ("Person"))))]) = true.
Proof. vm_compute. reflexivity. Qed.
(** /repo/spdx/v2/v2_3/tagvalue/reader/parse_review_test.go 305 *)
Example v23_TestParserCanParseReviewerOrganizationTag : forallb is_false (
  let s1 := (set_ps_st PsReview (set_ps_doc (Some (set_d_Reviews [zero_Review] (set_d_OtherLicenses [(set_ol_LicenseName ("License 11") (set_ol_LicenseIdentifier ("LicenseRef-Lic11") zero_OtherLicense))] (set_d_Packages [] zero_DocumentOf)))) (set_ps_rev (Some 0) (set_ps_lic (Some 0) (set_ps_files [(set_f_SPDXIdentifier ("f1") (set_f_FileName ("f1.txt") zero_FileOf))] (set_ps_file (Some 0) (set_ps_pkgs [(set_p_Files [] (set_p_SPDXIdentifier ("test") (set_p_PackageName ("test") zero_PackageOf)))] (set_ps_pkg (Some 0) zero_pstate)))))))) in
  let s2 := push_doc_packages (Some (option_map (fun i => (i, 0)) (ps_pkg s1))) s1 in
  let s3 := push_pkg_files (Some (option_map (fun i => (i, 0)) (ps_pkg s2))) (Some (option_map (fun i => (i, 0)) (ps_file s2))) s2 in
  let r4 := parse_review V23 ("Reviewer") ("Organization: John Doe, Inc.") s3 in
  let s5 := after s3 r4 in
  [(option_map negb (olift Bool.eqb (failed r4) (Some false)));
   (option_map negb (olift String.eqb (option_map (fun x => rv_Reviewer x) (obind (Some (option_map (fun i => (i, 0)) (ps_rev s5))) (fun p => obind p (fun p => obind (ps_doc s5) (fun d => nth_error (d_Reviews d) (fst p)))))) (Some ("John Doe, Inc."))));
   (option_map negb (olift String.eqb (option_map (fun x => rv_ReviewerType x) (obind (Some (option_map (fun i => (i, 0)) (ps_rev s5))) (fun p => obind p (fun p => obind (ps_doc s5) (fun d => nth_error (d_Reviews d) (fst p)))))) (Some ("Organization"))))]) = true.
Proof. vm_compute. reflexivity. Qed.
(** /repo/spdx/v2/v2_3/tagvalue/reader/parse_review_test.go 335 *)
Example v23_TestParserCanParseReviewerToolTag : forallb is_false (
  let s1 := (set_ps_st PsReview (set_ps_doc (Some (set_d_Reviews [zero_Review] (set_d_OtherLicenses [(set_ol_LicenseName ("License 11") (set_ol_LicenseIdentifier ("LicenseRef-Lic11") zero_OtherLicense))] (set_d_Packages [] zero_DocumentOf)))) (set_ps_rev (Some 0) (set_ps_lic (Some 0) (set_ps_files [(set_f_SPDXIdentifier ("f1") (set_f_FileName ("f1.txt") zero_FileOf))] (set_ps_file (Some 0) (set_ps_pkgs [(set_p_Files [] (set_p_SPDXIdentifier ("test") (set_p_PackageName ("test") zero_PackageOf)))] (set_ps_pkg (Some 0) zero_pstate)))))))) in
  let s2 := push_doc_packages (Some (option_map (fun i => (i, 0)) (ps_pkg s1))) s1 in
  let s3 := push_pkg_files (Some (option_map (fun i => (i, 0)) (ps_pkg s2))) (Some (option_map (fun i => (i, 0)) (ps_file s2))) s2 in
  let r4 := parse_review V23 ("Reviewer") ("Tool: scannertool - 1.2.12") s3 in
  let s5 := after s3 r4 in
  [(option_map negb (olift Bool.eqb (failed r4) (Some false)));
   (option_map negb (olift String.eqb (option_map (fun x => rv_Reviewer x) (obind (Some (option_map (fun i => (i, 0)) (ps_rev s5))) (fun p => obind p (fun p => obind (ps_doc s5) (fun d => nth_error (d_Reviews d) (fst p)))))) (Some ("scannertool - 1.2.12"))));
   (option_map negb (olift String.eqb (option_map (fun x => rv_ReviewerType x) (obind (Some (option_map (fun i => (i, 0)) (ps_rev s5))) (fun p => obind p (fun p => obind (ps_doc s5) (fun d => nth_error (d_Reviews d) (fst p)))))) (Some ("Tool"))))]) = true.
Proof. vm_compute. reflexivity. Qed.
(** /repo/spdx/v2/v2_3/tagvalue/reader/parse_review_test.go 365 *)
Example v23_TestParserFailsIfReviewerInvalidFormat : forallb is_false (
  let s1 := (set_ps_st PsReview (set_ps_doc (Some (set_d_Reviews [zero_Review] (set_d_Packages [] zero_DocumentOf))) (set_ps_rev (Some 0) zero_pstate))) in
  let r2 := parse_review V23 ("Reviewer") ("oops") s1 in
  let s3 := after s1 r2 in
  [(olift Bool.eqb (failed r2) (Some false))]) = true.
Proof. vm_compute. reflexivity. Qed.
(** /repo/spdx/v2/v2_3/tagvalue/reader/parse_review_test.go 379 *)
Example v23_TestParserFailsIfReviewerUnknownType : forallb is_false (
  let s1 := (set_ps_st PsReview (set_ps_doc (Some (set_d_Reviews [zero_Review] (set_d_Packages [] zero_DocumentOf))) (set_ps_rev (Some 0) zero_pstate))) in
  let r2 := parse_review V23 ("Reviewer") ("whoops: John Doe") s1 in
  let s3 := after s1 r2 in
  [(olift Bool.eqb (failed r2) (Some false))]) = true.
Proof. vm_compute. reflexivity. Qed.
(** /repo/spdx/v2/v2_3/tagvalue/reader/parse_review_test.go 393 *)
Example v23_TestParserReviewUnknownTagFails : forallb is_false (
  let s1 := (set_ps_st PsReview (set_ps_doc (Some (set_d_Reviews [zero_Review] (set_d_OtherLicenses [(set_ol_LicenseName ("License 11") (set_ol_LicenseIdentifier ("LicenseRef-Lic11") zero_OtherLicense))] (set_d_Packages [] zero_DocumentOf)))) (set_ps_rev (Some 0) (set_ps_lic (Some 0) (set_ps_files [(set_f_SPDXIdentifier ("f1") (set_f_FileName ("f1.txt") zero_FileOf))] (set_ps_file (Some 0) (set_ps_pkgs [(set_p_Files [] (set_p_SPDXIdentifier ("test") (set_p_PackageName ("test") zero_PackageOf)))] (set_ps_pkg (Some 0) zero_pstate)))))))) in
  let s2 := push_doc_packages (Some (option_map (fun i => (i, 0)) (ps_pkg s1))) s1 in
  let s3 := push_pkg_files (Some (option_map (fun i => (i, 0)) (ps_pkg s2))) (Some (option_map (fun i => (i, 0)) (ps_file s2))) s2 in
  let r4 := parse_review V23 ("blah") ("something") s3 in
  let s5 := after s3 r4 in
  [(olift Bool.eqb (failed r4) (Some false))]) = true.
Proof. vm_compute. reflexivity. Qed.
(** /repo/spdx/v2/v2_3/tagvalue/reader/parse_snippet_test.go 12 *)
Example v23_TestParserSnippetStartsNewSnippetAfterParsingSnippetSPDXIDTag : forallb is_false (
  let s1 := (set_ps_st PsSnippet (set_ps_doc (Some (set_d_Packages [] zero_DocumentOf)) (set_ps_snips [(set_s_SPDXIdentifier ("s1") zero_Snippet)] (set_ps_snip (Some 0) (set_ps_files [(set_f_Snippets [] (set_f_SPDXIdentifier ("f1") (set_f_FileName ("f1.txt") zero_FileOf)))] (set_ps_file (Some 0) (set_ps_pkgs [(set_p_Files [] (set_p_SPDXIdentifier ("test") (set_p_PackageName ("test") zero_PackageOf)))] (set_ps_pkg (Some 0) zero_pstate)))))))) in
  let s2 := push_doc_packages (Some (option_map (fun i => (i, 0)) (ps_pkg s1))) s1 in
  let s3 := push_pkg_files (Some (option_map (fun i => (i, 0)) (ps_pkg s2))) (Some (option_map (fun i => (i, 0)) (ps_file s2))) s2 in
  let s4 := put_snippet (Some (option_map (fun i => (i, 0)) (ps_file s3))) ("s1") (Some (option_map (fun i => (i, 0)) (ps_snip s3))) s3 in
  let r5 := parse_pair V23 s4 (("SnippetSPDXID"), ("SPDXRef-s2")) in
  let s6 := after s4 r5 in
  [(option_map negb (olift Nat.eqb (option_map (@List.length _) (option_map (fun x => f_Snippets x) (obind (Some (option_map (fun i => (i, 0)) (ps_file s4))) (fun p => obind p (fun p => nth_error (ps_files s4) (fst p)))))) (Some 1)));
   (option_map negb (olift ptr_eqb (obind (option_map (fun x => f_Snippets x) (obind (Some (option_map (fun i => (i, 0)) (ps_file s4))) (fun p => obind p (fun p => nth_error (ps_files s4) (fst p))))) (fun m => option_map (fun i => Some (i, 0)) (lookup ("s1") m))) (Some (option_map (fun i => (i, 0)) (ps_snip s1)))));
   (option_map negb (olift String.eqb (option_map (fun x => s_SPDXIdentifier x) (obind (obind (option_map (fun x => f_Snippets x) (obind (Some (option_map (fun i => (i, 0)) (ps_file s4))) (fun p => obind p (fun p => nth_error (ps_files s4) (fst p))))) (fun m => option_map (fun i => Some (i, 0)) (lookup ("s1") m))) (fun p => obind p (fun p => nth_error (ps_snips s4) (fst p))))) (Some ("s1"))));
   (option_map negb (olift Bool.eqb (failed r5) (Some false)));
   (option_map negb (olift pst_eqb (Some (ps_st s6)) (Some PsSnippet)));
   (olift ptr_eqb (Some (option_map (fun i => (i, 0)) (ps_snip s6))) (Some None));
   (option_map negb (olift String.eqb (option_map (fun x => s_SPDXIdentifier x) (obind (Some (option_map (fun i => (i, 0)) (ps_snip s6))) (fun p => obind p (fun p => nth_error (ps_snips s6) (fst p))))) (Some ("s2"))));
   (option_map negb (olift Nat.eqb (option_map (@List.length _) (option_map (fun x => f_Snippets x) (obind (Some (option_map (fun i => (i, 0)) (ps_file s6))) (fun p => obind p (fun p => nth_error (ps_files s6) (fst p)))))) (Some 2)));
   (option_map negb (olift ptr_eqb (obind (option_map (fun x => f_Snippets x) (obind (Some (option_map (fun i => (i, 0)) (ps_file s6))) (fun p => obind p (fun p => nth_error (ps_files s6) (fst p))))) (fun m => option_map (fun i => Some (i, 0)) (lookup ("s1") m))) (Some (option_map (fun i => (i, 0)) (ps_snip s1)))));
   (option_map negb (olift String.eqb (option_map (fun x => s_SPDXIdentifier x) (obind (obind (option_map (fun x => f_Snippets x) (obind (Some (option_map (fun i => (i, 0)) (ps_file s6))) (fun p => obind p (fun p => nth_error (ps_files s6) (fst p))))) (fun m => option_map (fun i => Some (i, 0)) (lookup ("s1") m))) (fun p => obind p (fun p => nth_error (ps_snips s6) (fst p))))) (Some ("s1"))));
   (option_map negb (olift ptr_eqb (obind (option_map (fun x => f_Snippets x) (obind (Some (option_map (fun i => (i, 0)) (ps_file s6))) (fun p => obind p (fun p => nth_error (ps_files s6) (fst p))))) (fun m => option_map (fun i => Some (i, 0)) (lookup ("s2") m))) (Some (option_map (fun i => (i, 0)) (ps_snip s6)))));
   (option_map negb (olift String.eqb (option_map (fun x => s_SPDXIdentifier x) (obind (obind (option_map (fun x => f_Snippets x) (obind (Some (option_map (fun i => (i, 0)) (ps_file s6))) (fun p => obind p (fun p => nth_error (ps_files s6) (fst p))))) (fun m => option_map (fun i => Some (i, 0)) (lookup ("s2") m))) (fun p => obind p (fun p => nth_error (ps_snips s6) (fst p))))) (Some ("s2"))))]) = true.
Proof. vm_compute. reflexivity. Qed.
(** /repo/spdx/v2/v2_3/tagvalue/reader/parse_snippet_test.go 73 *)
Example v23_TestParserSnippetStartsNewPackageAfterParsingPackageNameTag : forallb is_false (
  let s1 := (set_ps_st PsSnippet (set_ps_doc (Some (set_d_Packages [] zero_DocumentOf)) (set_ps_snips [(set_s_SPDXIdentifier ("s1") zero_Snippet)] (set_ps_snip (Some 0) (set_ps_files [(set_f_Snippets [] (set_f_SPDXIdentifier ("f1") (set_f_FileName ("f1.txt") zero_FileOf)))] (set_ps_file (Some 0) (set_ps_pkgs [(set_p_Files [] (set_p_SPDXIdentifier ("package1") (set_p_PackageName ("package1") zero_PackageOf)))] (set_ps_pkg (Some 0) zero_pstate)))))))) in
  let s2 := push_doc_packages (Some (option_map (fun i => (i, 0)) (ps_pkg s1))) s1 in
  let s3 := push_pkg_files (Some (option_map (fun i => (i, 0)) (ps_pkg s2))) (Some (option_map (fun i => (i, 0)) (ps_file s2))) s2 in
  let s4 := put_snippet (Some (option_map (fun i => (i, 0)) (ps_file s3))) ("s1") (Some (option_map (fun i => (i, 0)) (ps_snip s3))) s3 in
  let r5 := parse_pair V23 s4 (("PackageName"), ("package2")) in
  let s6 := after s4 r5 in
  [(option_map negb (olift Bool.eqb (failed r5) (Some false)));
   (option_map negb (olift pst_eqb (Some (ps_st s6)) (Some PsPackage)));
   (olift ptr_eqb (Some (option_map (fun i => (i, 0)) (ps_pkg s6))) (Some None));
   (option_map negb (olift String.eqb (option_map (fun x => p_PackageName x) (obind (Some (option_map (fun i => (i, 0)) (ps_pkg s6))) (fun p => obind p (fun p => nth_error (ps_pkgs s6) (fst p))))) (Some ("package2"))));
   (option_map negb (option_map (fun x => p_FilesAnalyzed x) (obind (Some (option_map (fun i => (i, 0)) (ps_pkg s6))) (fun p => obind p (fun p => nth_error (ps_pkgs s6) (fst p))))));
   (option_map (fun x => p_IsFilesAnalyzedTagPresent x) (obind (Some (option_map (fun i => (i, 0)) (ps_pkg s6))) (fun p => obind p (fun p => nth_error (ps_pkgs s6) (fst p)))));
   (option_map negb (olift Nat.eqb (option_map (@List.length _) (option_map (map (fun i => Some (i, 0))) (option_map (fun x => d_Packages x) (obind (Some (ps_doc s6)) (fun o => o))))) (Some 1)));
   (option_map negb (olift ptr_eqb (obind (option_map (map (fun i => Some (i, 0))) (option_map (fun x => d_Packages x) (obind (Some (ps_doc s6)) (fun o => o)))) (fun l => nth_error l 0)) (Some (option_map (fun i => (i, 0)) (ps_pkg s1)))));
   (option_map negb (olift String.eqb (option_map (fun x => p_PackageName x) (obind (obind (option_map (map (fun i => Some (i, 0))) (option_map (fun x => d_Packages x) (obind (Some (ps_doc s6)) (fun o => o)))) (fun l => nth_error l 0)) (fun p => obind p (fun p => nth_error (ps_pkgs s6) (fst p))))) (Some ("package1"))));
   (option_map negb (olift Nat.eqb (option_map (@List.length _) (option_map (map (fun i => Some (i, 0))) (option_map (fun x => p_Files x) (obind (obind (option_map (map (fun i => Some (i, 0))) (option_map (fun x => d_Packages x) (obind (Some (ps_doc s6)) (fun o => o)))) (fun l => nth_error l 0)) (fun p => obind p (fun p => nth_error (ps_pkgs s6) (fst p))))))) (Some 1)));
   (option_map negb (olift ptr_eqb (obind (option_map (map (fun i => Some (i, 0))) (option_map (fun x => p_Files x) (obind (obind (option_map (map (fun i => Some (i, 0))) (option_map (fun x => d_Packages x) (obind (Some (ps_doc s6)) (fun o => o)))) (fun l => nth_error l 0)) (fun p => obind p (fun p => nth_error (ps_pkgs s6) (fst p)))))) (fun l => nth_error l 0)) (Some (option_map (fun i => (i, 0)) (ps_file s1)))));
   (option_map negb (olift String.eqb (option_map (fun x => f_FileName x) (obind (obind (option_map (map (fun i => Some (i, 0))) (option_map (fun x => p_Files x) (obind (obind (option_map (map (fun i => Some (i, 0))) (option_map (fun x => d_Packages x) (obind (Some (ps_doc s6)) (fun o => o)))) (fun l => nth_error l 0)) (fun p => obind p (fun p => nth_error (ps_pkgs s6) (fst p)))))) (fun l => nth_error l 0)) (fun p => obind p (fun p => nth_error (ps_files s6) (fst p))))) (Some ("f1.txt"))));
   (option_map negb (olift Nat.eqb (option_map (@List.length _) (option_map (map (fun i => Some (i, 0))) (option_map (fun x => p_Files x) (obind (Some (option_map (fun i => (i, 0)) (ps_pkg s6))) (fun p => obind p (fun p => nth_error (ps_pkgs s6) (fst p))))))) (Some 0)));
   (option_map negb (olift ptr_eqb (Some (option_map (fun i => (i, 0)) (ps_file s6))) (Some None)));
   (option_map negb (olift ptr_eqb (Some (option_map (fun i => (i, 0)) (ps_snip s6))) (Some None)))]) = true.
Proof. vm_compute. reflexivity. Qed.
(** /repo/spdx/v2/v2_3/tagvalue/reader/parse_snippet_test.go 147 *)
Example v23_TestParserSnippetMovesToFileAfterParsingFileNameTag : forallb is_false (
  let s1 := (set_ps_st PsSnippet (set_ps_doc (Some (set_d_Packages [] zero_DocumentOf)) (set_ps_snips [(set_s_SPDXIdentifier ("s1") zero_Snippet)] (set_ps_snip (Some 0) (set_ps_files [(set_f_Snippets [] (set_f_SPDXIdentifier ("f1") (set_f_FileName ("f1.txt") zero_FileOf)))] (set_ps_file (Some 0) (set_ps_pkgs [(set_p_Files [] (set_p_SPDXIdentifier ("package1") (set_p_PackageName ("package1") zero_PackageOf)))] (set_ps_pkg (Some 0) zero_pstate)))))))) in
  let s2 := push_doc_packages (Some (option_map (fun i => (i, 0)) (ps_pkg s1))) s1 in
  let s3 := push_pkg_files (Some (option_map (fun i => (i, 0)) (ps_pkg s2))) (Some (option_map (fun i => (i, 0)) (ps_file s2))) s2 in
  let s4 := put_snippet (Some (option_map (fun i => (i, 0)) (ps_file s3))) ("s1") (Some (option_map (fun i => (i, 0)) (ps_snip s3))) s3 in
  let r5 := parse_pair V23 s4 (("FileName"), ("f2.txt")) in
  let s6 := after s4 r5 in
  [(option_map negb (olift Bool.eqb (failed r5) (Some false)));
   (option_map negb (olift pst_eqb (Some (ps_st s6)) (Some PsFile)));
   (option_map negb (olift ptr_eqb (Some (option_map (fun i => (i, 0)) (ps_pkg s6))) (Some (option_map (fun i => (i, 0)) (ps_pkg s1)))));
   (olift ptr_eqb (Some (option_map (fun i => (i, 0)) (ps_file s6))) (Some None));
   (option_map negb (olift String.eqb (option_map (fun x => f_FileName x) (obind (Some (option_map (fun i => (i, 0)) (ps_file s6))) (fun p => obind p (fun p => nth_error (ps_files s6) (fst p))))) (Some ("f2.txt"))));
   (option_map negb (olift Nat.eqb (option_map (@List.length _) (option_map (map (fun i => Some (i, 0))) (option_map (fun x => p_Files x) (obind (Some (option_map (fun i => (i, 0)) (ps_pkg s6))) (fun p => obind p (fun p => nth_error (ps_pkgs s6) (fst p))))))) (Some 1)));
   (option_map negb (olift ptr_eqb (obind (option_map (map (fun i => Some (i, 0))) (option_map (fun x => p_Files x) (obind (Some (option_map (fun i => (i, 0)) (ps_pkg s6))) (fun p => obind p (fun p => nth_error (ps_pkgs s6) (fst p)))))) (fun l => nth_error l 0)) (Some (option_map (fun i => (i, 0)) (ps_file s1)))));
   (option_map negb (olift String.eqb (option_map (fun x => f_FileName x) (obind (obind (option_map (map (fun i => Some (i, 0))) (option_map (fun x => p_Files x) (obind (Some (option_map (fun i => (i, 0)) (ps_pkg s6))) (fun p => obind p (fun p => nth_error (ps_pkgs s6) (fst p)))))) (fun l => nth_error l 0)) (fun p => obind p (fun p => nth_error (ps_files s6) (fst p))))) (Some ("f1.txt"))));
   (option_map negb (olift ptr_eqb (Some (option_map (fun i => (i, 0)) (ps_snip s6))) (Some None)))]) = true.
Proof. vm_compute. reflexivity. Qed.
(** /repo/spdx/v2/v2_3/tagvalue/reader/parse_snippet_test.go 200 *)
Example v23_TestParserSnippetMovesToOtherLicenseAfterParsingLicenseIDTag : forallb is_false (
  let s1 := (set_ps_st PsSnippet (set_ps_doc (Some (set_d_Packages [] zero_DocumentOf)) (set_ps_snips [(set_s_SPDXIdentifier ("s1") zero_Snippet)] (set_ps_snip (Some 0) (set_ps_files [(set_f_Snippets [] (set_f_SPDXIdentifier ("f1") (set_f_FileName ("f1.txt") zero_FileOf)))] (set_ps_file (Some 0) (set_ps_pkgs [(set_p_Files [] (set_p_SPDXIdentifier ("package1") (set_p_PackageName ("package1") zero_PackageOf)))] (set_ps_pkg (Some 0) zero_pstate)))))))) in
  let s2 := push_doc_packages (Some (option_map (fun i => (i, 0)) (ps_pkg s1))) s1 in
  let s3 := push_pkg_files (Some (option_map (fun i => (i, 0)) (ps_pkg s2))) (Some (option_map (fun i => (i, 0)) (ps_file s2))) s2 in
  let s4 := put_snippet (Some (option_map (fun i => (i, 0)) (ps_file s3))) ("s1") (Some (option_map (fun i => (i, 0)) (ps_snip s3))) s3 in
  let r5 := parse_pair V23 s4 (("LicenseID"), ("LicenseRef-TestLic")) in
  let s6 := after s4 r5 in
  [(option_map negb (olift Bool.eqb (failed r5) (Some false)));
   (option_map negb (olift pst_eqb (Some (ps_st s6)) (Some PsOtherLicense)))]) = true.
Proof. vm_compute. reflexivity. Qed.
(** /repo/spdx/v2/v2_3/tagvalue/reader/parse_snippet_test.go 221 *)
Example v23_TestParserSnippetMovesToReviewAfterParsingReviewerTag : forallb is_false (
  let s1 := (set_ps_st PsSnippet (set_ps_doc (Some (set_d_Packages [] zero_DocumentOf)) (set_ps_snips [(set_s_SPDXIdentifier ("s1") zero_Snippet)] (set_ps_snip (Some 0) (set_ps_files [(set_f_Snippets [] (set_f_SPDXIdentifier ("f1") (set_f_FileName ("f1.txt") zero_FileOf)))] (set_ps_file (Some 0) (set_ps_pkgs [(set_p_Files [] (set_p_SPDXIdentifier ("package1") (set_p_PackageName ("package1") zero_PackageOf)))] (set_ps_pkg (Some 0) zero_pstate)))))))) in
  let s2 := push_doc_packages (Some (option_map (fun i => (i, 0)) (ps_pkg s1))) s1 in
  let s3 := push_pkg_files (Some (option_map (fun i => (i, 0)) (ps_pkg s2))) (Some (option_map (fun i => (i, 0)) (ps_file s2))) s2 in
  let s4 := put_snippet (Some (option_map (fun i => (i, 0)) (ps_file s3))) ("s1") (Some (option_map (fun i => (i, 0)) (ps_snip s3))) s3 in
  let r5 := parse_pair V23 s4 (("Reviewer"), ("Person: John Doe")) in
  let s6 := after s4 r5 in
  [(option_map negb (olift Bool.eqb (failed r5) (Some false)));
   (option_map negb (olift pst_eqb (Some (ps_st s6)) (Some PsReview)))]) = true.
Proof. vm_compute. reflexivity. Qed.
(** /repo/spdx/v2/v2_3/tagvalue/reader/parse_snippet_test.go 242 *)
Example v23_TestParserSnippetStaysAfterParsingRelationshipTags : forallb is_false (
  let s1 := (set_ps_st PsSnippet (set_ps_doc (Some (set_d_Packages [] zero_DocumentOf)) (set_ps_snips [(set_s_SPDXIdentifier ("s1") zero_Snippet)] (set_ps_snip (Some 0) (set_ps_files [(set_f_Snippets [] (set_f_SPDXIdentifier ("f1") (set_f_FileName ("f1.txt") zero_FileOf)))] (set_ps_file (Some 0) (set_ps_pkgs [(set_p_Files [] (set_p_SPDXIdentifier ("package1") (set_p_PackageName ("package1") zero_PackageOf)))] (set_ps_pkg (Some 0) zero_pstate)))))))) in
  let s2 := push_doc_packages (Some (option_map (fun i => (i, 0)) (ps_pkg s1))) s1 in
  let s3 := push_pkg_files (Some (option_map (fun i => (i, 0)) (ps_pkg s2))) (Some (option_map (fun i => (i, 0)) (ps_file s2))) s2 in
  let s4 := put_snippet (Some (option_map (fun i => (i, 0)) (ps_file s3))) ("s1") (Some (option_map (fun i => (i, 0)) (ps_snip s3))) s3 in
  let r5 := parse_pair V23 s4 (("Relationship"), ("SPDXRef-blah CONTAINS SPDXRef-blah-else")) in
  let s6 := after s4 r5 in
  let r7 := parse_pair V23 s6 (("RelationshipComment"), ("blah")) in
  let s8 := after s6 r7 in
  [(option_map negb (olift Bool.eqb (failed r5) (Some false)));
   (option_map negb (olift pst_eqb (Some (ps_st s6)) (Some PsSnippet)));
   (option_map negb (olift Nat.eqb (option_map (@List.length _) (option_map (fun l => map (fun i => Some (i, 0)) (seq 0 (List.length l))) (option_map (fun x => d_Relationships x) (obind (Some (ps_doc s6)) (fun o => o))))) (Some 1)));
   (olift orb (option_map negb (olift String.eqb (option_map (fun x => de_DocumentRefID x) (option_map (fun x => r_RefA x) (obind (obind (option_map (fun l => map (fun i => Some (i, 0)) (seq 0 (List.length l))) (option_map (fun x => d_Relationships x) (obind (Some (ps_doc s6)) (fun o => o)))) (fun l => nth_error l 0)) (fun p => obind p (fun p => obind (ps_doc s6) (fun d => nth_error (d_Relationships d) (fst p))))))) (Some ("")))) (option_map negb (olift String.eqb (option_map (fun x => de_ElementRefID x) (option_map (fun x => r_RefA x) (obind (obind (option_map (fun l => map (fun i => Some (i, 0)) (seq 0 (List.length l))) (option_map (fun x => d_Relationships x) (obind (Some (ps_doc s6)) (fun o => o)))) (fun l => nth_error l 0)) (fun p => obind p (fun p => obind (ps_doc s6) (fun d => nth_error (d_Relationships d) (fst p))))))) (Some ("blah")))));
   (option_map negb (olift Bool.eqb (failed r7) (Some false)));
   (option_map negb (olift pst_eqb (Some (ps_st s8)) (Some PsSnippet)))]) = true.
Proof. vm_compute. reflexivity. Qed.
(** /repo/spdx/v2/v2_3/tagvalue/reader/parse_snippet_test.go 281 *)
Example v23_TestParserSnippetStaysAfterParsingAnnotationTags : forallb is_false (
  let s1 := (set_ps_st PsSnippet (set_ps_doc (Some (set_d_Packages [] zero_DocumentOf)) (set_ps_snips [(set_s_SPDXIdentifier ("s1") zero_Snippet)] (set_ps_snip (Some 0) (set_ps_files [(set_f_Snippets [] (set_f_SPDXIdentifier ("f1") (set_f_FileName ("f1.txt") zero_FileOf)))] (set_ps_file (Some 0) (set_ps_pkgs [(set_p_Files [] (set_p_SPDXIdentifier ("package1") (set_p_PackageName ("package1") zero_PackageOf)))] (set_ps_pkg (Some 0) zero_pstate)))))))) in
  let s2 := push_doc_packages (Some (option_map (fun i => (i, 0)) (ps_pkg s1))) s1 in
  let s3 := push_pkg_files (Some (option_map (fun i => (i, 0)) (ps_pkg s2))) (Some (option_map (fun i => (i, 0)) (ps_file s2))) s2 in
  let s4 := put_snippet (Some (option_map (fun i => (i, 0)) (ps_file s3))) ("s1") (Some (option_map (fun i => (i, 0)) (ps_snip s3))) s3 in
  let r5 := parse_pair V23 s4 (("Annotator"), ("Person: John Doe ()")) in
  let s6 := after s4 r5 in
  let r7 := parse_pair V23 s6 (("AnnotationDate"), ("2018-09-15T00:36:00Z")) in
  let s8 := after s6 r7 in
  let r9 := parse_pair V23 s8 (("AnnotationType"), ("REVIEW")) in
  let s10 := after s8 r9 in
  let r11 := parse_pair V23 s10 (("SPDXREF"), ("SPDXRef-45")) in
  let s12 := after s10 r11 in
  let r13 := parse_pair V23 s12 (("AnnotationComment"), ("i guess i had something to say about this particular file")) in
  let s14 := after s12 r13 in
  [(option_map negb (olift Bool.eqb (failed r5) (Some false)));
   (option_map negb (olift pst_eqb (Some (ps_st s6)) (Some PsSnippet)));
   (option_map negb (olift Bool.eqb (failed r7) (Some false)));
   (option_map negb (olift pst_eqb (Some (ps_st s8)) (Some PsSnippet)));
   (option_map negb (olift Bool.eqb (failed r9) (Some false)));
   (option_map negb (olift pst_eqb (Some (ps_st s10)) (Some PsSnippet)));
   (option_map negb (olift Bool.eqb (failed r11) (Some false)));
   (option_map negb (olift pst_eqb (Some (ps_st s12)) (Some PsSnippet)));
   (option_map negb (olift Bool.eqb (failed r13) (Some false)));
   (option_map negb (olift pst_eqb (Some (ps_st s14)) (Some PsSnippet)));
   (option_map negb (olift Nat.eqb (option_map (@List.length _) (option_map (fun l => map (fun i => Some (i, 0)) (seq 0 (List.length l))) (option_map (fun x => d_Annotations x) (obind (Some (ps_doc s14)) (fun o => o))))) (Some 1)));
   (option_map negb (olift String.eqb (option_map (fun x => an_Annotator x) (option_map (fun x => a_Annotator x) (obind (obind (option_map (fun l => map (fun i => Some (i, 0)) (seq 0 (List.length l))) (option_map (fun x => d_Annotations x) (obind (Some (ps_doc s14)) (fun o => o)))) (fun l => nth_error l 0)) (fun p => obind p (fun p => obind (ps_doc s14) (fun d => nth_error (d_Annotations d) (fst p))))))) (Some ("John Doe ()"))))]) = true.
Proof. vm_compute. reflexivity. Qed.
(** /repo/spdx/v2/v2_3/tagvalue/reader/parse_snippet_test.go 343 *)
Example v23_TestParserCanParseSnippetTags : forallb is_false (
  let s1 := (set_ps_st PsSnippet (set_ps_doc (Some (set_d_Packages [] zero_DocumentOf)) (set_ps_snips [zero_Snippet] (set_ps_snip (Some 0) (set_ps_files [(set_f_Snippets [] (set_f_SPDXIdentifier ("f1") (set_f_FileName ("f1.txt") zero_FileOf)))] (set_ps_file (Some 0) (set_ps_pkgs [(set_p_Files [] (set_p_SPDXIdentifier ("package1") (set_p_PackageName ("package1") zero_PackageOf)))] (set_ps_pkg (Some 0) zero_pstate)))))))) in
  let s2 := push_doc_packages (Some (option_map (fun i => (i, 0)) (ps_pkg s1))) s1 in
  let s3 := push_pkg_files (Some (option_map (fun i => (i, 0)) (ps_pkg s2))) (Some (option_map (fun i => (i, 0)) (ps_file s2))) s2 in
  let r4 := parse_snippet V23 ("SnippetSPDXID") ("SPDXRef-s1") s3 in
  let s5 := after s3 r4 in
  let r6 := parse_snippet V23 ("SnippetFromFileSPDXID") ("SPDXRef-f1") s5 in
  let s7 := after s5 r6 in
  let r8 := parse_snippet V23 ("SnippetByteRange") ("20:320") s7 in
  let s9 := after s7 r8 in
  let r10 := parse_snippet V23 ("SnippetLineRange") ("5:12") s9 in
  let s11 := after s9 r10 in
  let r12 := parse_snippet V23 ("SnippetLicenseConcluded") ("BSD-3-Clause") s11 in
  let s13 := after s11 r12 in
  let r14 := parse_snippet V23 ("LicenseInfoInSnippet") ("Apache-2.0") s13 in
  let s15 := after s13 r14 in
  let r16 := parse_snippet V23 ("LicenseInfoInSnippet") ("GPL-2.0-or-later") s15 in
  let s17 := after s15 r16 in
  let r18 := parse_snippet V23 ("LicenseInfoInSnippet") ("CC0-1.0") s17 in
  let s19 := after s17 r18 in
  let r20 := parse_snippet V23 ("SnippetLicenseComments") ("this is a comment about the licenses") s19 in
  let s21 := after s19 r20 in
  let r22 := parse_snippet V23 ("SnippetCopyrightText") ("copyright (c) John Doe and friends") s21 in
  let s23 := after s21 r22 in
  let r24 := parse_snippet V23 ("SnippetComment") ("this is a comment about the snippet") s23 in
  let s25 := after s23 r24 in
  let r26 := parse_snippet V23 ("SnippetName") ("from some other package called abc") s25 in
  let s27 := after s25 r26 in
  let r28 := parse_snippet V23 ("SnippetAttributionText") ("Include this notice in all advertising materials") s27 in
  let s29 := after s27 r28 in
  let r30 := parse_snippet V23 ("SnippetAttributionText") ("This is a 
multi-line string") s29 in
  let s31 := after s29 r30 in
  [(option_map negb (olift Bool.eqb (failed r4) (Some false)));
   (option_map negb (olift String.eqb (option_map (fun x => s_SPDXIdentifier x) (obind (Some (option_map (fun i => (i, 0)) (ps_snip s5))) (fun p => obind p (fun p => nth_error (ps_snips s5) (fst p))))) (Some ("s1"))));
   (option_map negb (olift Bool.eqb (failed r6) (Some false)));
   (option_map negb (olift String.eqb (option_map (fun x => s_FromFile x) (obind (Some (option_map (fun i => (i, 0)) (ps_snip s7))) (fun p => obind p (fun p => nth_error (ps_snips s7) (fst p))))) (Some ("f1"))));
   (option_map negb (olift Bool.eqb (failed r8) (Some false)));
   (option_map negb (olift Z.eqb (option_map (fun x => rp_Offset x) (option_map (fun x => sr_StartPointer x) (obind (option_map (fun x => s_Ranges x) (obind (Some (option_map (fun i => (i, 0)) (ps_snip s9))) (fun p => obind p (fun p => nth_error (ps_snips s9) (fst p))))) (fun l => nth_error l 0)))) (Some 20%Z)));
   (option_map negb (olift Z.eqb (option_map (fun x => rp_Offset x) (option_map (fun x => sr_EndPointer x) (obind (option_map (fun x => s_Ranges x) (obind (Some (option_map (fun i => (i, 0)) (ps_snip s9))) (fun p => obind p (fun p => nth_error (ps_snips s9) (fst p))))) (fun l => nth_error l 0)))) (Some 320%Z)));
   (option_map negb (olift Bool.eqb (failed r10) (Some false)));
   (option_map negb (olift Z.eqb (option_map (fun x => rp_LineNumber x) (option_map (fun x => sr_StartPointer x) (obind (option_map (fun x => s_Ranges x) (obind (Some (option_map (fun i => (i, 0)) (ps_snip s11))) (fun p => obind p (fun p => nth_error (ps_snips s11) (fst p))))) (fun l => nth_error l 1)))) (Some 5%Z)));
   (option_map negb (olift Z.eqb (option_map (fun x => rp_LineNumber x) (option_map (fun x => sr_EndPointer x) (obind (option_map (fun x => s_Ranges x) (obind (Some (option_map (fun i => (i, 0)) (ps_snip s11))) (fun p => obind p (fun p => nth_error (ps_snips s11) (fst p))))) (fun l => nth_error l 1)))) (Some 12%Z)));
   (option_map negb (olift Bool.eqb (failed r12) (Some false)));
   (option_map negb (olift String.eqb (option_map (fun x => s_LicenseConcluded x) (obind (Some (option_map (fun i => (i, 0)) (ps_snip s13))) (fun p => obind p (fun p => nth_error (ps_snips s13) (fst p))))) (Some ("BSD-3-Clause"))));
   (option_map negb (olift Bool.eqb (failed r14) (Some false)));
   (option_map negb (olift Bool.eqb (failed r16) (Some false)));
   (option_map negb (olift Bool.eqb (failed r18) (Some false)));
   (option_map negb (option_map (mem ("Apache-2.0")) (option_map (fun x => s_LicenseInfoInSnippet x) (obind (Some (option_map (fun i => (i, 0)) (ps_snip s19))) (fun p => obind p (fun p => nth_error (ps_snips s19) (fst p)))))));
   (option_map negb (option_map (mem ("GPL-2.0-or-later")) (option_map (fun x => s_LicenseInfoInSnippet x) (obind (Some (option_map (fun i => (i, 0)) (ps_snip s19))) (fun p => obind p (fun p => nth_error (ps_snips s19) (fst p)))))));
   (option_map negb (option_map (mem ("CC0-1.0")) (option_map (fun x => s_LicenseInfoInSnippet x) (obind (Some (option_map (fun i => (i, 0)) (ps_snip s19))) (fun p => obind p (fun p => nth_error (ps_snips s19) (fst p)))))));
   (option_map negb (olift Nat.eqb (option_map (@List.length _) (option_map (fun x => s_LicenseInfoInSnippet x) (obind (Some (option_map (fun i => (i, 0)) (ps_snip s19))) (fun p => obind p (fun p => nth_error (ps_snips s19) (fst p)))))) (Some 3)));
   (option_map negb (olift Bool.eqb (failed r20) (Some false)));
   (option_map negb (olift String.eqb (option_map (fun x => s_LicenseComments x) (obind (Some (option_map (fun i => (i, 0)) (ps_snip s21))) (fun p => obind p (fun p => nth_error (ps_snips s21) (fst p))))) (Some ("this is a comment about the licenses"))));
   (option_map negb (olift Bool.eqb (failed r22) (Some false)));
   (option_map negb (olift String.eqb (option_map (fun x => s_CopyrightText x) (obind (Some (option_map (fun i => (i, 0)) (ps_snip s23))) (fun p => obind p (fun p => nth_error (ps_snips s23) (fst p))))) (Some ("copyright (c) John Doe and friends"))));
   (option_map negb (olift Bool.eqb (failed r24) (Some false)));
   (option_map negb (olift String.eqb (option_map (fun x => s_Comment x) (obind (Some (option_map (fun i => (i, 0)) (ps_snip s25))) (fun p => obind p (fun p => nth_error (ps_snips s25) (fst p))))) (Some ("this is a comment about the snippet"))));
   (option_map negb (olift Bool.eqb (failed r26) (Some false)));
   (option_map negb (olift String.eqb (option_map (fun x => s_Name x) (obind (Some (option_map (fun i => (i, 0)) (ps_snip s27))) (fun p => obind p (fun p => nth_error (ps_snips s27) (fst p))))) (Some ("from some other package called abc"))));
   (option_map negb (olift Bool.eqb (failed r28) (Some false)));
   (option_map negb (olift Bool.eqb (failed r30) (Some false)));
   (option_map negb (option_map (mem ("Include this notice in all advertising materials")) (option_map (fun x => s_AttributionTexts x) (obind (Some (option_map (fun i => (i, 0)) (ps_snip s31))) (fun p => obind p (fun p => nth_error (ps_snips s31) (fst p)))))));
   (option_map negb (option_map (mem ("This is a 
multi-line string")) (option_map (fun x => s_AttributionTexts x) (obind (Some (option_map (fun i => (i, 0)) (ps_snip s31))) (fun p => obind p (fun p => nth_error (ps_snips s31) (fst p)))))));
   (option_map negb (olift Nat.eqb (option_map (@List.length _) (option_map (fun x => s_AttributionTexts x) (obind (Some (option_map (fun i => (i, 0)) (ps_snip s31))) (fun p => obind p (fun p => nth_error (ps_snips s31) (fst p)))))) (Some 2)))]) = true.
Proof. vm_compute. reflexivity. Qed.
(** /repo/spdx/v2/v2_3/tagvalue/reader/parse_snippet_test.go 499 *)
Example v23_TestParserSnippetUnknownTagFails : forallb is_false (
  let s1 := (set_ps_st PsSnippet (set_ps_doc (Some (set_d_Packages [] zero_DocumentOf)) (set_ps_snips [(set_s_SPDXIdentifier ("s1") zero_Snippet)] (set_ps_snip (Some 0) (set_ps_files [(set_f_Snippets [] (set_f_SPDXIdentifier ("f1") (set_f_FileName ("f1.txt") zero_FileOf)))] (set_ps_file (Some 0) (set_ps_pkgs [(set_p_Files [] (set_p_SPDXIdentifier ("package1") (set_p_PackageName ("package1") zero_PackageOf)))] (set_ps_pkg (Some 0) zero_pstate)))))))) in
  let s2 := push_doc_packages (Some (option_map (fun i => (i, 0)) (ps_pkg s1))) s1 in
  let s3 := push_pkg_files (Some (option_map (fun i => (i, 0)) (ps_pkg s2))) (Some (option_map (fun i => (i, 0)) (ps_file s2))) s2 in
  let r4 := parse_snippet V23 ("blah") ("something") s3 in
  let s5 := after s3 r4 in
  [(olift Bool.eqb (failed r4) (Some false))]) = true.
Proof. vm_compute. reflexivity. Qed.
(** /repo/spdx/v2/v2_3/tagvalue/reader/parse_snippet_test.go 516 *)
Example v23_TestParserFailsForInvalidSnippetSPDXID : forallb is_false (
  let s1 := (set_ps_st PsSnippet (set_ps_doc (Some (set_d_Packages [] zero_DocumentOf)) (set_ps_snips [zero_Snippet] (set_ps_snip (Some 0) (set_ps_files [(set_f_Snippets [] (set_f_SPDXIdentifier ("f1") (set_f_FileName ("f1.txt") zero_FileOf)))] (set_ps_file (Some 0) (set_ps_pkgs [(set_p_Files [] (set_p_SPDXIdentifier ("package1") (set_p_PackageName ("package1") zero_PackageOf)))] (set_ps_pkg (Some 0) zero_pstate)))))))) in
  let s2 := push_doc_packages (Some (option_map (fun i => (i, 0)) (ps_pkg s1))) s1 in
  let s3 := push_pkg_files (Some (option_map (fun i => (i, 0)) (ps_pkg s2))) (Some (option_map (fun i => (i, 0)) (ps_file s2))) s2 in
  let r4 := parse_snippet V23 ("SnippetSPDXID") ("whoops") s3 in
  let s5 := after s3 r4 in
  [(olift Bool.eqb (failed r4) (Some false))]) = true.
Proof. vm_compute. reflexivity. Qed.
(** /repo/spdx/v2/v2_3/tagvalue/reader/parse_snippet_test.go 534 *)
Example v23_TestParserFailsForInvalidSnippetFromFileSPDXID : forallb is_false (
  let s1 := (set_ps_st PsSnippet (set_ps_doc (Some (set_d_Packages [] zero_DocumentOf)) (set_ps_snips [zero_Snippet] (set_ps_snip (Some 0) (set_ps_files [(set_f_Snippets [] (set_f_SPDXIdentifier ("f1") (set_f_FileName ("f1.txt") zero_FileOf)))] (set_ps_file (Some 0) (set_ps_pkgs [(set_p_Files [] (set_p_SPDXIdentifier ("package1") (set_p_PackageName ("package1") zero_PackageOf)))] (set_ps_pkg (Some 0) zero_pstate)))))))) in
  let s2 := push_doc_packages (Some (option_map (fun i => (i, 0)) (ps_pkg s1))) s1 in
  let s3 := push_pkg_files (Some (option_map (fun i => (i, 0)) (ps_pkg s2))) (Some (option_map (fun i => (i, 0)) (ps_file s2))) s2 in
  let r4 := parse_snippet V23 ("SnippetSPDXID") ("SPDXRef-s1") s3 in
  let s5 := after s3 r4 in
  let r6 := parse_snippet V23 ("SnippetFromFileSPDXID") ("whoops") s5 in
  let s7 := after s5 r6 in
  [(option_map negb (olift Bool.eqb (failed r4) (Some false)));
   (olift Bool.eqb (failed r6) (Some false))]) = true.
Proof. vm_compute. reflexivity. Qed.
(** /repo/spdx/v2/v2_3/tagvalue/reader/parse_snippet_test.go 557 *)
Example v23_TestParserFailsForInvalidSnippetByteValues : forallb is_false (
  let s1 := (set_ps_st PsSnippet (set_ps_doc (Some (set_d_Packages [] zero_DocumentOf)) (set_ps_snips [zero_Snippet] (set_ps_snip (Some 0) (set_ps_files [(set_f_Snippets [] (set_f_SPDXIdentifier ("f1") (set_f_FileName ("f1.txt") zero_FileOf)))] (set_ps_file (Some 0) (set_ps_pkgs [(set_p_Files [] (set_p_SPDXIdentifier ("package1") (set_p_PackageName ("package1") zero_PackageOf)))] (set_ps_pkg (Some 0) zero_pstate)))))))) in
  let s2 := push_doc_packages (Some (option_map (fun i => (i, 0)) (ps_pkg s1))) s1 in
  let s3 := push_pkg_files (Some (option_map (fun i => (i, 0)) (ps_pkg s2))) (Some (option_map (fun i => (i, 0)) (ps_file s2))) s2 in
  let r4 := parse_snippet V23 ("SnippetSPDXID") ("SPDXRef-s1") s3 in
  let s5 := after s3 r4 in
  let r6 := parse_snippet V23 ("SnippetByteRange") ("200 210") s5 in
  let s7 := after s5 r6 in
  let r8 := parse_snippet V23 ("SnippetByteRange") ("a:210") s7 in
  let s9 := after s7 r8 in
  let r10 := parse_snippet V23 ("SnippetByteRange") ("200:a") s9 in
  let s11 := after s9 r10 in
  [(option_map negb (olift Bool.eqb (failed r4) (Some false)));
   (olift Bool.eqb (failed r6) (Some false));
   (olift Bool.eqb (failed r8) (Some false));
   (olift Bool.eqb (failed r10) (Some false))]) = true.
Proof. vm_compute. reflexivity. Qed.
(** /repo/spdx/v2/v2_3/tagvalue/reader/parse_snippet_test.go 588 *)
Example v23_TestParserFailsForInvalidSnippetLineValues : forallb is_false (
  let s1 := (set_ps_st PsSnippet (set_ps_doc (Some (set_d_Packages [] zero_DocumentOf)) (set_ps_snips [zero_Snippet] (set_ps_snip (Some 0) (set_ps_files [(set_f_Snippets [] (set_f_SPDXIdentifier ("f1") (set_f_FileName ("f1.txt") zero_FileOf)))] (set_ps_file (Some 0) (set_ps_pkgs [(set_p_Files [] (set_p_SPDXIdentifier ("package1") (set_p_PackageName ("package1") zero_PackageOf)))] (set_ps_pkg (Some 0) zero_pstate)))))))) in
  let s2 := push_doc_packages (Some (option_map (fun i => (i, 0)) (ps_pkg s1))) s1 in
  let s3 := push_pkg_files (Some (option_map (fun i => (i, 0)) (ps_pkg s2))) (Some (option_map (fun i => (i, 0)) (ps_file s2))) s2 in
  let r4 := parse_snippet V23 ("SnippetSPDXID") ("SPDXRef-s1") s3 in
  let s5 := after s3 r4 in
  let r6 := parse_snippet V23 ("SnippetLineRange") ("200 210") s5 in
  let s7 := after s5 r6 in
  let r8 := parse_snippet V23 ("SnippetLineRange") ("a:210") s7 in
  let s9 := after s7 r8 in
  let r10 := parse_snippet V23 ("SnippetLineRange") ("200:a") s9 in
  let s11 := after s9 r10 in
  [(option_map negb (olift Bool.eqb (failed r4) (Some false)));
   (olift Bool.eqb (failed r6) (Some false));
   (olift Bool.eqb (failed r8) (Some false));
   (olift Bool.eqb (failed r10) (Some false))]) = true.
Proof. vm_compute. reflexivity. Qed.
(** /repo/spdx/v2/v2_3/tagvalue/reader/parse_snippet_test.go 619 *)
Example v23_TestParserFilesWithoutSpdxIdThrowErrorWithSnippets : forallb is_false (
  let s1 := (set_ps_st PsCreationInfo (set_ps_doc (Some zero_DocumentOf) (set_ps_files [(set_f_FileName ("f2.txt") zero_FileOf)] (set_ps_file (Some 0) zero_pstate)))) in
  let r2 := parse_pair V23 s1 (("SnippetSPDXID"), ("s1")) in
  let s3 := after s1 r2 in
  [(olift Bool.eqb (failed r2) (Some false))]) = true.
Proof. vm_compute. reflexivity. Qed.
(** /repo/spdx/v2/v2_3/tagvalue/reader/parser_test.go 12 *)
Example v23_TestParserCanParseTagValues : forallb is_false (
  let r1 := parse_tag_values V23 [("SPDXVersion", "SPDX-2.3"); ("DataLicense", "CC0-1.0"); ("SPDXID", "SPDXRef-DOCUMENT")] in
  [(option_map negb (olift Bool.eqb (failed r1) (Some false)));
   (option_map negb (olift String.eqb (option_map (fun x => d_SPDXVersion x) (obind match r1 with Ok o => Some o | _ => None end (fun o => o))) (Some ("SPDX-2.3"))));
   (option_map negb (olift String.eqb (option_map (fun x => d_DataLicense x) (obind match r1 with Ok o => Some o | _ => None end (fun o => o))) (Some ("CC0-1.0"))));
   (option_map negb (olift String.eqb (option_map (fun x => d_SPDXIdentifier x) (obind match r1 with Ok o => Some o | _ => None end (fun o => o))) (Some ("DOCUMENT"))))]) = true.
Proof. vm_compute. reflexivity. Qed.
(** /repo/spdx/v2/v2_3/tagvalue/reader/parser_test.go 41 *)
Example v23_TestParserInitCreatesResetStatus : forallb is_false (
  let s1 := zero_pstate in
  [(option_map negb (olift pst_eqb (Some (ps_st s1)) (Some PsStart)));
   (option_map negb (option_map (fun o => match o with None => true | Some _ => false end) (Some (ps_doc s1))))]) = true.
Proof. vm_compute. reflexivity. Qed.
(** /repo/spdx/v2/v2_3/tagvalue/reader/parser_test.go 51 *)
Example v23_TestParserHasDocumentAfterCallToParseFirstTag : forallb is_false (
  let s1 := zero_pstate in
  let r2 := parse_pair V23 s1 (("SPDXVersion"), ("SPDX-2.3")) in
  let s3 := after s1 r2 in
  [(option_map negb (olift Bool.eqb (failed r2) (Some false)));
   (option_map (fun o => match o with None => true | Some _ => false end) (Some (ps_doc s3)))]) = true.
Proof. vm_compute. reflexivity. Qed.
(** /repo/spdx/v2/v2_3/tagvalue/reader/parser_test.go 70 *)
Example v23_TestParserFilesWithoutSpdxIdThrowErrorAtCompleteParse : forallb is_false (
  let r1 := parse_tag_values V23 [("SPDXVersion", "SPDX-2.3"); ("DataLicense", "CC0-1.0"); ("SPDXID", "SPDXRef-DOCUMENT"); ("FileName", "f1")] in
  [(olift Bool.eqb (failed r1) (Some false))]) = true.
Proof. vm_compute. reflexivity. Qed.
(** /repo/spdx/v2/v2_3/tagvalue/reader/parser_test.go 86 *)
Example v23_TestParserPackageWithoutSpdxIdThrowErrorAtCompleteParse : forallb is_false (
  let r1 := parse_tag_values V23 [("SPDXVersion", "SPDX-2.3"); ("DataLicense", "CC0-1.0"); ("SPDXID", "SPDXRef-DOCUMENT"); ("PackageName", "p1")] in
  [(olift Bool.eqb (failed r1) (Some false))]) = true.
Proof. vm_compute. reflexivity. Qed.
(** /repo/spdx/v2/v2_3/tagvalue/reader/util_test.go 12 *)
Example v23_TestCanExtractSubvalues : forallb is_false (
  let r1 := extract_subs ("SHA1: abc123") in
  let w2 := match r1 with Ok x => x | _ => ("", "") end in
  [(option_map negb (olift Bool.eqb (failed r1) (Some false)));
   (option_map negb (olift String.eqb (Some (fst w2)) (Some ("SHA1"))));
   (option_map negb (olift String.eqb (Some (snd w2)) (Some ("abc123"))))]) = true.
Proof. vm_compute. reflexivity. Qed.
(** /repo/spdx/v2/v2_3/tagvalue/reader/util_test.go 25 *)
Example v23_TestReturnsErrorForInvalidSubvalueFormat : forallb is_false (
  let r1 := extract_subs ("blah") in
  let w2 := match r1 with Ok x => x | _ => ("", "") end in
  [(olift Bool.eqb (failed r1) (Some false))]) = true.
Proof. vm_compute. reflexivity. Qed.
(** /repo/spdx/v2/v2_3/tagvalue/reader/util_test.go 32 *)
Example v23_TestCanExtractDocumentAndElementRefsFromID : forallb is_false (
  let r1 := extract_doc_element_id ("SPDXRef-file1") in
  let w2 := match r1 with Ok x => x | _ => (MkDEID "" "" "") end in
  let r3 := extract_doc_element_id ("DocumentRef-doc2:SPDXRef-file2") in
  let w4 := match r3 with Ok x => x | _ => (MkDEID "" "" "") end in
  let r5 := extract_doc_element_id ("a:SPDXRef-file1") in
  let w6 := match r5 with Ok x => x | _ => (MkDEID "" "" "") end in
  let r7 := extract_doc_element_id ("file1") in
  let w8 := match r7 with Ok x => x | _ => (MkDEID "" "" "") end in
  let r9 := extract_doc_element_id ("SPDXRef-") in
  let w10 := match r9 with Ok x => x | _ => (MkDEID "" "" "") end in
  let r11 := extract_doc_element_id ("SPDXRef-file1:") in
  let w12 := match r11 with Ok x => x | _ => (MkDEID "" "" "") end in
  let r13 := extract_doc_element_id ("DocumentRef-doc2") in
  let w14 := match r13 with Ok x => x | _ => (MkDEID "" "" "") end in
  let r15 := extract_doc_element_id ("DocumentRef-doc2:") in
  let w16 := match r15 with Ok x => x | _ => (MkDEID "" "" "") end in
  let r17 := extract_doc_element_id ("DocumentRef-doc2:SPDXRef-") in
  let w18 := match r17 with Ok x => x | _ => (MkDEID "" "" "") end in
  let r19 := extract_doc_element_id ("DocumentRef-doc2:a") in
  let w20 := match r19 with Ok x => x | _ => (MkDEID "" "" "") end in
  let r21 := extract_doc_element_id ("DocumentRef-:") in
  let w22 := match r21 with Ok x => x | _ => (MkDEID "" "" "") end in
  let r23 := extract_doc_element_id ("DocumentRef-:SPDXRef-file1") in
  let w24 := match r23 with Ok x => x | _ => (MkDEID "" "" "") end in
  let r25 := extract_doc_element_id ("DocumentRef-doc2:SPDXRef-file1:file2") in
  let w26 := match r25 with Ok x => x | _ => (MkDEID "" "" "") end in
  [(option_map negb (olift Bool.eqb (failed r1) (Some false)));
   (option_map negb (olift String.eqb (option_map (fun x => de_DocumentRefID x) (Some (w2))) (Some (""))));
   (option_map negb (olift String.eqb (option_map (fun x => de_ElementRefID x) (Some (w2))) (Some ("file1"))));
   (option_map negb (olift Bool.eqb (failed r3) (Some false)));
   (option_map negb (olift String.eqb (option_map (fun x => de_DocumentRefID x) (Some (w4))) (Some ("doc2"))));
   (option_map negb (olift String.eqb (option_map (fun x => de_ElementRefID x) (Some (w4))) (Some ("file2"))));
   (olift Bool.eqb (failed r5) (Some false));
   (option_map negb (olift String.eqb (option_map (fun x => de_DocumentRefID x) (Some (w6))) (Some (""))));
   (option_map negb (olift String.eqb (option_map (fun x => de_ElementRefID x) (Some (w6))) (Some (""))));
   (olift Bool.eqb (failed r7) (Some false));
   (option_map negb (olift String.eqb (option_map (fun x => de_DocumentRefID x) (Some (w8))) (Some (""))));
   (option_map negb (olift String.eqb (option_map (fun x => de_ElementRefID x) (Some (w8))) (Some (""))));
   (olift Bool.eqb (failed r9) (Some false));
   (option_map negb (olift String.eqb (option_map (fun x => de_DocumentRefID x) (Some (w10))) (Some (""))));
   (option_map negb (olift String.eqb (option_map (fun x => de_ElementRefID x) (Some (w10))) (Some (""))));
   (olift Bool.eqb (failed r11) (Some false));
   (option_map negb (olift String.eqb (option_map (fun x => de_DocumentRefID x) (Some (w12))) (Some (""))));
   (option_map negb (olift String.eqb (option_map (fun x => de_ElementRefID x) (Some (w12))) (Some (""))));
   (olift Bool.eqb (failed r13) (Some false));
   (option_map negb (olift String.eqb (option_map (fun x => de_DocumentRefID x) (Some (w14))) (Some (""))));
   (option_map negb (olift String.eqb (option_map (fun x => de_ElementRefID x) (Some (w14))) (Some (""))));
   (olift Bool.eqb (failed r15) (Some false));
   (option_map negb (olift String.eqb (option_map (fun x => de_DocumentRefID x) (Some (w16))) (Some (""))));
   (option_map negb (olift String.eqb (option_map (fun x => de_ElementRefID x) (Some (w16))) (Some (""))));
   (olift Bool.eqb (failed r17) (Some false));
   (option_map negb (olift String.eqb (option_map (fun x => de_DocumentRefID x) (Some (w18))) (Some (""))));
   (option_map negb (olift String.eqb (option_map (fun x => de_ElementRefID x) (Some (w18))) (Some (""))));
   (olift Bool.eqb (failed r19) (Some false));
   (option_map negb (olift String.eqb (option_map (fun x => de_DocumentRefID x) (Some (w20))) (Some (""))));
   (option_map negb (olift String.eqb (option_map (fun x => de_ElementRefID x) (Some (w20))) (Some (""))));
   (olift Bool.eqb (failed r21) (Some false));
   (option_map negb (olift String.eqb (option_map (fun x => de_DocumentRefID x) (Some (w22))) (Some (""))));
   (option_map negb (olift String.eqb (option_map (fun x => de_ElementRefID x) (Some (w22))) (Some (""))));
   (olift Bool.eqb (failed r23) (Some false));
   (option_map negb (olift String.eqb (option_map (fun x => de_DocumentRefID x) (Some (w24))) (Some (""))));
   (option_map negb (olift String.eqb (option_map (fun x => de_ElementRefID x) (Some (w24))) (Some (""))));
   (olift Bool.eqb (failed r25) (Some false));
   (option_map negb (olift String.eqb (option_map (fun x => de_DocumentRefID x) (Some (w26))) (Some (""))));
   (option_map negb (olift String.eqb (option_map (fun x => de_ElementRefID x) (Some (w26))) (Some (""))))]) = true.
Proof. vm_compute. reflexivity. Qed.
(** /repo/spdx/v2/v2_3/tagvalue/reader/util_test.go 77 *)
Example v23_TestCanExtractSpecialDocumentIDs : forallb is_false (
  let r1 := extract_doc_element_special ("NONE") ["NONE"; "NOASSERTION"] in
  let w2 := match r1 with Ok x => x | _ => MkDEID "" "" "" end in
  let r3 := extract_doc_element_special ("NOASSERTION") ["NONE"; "NOASSERTION"] in
  let w4 := match r3 with Ok x => x | _ => MkDEID "" "" "" end in
  let r5 := extract_doc_element_special ("SPDXRef-file1") ["NONE"; "NOASSERTION"] in
  let w6 := match r5 with Ok x => x | _ => MkDEID "" "" "" end in
  let r7 := extract_doc_element_special ("DocumentRef-doc2:SPDXRef-file2") ["NONE"; "NOASSERTION"] in
  let w8 := match r7 with Ok x => x | _ => MkDEID "" "" "" end in
  let r9 := extract_doc_element_special ("a:SPDXRef-file1") ["NONE"; "NOASSERTION"] in
  let w10 := match r9 with Ok x => x | _ => MkDEID "" "" "" end in
  let r11 := extract_doc_element_special ("DocumentRef-doc2") ["NONE"; "NOASSERTION"] in
  let w12 := match r11 with Ok x => x | _ => MkDEID "" "" "" end in
  let r13 := extract_doc_element_special ("FOO") ["NONE"; "NOASSERTION"] in
  let w14 := match r13 with Ok x => x | _ => MkDEID "" "" "" end in
  [(option_map negb (olift Bool.eqb (failed r1) (Some false)));
   (option_map negb (olift String.eqb (option_map (fun x => de_DocumentRefID x) (Some w2)) (Some (""))));
   (option_map negb (olift String.eqb (option_map (fun x => de_ElementRefID x) (Some w2)) (Some (""))));
   (option_map negb (olift String.eqb (option_map (fun x => de_SpecialID x) (Some w2)) (Some ("NONE"))));
   (option_map negb (olift Bool.eqb (failed r3) (Some false)));
   (option_map negb (olift String.eqb (option_map (fun x => de_DocumentRefID x) (Some w4)) (Some (""))));
   (option_map negb (olift String.eqb (option_map (fun x => de_ElementRefID x) (Some w4)) (Some (""))));
   (option_map negb (olift String.eqb (option_map (fun x => de_SpecialID x) (Some w4)) (Some ("NOASSERTION"))));
   (option_map negb (olift Bool.eqb (failed r5) (Some false)));
   (option_map negb (olift String.eqb (option_map (fun x => de_DocumentRefID x) (Some w6)) (Some (""))));
   (option_map negb (olift String.eqb (option_map (fun x => de_ElementRefID x) (Some w6)) (Some ("file1"))));
   (option_map negb (olift String.eqb (option_map (fun x => de_SpecialID x) (Some w6)) (Some (""))));
   (option_map negb (olift Bool.eqb (failed r7) (Some false)));
   (option_map negb (olift String.eqb (option_map (fun x => de_DocumentRefID x) (Some w8)) (Some ("doc2"))));
   (option_map negb (olift String.eqb (option_map (fun x => de_ElementRefID x) (Some w8)) (Some ("file2"))));
   (option_map negb (olift String.eqb (option_map (fun x => de_SpecialID x) (Some w8)) (Some (""))));
   (olift Bool.eqb (failed r9) (Some false));
   (option_map negb (olift String.eqb (option_map (fun x => de_DocumentRefID x) (Some w10)) (Some (""))));
   (option_map negb (olift String.eqb (option_map (fun x => de_ElementRefID x) (Some w10)) (Some (""))));
   (option_map negb (olift String.eqb (option_map (fun x => de_SpecialID x) (Some w10)) (Some (""))));
   (olift Bool.eqb (failed r11) (Some false));
   (option_map negb (olift String.eqb (option_map (fun x => de_DocumentRefID x) (Some w12)) (Some (""))));
   (option_map negb (olift String.eqb (option_map (fun x => de_ElementRefID x) (Some w12)) (Some (""))));
   (option_map negb (olift String.eqb (option_map (fun x => de_SpecialID x) (Some w12)) (Some (""))));
   (olift Bool.eqb (failed r13) (Some false));
   (option_map negb (olift String.eqb (option_map (fun x => de_DocumentRefID x) (Some w14)) (Some (""))));
   (option_map negb (olift String.eqb (option_map (fun x => de_ElementRefID x) (Some w14)) (Some (""))));
   (option_map negb (olift String.eqb (option_map (fun x => de_SpecialID x) (Some w14)) (Some (""))))]) = true.
Proof. vm_compute. reflexivity. Qed.
(** /repo/spdx/v2/v2_3/tagvalue/reader/util_test.go 122 *)
Example v23_TestCanExtractElementRefsOnlyFromID : forallb is_false (
  let r1 := extract_element_id ("SPDXRef-file1") in
  let w2 := match r1 with Ok x => x | _ => "" end in
  let r3 := extract_element_id ("DocumentRef-doc2:SPDXRef-file2") in
  let w4 := match r3 with Ok x => x | _ => "" end in
  let r5 := extract_element_id ("a:SPDXRef-file1") in
  let w6 := match r5 with Ok x => x | _ => "" end in
  let r7 := extract_element_id ("file1") in
  let w8 := match r7 with Ok x => x | _ => "" end in
  let r9 := extract_element_id ("SPDXRef-") in
  let w10 := match r9 with Ok x => x | _ => "" end in
  let r11 := extract_element_id ("SPDXRef-file1:") in
  let w12 := match r11 with Ok x => x | _ => "" end in
  let r13 := extract_element_id ("DocumentRef-doc2") in
  let w14 := match r13 with Ok x => x | _ => "" end in
  let r15 := extract_element_id ("DocumentRef-doc2:") in
  let w16 := match r15 with Ok x => x | _ => "" end in
  let r17 := extract_element_id ("DocumentRef-doc2:SPDXRef-") in
  let w18 := match r17 with Ok x => x | _ => "" end in
  let r19 := extract_element_id ("DocumentRef-doc2:a") in
  let w20 := match r19 with Ok x => x | _ => "" end in
  let r21 := extract_element_id ("DocumentRef-:") in
  let w22 := match r21 with Ok x => x | _ => "" end in
  let r23 := extract_element_id ("DocumentRef-:SPDXRef-file1") in
  let w24 := match r23 with Ok x => x | _ => "" end in
  [(option_map negb (olift Bool.eqb (failed r1) (Some false)));
   (option_map negb (olift String.eqb (Some (w2)) (Some ("file1"))));
   (olift Bool.eqb (failed r3) (Some false));
   (option_map negb (olift String.eqb (Some (w4)) (Some (""))));
   (olift Bool.eqb (failed r5) (Some false));
   (option_map negb (olift String.eqb (Some (w6)) (Some (""))));
   (olift Bool.eqb (failed r7) (Some false));
   (option_map negb (olift String.eqb (Some (w8)) (Some (""))));
   (olift Bool.eqb (failed r9) (Some false));
   (option_map negb (olift String.eqb (Some (w10)) (Some (""))));
   (olift Bool.eqb (failed r11) (Some false));
   (option_map negb (olift String.eqb (Some (w12)) (Some (""))));
   (olift Bool.eqb (failed r13) (Some false));
   (option_map negb (olift String.eqb (Some (w14)) (Some (""))));
   (olift Bool.eqb (failed r15) (Some false));
   (option_map negb (olift String.eqb (Some (w16)) (Some (""))));
   (olift Bool.eqb (failed r17) (Some false));
   (option_map negb (olift String.eqb (Some (w18)) (Some (""))));
   (olift Bool.eqb (failed r19) (Some false));
   (option_map negb (olift String.eqb (Some (w20)) (Some (""))));
   (olift Bool.eqb (failed r21) (Some false));
   (option_map negb (olift String.eqb (Some (w22)) (Some (""))));
   (olift Bool.eqb (failed r23) (Some false));
   (option_map negb (olift String.eqb (Some (w24)) (Some (""))))]) = true.
Proof. vm_compute. reflexivity. Qed.
