(** * The tests of the tag-value writers (generated by tools/gen_writer_tests.py).

    Each example is one test of /repo/spdx/v2/v2_*/tagvalue/writer: the value the test
    renders, and the text it expects.  They check that the model writes what the tests
    of the code say the code writes; they are not among the claims. *)
From Verif Require Import GoStr Json Types TvUtil Sorting TvWriter.
Local Open Scope string_scope.

Definition t0_ann : Annotation :=
 (set_a_Comment ("This is an annotation about the SPDX document")
 (set_a_SPDXIdentifier (MkDEID "" "DOCUMENT" "")
 (set_a_Type ("REVIEW")
 (set_a_Date ("2018-10-10T17:52:00Z")
 (set_a_Annotator (set_an_Annotator ("John Doe")
 (set_an_AnnotatorType ("Person")
 zero_Annotator))
 zero_Annotation))))).
(** /repo/spdx/v2/v2_1/tagvalue/writer/save_annotation_test.go 14: TestSaverAnnotationSavesTextForPerson *)
Example v21_AnnotationSavesTextForPerson : bytes (render_annotation t0_ann) = ("Annotator: Person: John Doe
AnnotationDate: 2018-10-10T17:52:00Z
AnnotationType: REVIEW
SPDXREF: SPDXRef-DOCUMENT
AnnotationComment: This is an annotation about the SPDX document
").
Proof. vm_compute. reflexivity. Qed.
Definition t1_ann : Annotation :=
 (set_a_Comment ("This is an annotation about the SPDX document")
 (set_a_SPDXIdentifier (MkDEID "" "DOCUMENT" "")
 (set_a_Type ("REVIEW")
 (set_a_Date ("2018-10-10T17:52:00Z")
 (set_a_Annotator (set_an_Annotator ("John Doe, Inc.")
 (set_an_AnnotatorType ("Organization")
 zero_Annotator))
 zero_Annotation))))).
(** /repo/spdx/v2/v2_1/tagvalue/writer/save_annotation_test.go 46: TestSaverAnnotationSavesTextForOrganization *)
Example v21_AnnotationSavesTextForOrganization : bytes (render_annotation t1_ann) = ("Annotator: Organization: John Doe, Inc.
AnnotationDate: 2018-10-10T17:52:00Z
AnnotationType: REVIEW
SPDXREF: SPDXRef-DOCUMENT
AnnotationComment: This is an annotation about the SPDX document
").
Proof. vm_compute. reflexivity. Qed.
Definition t2_ann : Annotation :=
 (set_a_Comment ("This is an annotation about the SPDX document")
 (set_a_SPDXIdentifier (MkDEID "" "DOCUMENT" "")
 (set_a_Type ("REVIEW")
 (set_a_Date ("2018-10-10T17:52:00Z")
 (set_a_Annotator (set_an_Annotator ("magictool-1.1")
 (set_an_AnnotatorType ("Tool")
 zero_Annotator))
 zero_Annotation))))).
(** /repo/spdx/v2/v2_1/tagvalue/writer/save_annotation_test.go 78: TestSaverAnnotationSavesTextForTool *)
Example v21_AnnotationSavesTextForTool : bytes (render_annotation t2_ann) = ("Annotator: Tool: magictool-1.1
AnnotationDate: 2018-10-10T17:52:00Z
AnnotationType: REVIEW
SPDXREF: SPDXRef-DOCUMENT
AnnotationComment: This is an annotation about the SPDX document
").
Proof. vm_compute. reflexivity. Qed.
Definition t3_ci : CreationInfo :=
 (set_ci_CreatorComment ("this is a creator comment")
 (set_ci_Created ("2018-10-10T06:20:00Z")
 (set_ci_Creators [(set_cr_CreatorType ("Person")
 (set_cr_Creator ("John Doe")
 zero_Creator)); (set_cr_CreatorType ("Person")
 (set_cr_Creator ("Jane Doe (janedoe@example.com)")
 zero_Creator)); (set_cr_CreatorType ("Organization")
 (set_cr_Creator ("John Doe, Inc.")
 zero_Creator)); (set_cr_CreatorType ("Organization")
 (set_cr_Creator ("Jane Doe LLC")
 zero_Creator)); (set_cr_CreatorType ("Tool")
 (set_cr_Creator ("magictool1-1.0")
 zero_Creator)); (set_cr_CreatorType ("Tool")
 (set_cr_Creator ("magictool2-1.0")
 zero_Creator)); (set_cr_CreatorType ("Tool")
 (set_cr_Creator ("magictool3-1.0")
 zero_Creator))]
 (set_ci_LicenseListVersion ("2.0")
 zero_CreationInfo)))).
(** /repo/spdx/v2/v2_1/tagvalue/writer/save_creation_info_test.go 14: TestSaverCISavesText *)
Example v21_CISavesText : bytes (render_creation_info t3_ci) = ("LicenseListVersion: 2.0
Creator: Person: John Doe
Creator: Person: Jane Doe (janedoe@example.com)
Creator: Organization: John Doe, Inc.
Creator: Organization: Jane Doe LLC
Creator: Tool: magictool1-1.0
Creator: Tool: magictool2-1.0
Creator: Tool: magictool3-1.0
Created: 2018-10-10T06:20:00Z
CreatorComment: this is a creator comment

").
Proof. vm_compute. reflexivity. Qed.
Definition t4_ci1 : CreationInfo :=
 (set_ci_Created ("2018-10-10T06:20:00Z")
 (set_ci_Creators [(set_cr_CreatorType ("Person")
 (set_cr_Creator ("John Doe")
 zero_Creator))]
 zero_CreationInfo)).
(** /repo/spdx/v2/v2_1/tagvalue/writer/save_creation_info_test.go 58: TestSaverCIOmitsOptionalFieldsIfEmpty *)
Example v21_CIOmitsOptionalFieldsIfEmpty : bytes (render_creation_info t4_ci1) = ("Creator: Person: John Doe
Created: 2018-10-10T06:20:00Z

").
Proof. vm_compute. reflexivity. Qed.
Definition t4_ci2 : CreationInfo :=
 (set_ci_Created ("2018-10-10T06:20:00Z")
 (set_ci_Creators [(set_cr_CreatorType ("Organization")
 (set_cr_Creator ("John Doe, Inc.")
 zero_Creator))]
 zero_CreationInfo)).
(** /repo/spdx/v2/v2_1/tagvalue/writer/save_creation_info_test.go 58: TestSaverCIOmitsOptionalFieldsIfEmpty *)
Example v21_CIOmitsOptionalFieldsIfEmpty_2 : bytes (render_creation_info t4_ci2) = ("Creator: Organization: John Doe, Inc.
Created: 2018-10-10T06:20:00Z

").
Proof. vm_compute. reflexivity. Qed.
Definition t5_ci : CreationInfo :=
 (set_ci_Created ("2018-10-10T06:20:00Z")
 (set_ci_Creators [(set_cr_CreatorType ("Person")
 (set_cr_Creator ("John Doe")
 zero_Creator))]
 zero_CreationInfo)).
Definition t5_f1 : File :=
 (set_f_CopyrightText ("Copyright (c) Jane Doe")
 (set_f_LicenseInfoInFiles [("Apache-2.0")]
 (set_f_LicenseConcluded ("Apache-2.0")
 (set_f_Checksums [(set_ck_Algorithm ("SHA1")
 (set_ck_Value ("85ed0817af83a24ad8da68c2b5094de69833983c")
 zero_Checksum))]
 (set_f_SPDXIdentifier ("File1231")
 (set_f_FileName ("/tmp/whatever1.txt")
 zero_FileOf)))))).
Definition t5_f2 : File :=
 (set_f_CopyrightText ("Copyright (c) John Doe")
 (set_f_LicenseInfoInFiles [("MIT")]
 (set_f_LicenseConcluded ("MIT")
 (set_f_Checksums [(set_ck_Algorithm ("SHA1")
 (set_ck_Value ("85ed0817af83a24ad8da68c2b5094de69833983d")
 zero_Checksum))]
 (set_f_SPDXIdentifier ("File1232")
 (set_f_FileName ("/tmp/whatever2.txt")
 zero_FileOf)))))).
Definition t5_unFiles : list File :=
 [t5_f1; t5_f2].
Definition t5_sn1 : Snippet :=
 (set_s_CopyrightText ("Copyright (c) John Doe 20x6")
 (set_s_LicenseConcluded ("GPL-2.0-or-later")
 (set_s_Ranges [(set_sr_EndPointer (set_rp_Offset (209)%Z
 zero_RangePointer)
 (set_sr_StartPointer (set_rp_Offset (17)%Z
 zero_RangePointer)
 zero_SnippetRange))]
 (set_s_FromFile ("FileHasSnippets")
 (set_s_SPDXIdentifier ("Snippet19")
 zero_Snippet))))).
Definition t5_sn2 : Snippet :=
 (set_s_CopyrightText ("NOASSERTION")
 (set_s_LicenseConcluded ("WTFPL")
 (set_s_Ranges [(set_sr_EndPointer (set_rp_Offset (309)%Z
 zero_RangePointer)
 (set_sr_StartPointer (set_rp_Offset (268)%Z
 zero_RangePointer)
 zero_SnippetRange))]
 (set_s_FromFile ("FileHasSnippets")
 (set_s_SPDXIdentifier ("Snippet20")
 zero_Snippet))))).
Definition t5_f3 : File :=
 (set_f_Snippets [("Snippet19", t5_sn1); ("Snippet20", t5_sn2)]
 (set_f_CopyrightText ("Copyright (c) Jane Doe")
 (set_f_LicenseInfoInFiles [("Apache-2.0"); ("GPL-2.0-or-later"); ("WTFPL")]
 (set_f_LicenseConcluded ("GPL-2.0-or-later AND WTFPL")
 (set_f_Checksums [(set_ck_Algorithm ("SHA1")
 (set_ck_Value ("85ed0817af83a24ad8da68c2b5094de69833983e")
 zero_Checksum))]
 (set_f_SPDXIdentifier ("FileHasSnippets")
 (set_f_FileName ("/tmp/file-with-snippets.txt")
 zero_FileOf))))))).
Definition t5_f4 : File :=
 (set_f_CopyrightText ("Copyright (c) Jane Doe LLC")
 (set_f_LicenseInfoInFiles [("BSD-3-Clause")]
 (set_f_LicenseConcluded ("BSD-3-Clause")
 (set_f_Checksums [(set_ck_Algorithm ("SHA1")
 (set_ck_Value ("85ed0817af83a24ad8da68c2b5094de69833983f")
 zero_Checksum))]
 (set_f_SPDXIdentifier ("FileAnother")
 (set_f_FileName ("/tmp/another-file.txt")
 zero_FileOf)))))).
Definition t5_pkgWith : Package :=
 (set_p_Files [t5_f3; t5_f4]
 (set_p_CopyrightText ("Copyright (c) John Doe, Inc.")
 (set_p_LicenseDeclared ("Apache-2.0 OR GPL-2.0-or-later")
 (set_p_LicenseInfoFromFiles [("Apache-2.0"); ("GPL-2.0-or-later"); ("WTFPL"); ("BSD-3-Clause")]
 (set_p_LicenseConcluded ("GPL-2.0-or-later AND BSD-3-Clause AND WTFPL")
 (set_p_VerificationCode (Some (set_vc_Value ("0123456789abcdef0123456789abcdef01234567")
 zero_VerificationCode))
 (set_p_IsFilesAnalyzedTagPresent true
 (set_p_FilesAnalyzed true
 (set_p_DownloadLocation ("http://example.com/p1/p1-0.1.0-master.tar.gz")
 (set_p_SPDXIdentifier ("p1")
 (set_p_PackageName ("p1")
 zero_PackageOf))))))))))).
Definition t5_ol1 : OtherLicense :=
 (set_ol_LicenseName ("License 1")
 (set_ol_ExtractedText ("License 1 text
blah blah blah
blah blah blah blah")
 (set_ol_LicenseIdentifier ("LicenseRef-1")
 zero_OtherLicense))).
Definition t5_ol2 : OtherLicense :=
 (set_ol_LicenseName ("License 2")
 (set_ol_ExtractedText ("License 2 text - this is a license that does some stuff")
 (set_ol_LicenseIdentifier ("LicenseRef-2")
 zero_OtherLicense))).
Definition t5_rln1 : Relationship :=
 (set_r_Relationship ("DESCRIBES")
 (set_r_RefB (MkDEID "" "p1" "")
 (set_r_RefA (MkDEID "" "DOCUMENT" "")
 zero_Relationship))).
Definition t5_rln2 : Relationship :=
 (set_r_Relationship ("DESCRIBES")
 (set_r_RefB (MkDEID "" "File1231" "")
 (set_r_RefA (MkDEID "" "DOCUMENT" "")
 zero_Relationship))).
Definition t5_rln3 : Relationship :=
 (set_r_Relationship ("DESCRIBES")
 (set_r_RefB (MkDEID "" "File1232" "")
 (set_r_RefA (MkDEID "" "DOCUMENT" "")
 zero_Relationship))).
Definition t5_ann1 : Annotation :=
 (set_a_Comment ("This is an annotation about the SPDX document")
 (set_a_SPDXIdentifier (MkDEID "" "DOCUMENT" "")
 (set_a_Type ("REVIEW")
 (set_a_Date ("2018-10-10T17:52:00Z")
 (set_a_Annotator (set_an_AnnotatorType ("Person")
 (set_an_Annotator ("John Doe")
 zero_Annotator))
 zero_Annotation))))).
Definition t5_ann2 : Annotation :=
 (set_a_Comment ("This is an annotation about Package p1")
 (set_a_SPDXIdentifier (MkDEID "" "p1" "")
 (set_a_Type ("REVIEW")
 (set_a_Date ("2018-10-10T17:52:00Z")
 (set_a_Annotator (set_an_AnnotatorType ("Organization")
 (set_an_Annotator ("John Doe, Inc.")
 zero_Annotator))
 zero_Annotation))))).
Definition t5_rev1 : Review :=
 (set_rv_Date ("2018-10-14T10:28:00Z")
 (set_rv_ReviewerType ("Person")
 (set_rv_Reviewer ("John Doe")
 zero_Review))).
Definition t5_rev2 : Review :=
 (set_rv_Comment ("I have reviewed this SPDX document and it is awesome")
 (set_rv_Date ("2018-10-14T10:28:00Z")
 (set_rv_ReviewerType ("Organization")
 (set_rv_Reviewer ("Jane Doe LLC")
 zero_Review)))).
Definition t5_doc : Document :=
 (set_d_Reviews [t5_rev1; t5_rev2]
 (set_d_Annotations [t5_ann1; t5_ann2]
 (set_d_Relationships [t5_rln1; t5_rln2; t5_rln3]
 (set_d_OtherLicenses [t5_ol1; t5_ol2]
 (set_d_Files t5_unFiles
 (set_d_Packages [t5_pkgWith]
 (set_d_CreationInfo (Some t5_ci)
 (set_d_DocumentNamespace ("https://github.com/swinslow/spdx-docs/spdx-go/spdx-go-0.0.1.abcdef.whatever")
 (set_d_DocumentName ("spdx-go-0.0.1.abcdef")
 (set_d_SPDXIdentifier ("DOCUMENT")
 (set_d_DataLicense ("CC0-1.0")
 (set_d_SPDXVersion ("SPDX-2.1")
 zero_DocumentOf)))))))))))).
(** /repo/spdx/v2/v2_1/tagvalue/writer/save_document_test.go 14: TestSaverDocumentSavesText *)
Example v21_DocumentSavesText : (let* r := render_document insertion_sorter V21 t5_doc in Ok (fst r)) = Ok ("SPDXVersion: SPDX-2.1
DataLicense: CC0-1.0
SPDXID: SPDXRef-DOCUMENT
DocumentName: spdx-go-0.0.1.abcdef
DocumentNamespace: https://github.com/swinslow/spdx-docs/spdx-go/spdx-go-0.0.1.abcdef.whatever
Creator: Person: John Doe
Created: 2018-10-10T06:20:00Z

##### Unpackaged files

FileName: /tmp/whatever1.txt
SPDXID: SPDXRef-File1231
FileChecksum: SHA1: 85ed0817af83a24ad8da68c2b5094de69833983c
LicenseConcluded: Apache-2.0
LicenseInfoInFile: Apache-2.0
FileCopyrightText: Copyright (c) Jane Doe

FileName: /tmp/whatever2.txt
SPDXID: SPDXRef-File1232
FileChecksum: SHA1: 85ed0817af83a24ad8da68c2b5094de69833983d
LicenseConcluded: MIT
LicenseInfoInFile: MIT
FileCopyrightText: Copyright (c) John Doe

##### Package: p1

PackageName: p1
SPDXID: SPDXRef-p1
PackageDownloadLocation: http://example.com/p1/p1-0.1.0-master.tar.gz
FilesAnalyzed: true
PackageVerificationCode: 0123456789abcdef0123456789abcdef01234567
PackageLicenseConcluded: GPL-2.0-or-later AND BSD-3-Clause AND WTFPL
PackageLicenseInfoFromFiles: Apache-2.0
PackageLicenseInfoFromFiles: GPL-2.0-or-later
PackageLicenseInfoFromFiles: WTFPL
PackageLicenseInfoFromFiles: BSD-3-Clause
PackageLicenseDeclared: Apache-2.0 OR GPL-2.0-or-later
PackageCopyrightText: Copyright (c) John Doe, Inc.

FileName: /tmp/another-file.txt
SPDXID: SPDXRef-FileAnother
FileChecksum: SHA1: 85ed0817af83a24ad8da68c2b5094de69833983f
LicenseConcluded: BSD-3-Clause
LicenseInfoInFile: BSD-3-Clause
FileCopyrightText: Copyright (c) Jane Doe LLC

FileName: /tmp/file-with-snippets.txt
SPDXID: SPDXRef-FileHasSnippets
FileChecksum: SHA1: 85ed0817af83a24ad8da68c2b5094de69833983e
LicenseConcluded: GPL-2.0-or-later AND WTFPL
LicenseInfoInFile: Apache-2.0
LicenseInfoInFile: GPL-2.0-or-later
LicenseInfoInFile: WTFPL
FileCopyrightText: Copyright (c) Jane Doe

SnippetSPDXID: SPDXRef-Snippet19
SnippetFromFileSPDXID: SPDXRef-FileHasSnippets
SnippetByteRange: 17:209
SnippetLicenseConcluded: GPL-2.0-or-later
SnippetCopyrightText: Copyright (c) John Doe 20x6

SnippetSPDXID: SPDXRef-Snippet20
SnippetFromFileSPDXID: SPDXRef-FileHasSnippets
SnippetByteRange: 268:309
SnippetLicenseConcluded: WTFPL
SnippetCopyrightText: NOASSERTION

##### Other Licenses

LicenseID: LicenseRef-1
ExtractedText: <text>License 1 text
blah blah blah
blah blah blah blah</text>
LicenseName: License 1

LicenseID: LicenseRef-2
ExtractedText: License 2 text - this is a license that does some stuff
LicenseName: License 2

##### Relationships

Relationship: SPDXRef-DOCUMENT DESCRIBES SPDXRef-p1
Relationship: SPDXRef-DOCUMENT DESCRIBES SPDXRef-File1231
Relationship: SPDXRef-DOCUMENT DESCRIBES SPDXRef-File1232

##### Annotations

Annotator: Person: John Doe
AnnotationDate: 2018-10-10T17:52:00Z
AnnotationType: REVIEW
SPDXREF: SPDXRef-DOCUMENT
AnnotationComment: This is an annotation about the SPDX document

Annotator: Organization: John Doe, Inc.
AnnotationDate: 2018-10-10T17:52:00Z
AnnotationType: REVIEW
SPDXREF: SPDXRef-p1
AnnotationComment: This is an annotation about Package p1

##### Reviews

Reviewer: Person: John Doe
ReviewDate: 2018-10-14T10:28:00Z

Reviewer: Organization: Jane Doe LLC
ReviewDate: 2018-10-14T10:28:00Z
ReviewComment: I have reviewed this SPDX document and it is awesome

").
Proof. vm_compute. reflexivity. Qed.
Definition t6_doc : Document :=
 zero_DocumentOf.
(** /repo/spdx/v2/v2_1/tagvalue/writer/save_document_test.go 335: TestSaverDocumentReturnsErrorIfNilCreationInfo *)
Example v21_DocumentReturnsErrorIfNilCreationInfo : match render_document insertion_sorter V21 t6_doc with Err _ => true | _ => false end = true.
Proof. reflexivity. Qed.
Definition t7_f : File :=
 (set_f_Dependencies [("f-1.txt"); ("g.txt")]
 (set_f_Contributors [("John Doe jdoe@example.com"); ("EvilCorp")]
 (set_f_Notice ("This file may be used under either Apache-2.0 or Apache-1.1.")
 (set_f_Comment ("this is a file comment")
 (set_f_Artifacts [(set_ar_URI ("http://example.com/1/uri.whatever")
 (set_ar_HomePage ("http://example.com/1/")
 (set_ar_Name ("project1")
 zero_Artifact))); (set_ar_Name ("project2")
 zero_Artifact); (set_ar_HomePage ("http://example.com/3/")
 (set_ar_Name ("project3")
 zero_Artifact)); (set_ar_URI ("http://example.com/4/uri.whatever")
 (set_ar_Name ("project4")
 zero_Artifact))]
 (set_f_CopyrightText ("Copyright (c) Jane Doe")
 (set_f_LicenseComments ("this is a license comment(s)")
 (set_f_LicenseInfoInFiles [("Apache-2.0"); ("Apache-1.1")]
 (set_f_LicenseConcluded ("Apache-2.0")
 (set_f_Checksums [(set_ck_Value ("85ed0817af83a24ad8da68c2b5094de69833983c")
 (set_ck_Algorithm ("SHA1")
 zero_Checksum)); (set_ck_Value ("11b6d3ee554eedf79299905a98f9b9a04e498210b59f15094c916c91d150efcd")
 (set_ck_Algorithm ("SHA256")
 zero_Checksum)); (set_ck_Value ("624c1abb3664f4b35547e7c73864ad24")
 (set_ck_Algorithm ("MD5")
 zero_Checksum))]
 (set_f_FileTypes [("TEXT"); ("DOCUMENTATION")]
 (set_f_SPDXIdentifier ("File123")
 (set_f_FileName ("/tmp/whatever.txt")
 zero_FileOf))))))))))))).
(** /repo/spdx/v2/v2_1/tagvalue/writer/save_file_test.go 14: TestSaverFileSavesText *)
Example v21_FileSavesText : bytes (render_file insertion_sorter V21 t7_f) = ("FileName: /tmp/whatever.txt
SPDXID: SPDXRef-File123
FileType: TEXT
FileType: DOCUMENTATION
FileChecksum: SHA1: 85ed0817af83a24ad8da68c2b5094de69833983c
FileChecksum: SHA256: 11b6d3ee554eedf79299905a98f9b9a04e498210b59f15094c916c91d150efcd
FileChecksum: MD5: 624c1abb3664f4b35547e7c73864ad24
LicenseConcluded: Apache-2.0
LicenseInfoInFile: Apache-2.0
LicenseInfoInFile: Apache-1.1
LicenseComments: this is a license comment(s)
FileCopyrightText: Copyright (c) Jane Doe
ArtifactOfProjectName: project1
ArtifactOfProjectHomePage: http://example.com/1/
ArtifactOfProjectURI: http://example.com/1/uri.whatever
ArtifactOfProjectName: project2
ArtifactOfProjectName: project3
ArtifactOfProjectHomePage: http://example.com/3/
ArtifactOfProjectName: project4
ArtifactOfProjectURI: http://example.com/4/uri.whatever
FileComment: this is a file comment
FileNotice: This file may be used under either Apache-2.0 or Apache-1.1.
FileContributor: John Doe jdoe@example.com
FileContributor: EvilCorp
FileDependency: f-1.txt
FileDependency: g.txt

").
Proof. vm_compute. reflexivity. Qed.
Definition t8_sn1 : Snippet :=
 (set_s_CopyrightText ("Copyright (c) John Doe 20x6")
 (set_s_LicenseConcluded ("GPL-2.0-or-later")
 (set_s_Ranges [(set_sr_EndPointer (set_rp_Offset (209)%Z
 zero_RangePointer)
 (set_sr_StartPointer (set_rp_Offset (17)%Z
 zero_RangePointer)
 zero_SnippetRange))]
 (set_s_FromFile ("File123")
 (set_s_SPDXIdentifier ("Snippet19")
 zero_Snippet))))).
Definition t8_sn2 : Snippet :=
 (set_s_CopyrightText ("NOASSERTION")
 (set_s_LicenseConcluded ("WTFPL")
 (set_s_Ranges [(set_sr_EndPointer (set_rp_Offset (309)%Z
 zero_RangePointer)
 (set_sr_StartPointer (set_rp_Offset (268)%Z
 zero_RangePointer)
 zero_SnippetRange))]
 (set_s_FromFile ("File123")
 (set_s_SPDXIdentifier ("Snippet20")
 zero_Snippet))))).
Definition t8_sns : list (string * Snippet) :=
 [("Snippet19", t8_sn1); ("Snippet20", t8_sn2)].
Definition t8_f : File :=
 (set_f_Snippets t8_sns
 (set_f_CopyrightText ("Copyright (c) Jane Doe")
 (set_f_LicenseInfoInFiles [("Apache-2.0")]
 (set_f_LicenseConcluded ("Apache-2.0")
 (set_f_Checksums [(set_ck_Value ("85ed0817af83a24ad8da68c2b5094de69833983c")
 (set_ck_Algorithm ("SHA1")
 zero_Checksum))]
 (set_f_SPDXIdentifier ("File123")
 (set_f_FileName ("/tmp/whatever.txt")
 zero_FileOf))))))).
(** /repo/spdx/v2/v2_1/tagvalue/writer/save_file_test.go 108: TestSaverFileSavesSnippetsAlso *)
Example v21_FileSavesSnippetsAlso : bytes (render_file insertion_sorter V21 t8_f) = ("FileName: /tmp/whatever.txt
SPDXID: SPDXRef-File123
FileChecksum: SHA1: 85ed0817af83a24ad8da68c2b5094de69833983c
LicenseConcluded: Apache-2.0
LicenseInfoInFile: Apache-2.0
FileCopyrightText: Copyright (c) Jane Doe

SnippetSPDXID: SPDXRef-Snippet19
SnippetFromFileSPDXID: SPDXRef-File123
SnippetByteRange: 17:209
SnippetLicenseConcluded: GPL-2.0-or-later
SnippetCopyrightText: Copyright (c) John Doe 20x6

SnippetSPDXID: SPDXRef-Snippet20
SnippetFromFileSPDXID: SPDXRef-File123
SnippetByteRange: 268:309
SnippetLicenseConcluded: WTFPL
SnippetCopyrightText: NOASSERTION

").
Proof. vm_compute. reflexivity. Qed.
Definition t9_f : File :=
 (set_f_CopyrightText ("Copyright (c) Jane Doe")
 (set_f_LicenseInfoInFiles [("Apache-2.0")]
 (set_f_LicenseConcluded ("Apache-2.0")
 (set_f_Checksums [(set_ck_Value ("85ed0817af83a24ad8da68c2b5094de69833983c")
 (set_ck_Algorithm ("SHA1")
 zero_Checksum))]
 (set_f_SPDXIdentifier ("File123")
 (set_f_FileName ("/tmp/whatever.txt")
 zero_FileOf)))))).
(** /repo/spdx/v2/v2_1/tagvalue/writer/save_file_test.go 180: TestSaverFileOmitsOptionalFieldsIfEmpty *)
Example v21_FileOmitsOptionalFieldsIfEmpty : bytes (render_file insertion_sorter V21 t9_f) = ("FileName: /tmp/whatever.txt
SPDXID: SPDXRef-File123
FileChecksum: SHA1: 85ed0817af83a24ad8da68c2b5094de69833983c
LicenseConcluded: Apache-2.0
LicenseInfoInFile: Apache-2.0
FileCopyrightText: Copyright (c) Jane Doe

").
Proof. vm_compute. reflexivity. Qed.
Definition t10_f : File :=
 (set_f_CopyrightText ("Copyright (c) Jane Doe
Copyright (c) John Doe")
 (set_f_LicenseInfoInFiles [("Apache-2.0")]
 (set_f_LicenseConcluded ("Apache-2.0")
 (set_f_Checksums [(set_ck_Value ("85ed0817af83a24ad8da68c2b5094de69833983c")
 (set_ck_Algorithm ("SHA1")
 zero_Checksum))]
 (set_f_SPDXIdentifier ("File123")
 (set_f_FileName ("/tmp/whatever.txt")
 zero_FileOf)))))).
(** /repo/spdx/v2/v2_1/tagvalue/writer/save_file_test.go 218: TestSaverFileWrapsCopyrightMultiLine *)
Example v21_FileWrapsCopyrightMultiLine : bytes (render_file insertion_sorter V21 t10_f) = ("FileName: /tmp/whatever.txt
SPDXID: SPDXRef-File123
FileChecksum: SHA1: 85ed0817af83a24ad8da68c2b5094de69833983c
LicenseConcluded: Apache-2.0
LicenseInfoInFile: Apache-2.0
FileCopyrightText: <text>Copyright (c) Jane Doe
Copyright (c) John Doe</text>

").
Proof. vm_compute. reflexivity. Qed.
Definition t11_f : File :=
 (set_f_Notice ("This file may be used
under either Apache-2.0 or Apache-1.1.")
 (set_f_Comment ("this is a
multi-line file comment")
 (set_f_CopyrightText ("Copyright (c) Jane Doe")
 (set_f_LicenseInfoInFiles [("Apache-2.0")]
 (set_f_LicenseConcluded ("Apache-2.0")
 (set_f_LicenseComments ("this is a
multi-line license comment")
 (set_f_Checksums [(set_ck_Value ("85ed0817af83a24ad8da68c2b5094de69833983c")
 (set_ck_Algorithm ("SHA1")
 zero_Checksum))]
 (set_f_SPDXIdentifier ("File123")
 (set_f_FileName ("/tmp/whatever.txt")
 zero_FileOf))))))))).
(** /repo/spdx/v2/v2_1/tagvalue/writer/save_file_test.go 258: TestSaverFileWrapsCommentsAndNoticesMultiLine *)
Example v21_FileWrapsCommentsAndNoticesMultiLine : bytes (render_file insertion_sorter V21 t11_f) = ("FileName: /tmp/whatever.txt
SPDXID: SPDXRef-File123
FileChecksum: SHA1: 85ed0817af83a24ad8da68c2b5094de69833983c
LicenseConcluded: Apache-2.0
LicenseInfoInFile: Apache-2.0
LicenseComments: <text>this is a
multi-line license comment</text>
FileCopyrightText: Copyright (c) Jane Doe
FileComment: <text>this is a
multi-line file comment</text>
FileNotice: <text>This file may be used
under either Apache-2.0 or Apache-1.1.</text>

").
Proof. vm_compute. reflexivity. Qed.
Definition t12_ol : OtherLicense :=
 (set_ol_Comment ("this is a license comment")
 (set_ol_CrossReferences [("http://example.com/License1/"); ("http://example.com/License1AnotherURL/")]
 (set_ol_LicenseName ("License 1")
 (set_ol_ExtractedText ("License 1 text
blah blah blah
blah blah blah blah")
 (set_ol_LicenseIdentifier ("LicenseRef-1")
 zero_OtherLicense))))).
(** /repo/spdx/v2/v2_1/tagvalue/writer/save_other_license_test.go 13: TestSaverOtherLicenseSavesText *)
Example v21_OtherLicenseSavesText : bytes (render_other_license t12_ol) = ("LicenseID: LicenseRef-1
ExtractedText: <text>License 1 text
blah blah blah
blah blah blah blah</text>
LicenseName: License 1
LicenseCrossReference: http://example.com/License1/
LicenseCrossReference: http://example.com/License1AnotherURL/
LicenseComment: this is a license comment

").
Proof. vm_compute. reflexivity. Qed.
Definition t13_ol : OtherLicense :=
 (set_ol_LicenseName ("License 1")
 (set_ol_ExtractedText ("License 1 text
blah blah blah
blah blah blah blah")
 (set_ol_LicenseIdentifier ("LicenseRef-1")
 zero_OtherLicense))).
(** /repo/spdx/v2/v2_1/tagvalue/writer/save_other_license_test.go 53: TestSaverOtherLicenseOmitsOptionalFieldsIfEmpty *)
Example v21_OtherLicenseOmitsOptionalFieldsIfEmpty : bytes (render_other_license t13_ol) = ("LicenseID: LicenseRef-1
ExtractedText: <text>License 1 text
blah blah blah
blah blah blah blah</text>
LicenseName: License 1

").
Proof. vm_compute. reflexivity. Qed.
Definition t14_per1 : ExternalRef :=
 (set_er_Comment ("this is an external ref comment #1")
 (set_er_Locator ("cpe:/a:john_doe_inc:p1:0.1.0")
 (set_er_RefType ("cpe22Type")
 (set_er_Category ("SECURITY")
 zero_ExternalRef)))).
Definition t14_per2 : ExternalRef :=
 (set_er_Comment ("this is a
multi-line external ref comment")
 (set_er_Locator ("p1@0.1.0")
 (set_er_RefType ("npm")
 (set_er_Category ("PACKAGE-MANAGER")
 zero_ExternalRef)))).
Definition t14_per3 : ExternalRef :=
 (set_er_Locator ("anything-without-spaces-can-go-here")
 (set_er_RefType ("anything")
 (set_er_Category ("OTHER")
 zero_ExternalRef))).
Definition t14_pkg : Package :=
 (set_p_ExternalReferences [t14_per1; t14_per2; t14_per3]
 (set_p_Comment ("this is a comment comment")
 (set_p_Description ("this is a description comment")
 (set_p_Summary ("this is a summary comment")
 (set_p_CopyrightText ("Copyright (c) John Doe, Inc.")
 (set_p_LicenseComments ("this is a license comment(s)")
 (set_p_LicenseDeclared ("Apache-2.0 OR GPL-2.0-or-later")
 (set_p_LicenseInfoFromFiles [("Apache-1.1"); ("Apache-2.0"); ("GPL-2.0-or-later")]
 (set_p_LicenseConcluded ("GPL-2.0-or-later")
 (set_p_SourceInfo ("this is a source comment")
 (set_p_HomePage ("http://example.com/p1")
 (set_p_Checksums [(set_ck_Value ("85ed0817af83a24ad8da68c2b5094de69833983c")
 (set_ck_Algorithm ("SHA1")
 zero_Checksum)); (set_ck_Value ("11b6d3ee554eedf79299905a98f9b9a04e498210b59f15094c916c91d150efcd")
 (set_ck_Algorithm ("SHA256")
 zero_Checksum)); (set_ck_Value ("624c1abb3664f4b35547e7c73864ad24")
 (set_ck_Algorithm ("MD5")
 zero_Checksum))]
 (set_p_VerificationCode (Some (set_vc_ExcludedFiles [("p1-0.1.0.spdx")]
 (set_vc_Value ("0123456789abcdef0123456789abcdef01234567")
 zero_VerificationCode)))
 (set_p_IsFilesAnalyzedTagPresent true
 (set_p_FilesAnalyzed true
 (set_p_DownloadLocation ("http://example.com/p1/p1-0.1.0-master.tar.gz")
 (set_p_Originator (Some (set_or_OriginatorType ("Person")
 (set_or_Originator ("John Doe")
 zero_Originator)))
 (set_p_Supplier (Some (set_su_Supplier ("John Doe, Inc.")
 (set_su_SupplierType ("Organization")
 zero_Supplier)))
 (set_p_FileName ("p1-0.1.0-master.tar.gz")
 (set_p_Version ("0.1.0")
 (set_p_SPDXIdentifier ("p1")
 (set_p_PackageName ("p1")
 zero_PackageOf)))))))))))))))))))))).
(** /repo/spdx/v2/v2_1/tagvalue/writer/save_package_test.go 14: TestSaverPackageSavesTextCombo1 *)
Example v21_PackageSavesTextCombo1 : bytes (render_package insertion_sorter V21 t14_pkg) = ("PackageName: p1
SPDXID: SPDXRef-p1
PackageVersion: 0.1.0
PackageFileName: p1-0.1.0-master.tar.gz
PackageSupplier: Organization: John Doe, Inc.
PackageOriginator: Person: John Doe
PackageDownloadLocation: http://example.com/p1/p1-0.1.0-master.tar.gz
FilesAnalyzed: true
PackageVerificationCode: 0123456789abcdef0123456789abcdef01234567 (excludes: p1-0.1.0.spdx)
PackageChecksum: SHA1: 85ed0817af83a24ad8da68c2b5094de69833983c
PackageChecksum: SHA256: 11b6d3ee554eedf79299905a98f9b9a04e498210b59f15094c916c91d150efcd
PackageChecksum: MD5: 624c1abb3664f4b35547e7c73864ad24
PackageHomePage: http://example.com/p1
PackageSourceInfo: this is a source comment
PackageLicenseConcluded: GPL-2.0-or-later
PackageLicenseInfoFromFiles: Apache-1.1
PackageLicenseInfoFromFiles: Apache-2.0
PackageLicenseInfoFromFiles: GPL-2.0-or-later
PackageLicenseDeclared: Apache-2.0 OR GPL-2.0-or-later
PackageLicenseComments: this is a license comment(s)
PackageCopyrightText: Copyright (c) John Doe, Inc.
PackageSummary: this is a summary comment
PackageDescription: this is a description comment
PackageComment: this is a comment comment
ExternalRef: SECURITY cpe22Type cpe:/a:john_doe_inc:p1:0.1.0
ExternalRefComment: this is an external ref comment #1
ExternalRef: PACKAGE-MANAGER npm p1@0.1.0
ExternalRefComment: <text>this is a
multi-line external ref comment</text>
ExternalRef: OTHER anything anything-without-spaces-can-go-here

").
Proof. vm_compute. reflexivity. Qed.
Definition t15_pkg : Package :=
 (set_p_Comment ("this is a comment comment")
 (set_p_Description ("this is a description comment")
 (set_p_Summary ("this is a summary comment")
 (set_p_CopyrightText ("Copyright (c) John Doe, Inc.")
 (set_p_LicenseComments ("this is a license comment(s)")
 (set_p_LicenseDeclared ("Apache-2.0 OR GPL-2.0-or-later")
 (set_p_LicenseInfoFromFiles [("Apache-1.1"); ("Apache-2.0"); ("GPL-2.0-or-later")]
 (set_p_LicenseConcluded ("GPL-2.0-or-later")
 (set_p_SourceInfo ("this is a source comment")
 (set_p_HomePage ("http://example.com/p1")
 (set_p_Checksums [(set_ck_Value ("85ed0817af83a24ad8da68c2b5094de69833983c")
 (set_ck_Algorithm ("SHA1")
 zero_Checksum)); (set_ck_Value ("11b6d3ee554eedf79299905a98f9b9a04e498210b59f15094c916c91d150efcd")
 (set_ck_Algorithm ("SHA256")
 zero_Checksum)); (set_ck_Value ("624c1abb3664f4b35547e7c73864ad24")
 (set_ck_Algorithm ("MD5")
 zero_Checksum))]
 (set_p_VerificationCode (Some (set_vc_Value ("0123456789abcdef0123456789abcdef01234567")
 zero_VerificationCode))
 (set_p_IsFilesAnalyzedTagPresent false
 (set_p_FilesAnalyzed true
 (set_p_DownloadLocation ("http://example.com/p1/p1-0.1.0-master.tar.gz")
 (set_p_Originator (Some (set_or_Originator ("John Doe, Inc.")
 (set_or_OriginatorType ("Organization")
 zero_Originator)))
 (set_p_Supplier (Some (set_su_Supplier ("NOASSERTION")
 zero_Supplier))
 (set_p_FileName ("p1-0.1.0-master.tar.gz")
 (set_p_Version ("0.1.0")
 (set_p_SPDXIdentifier ("p1")
 (set_p_PackageName ("p1")
 zero_PackageOf))))))))))))))))))))).
(** /repo/spdx/v2/v2_1/tagvalue/writer/save_package_test.go 141: TestSaverPackageSavesTextCombo2 *)
Example v21_PackageSavesTextCombo2 : bytes (render_package insertion_sorter V21 t15_pkg) = ("PackageName: p1
SPDXID: SPDXRef-p1
PackageVersion: 0.1.0
PackageFileName: p1-0.1.0-master.tar.gz
PackageSupplier: NOASSERTION
PackageOriginator: Organization: John Doe, Inc.
PackageDownloadLocation: http://example.com/p1/p1-0.1.0-master.tar.gz
PackageVerificationCode: 0123456789abcdef0123456789abcdef01234567
PackageChecksum: SHA1: 85ed0817af83a24ad8da68c2b5094de69833983c
PackageChecksum: SHA256: 11b6d3ee554eedf79299905a98f9b9a04e498210b59f15094c916c91d150efcd
PackageChecksum: MD5: 624c1abb3664f4b35547e7c73864ad24
PackageHomePage: http://example.com/p1
PackageSourceInfo: this is a source comment
PackageLicenseConcluded: GPL-2.0-or-later
PackageLicenseInfoFromFiles: Apache-1.1
PackageLicenseInfoFromFiles: Apache-2.0
PackageLicenseInfoFromFiles: GPL-2.0-or-later
PackageLicenseDeclared: Apache-2.0 OR GPL-2.0-or-later
PackageLicenseComments: this is a license comment(s)
PackageCopyrightText: Copyright (c) John Doe, Inc.
PackageSummary: this is a summary comment
PackageDescription: this is a description comment
PackageComment: this is a comment comment

").
Proof. vm_compute. reflexivity. Qed.
Definition t16_pkg : Package :=
 (set_p_Comment ("this is a comment comment")
 (set_p_Description ("this is a description comment")
 (set_p_Summary ("this is a summary comment")
 (set_p_CopyrightText ("Copyright (c) John Doe, Inc.")
 (set_p_LicenseComments ("this is a license comment(s)")
 (set_p_LicenseDeclared ("Apache-2.0 OR GPL-2.0-or-later")
 (set_p_LicenseInfoFromFiles [("Apache-1.1"); ("Apache-2.0"); ("GPL-2.0-or-later")]
 (set_p_LicenseConcluded ("GPL-2.0-or-later")
 (set_p_SourceInfo ("this is a source comment")
 (set_p_HomePage ("http://example.com/p1")
 (set_p_Checksums [(set_ck_Value ("85ed0817af83a24ad8da68c2b5094de69833983c")
 (set_ck_Algorithm ("SHA1")
 zero_Checksum)); (set_ck_Value ("11b6d3ee554eedf79299905a98f9b9a04e498210b59f15094c916c91d150efcd")
 (set_ck_Algorithm ("SHA256")
 zero_Checksum)); (set_ck_Value ("624c1abb3664f4b35547e7c73864ad24")
 (set_ck_Algorithm ("MD5")
 zero_Checksum))]
 (set_p_VerificationCode (Some (set_vc_Value ("0123456789abcdef0123456789abcdef01234567")
 zero_VerificationCode))
 (set_p_IsFilesAnalyzedTagPresent true
 (set_p_FilesAnalyzed false
 (set_p_DownloadLocation ("http://example.com/p1/p1-0.1.0-master.tar.gz")
 (set_p_Originator (Some (set_or_Originator ("NOASSERTION")
 zero_Originator))
 (set_p_Supplier (Some (set_su_SupplierType ("Person")
 (set_su_Supplier ("John Doe")
 zero_Supplier)))
 (set_p_FileName ("p1-0.1.0-master.tar.gz")
 (set_p_Version ("0.1.0")
 (set_p_SPDXIdentifier ("p1")
 (set_p_PackageName ("p1")
 zero_PackageOf))))))))))))))))))))).
(** /repo/spdx/v2/v2_1/tagvalue/writer/save_package_test.go 229: TestSaverPackageSavesTextCombo3 *)
Example v21_PackageSavesTextCombo3 : bytes (render_package insertion_sorter V21 t16_pkg) = ("PackageName: p1
SPDXID: SPDXRef-p1
PackageVersion: 0.1.0
PackageFileName: p1-0.1.0-master.tar.gz
PackageSupplier: Person: John Doe
PackageOriginator: NOASSERTION
PackageDownloadLocation: http://example.com/p1/p1-0.1.0-master.tar.gz
FilesAnalyzed: false
PackageChecksum: SHA1: 85ed0817af83a24ad8da68c2b5094de69833983c
PackageChecksum: SHA256: 11b6d3ee554eedf79299905a98f9b9a04e498210b59f15094c916c91d150efcd
PackageChecksum: MD5: 624c1abb3664f4b35547e7c73864ad24
PackageHomePage: http://example.com/p1
PackageSourceInfo: this is a source comment
PackageLicenseConcluded: GPL-2.0-or-later
PackageLicenseDeclared: Apache-2.0 OR GPL-2.0-or-later
PackageLicenseComments: this is a license comment(s)
PackageCopyrightText: Copyright (c) John Doe, Inc.
PackageSummary: this is a summary comment
PackageDescription: this is a description comment
PackageComment: this is a comment comment

").
Proof. vm_compute. reflexivity. Qed.
Definition t17_pkg : Package :=
 (set_p_CopyrightText ("Copyright (c) John Doe, Inc.")
 (set_p_LicenseDeclared ("Apache-2.0 OR GPL-2.0-or-later")
 (set_p_LicenseInfoFromFiles [("Apache-1.1"); ("Apache-2.0"); ("GPL-2.0-or-later")]
 (set_p_LicenseConcluded ("GPL-2.0-or-later")
 (set_p_IsFilesAnalyzedTagPresent true
 (set_p_FilesAnalyzed false
 (set_p_DownloadLocation ("http://example.com/p1/p1-0.1.0-master.tar.gz")
 (set_p_SPDXIdentifier ("p1")
 (set_p_PackageName ("p1")
 zero_PackageOf))))))))).
(** /repo/spdx/v2/v2_1/tagvalue/writer/save_package_test.go 318: TestSaverPackageSaveOmitsOptionalFieldsIfEmpty *)
Example v21_PackageSaveOmitsOptionalFieldsIfEmpty : bytes (render_package insertion_sorter V21 t17_pkg) = ("PackageName: p1
SPDXID: SPDXRef-p1
PackageDownloadLocation: http://example.com/p1/p1-0.1.0-master.tar.gz
FilesAnalyzed: false
PackageLicenseConcluded: GPL-2.0-or-later
PackageLicenseDeclared: Apache-2.0 OR GPL-2.0-or-later
PackageCopyrightText: Copyright (c) John Doe, Inc.

").
Proof. vm_compute. reflexivity. Qed.
Definition t18_f1 : File :=
 (set_f_CopyrightText ("Copyright (c) Jane Doe")
 (set_f_LicenseInfoInFiles [("Apache-2.0")]
 (set_f_LicenseConcluded ("Apache-2.0")
 (set_f_Checksums [(set_ck_Value ("85ed0817af83a24ad8da68c2b5094de69833983c")
 (set_ck_Algorithm ("SHA1")
 zero_Checksum))]
 (set_f_SPDXIdentifier ("File1231")
 (set_f_FileName ("/tmp/whatever1.txt")
 zero_FileOf)))))).
Definition t18_f2 : File :=
 (set_f_CopyrightText ("Copyright (c) John Doe")
 (set_f_LicenseInfoInFiles [("MIT")]
 (set_f_LicenseConcluded ("MIT")
 (set_f_Checksums [(set_ck_Value ("85ed0817af83a24ad8da68c2b5094de69833983d")
 (set_ck_Algorithm ("SHA1")
 zero_Checksum))]
 (set_f_SPDXIdentifier ("File1232")
 (set_f_FileName ("/tmp/whatever2.txt")
 zero_FileOf)))))).
Definition t18_pkg : Package :=
 (set_p_Files [t18_f1; t18_f2]
 (set_p_CopyrightText ("Copyright (c) John Doe, Inc.")
 (set_p_LicenseDeclared ("Apache-2.0 OR GPL-2.0-or-later")
 (set_p_LicenseInfoFromFiles [("Apache-1.1"); ("Apache-2.0"); ("GPL-2.0-or-later")]
 (set_p_LicenseConcluded ("GPL-2.0-or-later")
 (set_p_IsFilesAnalyzedTagPresent true
 (set_p_FilesAnalyzed false
 (set_p_DownloadLocation ("http://example.com/p1/p1-0.1.0-master.tar.gz")
 (set_p_SPDXIdentifier ("p1")
 (set_p_PackageName ("p1")
 zero_PackageOf)))))))))).
(** /repo/spdx/v2/v2_1/tagvalue/writer/save_package_test.go 364: TestSaverPackageSavesFilesIfPresent *)
Example v21_PackageSavesFilesIfPresent : bytes (render_package insertion_sorter V21 t18_pkg) = ("PackageName: p1
SPDXID: SPDXRef-p1
PackageDownloadLocation: http://example.com/p1/p1-0.1.0-master.tar.gz
FilesAnalyzed: false
PackageLicenseConcluded: GPL-2.0-or-later
PackageLicenseDeclared: Apache-2.0 OR GPL-2.0-or-later
PackageCopyrightText: Copyright (c) John Doe, Inc.

FileName: /tmp/whatever1.txt
SPDXID: SPDXRef-File1231
FileChecksum: SHA1: 85ed0817af83a24ad8da68c2b5094de69833983c
LicenseConcluded: Apache-2.0
LicenseInfoInFile: Apache-2.0
FileCopyrightText: Copyright (c) Jane Doe

FileName: /tmp/whatever2.txt
SPDXID: SPDXRef-File1232
FileChecksum: SHA1: 85ed0817af83a24ad8da68c2b5094de69833983d
LicenseConcluded: MIT
LicenseInfoInFile: MIT
FileCopyrightText: Copyright (c) John Doe

").
Proof. vm_compute. reflexivity. Qed.
Definition t19_pkg : Package :=
 (set_p_CopyrightText ("Copyright (c) John Doe, Inc.
Copyright Jane Doe")
 (set_p_LicenseDeclared ("Apache-2.0 OR GPL-2.0-or-later")
 (set_p_LicenseInfoFromFiles [("Apache-1.1"); ("Apache-2.0"); ("GPL-2.0-or-later")]
 (set_p_LicenseConcluded ("GPL-2.0-or-later")
 (set_p_IsFilesAnalyzedTagPresent true
 (set_p_FilesAnalyzed false
 (set_p_DownloadLocation ("http://example.com/p1/p1-0.1.0-master.tar.gz")
 (set_p_SPDXIdentifier ("p1")
 (set_p_PackageName ("p1")
 zero_PackageOf))))))))).
(** /repo/spdx/v2/v2_1/tagvalue/writer/save_package_test.go 456: TestSaverPackageWrapsCopyrightMultiLine *)
Example v21_PackageWrapsCopyrightMultiLine : bytes (render_package insertion_sorter V21 t19_pkg) = ("PackageName: p1
SPDXID: SPDXRef-p1
PackageDownloadLocation: http://example.com/p1/p1-0.1.0-master.tar.gz
FilesAnalyzed: false
PackageLicenseConcluded: GPL-2.0-or-later
PackageLicenseDeclared: Apache-2.0 OR GPL-2.0-or-later
PackageCopyrightText: <text>Copyright (c) John Doe, Inc.
Copyright Jane Doe</text>

").
Proof. vm_compute. reflexivity. Qed.
Definition t20_rln : Relationship :=
 (set_r_Comment ("this is a comment")
 (set_r_Relationship ("DESCRIBES")
 (set_r_RefB (MkDEID "" "2" "")
 (set_r_RefA (MkDEID "" "DOCUMENT" "")
 zero_Relationship)))).
(** /repo/spdx/v2/v2_1/tagvalue/writer/save_relationship_test.go 14: TestSaverRelationshipSavesText *)
Example v21_RelationshipSavesText : bytes (render_relationship t20_rln) = ("Relationship: SPDXRef-DOCUMENT DESCRIBES SPDXRef-2
RelationshipComment: this is a comment
").
Proof. vm_compute. reflexivity. Qed.
Definition t21_rln : Relationship :=
 (set_r_Relationship ("DESCRIBES")
 (set_r_RefB (MkDEID "" "2" "")
 (set_r_RefA (MkDEID "" "DOCUMENT" "")
 zero_Relationship))).
(** /repo/spdx/v2/v2_1/tagvalue/writer/save_relationship_test.go 42: TestSaverRelationshipOmitsOptionalFieldsIfEmpty *)
Example v21_RelationshipOmitsOptionalFieldsIfEmpty : bytes (render_relationship t21_rln) = ("Relationship: SPDXRef-DOCUMENT DESCRIBES SPDXRef-2
").
Proof. vm_compute. reflexivity. Qed.
Definition t22_rln : Relationship :=
 (set_r_Comment ("this is a
multi-line comment")
 (set_r_Relationship ("DESCRIBES")
 (set_r_RefB (MkDEID "" "2" "")
 (set_r_RefA (MkDEID "" "DOCUMENT" "")
 zero_Relationship)))).
(** /repo/spdx/v2/v2_1/tagvalue/writer/save_relationship_test.go 67: TestSaverRelationshipWrapsCommentMultiLine *)
Example v21_RelationshipWrapsCommentMultiLine : bytes (render_relationship t22_rln) = ("Relationship: SPDXRef-DOCUMENT DESCRIBES SPDXRef-2
RelationshipComment: <text>this is a
multi-line comment</text>
").
Proof. vm_compute. reflexivity. Qed.
Definition t23_rev : Review :=
 (set_rv_Comment ("this is a review comment")
 (set_rv_Date ("2018-10-14T10:28:00Z")
 (set_rv_ReviewerType ("Person")
 (set_rv_Reviewer ("John Doe")
 zero_Review)))).
(** /repo/spdx/v2/v2_1/tagvalue/writer/save_review_test.go 13: TestSaverReviewSavesText *)
Example v21_ReviewSavesText : bytes (render_review t23_rev) = ("Reviewer: Person: John Doe
ReviewDate: 2018-10-14T10:28:00Z
ReviewComment: this is a review comment

").
Proof. vm_compute. reflexivity. Qed.
Definition t24_rev : Review :=
 (set_rv_Date ("2018-10-14T10:28:00Z")
 (set_rv_ReviewerType ("Person")
 (set_rv_Reviewer ("John Doe")
 zero_Review))).
(** /repo/spdx/v2/v2_1/tagvalue/writer/save_review_test.go 42: TestSaverReviewOmitsOptionalFieldsIfEmpty *)
Example v21_ReviewOmitsOptionalFieldsIfEmpty : bytes (render_review t24_rev) = ("Reviewer: Person: John Doe
ReviewDate: 2018-10-14T10:28:00Z

").
Proof. vm_compute. reflexivity. Qed.
Definition t25_rev : Review :=
 (set_rv_Comment ("this is a
multi-line review comment")
 (set_rv_Date ("2018-10-14T10:28:00Z")
 (set_rv_ReviewerType ("Person")
 (set_rv_Reviewer ("John Doe")
 zero_Review)))).
(** /repo/spdx/v2/v2_1/tagvalue/writer/save_review_test.go 69: TestSaverReviewWrapsMultiLine *)
Example v21_ReviewWrapsMultiLine : bytes (render_review t25_rev) = ("Reviewer: Person: John Doe
ReviewDate: 2018-10-14T10:28:00Z
ReviewComment: <text>this is a
multi-line review comment</text>

").
Proof. vm_compute. reflexivity. Qed.
Definition t26_sn : Snippet :=
 (set_s_Name ("from John's program")
 (set_s_Comment ("this is a snippet comment")
 (set_s_CopyrightText ("Copyright (c) John Doe 20x6")
 (set_s_LicenseComments ("this is a comment(s) about the snippet license")
 (set_s_LicenseInfoInSnippet [("GPL-2.0-or-later"); ("MIT")]
 (set_s_LicenseConcluded ("GPL-2.0-or-later")
 (set_s_Ranges [(set_sr_EndPointer (set_rp_LineNumber (8)%Z
 zero_RangePointer)
 (set_sr_StartPointer (set_rp_LineNumber (3)%Z
 zero_RangePointer)
 zero_SnippetRange)); (set_sr_EndPointer (set_rp_Offset (209)%Z
 zero_RangePointer)
 (set_sr_StartPointer (set_rp_Offset (17)%Z
 zero_RangePointer)
 zero_SnippetRange))]
 (set_s_FromFile ("File292")
 (set_s_SPDXIdentifier ("Snippet17")
 zero_Snippet))))))))).
(** /repo/spdx/v2/v2_1/tagvalue/writer/save_snippet_test.go 14: TestSaverSnippetSavesText *)
Example v21_SnippetSavesText : bytes (render_snippet V21 t26_sn) = ("SnippetSPDXID: SPDXRef-Snippet17
SnippetFromFileSPDXID: SPDXRef-File292
SnippetLineRange: 3:8
SnippetByteRange: 17:209
SnippetLicenseConcluded: GPL-2.0-or-later
LicenseInfoInSnippet: GPL-2.0-or-later
LicenseInfoInSnippet: MIT
SnippetLicenseComments: this is a comment(s) about the snippet license
SnippetCopyrightText: Copyright (c) John Doe 20x6
SnippetComment: this is a snippet comment
SnippetName: from John's program

").
Proof. vm_compute. reflexivity. Qed.
Definition t27_sn : Snippet :=
 (set_s_CopyrightText ("Copyright (c) John Doe 20x6")
 (set_s_LicenseConcluded ("GPL-2.0-or-later")
 (set_s_Ranges [(set_sr_EndPointer (set_rp_Offset (209)%Z
 zero_RangePointer)
 (set_sr_StartPointer (set_rp_Offset (17)%Z
 zero_RangePointer)
 zero_SnippetRange))]
 (set_s_FromFile ("File292")
 (set_s_SPDXIdentifier ("Snippet17")
 zero_Snippet))))).
(** /repo/spdx/v2/v2_1/tagvalue/writer/save_snippet_test.go 68: TestSaverSnippetOmitsOptionalFieldsIfEmpty *)
Example v21_SnippetOmitsOptionalFieldsIfEmpty : bytes (render_snippet V21 t27_sn) = ("SnippetSPDXID: SPDXRef-Snippet17
SnippetFromFileSPDXID: SPDXRef-File292
SnippetByteRange: 17:209
SnippetLicenseConcluded: GPL-2.0-or-later
SnippetCopyrightText: Copyright (c) John Doe 20x6

").
Proof. vm_compute. reflexivity. Qed.
Definition t28_sn : Snippet :=
 (set_s_CopyrightText ("Copyright (c) John Doe 20x6
Copyright (c) John Doe 20x6")
 (set_s_LicenseConcluded ("GPL-2.0-or-later")
 (set_s_Ranges [(set_sr_EndPointer (set_rp_Offset (209)%Z
 zero_RangePointer)
 (set_sr_StartPointer (set_rp_Offset (17)%Z
 zero_RangePointer)
 zero_SnippetRange))]
 (set_s_FromFile ("File292")
 (set_s_SPDXIdentifier ("Snippet17")
 zero_Snippet))))).
(** /repo/spdx/v2/v2_1/tagvalue/writer/save_snippet_test.go 105: TestSaverSnippetWrapsCopyrightMultiline *)
Example v21_SnippetWrapsCopyrightMultiline : bytes (render_snippet V21 t28_sn) = ("SnippetSPDXID: SPDXRef-Snippet17
SnippetFromFileSPDXID: SPDXRef-File292
SnippetByteRange: 17:209
SnippetLicenseConcluded: GPL-2.0-or-later
SnippetCopyrightText: <text>Copyright (c) John Doe 20x6
Copyright (c) John Doe 20x6</text>

").
Proof. vm_compute. reflexivity. Qed.
Definition t29_ann : Annotation :=
 (set_a_Comment ("This is an annotation about the SPDX document")
 (set_a_SPDXIdentifier (MkDEID "" "DOCUMENT" "")
 (set_a_Type ("REVIEW")
 (set_a_Date ("2018-10-10T17:52:00Z")
 (set_a_Annotator (set_an_Annotator ("John Doe")
 (set_an_AnnotatorType ("Person")
 zero_Annotator))
 zero_Annotation))))).
(** /repo/spdx/v2/v2_2/tagvalue/writer/save_annotation_test.go 14: TestSaverAnnotationSavesTextForPerson *)
Example v22_AnnotationSavesTextForPerson : bytes (render_annotation t29_ann) = ("Annotator: Person: John Doe
AnnotationDate: 2018-10-10T17:52:00Z
AnnotationType: REVIEW
SPDXREF: SPDXRef-DOCUMENT
AnnotationComment: This is an annotation about the SPDX document
").
Proof. vm_compute. reflexivity. Qed.
Definition t30_ann : Annotation :=
 (set_a_Comment ("This is an annotation about the SPDX document")
 (set_a_SPDXIdentifier (MkDEID "" "DOCUMENT" "")
 (set_a_Type ("REVIEW")
 (set_a_Date ("2018-10-10T17:52:00Z")
 (set_a_Annotator (set_an_Annotator ("John Doe, Inc.")
 (set_an_AnnotatorType ("Organization")
 zero_Annotator))
 zero_Annotation))))).
(** /repo/spdx/v2/v2_2/tagvalue/writer/save_annotation_test.go 46: TestSaverAnnotationSavesTextForOrganization *)
Example v22_AnnotationSavesTextForOrganization : bytes (render_annotation t30_ann) = ("Annotator: Organization: John Doe, Inc.
AnnotationDate: 2018-10-10T17:52:00Z
AnnotationType: REVIEW
SPDXREF: SPDXRef-DOCUMENT
AnnotationComment: This is an annotation about the SPDX document
").
Proof. vm_compute. reflexivity. Qed.
Definition t31_ann : Annotation :=
 (set_a_Comment ("This is an annotation about the SPDX document")
 (set_a_SPDXIdentifier (MkDEID "" "DOCUMENT" "")
 (set_a_Type ("REVIEW")
 (set_a_Date ("2018-10-10T17:52:00Z")
 (set_a_Annotator (set_an_Annotator ("magictool-1.1")
 (set_an_AnnotatorType ("Tool")
 zero_Annotator))
 zero_Annotation))))).
(** /repo/spdx/v2/v2_2/tagvalue/writer/save_annotation_test.go 78: TestSaverAnnotationSavesTextForTool *)
Example v22_AnnotationSavesTextForTool : bytes (render_annotation t31_ann) = ("Annotator: Tool: magictool-1.1
AnnotationDate: 2018-10-10T17:52:00Z
AnnotationType: REVIEW
SPDXREF: SPDXRef-DOCUMENT
AnnotationComment: This is an annotation about the SPDX document
").
Proof. vm_compute. reflexivity. Qed.
Definition t32_ci : CreationInfo :=
 (set_ci_CreatorComment ("this is a creator comment")
 (set_ci_Created ("2018-10-10T06:20:00Z")
 (set_ci_Creators [(set_cr_CreatorType ("Person")
 (set_cr_Creator ("John Doe")
 zero_Creator)); (set_cr_CreatorType ("Person")
 (set_cr_Creator ("Jane Doe (janedoe@example.com)")
 zero_Creator)); (set_cr_CreatorType ("Organization")
 (set_cr_Creator ("John Doe, Inc.")
 zero_Creator)); (set_cr_CreatorType ("Organization")
 (set_cr_Creator ("Jane Doe LLC")
 zero_Creator)); (set_cr_CreatorType ("Tool")
 (set_cr_Creator ("magictool1-1.0")
 zero_Creator)); (set_cr_CreatorType ("Tool")
 (set_cr_Creator ("magictool2-1.0")
 zero_Creator)); (set_cr_CreatorType ("Tool")
 (set_cr_Creator ("magictool3-1.0")
 zero_Creator))]
 (set_ci_LicenseListVersion ("3.9")
 zero_CreationInfo)))).
(** /repo/spdx/v2/v2_2/tagvalue/writer/save_creation_info_test.go 14: TestSaverCISavesText *)
Example v22_CISavesText : bytes (render_creation_info t32_ci) = ("LicenseListVersion: 3.9
Creator: Person: John Doe
Creator: Person: Jane Doe (janedoe@example.com)
Creator: Organization: John Doe, Inc.
Creator: Organization: Jane Doe LLC
Creator: Tool: magictool1-1.0
Creator: Tool: magictool2-1.0
Creator: Tool: magictool3-1.0
Created: 2018-10-10T06:20:00Z
CreatorComment: this is a creator comment

").
Proof. vm_compute. reflexivity. Qed.
Definition t33_ci1 : CreationInfo :=
 (set_ci_Created ("2018-10-10T06:20:00Z")
 (set_ci_Creators [(set_cr_CreatorType ("Person")
 (set_cr_Creator ("John Doe")
 zero_Creator))]
 zero_CreationInfo)).
(** /repo/spdx/v2/v2_2/tagvalue/writer/save_creation_info_test.go 58: TestSaverCIOmitsOptionalFieldsIfEmpty *)
Example v22_CIOmitsOptionalFieldsIfEmpty : bytes (render_creation_info t33_ci1) = ("Creator: Person: John Doe
Created: 2018-10-10T06:20:00Z

").
Proof. vm_compute. reflexivity. Qed.
Definition t33_ci2 : CreationInfo :=
 (set_ci_Created ("2018-10-10T06:20:00Z")
 (set_ci_Creators [(set_cr_CreatorType ("Organization")
 (set_cr_Creator ("John Doe, Inc.")
 zero_Creator))]
 zero_CreationInfo)).
(** /repo/spdx/v2/v2_2/tagvalue/writer/save_creation_info_test.go 58: TestSaverCIOmitsOptionalFieldsIfEmpty *)
Example v22_CIOmitsOptionalFieldsIfEmpty_2 : bytes (render_creation_info t33_ci2) = ("Creator: Organization: John Doe, Inc.
Created: 2018-10-10T06:20:00Z

").
Proof. vm_compute. reflexivity. Qed.
Definition t34_ci : CreationInfo :=
 (set_ci_Created ("2018-10-10T06:20:00Z")
 (set_ci_Creators [(set_cr_CreatorType ("Person")
 (set_cr_Creator ("John Doe")
 zero_Creator))]
 zero_CreationInfo)).
Definition t34_f1 : File :=
 (set_f_CopyrightText ("Copyright (c) Jane Doe")
 (set_f_LicenseInfoInFiles [("Apache-2.0")]
 (set_f_LicenseConcluded ("Apache-2.0")
 (set_f_Checksums [(set_ck_Algorithm ("SHA1")
 (set_ck_Value ("85ed0817af83a24ad8da68c2b5094de69833983c")
 zero_Checksum))]
 (set_f_SPDXIdentifier ("File1231")
 (set_f_FileName ("/tmp/whatever1.txt")
 zero_FileOf)))))).
Definition t34_f2 : File :=
 (set_f_CopyrightText ("Copyright (c) John Doe")
 (set_f_LicenseInfoInFiles [("MIT")]
 (set_f_LicenseConcluded ("MIT")
 (set_f_Checksums [(set_ck_Algorithm ("SHA1")
 (set_ck_Value ("85ed0817af83a24ad8da68c2b5094de69833983d")
 zero_Checksum))]
 (set_f_SPDXIdentifier ("File1232")
 (set_f_FileName ("/tmp/whatever2.txt")
 zero_FileOf)))))).
Definition t34_unFiles : list File :=
 [t34_f1; t34_f2].
Definition t34_sn1 : Snippet :=
 (set_s_CopyrightText ("Copyright (c) John Doe 20x6")
 (set_s_LicenseConcluded ("GPL-2.0-or-later")
 (set_s_Ranges [(set_sr_EndPointer (set_rp_Offset (209)%Z
 zero_RangePointer)
 (set_sr_StartPointer (set_rp_Offset (17)%Z
 zero_RangePointer)
 zero_SnippetRange))]
 (set_s_FromFile ("FileHasSnippets")
 (set_s_SPDXIdentifier ("Snippet19")
 zero_Snippet))))).
Definition t34_sn2 : Snippet :=
 (set_s_CopyrightText ("NOASSERTION")
 (set_s_LicenseConcluded ("WTFPL")
 (set_s_Ranges [(set_sr_EndPointer (set_rp_Offset (309)%Z
 zero_RangePointer)
 (set_sr_StartPointer (set_rp_Offset (268)%Z
 zero_RangePointer)
 zero_SnippetRange))]
 (set_s_FromFile ("FileHasSnippets")
 (set_s_SPDXIdentifier ("Snippet20")
 zero_Snippet))))).
Definition t34_f3 : File :=
 (set_f_Snippets [("Snippet19", t34_sn1); ("Snippet20", t34_sn2)]
 (set_f_CopyrightText ("Copyright (c) Jane Doe")
 (set_f_LicenseInfoInFiles [("Apache-2.0"); ("GPL-2.0-or-later"); ("WTFPL")]
 (set_f_LicenseConcluded ("GPL-2.0-or-later AND WTFPL")
 (set_f_Checksums [(set_ck_Algorithm ("SHA1")
 (set_ck_Value ("85ed0817af83a24ad8da68c2b5094de69833983e")
 zero_Checksum))]
 (set_f_SPDXIdentifier ("FileHasSnippets")
 (set_f_FileName ("/tmp/file-with-snippets.txt")
 zero_FileOf))))))).
Definition t34_f4 : File :=
 (set_f_CopyrightText ("Copyright (c) Jane Doe LLC")
 (set_f_LicenseInfoInFiles [("BSD-3-Clause")]
 (set_f_LicenseConcluded ("BSD-3-Clause")
 (set_f_Checksums [(set_ck_Algorithm ("SHA1")
 (set_ck_Value ("85ed0817af83a24ad8da68c2b5094de69833983f")
 zero_Checksum))]
 (set_f_SPDXIdentifier ("FileAnother")
 (set_f_FileName ("/tmp/another-file.txt")
 zero_FileOf)))))).
Definition t34_pkgWith : Package :=
 (set_p_Files [t34_f3; t34_f4]
 (set_p_CopyrightText ("Copyright (c) John Doe, Inc.")
 (set_p_LicenseDeclared ("Apache-2.0 OR GPL-2.0-or-later")
 (set_p_LicenseInfoFromFiles [("Apache-2.0"); ("GPL-2.0-or-later"); ("WTFPL"); ("BSD-3-Clause")]
 (set_p_LicenseConcluded ("GPL-2.0-or-later AND BSD-3-Clause AND WTFPL")
 (set_p_VerificationCode (Some (set_vc_Value ("0123456789abcdef0123456789abcdef01234567")
 zero_VerificationCode))
 (set_p_IsFilesAnalyzedTagPresent true
 (set_p_FilesAnalyzed true
 (set_p_DownloadLocation ("http://example.com/p1/p1-0.1.0-master.tar.gz")
 (set_p_SPDXIdentifier ("p1")
 (set_p_PackageName ("p1")
 zero_PackageOf))))))))))).
Definition t34_ol1 : OtherLicense :=
 (set_ol_LicenseName ("License 1")
 (set_ol_ExtractedText ("License 1 text
blah blah blah
blah blah blah blah")
 (set_ol_LicenseIdentifier ("LicenseRef-1")
 zero_OtherLicense))).
Definition t34_ol2 : OtherLicense :=
 (set_ol_LicenseName ("License 2")
 (set_ol_ExtractedText ("License 2 text - this is a license that does some stuff")
 (set_ol_LicenseIdentifier ("LicenseRef-2")
 zero_OtherLicense))).
Definition t34_rln1 : Relationship :=
 (set_r_Relationship ("DESCRIBES")
 (set_r_RefB (MkDEID "" "p1" "")
 (set_r_RefA (MkDEID "" "DOCUMENT" "")
 zero_Relationship))).
Definition t34_rln2 : Relationship :=
 (set_r_Relationship ("DESCRIBES")
 (set_r_RefB (MkDEID "" "File1231" "")
 (set_r_RefA (MkDEID "" "DOCUMENT" "")
 zero_Relationship))).
Definition t34_rln3 : Relationship :=
 (set_r_Relationship ("DESCRIBES")
 (set_r_RefB (MkDEID "" "File1232" "")
 (set_r_RefA (MkDEID "" "DOCUMENT" "")
 zero_Relationship))).
Definition t34_ann1 : Annotation :=
 (set_a_Comment ("This is an annotation about the SPDX document")
 (set_a_SPDXIdentifier (MkDEID "" "DOCUMENT" "")
 (set_a_Type ("REVIEW")
 (set_a_Date ("2018-10-10T17:52:00Z")
 (set_a_Annotator (set_an_AnnotatorType ("Person")
 (set_an_Annotator ("John Doe")
 zero_Annotator))
 zero_Annotation))))).
Definition t34_ann2 : Annotation :=
 (set_a_Comment ("This is an annotation about Package p1")
 (set_a_SPDXIdentifier (MkDEID "" "p1" "")
 (set_a_Type ("REVIEW")
 (set_a_Date ("2018-10-10T17:52:00Z")
 (set_a_Annotator (set_an_AnnotatorType ("Organization")
 (set_an_Annotator ("John Doe, Inc.")
 zero_Annotator))
 zero_Annotation))))).
Definition t34_rev1 : Review :=
 (set_rv_Date ("2018-10-14T10:28:00Z")
 (set_rv_ReviewerType ("Person")
 (set_rv_Reviewer ("John Doe")
 zero_Review))).
Definition t34_rev2 : Review :=
 (set_rv_Comment ("I have reviewed this SPDX document and it is awesome")
 (set_rv_Date ("2018-10-14T10:28:00Z")
 (set_rv_ReviewerType ("Organization")
 (set_rv_Reviewer ("Jane Doe LLC")
 zero_Review)))).
Definition t34_doc : Document :=
 (set_d_Reviews [t34_rev1; t34_rev2]
 (set_d_Annotations [t34_ann1; t34_ann2]
 (set_d_Relationships [t34_rln1; t34_rln2; t34_rln3]
 (set_d_OtherLicenses [t34_ol1; t34_ol2]
 (set_d_Files t34_unFiles
 (set_d_Packages [t34_pkgWith]
 (set_d_CreationInfo (Some t34_ci)
 (set_d_DocumentNamespace ("https://github.com/spdx/spdx-docs/tools-golang/tools-golang-0.0.1.abcdef.whatever")
 (set_d_DocumentName ("tools-golang-0.0.1.abcdef")
 (set_d_SPDXIdentifier ("DOCUMENT")
 (set_d_DataLicense ("CC0-1.0")
 (set_d_SPDXVersion ("SPDX-2.2")
 zero_DocumentOf)))))))))))).
(** /repo/spdx/v2/v2_2/tagvalue/writer/save_document_test.go 14: TestSaverDocumentSavesText *)
Example v22_DocumentSavesText : (let* r := render_document insertion_sorter V22 t34_doc in Ok (fst r)) = Ok ("SPDXVersion: SPDX-2.2
DataLicense: CC0-1.0
SPDXID: SPDXRef-DOCUMENT
DocumentName: tools-golang-0.0.1.abcdef
DocumentNamespace: https://github.com/spdx/spdx-docs/tools-golang/tools-golang-0.0.1.abcdef.whatever
Creator: Person: John Doe
Created: 2018-10-10T06:20:00Z

##### Unpackaged files

FileName: /tmp/whatever1.txt
SPDXID: SPDXRef-File1231
FileChecksum: SHA1: 85ed0817af83a24ad8da68c2b5094de69833983c
LicenseConcluded: Apache-2.0
LicenseInfoInFile: Apache-2.0
FileCopyrightText: Copyright (c) Jane Doe

FileName: /tmp/whatever2.txt
SPDXID: SPDXRef-File1232
FileChecksum: SHA1: 85ed0817af83a24ad8da68c2b5094de69833983d
LicenseConcluded: MIT
LicenseInfoInFile: MIT
FileCopyrightText: Copyright (c) John Doe

##### Package: p1

PackageName: p1
SPDXID: SPDXRef-p1
PackageDownloadLocation: http://example.com/p1/p1-0.1.0-master.tar.gz
FilesAnalyzed: true
PackageVerificationCode: 0123456789abcdef0123456789abcdef01234567
PackageLicenseConcluded: GPL-2.0-or-later AND BSD-3-Clause AND WTFPL
PackageLicenseInfoFromFiles: Apache-2.0
PackageLicenseInfoFromFiles: GPL-2.0-or-later
PackageLicenseInfoFromFiles: WTFPL
PackageLicenseInfoFromFiles: BSD-3-Clause
PackageLicenseDeclared: Apache-2.0 OR GPL-2.0-or-later
PackageCopyrightText: Copyright (c) John Doe, Inc.

FileName: /tmp/another-file.txt
SPDXID: SPDXRef-FileAnother
FileChecksum: SHA1: 85ed0817af83a24ad8da68c2b5094de69833983f
LicenseConcluded: BSD-3-Clause
LicenseInfoInFile: BSD-3-Clause
FileCopyrightText: Copyright (c) Jane Doe LLC

FileName: /tmp/file-with-snippets.txt
SPDXID: SPDXRef-FileHasSnippets
FileChecksum: SHA1: 85ed0817af83a24ad8da68c2b5094de69833983e
LicenseConcluded: GPL-2.0-or-later AND WTFPL
LicenseInfoInFile: Apache-2.0
LicenseInfoInFile: GPL-2.0-or-later
LicenseInfoInFile: WTFPL
FileCopyrightText: Copyright (c) Jane Doe

SnippetSPDXID: SPDXRef-Snippet19
SnippetFromFileSPDXID: SPDXRef-FileHasSnippets
SnippetByteRange: 17:209
SnippetLicenseConcluded: GPL-2.0-or-later
SnippetCopyrightText: Copyright (c) John Doe 20x6

SnippetSPDXID: SPDXRef-Snippet20
SnippetFromFileSPDXID: SPDXRef-FileHasSnippets
SnippetByteRange: 268:309
SnippetLicenseConcluded: WTFPL
SnippetCopyrightText: NOASSERTION

##### Other Licenses

LicenseID: LicenseRef-1
ExtractedText: <text>License 1 text
blah blah blah
blah blah blah blah</text>
LicenseName: License 1

LicenseID: LicenseRef-2
ExtractedText: License 2 text - this is a license that does some stuff
LicenseName: License 2

##### Relationships

Relationship: SPDXRef-DOCUMENT DESCRIBES SPDXRef-p1
Relationship: SPDXRef-DOCUMENT DESCRIBES SPDXRef-File1231
Relationship: SPDXRef-DOCUMENT DESCRIBES SPDXRef-File1232

##### Annotations

Annotator: Person: John Doe
AnnotationDate: 2018-10-10T17:52:00Z
AnnotationType: REVIEW
SPDXREF: SPDXRef-DOCUMENT
AnnotationComment: This is an annotation about the SPDX document

Annotator: Organization: John Doe, Inc.
AnnotationDate: 2018-10-10T17:52:00Z
AnnotationType: REVIEW
SPDXREF: SPDXRef-p1
AnnotationComment: This is an annotation about Package p1

##### Reviews

Reviewer: Person: John Doe
ReviewDate: 2018-10-14T10:28:00Z

Reviewer: Organization: Jane Doe LLC
ReviewDate: 2018-10-14T10:28:00Z
ReviewComment: I have reviewed this SPDX document and it is awesome

").
Proof. vm_compute. reflexivity. Qed.
Definition t35_doc : Document :=
 zero_DocumentOf.
(** /repo/spdx/v2/v2_2/tagvalue/writer/save_document_test.go 335: TestSaverDocumentReturnsErrorIfNilCreationInfo *)
Example v22_DocumentReturnsErrorIfNilCreationInfo : match render_document insertion_sorter V22 t35_doc with Err _ => true | _ => false end = true.
Proof. reflexivity. Qed.
Definition t36_f : File :=
 (set_f_Dependencies [("f-1.txt"); ("g.txt")]
 (set_f_AttributionTexts [("attributions"); ("multi-line
attribution")]
 (set_f_Contributors [("John Doe jdoe@example.com"); ("EvilCorp")]
 (set_f_Notice ("This file may be used under either Apache-2.0 or Apache-1.1.")
 (set_f_Comment ("this is a file comment")
 (set_f_Artifacts [(set_ar_URI ("http://example.com/1/uri.whatever")
 (set_ar_HomePage ("http://example.com/1/")
 (set_ar_Name ("project1")
 zero_Artifact))); (set_ar_Name ("project2")
 zero_Artifact); (set_ar_HomePage ("http://example.com/3/")
 (set_ar_Name ("project3")
 zero_Artifact)); (set_ar_URI ("http://example.com/4/uri.whatever")
 (set_ar_Name ("project4")
 zero_Artifact))]
 (set_f_CopyrightText ("Copyright (c) Jane Doe")
 (set_f_LicenseComments ("this is a license comment(s)")
 (set_f_LicenseInfoInFiles [("Apache-2.0"); ("Apache-1.1")]
 (set_f_LicenseConcluded ("Apache-2.0")
 (set_f_Checksums [(set_ck_Value ("85ed0817af83a24ad8da68c2b5094de69833983c")
 (set_ck_Algorithm ("SHA1")
 zero_Checksum)); (set_ck_Value ("11b6d3ee554eedf79299905a98f9b9a04e498210b59f15094c916c91d150efcd")
 (set_ck_Algorithm ("SHA256")
 zero_Checksum)); (set_ck_Value ("624c1abb3664f4b35547e7c73864ad24")
 (set_ck_Algorithm ("MD5")
 zero_Checksum))]
 (set_f_FileTypes [("TEXT"); ("DOCUMENTATION")]
 (set_f_SPDXIdentifier ("File123")
 (set_f_FileName ("/tmp/whatever.txt")
 zero_FileOf)))))))))))))).
(** /repo/spdx/v2/v2_2/tagvalue/writer/save_file_test.go 14: TestSaverFileSavesText *)
Example v22_FileSavesText : bytes (render_file insertion_sorter V22 t36_f) = ("FileName: /tmp/whatever.txt
SPDXID: SPDXRef-File123
FileType: TEXT
FileType: DOCUMENTATION
FileChecksum: SHA1: 85ed0817af83a24ad8da68c2b5094de69833983c
FileChecksum: SHA256: 11b6d3ee554eedf79299905a98f9b9a04e498210b59f15094c916c91d150efcd
FileChecksum: MD5: 624c1abb3664f4b35547e7c73864ad24
LicenseConcluded: Apache-2.0
LicenseInfoInFile: Apache-2.0
LicenseInfoInFile: Apache-1.1
LicenseComments: this is a license comment(s)
FileCopyrightText: Copyright (c) Jane Doe
ArtifactOfProjectName: project1
ArtifactOfProjectHomePage: http://example.com/1/
ArtifactOfProjectURI: http://example.com/1/uri.whatever
ArtifactOfProjectName: project2
ArtifactOfProjectName: project3
ArtifactOfProjectHomePage: http://example.com/3/
ArtifactOfProjectName: project4
ArtifactOfProjectURI: http://example.com/4/uri.whatever
FileComment: this is a file comment
FileNotice: This file may be used under either Apache-2.0 or Apache-1.1.
FileContributor: John Doe jdoe@example.com
FileContributor: EvilCorp
FileAttributionText: attributions
FileAttributionText: <text>multi-line
attribution</text>
FileDependency: f-1.txt
FileDependency: g.txt

").
Proof. vm_compute. reflexivity. Qed.
Definition t37_sn1 : Snippet :=
 (set_s_CopyrightText ("Copyright (c) John Doe 20x6")
 (set_s_LicenseConcluded ("GPL-2.0-or-later")
 (set_s_Ranges [(set_sr_EndPointer (set_rp_Offset (209)%Z
 zero_RangePointer)
 (set_sr_StartPointer (set_rp_Offset (17)%Z
 zero_RangePointer)
 zero_SnippetRange))]
 (set_s_FromFile ("File123")
 (set_s_SPDXIdentifier ("Snippet19")
 zero_Snippet))))).
Definition t37_sn2 : Snippet :=
 (set_s_CopyrightText ("NOASSERTION")
 (set_s_LicenseConcluded ("WTFPL")
 (set_s_Ranges [(set_sr_EndPointer (set_rp_Offset (309)%Z
 zero_RangePointer)
 (set_sr_StartPointer (set_rp_Offset (268)%Z
 zero_RangePointer)
 zero_SnippetRange))]
 (set_s_FromFile ("File123")
 (set_s_SPDXIdentifier ("Snippet20")
 zero_Snippet))))).
Definition t37_sns : list (string * Snippet) :=
 [("Snippet19", t37_sn1); ("Snippet20", t37_sn2)].
Definition t37_f : File :=
 (set_f_Snippets t37_sns
 (set_f_CopyrightText ("Copyright (c) Jane Doe")
 (set_f_LicenseInfoInFiles [("Apache-2.0")]
 (set_f_LicenseConcluded ("Apache-2.0")
 (set_f_Checksums [(set_ck_Value ("85ed0817af83a24ad8da68c2b5094de69833983c")
 (set_ck_Algorithm ("SHA1")
 zero_Checksum))]
 (set_f_SPDXIdentifier ("File123")
 (set_f_FileName ("/tmp/whatever.txt")
 zero_FileOf))))))).
(** /repo/spdx/v2/v2_2/tagvalue/writer/save_file_test.go 116: TestSaverFileSavesSnippetsAlso *)
Example v22_FileSavesSnippetsAlso : bytes (render_file insertion_sorter V22 t37_f) = ("FileName: /tmp/whatever.txt
SPDXID: SPDXRef-File123
FileChecksum: SHA1: 85ed0817af83a24ad8da68c2b5094de69833983c
LicenseConcluded: Apache-2.0
LicenseInfoInFile: Apache-2.0
FileCopyrightText: Copyright (c) Jane Doe

SnippetSPDXID: SPDXRef-Snippet19
SnippetFromFileSPDXID: SPDXRef-File123
SnippetByteRange: 17:209
SnippetLicenseConcluded: GPL-2.0-or-later
SnippetCopyrightText: Copyright (c) John Doe 20x6

SnippetSPDXID: SPDXRef-Snippet20
SnippetFromFileSPDXID: SPDXRef-File123
SnippetByteRange: 268:309
SnippetLicenseConcluded: WTFPL
SnippetCopyrightText: NOASSERTION

").
Proof. vm_compute. reflexivity. Qed.
Definition t38_f : File :=
 (set_f_CopyrightText ("Copyright (c) Jane Doe")
 (set_f_LicenseInfoInFiles [("Apache-2.0")]
 (set_f_LicenseConcluded ("Apache-2.0")
 (set_f_Checksums [(set_ck_Value ("85ed0817af83a24ad8da68c2b5094de69833983c")
 (set_ck_Algorithm ("SHA1")
 zero_Checksum))]
 (set_f_SPDXIdentifier ("File123")
 (set_f_FileName ("/tmp/whatever.txt")
 zero_FileOf)))))).
(** /repo/spdx/v2/v2_2/tagvalue/writer/save_file_test.go 188: TestSaverFileOmitsOptionalFieldsIfEmpty *)
Example v22_FileOmitsOptionalFieldsIfEmpty : bytes (render_file insertion_sorter V22 t38_f) = ("FileName: /tmp/whatever.txt
SPDXID: SPDXRef-File123
FileChecksum: SHA1: 85ed0817af83a24ad8da68c2b5094de69833983c
LicenseConcluded: Apache-2.0
LicenseInfoInFile: Apache-2.0
FileCopyrightText: Copyright (c) Jane Doe

").
Proof. vm_compute. reflexivity. Qed.
Definition t39_f : File :=
 (set_f_CopyrightText ("Copyright (c) Jane Doe
Copyright (c) John Doe")
 (set_f_LicenseInfoInFiles [("Apache-2.0")]
 (set_f_LicenseConcluded ("Apache-2.0")
 (set_f_Checksums [(set_ck_Value ("85ed0817af83a24ad8da68c2b5094de69833983c")
 (set_ck_Algorithm ("SHA1")
 zero_Checksum))]
 (set_f_SPDXIdentifier ("File123")
 (set_f_FileName ("/tmp/whatever.txt")
 zero_FileOf)))))).
(** /repo/spdx/v2/v2_2/tagvalue/writer/save_file_test.go 226: TestSaverFileWrapsCopyrightMultiLine *)
Example v22_FileWrapsCopyrightMultiLine : bytes (render_file insertion_sorter V22 t39_f) = ("FileName: /tmp/whatever.txt
SPDXID: SPDXRef-File123
FileChecksum: SHA1: 85ed0817af83a24ad8da68c2b5094de69833983c
LicenseConcluded: Apache-2.0
LicenseInfoInFile: Apache-2.0
FileCopyrightText: <text>Copyright (c) Jane Doe
Copyright (c) John Doe</text>

").
Proof. vm_compute. reflexivity. Qed.
Definition t40_f : File :=
 (set_f_Notice ("This file may be used
under either Apache-2.0 or Apache-1.1.")
 (set_f_Comment ("this is a
multi-line file comment")
 (set_f_CopyrightText ("Copyright (c) Jane Doe")
 (set_f_LicenseInfoInFiles [("Apache-2.0")]
 (set_f_LicenseConcluded ("Apache-2.0")
 (set_f_LicenseComments ("this is a
multi-line license comment")
 (set_f_Checksums [(set_ck_Value ("85ed0817af83a24ad8da68c2b5094de69833983c")
 (set_ck_Algorithm ("SHA1")
 zero_Checksum))]
 (set_f_SPDXIdentifier ("File123")
 (set_f_FileName ("/tmp/whatever.txt")
 zero_FileOf))))))))).
(** /repo/spdx/v2/v2_2/tagvalue/writer/save_file_test.go 266: TestSaverFileWrapsCommentsAndNoticesMultiLine *)
Example v22_FileWrapsCommentsAndNoticesMultiLine : bytes (render_file insertion_sorter V22 t40_f) = ("FileName: /tmp/whatever.txt
SPDXID: SPDXRef-File123
FileChecksum: SHA1: 85ed0817af83a24ad8da68c2b5094de69833983c
LicenseConcluded: Apache-2.0
LicenseInfoInFile: Apache-2.0
LicenseComments: <text>this is a
multi-line license comment</text>
FileCopyrightText: Copyright (c) Jane Doe
FileComment: <text>this is a
multi-line file comment</text>
FileNotice: <text>This file may be used
under either Apache-2.0 or Apache-1.1.</text>

").
Proof. vm_compute. reflexivity. Qed.
Definition t41_ol : OtherLicense :=
 (set_ol_Comment ("this is a license comment")
 (set_ol_CrossReferences [("http://example.com/License1/"); ("http://example.com/License1AnotherURL/")]
 (set_ol_LicenseName ("License 1")
 (set_ol_ExtractedText ("License 1 text
blah blah blah
blah blah blah blah")
 (set_ol_LicenseIdentifier ("LicenseRef-1")
 zero_OtherLicense))))).
(** /repo/spdx/v2/v2_2/tagvalue/writer/save_other_license_test.go 13: TestSaverOtherLicenseSavesText *)
Example v22_OtherLicenseSavesText : bytes (render_other_license t41_ol) = ("LicenseID: LicenseRef-1
ExtractedText: <text>License 1 text
blah blah blah
blah blah blah blah</text>
LicenseName: License 1
LicenseCrossReference: http://example.com/License1/
LicenseCrossReference: http://example.com/License1AnotherURL/
LicenseComment: this is a license comment

").
Proof. vm_compute. reflexivity. Qed.
Definition t42_ol : OtherLicense :=
 (set_ol_LicenseName ("License 1")
 (set_ol_ExtractedText ("License 1 text
blah blah blah
blah blah blah blah")
 (set_ol_LicenseIdentifier ("LicenseRef-1")
 zero_OtherLicense))).
(** /repo/spdx/v2/v2_2/tagvalue/writer/save_other_license_test.go 53: TestSaverOtherLicenseOmitsOptionalFieldsIfEmpty *)
Example v22_OtherLicenseOmitsOptionalFieldsIfEmpty : bytes (render_other_license t42_ol) = ("LicenseID: LicenseRef-1
ExtractedText: <text>License 1 text
blah blah blah
blah blah blah blah</text>
LicenseName: License 1

").
Proof. vm_compute. reflexivity. Qed.
Definition t43_per1 : ExternalRef :=
 (set_er_Comment ("this is an external ref comment #1")
 (set_er_Locator ("cpe:/a:john_doe_inc:p1:0.1.0")
 (set_er_RefType ("cpe22Type")
 (set_er_Category ("SECURITY")
 zero_ExternalRef)))).
Definition t43_per2 : ExternalRef :=
 (set_er_Comment ("this is a
multi-line external ref comment")
 (set_er_Locator ("p1@0.1.0")
 (set_er_RefType ("npm")
 (set_er_Category ("PACKAGE-MANAGER")
 zero_ExternalRef)))).
Definition t43_per3 : ExternalRef :=
 (set_er_Locator ("swh:1:cnt:94a9ed024d3859793618152ea559a168bbcbb5e2")
 (set_er_RefType ("swh")
 (set_er_Category ("PERSISTENT-ID")
 zero_ExternalRef))).
Definition t43_per4 : ExternalRef :=
 (set_er_Locator ("anything-without-spaces-can-go-here")
 (set_er_RefType ("anything")
 (set_er_Category ("OTHER")
 zero_ExternalRef))).
Definition t43_pkg : Package :=
 (set_p_ExternalReferences [t43_per1; t43_per2; t43_per3; t43_per4]
 (set_p_AttributionTexts [("Include this notice in all advertising materials")]
 (set_p_Comment ("this is a comment comment")
 (set_p_Description ("this is a description comment")
 (set_p_Summary ("this is a summary comment")
 (set_p_CopyrightText ("Copyright (c) John Doe, Inc.")
 (set_p_LicenseComments ("this is a license comment(s)")
 (set_p_LicenseDeclared ("Apache-2.0 OR GPL-2.0-or-later")
 (set_p_LicenseInfoFromFiles [("Apache-1.1"); ("Apache-2.0"); ("GPL-2.0-or-later")]
 (set_p_LicenseConcluded ("GPL-2.0-or-later")
 (set_p_SourceInfo ("this is a source comment")
 (set_p_HomePage ("http://example.com/p1")
 (set_p_Checksums [(set_ck_Value ("85ed0817af83a24ad8da68c2b5094de69833983c")
 (set_ck_Algorithm ("SHA1")
 zero_Checksum)); (set_ck_Value ("11b6d3ee554eedf79299905a98f9b9a04e498210b59f15094c916c91d150efcd")
 (set_ck_Algorithm ("SHA256")
 zero_Checksum)); (set_ck_Value ("624c1abb3664f4b35547e7c73864ad24")
 (set_ck_Algorithm ("MD5")
 zero_Checksum))]
 (set_p_VerificationCode (Some (set_vc_ExcludedFiles [("p1-0.1.0.spdx")]
 (set_vc_Value ("0123456789abcdef0123456789abcdef01234567")
 zero_VerificationCode)))
 (set_p_IsFilesAnalyzedTagPresent true
 (set_p_FilesAnalyzed true
 (set_p_DownloadLocation ("http://example.com/p1/p1-0.1.0-master.tar.gz")
 (set_p_Originator (Some (set_or_OriginatorType ("Person")
 (set_or_Originator ("John Doe")
 zero_Originator)))
 (set_p_Supplier (Some (set_su_Supplier ("John Doe, Inc.")
 (set_su_SupplierType ("Organization")
 zero_Supplier)))
 (set_p_FileName ("p1-0.1.0-master.tar.gz")
 (set_p_Version ("0.1.0")
 (set_p_SPDXIdentifier ("p1")
 (set_p_PackageName ("p1")
 zero_PackageOf))))))))))))))))))))))).
(** /repo/spdx/v2/v2_2/tagvalue/writer/save_package_test.go 14: TestSaverPackageSavesTextCombo1 *)
Example v22_PackageSavesTextCombo1 : bytes (render_package insertion_sorter V22 t43_pkg) = ("PackageName: p1
SPDXID: SPDXRef-p1
PackageVersion: 0.1.0
PackageFileName: p1-0.1.0-master.tar.gz
PackageSupplier: Organization: John Doe, Inc.
PackageOriginator: Person: John Doe
PackageDownloadLocation: http://example.com/p1/p1-0.1.0-master.tar.gz
FilesAnalyzed: true
PackageVerificationCode: 0123456789abcdef0123456789abcdef01234567 (excludes: p1-0.1.0.spdx)
PackageChecksum: SHA1: 85ed0817af83a24ad8da68c2b5094de69833983c
PackageChecksum: SHA256: 11b6d3ee554eedf79299905a98f9b9a04e498210b59f15094c916c91d150efcd
PackageChecksum: MD5: 624c1abb3664f4b35547e7c73864ad24
PackageHomePage: http://example.com/p1
PackageSourceInfo: this is a source comment
PackageLicenseConcluded: GPL-2.0-or-later
PackageLicenseInfoFromFiles: Apache-1.1
PackageLicenseInfoFromFiles: Apache-2.0
PackageLicenseInfoFromFiles: GPL-2.0-or-later
PackageLicenseDeclared: Apache-2.0 OR GPL-2.0-or-later
PackageLicenseComments: this is a license comment(s)
PackageCopyrightText: Copyright (c) John Doe, Inc.
PackageSummary: this is a summary comment
PackageDescription: this is a description comment
PackageComment: this is a comment comment
ExternalRef: SECURITY cpe22Type cpe:/a:john_doe_inc:p1:0.1.0
ExternalRefComment: this is an external ref comment #1
ExternalRef: PACKAGE-MANAGER npm p1@0.1.0
ExternalRefComment: <text>this is a
multi-line external ref comment</text>
ExternalRef: PERSISTENT-ID swh swh:1:cnt:94a9ed024d3859793618152ea559a168bbcbb5e2
ExternalRef: OTHER anything anything-without-spaces-can-go-here
PackageAttributionText: Include this notice in all advertising materials

").
Proof. vm_compute. reflexivity. Qed.
Definition t44_pkg : Package :=
 (set_p_AttributionTexts [("Include this notice in all advertising materials")]
 (set_p_Comment ("this is a comment comment")
 (set_p_Description ("this is a description comment")
 (set_p_Summary ("this is a summary comment")
 (set_p_CopyrightText ("Copyright (c) John Doe, Inc.")
 (set_p_LicenseComments ("this is a license comment(s)")
 (set_p_LicenseDeclared ("Apache-2.0 OR GPL-2.0-or-later")
 (set_p_LicenseInfoFromFiles [("Apache-1.1"); ("Apache-2.0"); ("GPL-2.0-or-later")]
 (set_p_LicenseConcluded ("GPL-2.0-or-later")
 (set_p_SourceInfo ("this is a source comment")
 (set_p_HomePage ("http://example.com/p1")
 (set_p_Checksums [(set_ck_Value ("85ed0817af83a24ad8da68c2b5094de69833983c")
 (set_ck_Algorithm ("SHA1")
 zero_Checksum)); (set_ck_Value ("11b6d3ee554eedf79299905a98f9b9a04e498210b59f15094c916c91d150efcd")
 (set_ck_Algorithm ("SHA256")
 zero_Checksum)); (set_ck_Value ("624c1abb3664f4b35547e7c73864ad24")
 (set_ck_Algorithm ("MD5")
 zero_Checksum))]
 (set_p_VerificationCode (Some (set_vc_Value ("0123456789abcdef0123456789abcdef01234567")
 zero_VerificationCode))
 (set_p_IsFilesAnalyzedTagPresent false
 (set_p_FilesAnalyzed true
 (set_p_DownloadLocation ("http://example.com/p1/p1-0.1.0-master.tar.gz")
 (set_p_Originator (Some (set_or_Originator ("John Doe, Inc.")
 (set_or_OriginatorType ("Organization")
 zero_Originator)))
 (set_p_Supplier (Some (set_su_Supplier ("NOASSERTION")
 zero_Supplier))
 (set_p_FileName ("p1-0.1.0-master.tar.gz")
 (set_p_Version ("0.1.0")
 (set_p_SPDXIdentifier ("p1")
 (set_p_PackageName ("p1")
 zero_PackageOf)))))))))))))))))))))).
(** /repo/spdx/v2/v2_2/tagvalue/writer/save_package_test.go 153: TestSaverPackageSavesTextCombo2 *)
Example v22_PackageSavesTextCombo2 : bytes (render_package insertion_sorter V22 t44_pkg) = ("PackageName: p1
SPDXID: SPDXRef-p1
PackageVersion: 0.1.0
PackageFileName: p1-0.1.0-master.tar.gz
PackageSupplier: NOASSERTION
PackageOriginator: Organization: John Doe, Inc.
PackageDownloadLocation: http://example.com/p1/p1-0.1.0-master.tar.gz
PackageVerificationCode: 0123456789abcdef0123456789abcdef01234567
PackageChecksum: SHA1: 85ed0817af83a24ad8da68c2b5094de69833983c
PackageChecksum: SHA256: 11b6d3ee554eedf79299905a98f9b9a04e498210b59f15094c916c91d150efcd
PackageChecksum: MD5: 624c1abb3664f4b35547e7c73864ad24
PackageHomePage: http://example.com/p1
PackageSourceInfo: this is a source comment
PackageLicenseConcluded: GPL-2.0-or-later
PackageLicenseInfoFromFiles: Apache-1.1
PackageLicenseInfoFromFiles: Apache-2.0
PackageLicenseInfoFromFiles: GPL-2.0-or-later
PackageLicenseDeclared: Apache-2.0 OR GPL-2.0-or-later
PackageLicenseComments: this is a license comment(s)
PackageCopyrightText: Copyright (c) John Doe, Inc.
PackageSummary: this is a summary comment
PackageDescription: this is a description comment
PackageComment: this is a comment comment
PackageAttributionText: Include this notice in all advertising materials

").
Proof. vm_compute. reflexivity. Qed.
Definition t45_pkg : Package :=
 (set_p_AttributionTexts [("Include this notice in all advertising materials"); ("and also this notice"); ("and this multi-line notice
which goes across two lines")]
 (set_p_Comment ("this is a comment comment")
 (set_p_Description ("this is a description comment")
 (set_p_Summary ("this is a summary comment")
 (set_p_CopyrightText ("Copyright (c) John Doe, Inc.")
 (set_p_LicenseComments ("this is a license comment(s)")
 (set_p_LicenseDeclared ("Apache-2.0 OR GPL-2.0-or-later")
 (set_p_LicenseInfoFromFiles [("Apache-1.1"); ("Apache-2.0"); ("GPL-2.0-or-later")]
 (set_p_LicenseConcluded ("GPL-2.0-or-later")
 (set_p_SourceInfo ("this is a source comment")
 (set_p_HomePage ("http://example.com/p1")
 (set_p_Checksums [(set_ck_Value ("85ed0817af83a24ad8da68c2b5094de69833983c")
 (set_ck_Algorithm ("SHA1")
 zero_Checksum)); (set_ck_Value ("11b6d3ee554eedf79299905a98f9b9a04e498210b59f15094c916c91d150efcd")
 (set_ck_Algorithm ("SHA256")
 zero_Checksum)); (set_ck_Value ("624c1abb3664f4b35547e7c73864ad24")
 (set_ck_Algorithm ("MD5")
 zero_Checksum))]
 (set_p_VerificationCode (Some (set_vc_Value ("0123456789abcdef0123456789abcdef01234567")
 zero_VerificationCode))
 (set_p_IsFilesAnalyzedTagPresent true
 (set_p_FilesAnalyzed false
 (set_p_DownloadLocation ("http://example.com/p1/p1-0.1.0-master.tar.gz")
 (set_p_Originator (Some (set_or_Originator ("NOASSERTION")
 zero_Originator))
 (set_p_Supplier (Some (set_su_SupplierType ("Person")
 (set_su_Supplier ("John Doe")
 zero_Supplier)))
 (set_p_FileName ("p1-0.1.0-master.tar.gz")
 (set_p_Version ("0.1.0")
 (set_p_SPDXIdentifier ("p1")
 (set_p_PackageName ("p1")
 zero_PackageOf)))))))))))))))))))))).
(** /repo/spdx/v2/v2_2/tagvalue/writer/save_package_test.go 243: TestSaverPackageSavesTextCombo3 *)
Example v22_PackageSavesTextCombo3 : bytes (render_package insertion_sorter V22 t45_pkg) = ("PackageName: p1
SPDXID: SPDXRef-p1
PackageVersion: 0.1.0
PackageFileName: p1-0.1.0-master.tar.gz
PackageSupplier: Person: John Doe
PackageOriginator: NOASSERTION
PackageDownloadLocation: http://example.com/p1/p1-0.1.0-master.tar.gz
FilesAnalyzed: false
PackageChecksum: SHA1: 85ed0817af83a24ad8da68c2b5094de69833983c
PackageChecksum: SHA256: 11b6d3ee554eedf79299905a98f9b9a04e498210b59f15094c916c91d150efcd
PackageChecksum: MD5: 624c1abb3664f4b35547e7c73864ad24
PackageHomePage: http://example.com/p1
PackageSourceInfo: this is a source comment
PackageLicenseConcluded: GPL-2.0-or-later
PackageLicenseDeclared: Apache-2.0 OR GPL-2.0-or-later
PackageLicenseComments: this is a license comment(s)
PackageCopyrightText: Copyright (c) John Doe, Inc.
PackageSummary: this is a summary comment
PackageDescription: this is a description comment
PackageComment: this is a comment comment
PackageAttributionText: Include this notice in all advertising materials
PackageAttributionText: and also this notice
PackageAttributionText: <text>and this multi-line notice
which goes across two lines</text>

").
Proof. vm_compute. reflexivity. Qed.
Definition t46_pkg : Package :=
 (set_p_CopyrightText ("Copyright (c) John Doe, Inc.")
 (set_p_LicenseDeclared ("Apache-2.0 OR GPL-2.0-or-later")
 (set_p_LicenseInfoFromFiles [("Apache-1.1"); ("Apache-2.0"); ("GPL-2.0-or-later")]
 (set_p_LicenseConcluded ("GPL-2.0-or-later")
 (set_p_IsFilesAnalyzedTagPresent true
 (set_p_FilesAnalyzed false
 (set_p_DownloadLocation ("http://example.com/p1/p1-0.1.0-master.tar.gz")
 (set_p_SPDXIdentifier ("p1")
 (set_p_PackageName ("p1")
 zero_PackageOf))))))))).
(** /repo/spdx/v2/v2_2/tagvalue/writer/save_package_test.go 343: TestSaverPackageSaveOmitsOptionalFieldsIfEmpty *)
Example v22_PackageSaveOmitsOptionalFieldsIfEmpty : bytes (render_package insertion_sorter V22 t46_pkg) = ("PackageName: p1
SPDXID: SPDXRef-p1
PackageDownloadLocation: http://example.com/p1/p1-0.1.0-master.tar.gz
FilesAnalyzed: false
PackageLicenseConcluded: GPL-2.0-or-later
PackageLicenseDeclared: Apache-2.0 OR GPL-2.0-or-later
PackageCopyrightText: Copyright (c) John Doe, Inc.

").
Proof. vm_compute. reflexivity. Qed.
Definition t47_f1 : File :=
 (set_f_CopyrightText ("Copyright (c) Jane Doe")
 (set_f_LicenseInfoInFiles [("Apache-2.0")]
 (set_f_LicenseConcluded ("Apache-2.0")
 (set_f_Checksums [(set_ck_Value ("85ed0817af83a24ad8da68c2b5094de69833983c")
 (set_ck_Algorithm ("SHA1")
 zero_Checksum))]
 (set_f_SPDXIdentifier ("File1231")
 (set_f_FileName ("/tmp/whatever1.txt")
 zero_FileOf)))))).
Definition t47_f2 : File :=
 (set_f_CopyrightText ("Copyright (c) John Doe")
 (set_f_LicenseInfoInFiles [("MIT")]
 (set_f_LicenseConcluded ("MIT")
 (set_f_Checksums [(set_ck_Value ("85ed0817af83a24ad8da68c2b5094de69833983d")
 (set_ck_Algorithm ("SHA1")
 zero_Checksum))]
 (set_f_SPDXIdentifier ("File1232")
 (set_f_FileName ("/tmp/whatever2.txt")
 zero_FileOf)))))).
Definition t47_pkg : Package :=
 (set_p_Files [t47_f1; t47_f2]
 (set_p_CopyrightText ("Copyright (c) John Doe, Inc.")
 (set_p_LicenseDeclared ("Apache-2.0 OR GPL-2.0-or-later")
 (set_p_LicenseInfoFromFiles [("Apache-1.1"); ("Apache-2.0"); ("GPL-2.0-or-later")]
 (set_p_LicenseConcluded ("GPL-2.0-or-later")
 (set_p_IsFilesAnalyzedTagPresent true
 (set_p_FilesAnalyzed false
 (set_p_DownloadLocation ("http://example.com/p1/p1-0.1.0-master.tar.gz")
 (set_p_SPDXIdentifier ("p1")
 (set_p_PackageName ("p1")
 zero_PackageOf)))))))))).
(** /repo/spdx/v2/v2_2/tagvalue/writer/save_package_test.go 389: TestSaverPackageSavesFilesIfPresent *)
Example v22_PackageSavesFilesIfPresent : bytes (render_package insertion_sorter V22 t47_pkg) = ("PackageName: p1
SPDXID: SPDXRef-p1
PackageDownloadLocation: http://example.com/p1/p1-0.1.0-master.tar.gz
FilesAnalyzed: false
PackageLicenseConcluded: GPL-2.0-or-later
PackageLicenseDeclared: Apache-2.0 OR GPL-2.0-or-later
PackageCopyrightText: Copyright (c) John Doe, Inc.

FileName: /tmp/whatever1.txt
SPDXID: SPDXRef-File1231
FileChecksum: SHA1: 85ed0817af83a24ad8da68c2b5094de69833983c
LicenseConcluded: Apache-2.0
LicenseInfoInFile: Apache-2.0
FileCopyrightText: Copyright (c) Jane Doe

FileName: /tmp/whatever2.txt
SPDXID: SPDXRef-File1232
FileChecksum: SHA1: 85ed0817af83a24ad8da68c2b5094de69833983d
LicenseConcluded: MIT
LicenseInfoInFile: MIT
FileCopyrightText: Copyright (c) John Doe

").
Proof. vm_compute. reflexivity. Qed.
Definition t48_pkg : Package :=
 (set_p_CopyrightText ("Copyright (c) John Doe, Inc.
Copyright Jane Doe")
 (set_p_LicenseDeclared ("Apache-2.0 OR GPL-2.0-or-later")
 (set_p_LicenseInfoFromFiles [("Apache-1.1"); ("Apache-2.0"); ("GPL-2.0-or-later")]
 (set_p_LicenseConcluded ("GPL-2.0-or-later")
 (set_p_IsFilesAnalyzedTagPresent true
 (set_p_FilesAnalyzed false
 (set_p_DownloadLocation ("http://example.com/p1/p1-0.1.0-master.tar.gz")
 (set_p_SPDXIdentifier ("p1")
 (set_p_PackageName ("p1")
 zero_PackageOf))))))))).
(** /repo/spdx/v2/v2_2/tagvalue/writer/save_package_test.go 481: TestSaverPackageWrapsMultiLine *)
Example v22_PackageWrapsMultiLine : bytes (render_package insertion_sorter V22 t48_pkg) = ("PackageName: p1
SPDXID: SPDXRef-p1
PackageDownloadLocation: http://example.com/p1/p1-0.1.0-master.tar.gz
FilesAnalyzed: false
PackageLicenseConcluded: GPL-2.0-or-later
PackageLicenseDeclared: Apache-2.0 OR GPL-2.0-or-later
PackageCopyrightText: <text>Copyright (c) John Doe, Inc.
Copyright Jane Doe</text>

").
Proof. vm_compute. reflexivity. Qed.
Definition t49_rln : Relationship :=
 (set_r_Comment ("this is a comment")
 (set_r_Relationship ("DESCRIBES")
 (set_r_RefB (MkDEID "" "2" "")
 (set_r_RefA (MkDEID "" "DOCUMENT" "")
 zero_Relationship)))).
(** /repo/spdx/v2/v2_2/tagvalue/writer/save_relationship_test.go 14: TestSaverRelationshipSavesText *)
Example v22_RelationshipSavesText : bytes (render_relationship t49_rln) = ("Relationship: SPDXRef-DOCUMENT DESCRIBES SPDXRef-2
RelationshipComment: this is a comment
").
Proof. vm_compute. reflexivity. Qed.
Definition t50_rln : Relationship :=
 (set_r_Relationship ("DESCRIBES")
 (set_r_RefB (MkDEID "" "2" "")
 (set_r_RefA (MkDEID "" "DOCUMENT" "")
 zero_Relationship))).
(** /repo/spdx/v2/v2_2/tagvalue/writer/save_relationship_test.go 42: TestSaverRelationshipOmitsOptionalFieldsIfEmpty *)
Example v22_RelationshipOmitsOptionalFieldsIfEmpty : bytes (render_relationship t50_rln) = ("Relationship: SPDXRef-DOCUMENT DESCRIBES SPDXRef-2
").
Proof. vm_compute. reflexivity. Qed.
Definition t51_rln : Relationship :=
 (set_r_Relationship ("DEPENDS_ON")
 (set_r_RefB (MkDEID "" "" "NONE")
 (set_r_RefA (MkDEID "" "PackageA" "")
 zero_Relationship))).
(** /repo/spdx/v2/v2_2/tagvalue/writer/save_relationship_test.go 67: TestSaverRelationshipCanHaveNONEOnRight *)
Example v22_RelationshipCanHaveNONEOnRight : bytes (render_relationship t51_rln) = ("Relationship: SPDXRef-PackageA DEPENDS_ON NONE
").
Proof. vm_compute. reflexivity. Qed.
Definition t52_rln : Relationship :=
 (set_r_Relationship ("DEPENDS_ON")
 (set_r_RefB (MkDEID "" "" "NOASSERTION")
 (set_r_RefA (MkDEID "" "PackageA" "")
 zero_Relationship))).
(** /repo/spdx/v2/v2_2/tagvalue/writer/save_relationship_test.go 92: TestSaverRelationshipCanHaveNOASSERTIONOnRight *)
Example v22_RelationshipCanHaveNOASSERTIONOnRight : bytes (render_relationship t52_rln) = ("Relationship: SPDXRef-PackageA DEPENDS_ON NOASSERTION
").
Proof. vm_compute. reflexivity. Qed.
Definition t53_rln : Relationship :=
 (set_r_Comment ("this is a
multi-line comment")
 (set_r_Relationship ("DESCRIBES")
 (set_r_RefB (MkDEID "" "2" "")
 (set_r_RefA (MkDEID "" "DOCUMENT" "")
 zero_Relationship)))).
(** /repo/spdx/v2/v2_2/tagvalue/writer/save_relationship_test.go 117: TestSaverRelationshipWrapsCommentMultiLine *)
Example v22_RelationshipWrapsCommentMultiLine : bytes (render_relationship t53_rln) = ("Relationship: SPDXRef-DOCUMENT DESCRIBES SPDXRef-2
RelationshipComment: <text>this is a
multi-line comment</text>
").
Proof. vm_compute. reflexivity. Qed.
Definition t54_rev : Review :=
 (set_rv_Comment ("this is a review comment")
 (set_rv_Date ("2018-10-14T10:28:00Z")
 (set_rv_ReviewerType ("Person")
 (set_rv_Reviewer ("John Doe")
 zero_Review)))).
(** /repo/spdx/v2/v2_2/tagvalue/writer/save_review_test.go 13: TestSaverReviewSavesText *)
Example v22_ReviewSavesText : bytes (render_review t54_rev) = ("Reviewer: Person: John Doe
ReviewDate: 2018-10-14T10:28:00Z
ReviewComment: this is a review comment

").
Proof. vm_compute. reflexivity. Qed.
Definition t55_rev : Review :=
 (set_rv_Date ("2018-10-14T10:28:00Z")
 (set_rv_ReviewerType ("Person")
 (set_rv_Reviewer ("John Doe")
 zero_Review))).
(** /repo/spdx/v2/v2_2/tagvalue/writer/save_review_test.go 42: TestSaverReviewOmitsOptionalFieldsIfEmpty *)
Example v22_ReviewOmitsOptionalFieldsIfEmpty : bytes (render_review t55_rev) = ("Reviewer: Person: John Doe
ReviewDate: 2018-10-14T10:28:00Z

").
Proof. vm_compute. reflexivity. Qed.
Definition t56_rev : Review :=
 (set_rv_Comment ("this is a
multi-line review comment")
 (set_rv_Date ("2018-10-14T10:28:00Z")
 (set_rv_ReviewerType ("Person")
 (set_rv_Reviewer ("John Doe")
 zero_Review)))).
(** /repo/spdx/v2/v2_2/tagvalue/writer/save_review_test.go 69: TestSaverReviewWrapsMultiLine *)
Example v22_ReviewWrapsMultiLine : bytes (render_review t56_rev) = ("Reviewer: Person: John Doe
ReviewDate: 2018-10-14T10:28:00Z
ReviewComment: <text>this is a
multi-line review comment</text>

").
Proof. vm_compute. reflexivity. Qed.
Definition t57_sn : Snippet :=
 (set_s_AttributionTexts [("some attributions")]
 (set_s_Name ("from John's program")
 (set_s_Comment ("this is a snippet comment")
 (set_s_CopyrightText ("Copyright (c) John Doe 20x6")
 (set_s_LicenseComments ("this is a comment(s) about the snippet license")
 (set_s_LicenseInfoInSnippet [("GPL-2.0-or-later"); ("MIT")]
 (set_s_LicenseConcluded ("GPL-2.0-or-later")
 (set_s_Ranges [(set_sr_EndPointer (set_rp_LineNumber (8)%Z
 zero_RangePointer)
 (set_sr_StartPointer (set_rp_LineNumber (3)%Z
 zero_RangePointer)
 zero_SnippetRange)); (set_sr_EndPointer (set_rp_Offset (209)%Z
 zero_RangePointer)
 (set_sr_StartPointer (set_rp_Offset (17)%Z
 zero_RangePointer)
 zero_SnippetRange))]
 (set_s_FromFile ("File292")
 (set_s_SPDXIdentifier ("Snippet17")
 zero_Snippet)))))))))).
(** /repo/spdx/v2/v2_2/tagvalue/writer/save_snippet_test.go 14: TestSaverSnippetSavesText *)
Example v22_SnippetSavesText : bytes (render_snippet V22 t57_sn) = ("SnippetSPDXID: SPDXRef-Snippet17
SnippetFromFileSPDXID: SPDXRef-File292
SnippetLineRange: 3:8
SnippetByteRange: 17:209
SnippetLicenseConcluded: GPL-2.0-or-later
LicenseInfoInSnippet: GPL-2.0-or-later
LicenseInfoInSnippet: MIT
SnippetLicenseComments: this is a comment(s) about the snippet license
SnippetCopyrightText: Copyright (c) John Doe 20x6
SnippetComment: this is a snippet comment
SnippetName: from John's program
SnippetAttributionText: some attributions

").
Proof. vm_compute. reflexivity. Qed.
Definition t58_sn : Snippet :=
 (set_s_CopyrightText ("Copyright (c) John Doe 20x6")
 (set_s_LicenseConcluded ("GPL-2.0-or-later")
 (set_s_Ranges [(set_sr_EndPointer (set_rp_Offset (209)%Z
 zero_RangePointer)
 (set_sr_StartPointer (set_rp_Offset (17)%Z
 zero_RangePointer)
 zero_SnippetRange))]
 (set_s_FromFile ("File292")
 (set_s_SPDXIdentifier ("Snippet17")
 zero_Snippet))))).
(** /repo/spdx/v2/v2_2/tagvalue/writer/save_snippet_test.go 70: TestSaverSnippetOmitsOptionalFieldsIfEmpty *)
Example v22_SnippetOmitsOptionalFieldsIfEmpty : bytes (render_snippet V22 t58_sn) = ("SnippetSPDXID: SPDXRef-Snippet17
SnippetFromFileSPDXID: SPDXRef-File292
SnippetByteRange: 17:209
SnippetLicenseConcluded: GPL-2.0-or-later
SnippetCopyrightText: Copyright (c) John Doe 20x6

").
Proof. vm_compute. reflexivity. Qed.
Definition t59_sn : Snippet :=
 (set_s_CopyrightText ("Copyright (c) John Doe 20x6
Copyright (c) John Doe 20x6")
 (set_s_LicenseConcluded ("GPL-2.0-or-later")
 (set_s_Ranges [(set_sr_EndPointer (set_rp_Offset (209)%Z
 zero_RangePointer)
 (set_sr_StartPointer (set_rp_Offset (17)%Z
 zero_RangePointer)
 zero_SnippetRange))]
 (set_s_FromFile ("File292")
 (set_s_SPDXIdentifier ("Snippet17")
 zero_Snippet))))).
(** /repo/spdx/v2/v2_2/tagvalue/writer/save_snippet_test.go 107: TestSaverSnippetWrapsCopyrightMultiline *)
Example v22_SnippetWrapsCopyrightMultiline : bytes (render_snippet V22 t59_sn) = ("SnippetSPDXID: SPDXRef-Snippet17
SnippetFromFileSPDXID: SPDXRef-File292
SnippetByteRange: 17:209
SnippetLicenseConcluded: GPL-2.0-or-later
SnippetCopyrightText: <text>Copyright (c) John Doe 20x6
Copyright (c) John Doe 20x6</text>

").
Proof. vm_compute. reflexivity. Qed.
Definition t60_ann : Annotation :=
 (set_a_Comment ("This is an annotation about the SPDX document")
 (set_a_SPDXIdentifier (MkDEID "" "DOCUMENT" "")
 (set_a_Type ("REVIEW")
 (set_a_Date ("2018-10-10T17:52:00Z")
 (set_a_Annotator (set_an_Annotator ("John Doe")
 (set_an_AnnotatorType ("Person")
 zero_Annotator))
 zero_Annotation))))).
(** /repo/spdx/v2/v2_3/tagvalue/writer/save_annotation_test.go 14: TestSaverAnnotationSavesTextForPerson *)
Example v23_AnnotationSavesTextForPerson : bytes (render_annotation t60_ann) = ("Annotator: Person: John Doe
AnnotationDate: 2018-10-10T17:52:00Z
AnnotationType: REVIEW
SPDXREF: SPDXRef-DOCUMENT
AnnotationComment: This is an annotation about the SPDX document
").
Proof. vm_compute. reflexivity. Qed.
Definition t61_ann : Annotation :=
 (set_a_Comment ("This is an annotation about the SPDX document")
 (set_a_SPDXIdentifier (MkDEID "" "DOCUMENT" "")
 (set_a_Type ("REVIEW")
 (set_a_Date ("2018-10-10T17:52:00Z")
 (set_a_Annotator (set_an_Annotator ("John Doe, Inc.")
 (set_an_AnnotatorType ("Organization")
 zero_Annotator))
 zero_Annotation))))).
(** /repo/spdx/v2/v2_3/tagvalue/writer/save_annotation_test.go 46: TestSaverAnnotationSavesTextForOrganization *)
Example v23_AnnotationSavesTextForOrganization : bytes (render_annotation t61_ann) = ("Annotator: Organization: John Doe, Inc.
AnnotationDate: 2018-10-10T17:52:00Z
AnnotationType: REVIEW
SPDXREF: SPDXRef-DOCUMENT
AnnotationComment: This is an annotation about the SPDX document
").
Proof. vm_compute. reflexivity. Qed.
Definition t62_ann : Annotation :=
 (set_a_Comment ("This is an annotation about the SPDX document")
 (set_a_SPDXIdentifier (MkDEID "" "DOCUMENT" "")
 (set_a_Type ("REVIEW")
 (set_a_Date ("2018-10-10T17:52:00Z")
 (set_a_Annotator (set_an_Annotator ("magictool-1.1")
 (set_an_AnnotatorType ("Tool")
 zero_Annotator))
 zero_Annotation))))).
(** /repo/spdx/v2/v2_3/tagvalue/writer/save_annotation_test.go 78: TestSaverAnnotationSavesTextForTool *)
Example v23_AnnotationSavesTextForTool : bytes (render_annotation t62_ann) = ("Annotator: Tool: magictool-1.1
AnnotationDate: 2018-10-10T17:52:00Z
AnnotationType: REVIEW
SPDXREF: SPDXRef-DOCUMENT
AnnotationComment: This is an annotation about the SPDX document
").
Proof. vm_compute. reflexivity. Qed.
Definition t63_ci : CreationInfo :=
 (set_ci_CreatorComment ("this is a creator comment")
 (set_ci_Created ("2018-10-10T06:20:00Z")
 (set_ci_Creators [(set_cr_CreatorType ("Person")
 (set_cr_Creator ("John Doe")
 zero_Creator)); (set_cr_CreatorType ("Person")
 (set_cr_Creator ("Jane Doe (janedoe@example.com)")
 zero_Creator)); (set_cr_CreatorType ("Organization")
 (set_cr_Creator ("John Doe, Inc.")
 zero_Creator)); (set_cr_CreatorType ("Organization")
 (set_cr_Creator ("Jane Doe LLC")
 zero_Creator)); (set_cr_CreatorType ("Tool")
 (set_cr_Creator ("magictool1-1.0")
 zero_Creator)); (set_cr_CreatorType ("Tool")
 (set_cr_Creator ("magictool2-1.0")
 zero_Creator)); (set_cr_CreatorType ("Tool")
 (set_cr_Creator ("magictool3-1.0")
 zero_Creator))]
 (set_ci_LicenseListVersion ("3.9")
 zero_CreationInfo)))).
(** /repo/spdx/v2/v2_3/tagvalue/writer/save_creation_info_test.go 14: TestSaverCISavesText *)
Example v23_CISavesText : bytes (render_creation_info t63_ci) = ("LicenseListVersion: 3.9
Creator: Person: John Doe
Creator: Person: Jane Doe (janedoe@example.com)
Creator: Organization: John Doe, Inc.
Creator: Organization: Jane Doe LLC
Creator: Tool: magictool1-1.0
Creator: Tool: magictool2-1.0
Creator: Tool: magictool3-1.0
Created: 2018-10-10T06:20:00Z
CreatorComment: this is a creator comment

").
Proof. vm_compute. reflexivity. Qed.
Definition t64_ci1 : CreationInfo :=
 (set_ci_Created ("2018-10-10T06:20:00Z")
 (set_ci_Creators [(set_cr_CreatorType ("Person")
 (set_cr_Creator ("John Doe")
 zero_Creator))]
 zero_CreationInfo)).
(** /repo/spdx/v2/v2_3/tagvalue/writer/save_creation_info_test.go 58: TestSaverCIOmitsOptionalFieldsIfEmpty *)
Example v23_CIOmitsOptionalFieldsIfEmpty : bytes (render_creation_info t64_ci1) = ("Creator: Person: John Doe
Created: 2018-10-10T06:20:00Z

").
Proof. vm_compute. reflexivity. Qed.
Definition t64_ci2 : CreationInfo :=
 (set_ci_Created ("2018-10-10T06:20:00Z")
 (set_ci_Creators [(set_cr_CreatorType ("Organization")
 (set_cr_Creator ("John Doe, Inc.")
 zero_Creator))]
 zero_CreationInfo)).
(** /repo/spdx/v2/v2_3/tagvalue/writer/save_creation_info_test.go 58: TestSaverCIOmitsOptionalFieldsIfEmpty *)
Example v23_CIOmitsOptionalFieldsIfEmpty_2 : bytes (render_creation_info t64_ci2) = ("Creator: Organization: John Doe, Inc.
Created: 2018-10-10T06:20:00Z

").
Proof. vm_compute. reflexivity. Qed.
Definition t65_ci : CreationInfo :=
 (set_ci_Created ("2018-10-10T06:20:00Z")
 (set_ci_Creators [(set_cr_CreatorType ("Person")
 (set_cr_Creator ("John Doe")
 zero_Creator))]
 zero_CreationInfo)).
Definition t65_f1 : File :=
 (set_f_CopyrightText ("Copyright (c) Jane Doe")
 (set_f_LicenseInfoInFiles [("Apache-2.0")]
 (set_f_LicenseConcluded ("Apache-2.0")
 (set_f_Checksums [(set_ck_Algorithm ("SHA1")
 (set_ck_Value ("85ed0817af83a24ad8da68c2b5094de69833983c")
 zero_Checksum))]
 (set_f_SPDXIdentifier ("File1231")
 (set_f_FileName ("/tmp/whatever1.txt")
 zero_FileOf)))))).
Definition t65_f2 : File :=
 (set_f_CopyrightText ("Copyright (c) John Doe")
 (set_f_LicenseInfoInFiles [("MIT")]
 (set_f_LicenseConcluded ("MIT")
 (set_f_Checksums [(set_ck_Algorithm ("SHA1")
 (set_ck_Value ("85ed0817af83a24ad8da68c2b5094de69833983d")
 zero_Checksum))]
 (set_f_SPDXIdentifier ("File1232")
 (set_f_FileName ("/tmp/whatever2.txt")
 zero_FileOf)))))).
Definition t65_unFiles : list File :=
 [t65_f1; t65_f2].
Definition t65_sn1 : Snippet :=
 (set_s_CopyrightText ("Copyright (c) John Doe 20x6")
 (set_s_LicenseConcluded ("GPL-2.0-or-later")
 (set_s_Ranges [(set_sr_EndPointer (set_rp_Offset (209)%Z
 zero_RangePointer)
 (set_sr_StartPointer (set_rp_Offset (17)%Z
 zero_RangePointer)
 zero_SnippetRange))]
 (set_s_FromFile ("FileHasSnippets")
 (set_s_SPDXIdentifier ("Snippet19")
 zero_Snippet))))).
Definition t65_sn2 : Snippet :=
 (set_s_CopyrightText ("NOASSERTION")
 (set_s_LicenseConcluded ("WTFPL")
 (set_s_Ranges [(set_sr_EndPointer (set_rp_Offset (309)%Z
 zero_RangePointer)
 (set_sr_StartPointer (set_rp_Offset (268)%Z
 zero_RangePointer)
 zero_SnippetRange))]
 (set_s_FromFile ("FileHasSnippets")
 (set_s_SPDXIdentifier ("Snippet20")
 zero_Snippet))))).
Definition t65_f3 : File :=
 (set_f_Snippets [("Snippet19", t65_sn1); ("Snippet20", t65_sn2)]
 (set_f_CopyrightText ("Copyright (c) Jane Doe")
 (set_f_LicenseInfoInFiles [("Apache-2.0"); ("GPL-2.0-or-later"); ("WTFPL")]
 (set_f_LicenseConcluded ("GPL-2.0-or-later AND WTFPL")
 (set_f_Checksums [(set_ck_Algorithm ("SHA1")
 (set_ck_Value ("85ed0817af83a24ad8da68c2b5094de69833983e")
 zero_Checksum))]
 (set_f_SPDXIdentifier ("FileHasSnippets")
 (set_f_FileName ("/tmp/file-with-snippets.txt")
 zero_FileOf))))))).
Definition t65_f4 : File :=
 (set_f_CopyrightText ("Copyright (c) Jane Doe LLC")
 (set_f_LicenseInfoInFiles [("BSD-3-Clause")]
 (set_f_LicenseConcluded ("BSD-3-Clause")
 (set_f_Checksums [(set_ck_Algorithm ("SHA1")
 (set_ck_Value ("85ed0817af83a24ad8da68c2b5094de69833983f")
 zero_Checksum))]
 (set_f_SPDXIdentifier ("FileAnother")
 (set_f_FileName ("/tmp/another-file.txt")
 zero_FileOf)))))).
Definition t65_pkgWith : Package :=
 (set_p_Files [t65_f3; t65_f4]
 (set_p_CopyrightText ("Copyright (c) John Doe, Inc.")
 (set_p_LicenseDeclared ("Apache-2.0 OR GPL-2.0-or-later")
 (set_p_LicenseInfoFromFiles [("Apache-2.0"); ("GPL-2.0-or-later"); ("WTFPL"); ("BSD-3-Clause")]
 (set_p_LicenseConcluded ("GPL-2.0-or-later AND BSD-3-Clause AND WTFPL")
 (set_p_VerificationCode (Some (set_vc_Value ("0123456789abcdef0123456789abcdef01234567")
 zero_VerificationCode))
 (set_p_IsFilesAnalyzedTagPresent true
 (set_p_FilesAnalyzed true
 (set_p_DownloadLocation ("http://example.com/p1/p1-0.1.0-master.tar.gz")
 (set_p_SPDXIdentifier ("p1")
 (set_p_PackageName ("p1")
 zero_PackageOf))))))))))).
Definition t65_ol1 : OtherLicense :=
 (set_ol_LicenseName ("License 1")
 (set_ol_ExtractedText ("License 1 text
blah blah blah
blah blah blah blah")
 (set_ol_LicenseIdentifier ("LicenseRef-1")
 zero_OtherLicense))).
Definition t65_ol2 : OtherLicense :=
 (set_ol_LicenseName ("License 2")
 (set_ol_ExtractedText ("License 2 text - this is a license that does some stuff")
 (set_ol_LicenseIdentifier ("LicenseRef-2")
 zero_OtherLicense))).
Definition t65_rln1 : Relationship :=
 (set_r_Relationship ("DESCRIBES")
 (set_r_RefB (MkDEID "" "p1" "")
 (set_r_RefA (MkDEID "" "DOCUMENT" "")
 zero_Relationship))).
Definition t65_rln2 : Relationship :=
 (set_r_Relationship ("DESCRIBES")
 (set_r_RefB (MkDEID "" "File1231" "")
 (set_r_RefA (MkDEID "" "DOCUMENT" "")
 zero_Relationship))).
Definition t65_rln3 : Relationship :=
 (set_r_Relationship ("DESCRIBES")
 (set_r_RefB (MkDEID "" "File1232" "")
 (set_r_RefA (MkDEID "" "DOCUMENT" "")
 zero_Relationship))).
Definition t65_ann1 : Annotation :=
 (set_a_Comment ("This is an annotation about the SPDX document")
 (set_a_SPDXIdentifier (MkDEID "" "DOCUMENT" "")
 (set_a_Type ("REVIEW")
 (set_a_Date ("2018-10-10T17:52:00Z")
 (set_a_Annotator (set_an_AnnotatorType ("Person")
 (set_an_Annotator ("John Doe")
 zero_Annotator))
 zero_Annotation))))).
Definition t65_ann2 : Annotation :=
 (set_a_Comment ("This is an annotation about Package p1")
 (set_a_SPDXIdentifier (MkDEID "" "p1" "")
 (set_a_Type ("REVIEW")
 (set_a_Date ("2018-10-10T17:52:00Z")
 (set_a_Annotator (set_an_AnnotatorType ("Organization")
 (set_an_Annotator ("John Doe, Inc.")
 zero_Annotator))
 zero_Annotation))))).
Definition t65_rev1 : Review :=
 (set_rv_Date ("2018-10-14T10:28:00Z")
 (set_rv_ReviewerType ("Person")
 (set_rv_Reviewer ("John Doe")
 zero_Review))).
Definition t65_rev2 : Review :=
 (set_rv_Comment ("I have reviewed this SPDX document and it is awesome")
 (set_rv_Date ("2018-10-14T10:28:00Z")
 (set_rv_ReviewerType ("Organization")
 (set_rv_Reviewer ("Jane Doe LLC")
 zero_Review)))).
Definition t65_doc : Document :=
 (set_d_Reviews [t65_rev1; t65_rev2]
 (set_d_Annotations [t65_ann1; t65_ann2]
 (set_d_Relationships [t65_rln1; t65_rln2; t65_rln3]
 (set_d_OtherLicenses [t65_ol1; t65_ol2]
 (set_d_Files t65_unFiles
 (set_d_Packages [t65_pkgWith]
 (set_d_CreationInfo (Some t65_ci)
 (set_d_DocumentNamespace ("https://github.com/spdx/spdx-docs/tools-golang/tools-golang-0.0.1.abcdef.whatever")
 (set_d_DocumentName ("tools-golang-0.0.1.abcdef")
 (set_d_SPDXIdentifier ("DOCUMENT")
 (set_d_DataLicense ("CC0-1.0")
 (set_d_SPDXVersion ("SPDX-2.3")
 zero_DocumentOf)))))))))))).
(** /repo/spdx/v2/v2_3/tagvalue/writer/save_document_test.go 14: TestSaverDocumentSavesText *)
Example v23_DocumentSavesText : (let* r := render_document insertion_sorter V23 t65_doc in Ok (fst r)) = Ok ("SPDXVersion: SPDX-2.3
DataLicense: CC0-1.0
SPDXID: SPDXRef-DOCUMENT
DocumentName: tools-golang-0.0.1.abcdef
DocumentNamespace: https://github.com/spdx/spdx-docs/tools-golang/tools-golang-0.0.1.abcdef.whatever
Creator: Person: John Doe
Created: 2018-10-10T06:20:00Z

##### Unpackaged files

FileName: /tmp/whatever1.txt
SPDXID: SPDXRef-File1231
FileChecksum: SHA1: 85ed0817af83a24ad8da68c2b5094de69833983c
LicenseConcluded: Apache-2.0
LicenseInfoInFile: Apache-2.0
FileCopyrightText: Copyright (c) Jane Doe

FileName: /tmp/whatever2.txt
SPDXID: SPDXRef-File1232
FileChecksum: SHA1: 85ed0817af83a24ad8da68c2b5094de69833983d
LicenseConcluded: MIT
LicenseInfoInFile: MIT
FileCopyrightText: Copyright (c) John Doe

##### Package: p1

PackageName: p1
SPDXID: SPDXRef-p1
PackageDownloadLocation: http://example.com/p1/p1-0.1.0-master.tar.gz
FilesAnalyzed: true
PackageVerificationCode: 0123456789abcdef0123456789abcdef01234567
PackageLicenseConcluded: GPL-2.0-or-later AND BSD-3-Clause AND WTFPL
PackageLicenseInfoFromFiles: Apache-2.0
PackageLicenseInfoFromFiles: GPL-2.0-or-later
PackageLicenseInfoFromFiles: WTFPL
PackageLicenseInfoFromFiles: BSD-3-Clause
PackageLicenseDeclared: Apache-2.0 OR GPL-2.0-or-later
PackageCopyrightText: Copyright (c) John Doe, Inc.

FileName: /tmp/another-file.txt
SPDXID: SPDXRef-FileAnother
FileChecksum: SHA1: 85ed0817af83a24ad8da68c2b5094de69833983f
LicenseConcluded: BSD-3-Clause
LicenseInfoInFile: BSD-3-Clause
FileCopyrightText: Copyright (c) Jane Doe LLC

FileName: /tmp/file-with-snippets.txt
SPDXID: SPDXRef-FileHasSnippets
FileChecksum: SHA1: 85ed0817af83a24ad8da68c2b5094de69833983e
LicenseConcluded: GPL-2.0-or-later AND WTFPL
LicenseInfoInFile: Apache-2.0
LicenseInfoInFile: GPL-2.0-or-later
LicenseInfoInFile: WTFPL
FileCopyrightText: Copyright (c) Jane Doe

SnippetSPDXID: SPDXRef-Snippet19
SnippetFromFileSPDXID: SPDXRef-FileHasSnippets
SnippetByteRange: 17:209
SnippetLicenseConcluded: GPL-2.0-or-later
SnippetCopyrightText: Copyright (c) John Doe 20x6

SnippetSPDXID: SPDXRef-Snippet20
SnippetFromFileSPDXID: SPDXRef-FileHasSnippets
SnippetByteRange: 268:309
SnippetLicenseConcluded: WTFPL
SnippetCopyrightText: NOASSERTION

##### Other Licenses

LicenseID: LicenseRef-1
ExtractedText: <text>License 1 text
blah blah blah
blah blah blah blah</text>
LicenseName: License 1

LicenseID: LicenseRef-2
ExtractedText: License 2 text - this is a license that does some stuff
LicenseName: License 2

##### Relationships

Relationship: SPDXRef-DOCUMENT DESCRIBES SPDXRef-p1
Relationship: SPDXRef-DOCUMENT DESCRIBES SPDXRef-File1231
Relationship: SPDXRef-DOCUMENT DESCRIBES SPDXRef-File1232

##### Annotations

Annotator: Person: John Doe
AnnotationDate: 2018-10-10T17:52:00Z
AnnotationType: REVIEW
SPDXREF: SPDXRef-DOCUMENT
AnnotationComment: This is an annotation about the SPDX document

Annotator: Organization: John Doe, Inc.
AnnotationDate: 2018-10-10T17:52:00Z
AnnotationType: REVIEW
SPDXREF: SPDXRef-p1
AnnotationComment: This is an annotation about Package p1

##### Reviews

Reviewer: Person: John Doe
ReviewDate: 2018-10-14T10:28:00Z

Reviewer: Organization: Jane Doe LLC
ReviewDate: 2018-10-14T10:28:00Z
ReviewComment: I have reviewed this SPDX document and it is awesome

").
Proof. vm_compute. reflexivity. Qed.
Definition t66_doc : Document :=
 zero_DocumentOf.
(** /repo/spdx/v2/v2_3/tagvalue/writer/save_document_test.go 335: TestSaverDocumentReturnsErrorIfNilCreationInfo *)
Example v23_DocumentReturnsErrorIfNilCreationInfo : match render_document insertion_sorter V23 t66_doc with Err _ => true | _ => false end = true.
Proof. reflexivity. Qed.
Definition t67_f : File :=
 (set_f_Dependencies [("f-1.txt"); ("g.txt")]
 (set_f_AttributionTexts [("attributions"); ("multi-line
attribution")]
 (set_f_Contributors [("John Doe jdoe@example.com"); ("EvilCorp")]
 (set_f_Notice ("This file may be used under either Apache-2.0 or Apache-1.1.")
 (set_f_Comment ("this is a file comment")
 (set_f_Artifacts [(set_ar_URI ("http://example.com/1/uri.whatever")
 (set_ar_HomePage ("http://example.com/1/")
 (set_ar_Name ("project1")
 zero_Artifact))); (set_ar_Name ("project2")
 zero_Artifact); (set_ar_HomePage ("http://example.com/3/")
 (set_ar_Name ("project3")
 zero_Artifact)); (set_ar_URI ("http://example.com/4/uri.whatever")
 (set_ar_Name ("project4")
 zero_Artifact))]
 (set_f_CopyrightText ("Copyright (c) Jane Doe")
 (set_f_LicenseComments ("this is a license comment(s)")
 (set_f_LicenseInfoInFiles [("Apache-2.0"); ("Apache-1.1")]
 (set_f_LicenseConcluded ("Apache-2.0")
 (set_f_Checksums [(set_ck_Value ("85ed0817af83a24ad8da68c2b5094de69833983c")
 (set_ck_Algorithm ("SHA1")
 zero_Checksum)); (set_ck_Value ("11b6d3ee554eedf79299905a98f9b9a04e498210b59f15094c916c91d150efcd")
 (set_ck_Algorithm ("SHA256")
 zero_Checksum)); (set_ck_Value ("624c1abb3664f4b35547e7c73864ad24")
 (set_ck_Algorithm ("MD5")
 zero_Checksum))]
 (set_f_FileTypes [("TEXT"); ("DOCUMENTATION")]
 (set_f_SPDXIdentifier ("File123")
 (set_f_FileName ("/tmp/whatever.txt")
 zero_FileOf)))))))))))))).
(** /repo/spdx/v2/v2_3/tagvalue/writer/save_file_test.go 14: TestSaverFileSavesText *)
Example v23_FileSavesText : bytes (render_file insertion_sorter V23 t67_f) = ("FileName: /tmp/whatever.txt
SPDXID: SPDXRef-File123
FileType: TEXT
FileType: DOCUMENTATION
FileChecksum: SHA1: 85ed0817af83a24ad8da68c2b5094de69833983c
FileChecksum: SHA256: 11b6d3ee554eedf79299905a98f9b9a04e498210b59f15094c916c91d150efcd
FileChecksum: MD5: 624c1abb3664f4b35547e7c73864ad24
LicenseConcluded: Apache-2.0
LicenseInfoInFile: Apache-2.0
LicenseInfoInFile: Apache-1.1
LicenseComments: this is a license comment(s)
FileCopyrightText: Copyright (c) Jane Doe
ArtifactOfProjectName: project1
ArtifactOfProjectHomePage: http://example.com/1/
ArtifactOfProjectURI: http://example.com/1/uri.whatever
ArtifactOfProjectName: project2
ArtifactOfProjectName: project3
ArtifactOfProjectHomePage: http://example.com/3/
ArtifactOfProjectName: project4
ArtifactOfProjectURI: http://example.com/4/uri.whatever
FileComment: this is a file comment
FileNotice: This file may be used under either Apache-2.0 or Apache-1.1.
FileContributor: John Doe jdoe@example.com
FileContributor: EvilCorp
FileAttributionText: attributions
FileAttributionText: <text>multi-line
attribution</text>
FileDependency: f-1.txt
FileDependency: g.txt

").
Proof. vm_compute. reflexivity. Qed.
Definition t68_sn1 : Snippet :=
 (set_s_CopyrightText ("Copyright (c) John Doe 20x6")
 (set_s_LicenseConcluded ("GPL-2.0-or-later")
 (set_s_Ranges [(set_sr_EndPointer (set_rp_Offset (209)%Z
 zero_RangePointer)
 (set_sr_StartPointer (set_rp_Offset (17)%Z
 zero_RangePointer)
 zero_SnippetRange))]
 (set_s_FromFile ("File123")
 (set_s_SPDXIdentifier ("Snippet19")
 zero_Snippet))))).
Definition t68_sn2 : Snippet :=
 (set_s_CopyrightText ("NOASSERTION")
 (set_s_LicenseConcluded ("WTFPL")
 (set_s_Ranges [(set_sr_EndPointer (set_rp_Offset (309)%Z
 zero_RangePointer)
 (set_sr_StartPointer (set_rp_Offset (268)%Z
 zero_RangePointer)
 zero_SnippetRange))]
 (set_s_FromFile ("File123")
 (set_s_SPDXIdentifier ("Snippet20")
 zero_Snippet))))).
Definition t68_sns : list (string * Snippet) :=
 [("Snippet19", t68_sn1); ("Snippet20", t68_sn2)].
Definition t68_f : File :=
 (set_f_Snippets t68_sns
 (set_f_CopyrightText ("Copyright (c) Jane Doe")
 (set_f_LicenseInfoInFiles [("Apache-2.0")]
 (set_f_LicenseConcluded ("Apache-2.0")
 (set_f_Checksums [(set_ck_Value ("85ed0817af83a24ad8da68c2b5094de69833983c")
 (set_ck_Algorithm ("SHA1")
 zero_Checksum))]
 (set_f_SPDXIdentifier ("File123")
 (set_f_FileName ("/tmp/whatever.txt")
 zero_FileOf))))))).
(** /repo/spdx/v2/v2_3/tagvalue/writer/save_file_test.go 116: TestSaverFileSavesSnippetsAlso *)
Example v23_FileSavesSnippetsAlso : bytes (render_file insertion_sorter V23 t68_f) = ("FileName: /tmp/whatever.txt
SPDXID: SPDXRef-File123
FileChecksum: SHA1: 85ed0817af83a24ad8da68c2b5094de69833983c
LicenseConcluded: Apache-2.0
LicenseInfoInFile: Apache-2.0
FileCopyrightText: Copyright (c) Jane Doe

SnippetSPDXID: SPDXRef-Snippet19
SnippetFromFileSPDXID: SPDXRef-File123
SnippetByteRange: 17:209
SnippetLicenseConcluded: GPL-2.0-or-later
SnippetCopyrightText: Copyright (c) John Doe 20x6

SnippetSPDXID: SPDXRef-Snippet20
SnippetFromFileSPDXID: SPDXRef-File123
SnippetByteRange: 268:309
SnippetLicenseConcluded: WTFPL
SnippetCopyrightText: NOASSERTION

").
Proof. vm_compute. reflexivity. Qed.
Definition t69_f : File :=
 (set_f_CopyrightText ("Copyright (c) Jane Doe")
 (set_f_LicenseInfoInFiles [("Apache-2.0")]
 (set_f_LicenseConcluded ("Apache-2.0")
 (set_f_Checksums [(set_ck_Value ("85ed0817af83a24ad8da68c2b5094de69833983c")
 (set_ck_Algorithm ("SHA1")
 zero_Checksum))]
 (set_f_SPDXIdentifier ("File123")
 (set_f_FileName ("/tmp/whatever.txt")
 zero_FileOf)))))).
(** /repo/spdx/v2/v2_3/tagvalue/writer/save_file_test.go 188: TestSaverFileOmitsOptionalFieldsIfEmpty *)
Example v23_FileOmitsOptionalFieldsIfEmpty : bytes (render_file insertion_sorter V23 t69_f) = ("FileName: /tmp/whatever.txt
SPDXID: SPDXRef-File123
FileChecksum: SHA1: 85ed0817af83a24ad8da68c2b5094de69833983c
LicenseConcluded: Apache-2.0
LicenseInfoInFile: Apache-2.0
FileCopyrightText: Copyright (c) Jane Doe

").
Proof. vm_compute. reflexivity. Qed.
Definition t70_f : File :=
 (set_f_CopyrightText ("Copyright (c) Jane Doe
Copyright (c) John Doe")
 (set_f_LicenseInfoInFiles [("Apache-2.0")]
 (set_f_LicenseConcluded ("Apache-2.0")
 (set_f_Checksums [(set_ck_Value ("85ed0817af83a24ad8da68c2b5094de69833983c")
 (set_ck_Algorithm ("SHA1")
 zero_Checksum))]
 (set_f_SPDXIdentifier ("File123")
 (set_f_FileName ("/tmp/whatever.txt")
 zero_FileOf)))))).
(** /repo/spdx/v2/v2_3/tagvalue/writer/save_file_test.go 226: TestSaverFileWrapsCopyrightMultiLine *)
Example v23_FileWrapsCopyrightMultiLine : bytes (render_file insertion_sorter V23 t70_f) = ("FileName: /tmp/whatever.txt
SPDXID: SPDXRef-File123
FileChecksum: SHA1: 85ed0817af83a24ad8da68c2b5094de69833983c
LicenseConcluded: Apache-2.0
LicenseInfoInFile: Apache-2.0
FileCopyrightText: <text>Copyright (c) Jane Doe
Copyright (c) John Doe</text>

").
Proof. vm_compute. reflexivity. Qed.
Definition t71_f : File :=
 (set_f_Notice ("This file may be used
under either Apache-2.0 or Apache-1.1.")
 (set_f_Comment ("this is a
multi-line file comment")
 (set_f_CopyrightText ("Copyright (c) Jane Doe")
 (set_f_LicenseInfoInFiles [("Apache-2.0")]
 (set_f_LicenseConcluded ("Apache-2.0")
 (set_f_LicenseComments ("this is a
multi-line license comment")
 (set_f_Checksums [(set_ck_Value ("85ed0817af83a24ad8da68c2b5094de69833983c")
 (set_ck_Algorithm ("SHA1")
 zero_Checksum))]
 (set_f_SPDXIdentifier ("File123")
 (set_f_FileName ("/tmp/whatever.txt")
 zero_FileOf))))))))).
(** /repo/spdx/v2/v2_3/tagvalue/writer/save_file_test.go 266: TestSaverFileWrapsCommentsAndNoticesMultiLine *)
Example v23_FileWrapsCommentsAndNoticesMultiLine : bytes (render_file insertion_sorter V23 t71_f) = ("FileName: /tmp/whatever.txt
SPDXID: SPDXRef-File123
FileChecksum: SHA1: 85ed0817af83a24ad8da68c2b5094de69833983c
LicenseConcluded: Apache-2.0
LicenseInfoInFile: Apache-2.0
LicenseComments: <text>this is a
multi-line license comment</text>
FileCopyrightText: Copyright (c) Jane Doe
FileComment: <text>this is a
multi-line file comment</text>
FileNotice: <text>This file may be used
under either Apache-2.0 or Apache-1.1.</text>

").
Proof. vm_compute. reflexivity. Qed.
Definition t72_ol : OtherLicense :=
 (set_ol_Comment ("this is a license comment")
 (set_ol_CrossReferences [("http://example.com/License1/"); ("http://example.com/License1AnotherURL/")]
 (set_ol_LicenseName ("License 1")
 (set_ol_ExtractedText ("License 1 text
blah blah blah
blah blah blah blah")
 (set_ol_LicenseIdentifier ("LicenseRef-1")
 zero_OtherLicense))))).
(** /repo/spdx/v2/v2_3/tagvalue/writer/save_other_license_test.go 13: TestSaverOtherLicenseSavesText *)
Example v23_OtherLicenseSavesText : bytes (render_other_license t72_ol) = ("LicenseID: LicenseRef-1
ExtractedText: <text>License 1 text
blah blah blah
blah blah blah blah</text>
LicenseName: License 1
LicenseCrossReference: http://example.com/License1/
LicenseCrossReference: http://example.com/License1AnotherURL/
LicenseComment: this is a license comment

").
Proof. vm_compute. reflexivity. Qed.
Definition t73_ol : OtherLicense :=
 (set_ol_LicenseName ("License 1")
 (set_ol_ExtractedText ("License 1 text
blah blah blah
blah blah blah blah")
 (set_ol_LicenseIdentifier ("LicenseRef-1")
 zero_OtherLicense))).
(** /repo/spdx/v2/v2_3/tagvalue/writer/save_other_license_test.go 53: TestSaverOtherLicenseOmitsOptionalFieldsIfEmpty *)
Example v23_OtherLicenseOmitsOptionalFieldsIfEmpty : bytes (render_other_license t73_ol) = ("LicenseID: LicenseRef-1
ExtractedText: <text>License 1 text
blah blah blah
blah blah blah blah</text>
LicenseName: License 1

").
Proof. vm_compute. reflexivity. Qed.
Definition t74_per1 : ExternalRef :=
 (set_er_Comment ("this is an external ref comment #1")
 (set_er_Locator ("cpe:/a:john_doe_inc:p1:0.1.0")
 (set_er_RefType ("cpe22Type")
 (set_er_Category ("SECURITY")
 zero_ExternalRef)))).
Definition t74_per2 : ExternalRef :=
 (set_er_Comment ("this is a
multi-line external ref comment")
 (set_er_Locator ("p1@0.1.0")
 (set_er_RefType ("npm")
 (set_er_Category ("PACKAGE-MANAGER")
 zero_ExternalRef)))).
Definition t74_per3 : ExternalRef :=
 (set_er_Locator ("swh:1:cnt:94a9ed024d3859793618152ea559a168bbcbb5e2")
 (set_er_RefType ("swh")
 (set_er_Category ("PERSISTENT-ID")
 zero_ExternalRef))).
Definition t74_per4 : ExternalRef :=
 (set_er_Locator ("anything-without-spaces-can-go-here")
 (set_er_RefType ("anything")
 (set_er_Category ("OTHER")
 zero_ExternalRef))).
Definition t74_pkg : Package :=
 (set_p_ReleaseDate ("2021-10-15T02:38:00Z")
 (set_p_ValidUntilDate ("2022-10-15T02:38:00Z")
 (set_p_BuiltDate ("2021-09-15T02:38:00Z")
 (set_p_PrimaryPackagePurpose ("LIBRARY")
 (set_p_ExternalReferences [t74_per1; t74_per2; t74_per3; t74_per4]
 (set_p_AttributionTexts [("Include this notice in all advertising materials")]
 (set_p_Comment ("this is a comment comment")
 (set_p_Description ("this is a description comment")
 (set_p_Summary ("this is a summary comment")
 (set_p_CopyrightText ("Copyright (c) John Doe, Inc.")
 (set_p_LicenseComments ("this is a license comment(s)")
 (set_p_LicenseDeclared ("Apache-2.0 OR GPL-2.0-or-later")
 (set_p_LicenseInfoFromFiles [("Apache-1.1"); ("Apache-2.0"); ("GPL-2.0-or-later")]
 (set_p_LicenseConcluded ("GPL-2.0-or-later")
 (set_p_SourceInfo ("this is a source comment")
 (set_p_HomePage ("http://example.com/p1")
 (set_p_Checksums [(set_ck_Value ("85ed0817af83a24ad8da68c2b5094de69833983c")
 (set_ck_Algorithm ("SHA1")
 zero_Checksum)); (set_ck_Value ("11b6d3ee554eedf79299905a98f9b9a04e498210b59f15094c916c91d150efcd")
 (set_ck_Algorithm ("SHA256")
 zero_Checksum)); (set_ck_Value ("624c1abb3664f4b35547e7c73864ad24")
 (set_ck_Algorithm ("MD5")
 zero_Checksum))]
 (set_p_VerificationCode (Some (set_vc_ExcludedFiles [("p1-0.1.0.spdx")]
 (set_vc_Value ("0123456789abcdef0123456789abcdef01234567")
 zero_VerificationCode)))
 (set_p_IsFilesAnalyzedTagPresent true
 (set_p_FilesAnalyzed true
 (set_p_DownloadLocation ("http://example.com/p1/p1-0.1.0-master.tar.gz")
 (set_p_Originator (Some (set_or_OriginatorType ("Person")
 (set_or_Originator ("John Doe")
 zero_Originator)))
 (set_p_Supplier (Some (set_su_Supplier ("John Doe, Inc.")
 (set_su_SupplierType ("Organization")
 zero_Supplier)))
 (set_p_FileName ("p1-0.1.0-master.tar.gz")
 (set_p_Version ("0.1.0")
 (set_p_SPDXIdentifier ("p1")
 (set_p_PackageName ("p1")
 zero_PackageOf))))))))))))))))))))))))))).
(** /repo/spdx/v2/v2_3/tagvalue/writer/save_package_test.go 14: TestSaverPackageSavesTextCombo1 *)
Example v23_PackageSavesTextCombo1 : bytes (render_package insertion_sorter V23 t74_pkg) = ("PackageName: p1
SPDXID: SPDXRef-p1
PackageVersion: 0.1.0
PackageFileName: p1-0.1.0-master.tar.gz
PackageSupplier: Organization: John Doe, Inc.
PackageOriginator: Person: John Doe
PackageDownloadLocation: http://example.com/p1/p1-0.1.0-master.tar.gz
PrimaryPackagePurpose: LIBRARY
ReleaseDate: 2021-10-15T02:38:00Z
BuiltDate: 2021-09-15T02:38:00Z
ValidUntilDate: 2022-10-15T02:38:00Z
FilesAnalyzed: true
PackageVerificationCode: 0123456789abcdef0123456789abcdef01234567 (excludes: p1-0.1.0.spdx)
PackageChecksum: SHA1: 85ed0817af83a24ad8da68c2b5094de69833983c
PackageChecksum: SHA256: 11b6d3ee554eedf79299905a98f9b9a04e498210b59f15094c916c91d150efcd
PackageChecksum: MD5: 624c1abb3664f4b35547e7c73864ad24
PackageHomePage: http://example.com/p1
PackageSourceInfo: this is a source comment
PackageLicenseConcluded: GPL-2.0-or-later
PackageLicenseInfoFromFiles: Apache-1.1
PackageLicenseInfoFromFiles: Apache-2.0
PackageLicenseInfoFromFiles: GPL-2.0-or-later
PackageLicenseDeclared: Apache-2.0 OR GPL-2.0-or-later
PackageLicenseComments: this is a license comment(s)
PackageCopyrightText: Copyright (c) John Doe, Inc.
PackageSummary: this is a summary comment
PackageDescription: this is a description comment
PackageComment: this is a comment comment
ExternalRef: SECURITY cpe22Type cpe:/a:john_doe_inc:p1:0.1.0
ExternalRefComment: this is an external ref comment #1
ExternalRef: PACKAGE-MANAGER npm p1@0.1.0
ExternalRefComment: <text>this is a
multi-line external ref comment</text>
ExternalRef: PERSISTENT-ID swh swh:1:cnt:94a9ed024d3859793618152ea559a168bbcbb5e2
ExternalRef: OTHER anything anything-without-spaces-can-go-here
PackageAttributionText: Include this notice in all advertising materials

").
Proof. vm_compute. reflexivity. Qed.
Definition t75_pkg : Package :=
 (set_p_AttributionTexts [("Include this notice in all advertising materials")]
 (set_p_Comment ("this is a comment comment")
 (set_p_Description ("this is a description comment")
 (set_p_Summary ("this is a summary comment")
 (set_p_CopyrightText ("Copyright (c) John Doe, Inc.")
 (set_p_LicenseComments ("this is a license comment(s)")
 (set_p_LicenseDeclared ("Apache-2.0 OR GPL-2.0-or-later")
 (set_p_LicenseInfoFromFiles [("Apache-1.1"); ("Apache-2.0"); ("GPL-2.0-or-later")]
 (set_p_LicenseConcluded ("GPL-2.0-or-later")
 (set_p_SourceInfo ("this is a source comment")
 (set_p_HomePage ("http://example.com/p1")
 (set_p_Checksums [(set_ck_Value ("85ed0817af83a24ad8da68c2b5094de69833983c")
 (set_ck_Algorithm ("SHA1")
 zero_Checksum)); (set_ck_Value ("11b6d3ee554eedf79299905a98f9b9a04e498210b59f15094c916c91d150efcd")
 (set_ck_Algorithm ("SHA256")
 zero_Checksum)); (set_ck_Value ("624c1abb3664f4b35547e7c73864ad24")
 (set_ck_Algorithm ("MD5")
 zero_Checksum))]
 (set_p_VerificationCode (Some (set_vc_Value ("0123456789abcdef0123456789abcdef01234567")
 zero_VerificationCode))
 (set_p_IsFilesAnalyzedTagPresent false
 (set_p_FilesAnalyzed true
 (set_p_DownloadLocation ("http://example.com/p1/p1-0.1.0-master.tar.gz")
 (set_p_Originator (Some (set_or_Originator ("John Doe, Inc.")
 (set_or_OriginatorType ("Organization")
 zero_Originator)))
 (set_p_Supplier (Some (set_su_Supplier ("NOASSERTION")
 zero_Supplier))
 (set_p_FileName ("p1-0.1.0-master.tar.gz")
 (set_p_Version ("0.1.0")
 (set_p_SPDXIdentifier ("p1")
 (set_p_PackageName ("p1")
 zero_PackageOf)))))))))))))))))))))).
(** /repo/spdx/v2/v2_3/tagvalue/writer/save_package_test.go 161: TestSaverPackageSavesTextCombo2 *)
Example v23_PackageSavesTextCombo2 : bytes (render_package insertion_sorter V23 t75_pkg) = ("PackageName: p1
SPDXID: SPDXRef-p1
PackageVersion: 0.1.0
PackageFileName: p1-0.1.0-master.tar.gz
PackageSupplier: NOASSERTION
PackageOriginator: Organization: John Doe, Inc.
PackageDownloadLocation: http://example.com/p1/p1-0.1.0-master.tar.gz
PackageVerificationCode: 0123456789abcdef0123456789abcdef01234567
PackageChecksum: SHA1: 85ed0817af83a24ad8da68c2b5094de69833983c
PackageChecksum: SHA256: 11b6d3ee554eedf79299905a98f9b9a04e498210b59f15094c916c91d150efcd
PackageChecksum: MD5: 624c1abb3664f4b35547e7c73864ad24
PackageHomePage: http://example.com/p1
PackageSourceInfo: this is a source comment
PackageLicenseConcluded: GPL-2.0-or-later
PackageLicenseInfoFromFiles: Apache-1.1
PackageLicenseInfoFromFiles: Apache-2.0
PackageLicenseInfoFromFiles: GPL-2.0-or-later
PackageLicenseDeclared: Apache-2.0 OR GPL-2.0-or-later
PackageLicenseComments: this is a license comment(s)
PackageCopyrightText: Copyright (c) John Doe, Inc.
PackageSummary: this is a summary comment
PackageDescription: this is a description comment
PackageComment: this is a comment comment
PackageAttributionText: Include this notice in all advertising materials

").
Proof. vm_compute. reflexivity. Qed.
Definition t76_pkg : Package :=
 (set_p_AttributionTexts [("Include this notice in all advertising materials"); ("and also this notice"); ("and this multi-line notice
which goes across two lines")]
 (set_p_Comment ("this is a comment comment")
 (set_p_Description ("this is a description comment")
 (set_p_Summary ("this is a summary comment")
 (set_p_CopyrightText ("Copyright (c) John Doe, Inc.")
 (set_p_LicenseComments ("this is a license comment(s)")
 (set_p_LicenseDeclared ("Apache-2.0 OR GPL-2.0-or-later")
 (set_p_LicenseInfoFromFiles [("Apache-1.1"); ("Apache-2.0"); ("GPL-2.0-or-later")]
 (set_p_LicenseConcluded ("GPL-2.0-or-later")
 (set_p_SourceInfo ("this is a source comment")
 (set_p_HomePage ("http://example.com/p1")
 (set_p_Checksums [(set_ck_Value ("85ed0817af83a24ad8da68c2b5094de69833983c")
 (set_ck_Algorithm ("SHA1")
 zero_Checksum)); (set_ck_Value ("11b6d3ee554eedf79299905a98f9b9a04e498210b59f15094c916c91d150efcd")
 (set_ck_Algorithm ("SHA256")
 zero_Checksum)); (set_ck_Value ("624c1abb3664f4b35547e7c73864ad24")
 (set_ck_Algorithm ("MD5")
 zero_Checksum))]
 (set_p_VerificationCode (Some (set_vc_Value ("0123456789abcdef0123456789abcdef01234567")
 zero_VerificationCode))
 (set_p_IsFilesAnalyzedTagPresent true
 (set_p_FilesAnalyzed false
 (set_p_DownloadLocation ("http://example.com/p1/p1-0.1.0-master.tar.gz")
 (set_p_Originator (Some (set_or_Originator ("NOASSERTION")
 zero_Originator))
 (set_p_Supplier (Some (set_su_SupplierType ("Person")
 (set_su_Supplier ("John Doe")
 zero_Supplier)))
 (set_p_FileName ("p1-0.1.0-master.tar.gz")
 (set_p_Version ("0.1.0")
 (set_p_SPDXIdentifier ("p1")
 (set_p_PackageName ("p1")
 zero_PackageOf)))))))))))))))))))))).
(** /repo/spdx/v2/v2_3/tagvalue/writer/save_package_test.go 251: TestSaverPackageSavesTextCombo3 *)
Example v23_PackageSavesTextCombo3 : bytes (render_package insertion_sorter V23 t76_pkg) = ("PackageName: p1
SPDXID: SPDXRef-p1
PackageVersion: 0.1.0
PackageFileName: p1-0.1.0-master.tar.gz
PackageSupplier: Person: John Doe
PackageOriginator: NOASSERTION
PackageDownloadLocation: http://example.com/p1/p1-0.1.0-master.tar.gz
FilesAnalyzed: false
PackageChecksum: SHA1: 85ed0817af83a24ad8da68c2b5094de69833983c
PackageChecksum: SHA256: 11b6d3ee554eedf79299905a98f9b9a04e498210b59f15094c916c91d150efcd
PackageChecksum: MD5: 624c1abb3664f4b35547e7c73864ad24
PackageHomePage: http://example.com/p1
PackageSourceInfo: this is a source comment
PackageLicenseConcluded: GPL-2.0-or-later
PackageLicenseDeclared: Apache-2.0 OR GPL-2.0-or-later
PackageLicenseComments: this is a license comment(s)
PackageCopyrightText: Copyright (c) John Doe, Inc.
PackageSummary: this is a summary comment
PackageDescription: this is a description comment
PackageComment: this is a comment comment
PackageAttributionText: Include this notice in all advertising materials
PackageAttributionText: and also this notice
PackageAttributionText: <text>and this multi-line notice
which goes across two lines</text>

").
Proof. vm_compute. reflexivity. Qed.
Definition t77_pkg : Package :=
 (set_p_CopyrightText ("Copyright (c) John Doe, Inc.")
 (set_p_LicenseDeclared ("Apache-2.0 OR GPL-2.0-or-later")
 (set_p_LicenseInfoFromFiles [("Apache-1.1"); ("Apache-2.0"); ("GPL-2.0-or-later")]
 (set_p_LicenseConcluded ("GPL-2.0-or-later")
 (set_p_IsFilesAnalyzedTagPresent true
 (set_p_FilesAnalyzed false
 (set_p_DownloadLocation ("http://example.com/p1/p1-0.1.0-master.tar.gz")
 (set_p_SPDXIdentifier ("p1")
 (set_p_PackageName ("p1")
 zero_PackageOf))))))))).
(** /repo/spdx/v2/v2_3/tagvalue/writer/save_package_test.go 351: TestSaverPackageSaveOmitsOptionalFieldsIfEmpty *)
Example v23_PackageSaveOmitsOptionalFieldsIfEmpty : bytes (render_package insertion_sorter V23 t77_pkg) = ("PackageName: p1
SPDXID: SPDXRef-p1
PackageDownloadLocation: http://example.com/p1/p1-0.1.0-master.tar.gz
FilesAnalyzed: false
PackageLicenseConcluded: GPL-2.0-or-later
PackageLicenseDeclared: Apache-2.0 OR GPL-2.0-or-later
PackageCopyrightText: Copyright (c) John Doe, Inc.

").
Proof. vm_compute. reflexivity. Qed.
Definition t78_f1 : File :=
 (set_f_CopyrightText ("Copyright (c) Jane Doe")
 (set_f_LicenseInfoInFiles [("Apache-2.0")]
 (set_f_LicenseConcluded ("Apache-2.0")
 (set_f_Checksums [(set_ck_Value ("85ed0817af83a24ad8da68c2b5094de69833983c")
 (set_ck_Algorithm ("SHA1")
 zero_Checksum))]
 (set_f_SPDXIdentifier ("File1231")
 (set_f_FileName ("/tmp/whatever1.txt")
 zero_FileOf)))))).
Definition t78_f2 : File :=
 (set_f_CopyrightText ("Copyright (c) John Doe")
 (set_f_LicenseInfoInFiles [("MIT")]
 (set_f_LicenseConcluded ("MIT")
 (set_f_Checksums [(set_ck_Value ("85ed0817af83a24ad8da68c2b5094de69833983d")
 (set_ck_Algorithm ("SHA1")
 zero_Checksum))]
 (set_f_SPDXIdentifier ("File1232")
 (set_f_FileName ("/tmp/whatever2.txt")
 zero_FileOf)))))).
Definition t78_pkg : Package :=
 (set_p_Files [t78_f1; t78_f2]
 (set_p_CopyrightText ("Copyright (c) John Doe, Inc.")
 (set_p_LicenseDeclared ("Apache-2.0 OR GPL-2.0-or-later")
 (set_p_LicenseInfoFromFiles [("Apache-1.1"); ("Apache-2.0"); ("GPL-2.0-or-later")]
 (set_p_LicenseConcluded ("GPL-2.0-or-later")
 (set_p_IsFilesAnalyzedTagPresent true
 (set_p_FilesAnalyzed false
 (set_p_DownloadLocation ("http://example.com/p1/p1-0.1.0-master.tar.gz")
 (set_p_SPDXIdentifier ("p1")
 (set_p_PackageName ("p1")
 zero_PackageOf)))))))))).
(** /repo/spdx/v2/v2_3/tagvalue/writer/save_package_test.go 397: TestSaverPackageSavesFilesIfPresent *)
Example v23_PackageSavesFilesIfPresent : bytes (render_package insertion_sorter V23 t78_pkg) = ("PackageName: p1
SPDXID: SPDXRef-p1
PackageDownloadLocation: http://example.com/p1/p1-0.1.0-master.tar.gz
FilesAnalyzed: false
PackageLicenseConcluded: GPL-2.0-or-later
PackageLicenseDeclared: Apache-2.0 OR GPL-2.0-or-later
PackageCopyrightText: Copyright (c) John Doe, Inc.

FileName: /tmp/whatever1.txt
SPDXID: SPDXRef-File1231
FileChecksum: SHA1: 85ed0817af83a24ad8da68c2b5094de69833983c
LicenseConcluded: Apache-2.0
LicenseInfoInFile: Apache-2.0
FileCopyrightText: Copyright (c) Jane Doe

FileName: /tmp/whatever2.txt
SPDXID: SPDXRef-File1232
FileChecksum: SHA1: 85ed0817af83a24ad8da68c2b5094de69833983d
LicenseConcluded: MIT
LicenseInfoInFile: MIT
FileCopyrightText: Copyright (c) John Doe

").
Proof. vm_compute. reflexivity. Qed.
Definition t79_pkg : Package :=
 (set_p_CopyrightText ("Copyright (c) John Doe, Inc.
Copyright Jane Doe")
 (set_p_LicenseDeclared ("Apache-2.0 OR GPL-2.0-or-later")
 (set_p_LicenseInfoFromFiles [("Apache-1.1"); ("Apache-2.0"); ("GPL-2.0-or-later")]
 (set_p_LicenseConcluded ("GPL-2.0-or-later")
 (set_p_IsFilesAnalyzedTagPresent true
 (set_p_FilesAnalyzed false
 (set_p_DownloadLocation ("http://example.com/p1/p1-0.1.0-master.tar.gz")
 (set_p_SPDXIdentifier ("p1")
 (set_p_PackageName ("p1")
 zero_PackageOf))))))))).
(** /repo/spdx/v2/v2_3/tagvalue/writer/save_package_test.go 489: TestSaverPackageWrapsMultiLine *)
Example v23_PackageWrapsMultiLine : bytes (render_package insertion_sorter V23 t79_pkg) = ("PackageName: p1
SPDXID: SPDXRef-p1
PackageDownloadLocation: http://example.com/p1/p1-0.1.0-master.tar.gz
FilesAnalyzed: false
PackageLicenseConcluded: GPL-2.0-or-later
PackageLicenseDeclared: Apache-2.0 OR GPL-2.0-or-later
PackageCopyrightText: <text>Copyright (c) John Doe, Inc.
Copyright Jane Doe</text>

").
Proof. vm_compute. reflexivity. Qed.
Definition t80_rln : Relationship :=
 (set_r_Comment ("this is a comment")
 (set_r_Relationship ("DESCRIBES")
 (set_r_RefB (MkDEID "" "2" "")
 (set_r_RefA (MkDEID "" "DOCUMENT" "")
 zero_Relationship)))).
(** /repo/spdx/v2/v2_3/tagvalue/writer/save_relationship_test.go 14: TestSaverRelationshipSavesText *)
Example v23_RelationshipSavesText : bytes (render_relationship t80_rln) = ("Relationship: SPDXRef-DOCUMENT DESCRIBES SPDXRef-2
RelationshipComment: this is a comment
").
Proof. vm_compute. reflexivity. Qed.
Definition t81_rln : Relationship :=
 (set_r_Relationship ("DESCRIBES")
 (set_r_RefB (MkDEID "" "2" "")
 (set_r_RefA (MkDEID "" "DOCUMENT" "")
 zero_Relationship))).
(** /repo/spdx/v2/v2_3/tagvalue/writer/save_relationship_test.go 42: TestSaverRelationshipOmitsOptionalFieldsIfEmpty *)
Example v23_RelationshipOmitsOptionalFieldsIfEmpty : bytes (render_relationship t81_rln) = ("Relationship: SPDXRef-DOCUMENT DESCRIBES SPDXRef-2
").
Proof. vm_compute. reflexivity. Qed.
Definition t82_rln : Relationship :=
 (set_r_Relationship ("DEPENDS_ON")
 (set_r_RefB (MkDEID "" "" "NONE")
 (set_r_RefA (MkDEID "" "PackageA" "")
 zero_Relationship))).
(** /repo/spdx/v2/v2_3/tagvalue/writer/save_relationship_test.go 67: TestSaverRelationshipCanHaveNONEOnRight *)
Example v23_RelationshipCanHaveNONEOnRight : bytes (render_relationship t82_rln) = ("Relationship: SPDXRef-PackageA DEPENDS_ON NONE
").
Proof. vm_compute. reflexivity. Qed.
Definition t83_rln : Relationship :=
 (set_r_Relationship ("DEPENDS_ON")
 (set_r_RefB (MkDEID "" "" "NOASSERTION")
 (set_r_RefA (MkDEID "" "PackageA" "")
 zero_Relationship))).
(** /repo/spdx/v2/v2_3/tagvalue/writer/save_relationship_test.go 92: TestSaverRelationshipCanHaveNOASSERTIONOnRight *)
Example v23_RelationshipCanHaveNOASSERTIONOnRight : bytes (render_relationship t83_rln) = ("Relationship: SPDXRef-PackageA DEPENDS_ON NOASSERTION
").
Proof. vm_compute. reflexivity. Qed.
Definition t84_rln : Relationship :=
 (set_r_Comment ("this is a
multi-line comment")
 (set_r_Relationship ("DESCRIBES")
 (set_r_RefB (MkDEID "" "2" "")
 (set_r_RefA (MkDEID "" "DOCUMENT" "")
 zero_Relationship)))).
(** /repo/spdx/v2/v2_3/tagvalue/writer/save_relationship_test.go 117: TestSaverRelationshipWrapsCommentMultiLine *)
Example v23_RelationshipWrapsCommentMultiLine : bytes (render_relationship t84_rln) = ("Relationship: SPDXRef-DOCUMENT DESCRIBES SPDXRef-2
RelationshipComment: <text>this is a
multi-line comment</text>
").
Proof. vm_compute. reflexivity. Qed.
Definition t85_rev : Review :=
 (set_rv_Comment ("this is a review comment")
 (set_rv_Date ("2018-10-14T10:28:00Z")
 (set_rv_ReviewerType ("Person")
 (set_rv_Reviewer ("John Doe")
 zero_Review)))).
(** /repo/spdx/v2/v2_3/tagvalue/writer/save_review_test.go 13: TestSaverReviewSavesText *)
Example v23_ReviewSavesText : bytes (render_review t85_rev) = ("Reviewer: Person: John Doe
ReviewDate: 2018-10-14T10:28:00Z
ReviewComment: this is a review comment

").
Proof. vm_compute. reflexivity. Qed.
Definition t86_rev : Review :=
 (set_rv_Date ("2018-10-14T10:28:00Z")
 (set_rv_ReviewerType ("Person")
 (set_rv_Reviewer ("John Doe")
 zero_Review))).
(** /repo/spdx/v2/v2_3/tagvalue/writer/save_review_test.go 42: TestSaverReviewOmitsOptionalFieldsIfEmpty *)
Example v23_ReviewOmitsOptionalFieldsIfEmpty : bytes (render_review t86_rev) = ("Reviewer: Person: John Doe
ReviewDate: 2018-10-14T10:28:00Z

").
Proof. vm_compute. reflexivity. Qed.
Definition t87_rev : Review :=
 (set_rv_Comment ("this is a
multi-line review comment")
 (set_rv_Date ("2018-10-14T10:28:00Z")
 (set_rv_ReviewerType ("Person")
 (set_rv_Reviewer ("John Doe")
 zero_Review)))).
(** /repo/spdx/v2/v2_3/tagvalue/writer/save_review_test.go 69: TestSaverReviewWrapsMultiLine *)
Example v23_ReviewWrapsMultiLine : bytes (render_review t87_rev) = ("Reviewer: Person: John Doe
ReviewDate: 2018-10-14T10:28:00Z
ReviewComment: <text>this is a
multi-line review comment</text>

").
Proof. vm_compute. reflexivity. Qed.
Definition t88_sn : Snippet :=
 (set_s_AttributionTexts [("some attributions")]
 (set_s_Name ("from John's program")
 (set_s_Comment ("this is a snippet comment")
 (set_s_CopyrightText ("Copyright (c) John Doe 20x6")
 (set_s_LicenseComments ("this is a comment(s) about the snippet license")
 (set_s_LicenseInfoInSnippet [("GPL-2.0-or-later"); ("MIT")]
 (set_s_LicenseConcluded ("GPL-2.0-or-later")
 (set_s_Ranges [(set_sr_EndPointer (set_rp_LineNumber (8)%Z
 zero_RangePointer)
 (set_sr_StartPointer (set_rp_LineNumber (3)%Z
 zero_RangePointer)
 zero_SnippetRange)); (set_sr_EndPointer (set_rp_Offset (209)%Z
 zero_RangePointer)
 (set_sr_StartPointer (set_rp_Offset (17)%Z
 zero_RangePointer)
 zero_SnippetRange))]
 (set_s_FromFile ("File292")
 (set_s_SPDXIdentifier ("Snippet17")
 zero_Snippet)))))))))).
(** /repo/spdx/v2/v2_3/tagvalue/writer/save_snippet_test.go 14: TestSaverSnippetSavesText *)
Example v23_SnippetSavesText : bytes (render_snippet V23 t88_sn) = ("SnippetSPDXID: SPDXRef-Snippet17
SnippetFromFileSPDXID: SPDXRef-File292
SnippetLineRange: 3:8
SnippetByteRange: 17:209
SnippetLicenseConcluded: GPL-2.0-or-later
LicenseInfoInSnippet: GPL-2.0-or-later
LicenseInfoInSnippet: MIT
SnippetLicenseComments: this is a comment(s) about the snippet license
SnippetCopyrightText: Copyright (c) John Doe 20x6
SnippetComment: this is a snippet comment
SnippetName: from John's program
SnippetAttributionText: some attributions

").
Proof. vm_compute. reflexivity. Qed.
Definition t89_sn : Snippet :=
 (set_s_CopyrightText ("Copyright (c) John Doe 20x6")
 (set_s_LicenseConcluded ("GPL-2.0-or-later")
 (set_s_Ranges [(set_sr_EndPointer (set_rp_Offset (209)%Z
 zero_RangePointer)
 (set_sr_StartPointer (set_rp_Offset (17)%Z
 zero_RangePointer)
 zero_SnippetRange))]
 (set_s_FromFile ("File292")
 (set_s_SPDXIdentifier ("Snippet17")
 zero_Snippet))))).
(** /repo/spdx/v2/v2_3/tagvalue/writer/save_snippet_test.go 70: TestSaverSnippetOmitsOptionalFieldsIfEmpty *)
Example v23_SnippetOmitsOptionalFieldsIfEmpty : bytes (render_snippet V23 t89_sn) = ("SnippetSPDXID: SPDXRef-Snippet17
SnippetFromFileSPDXID: SPDXRef-File292
SnippetByteRange: 17:209
SnippetLicenseConcluded: GPL-2.0-or-later
SnippetCopyrightText: Copyright (c) John Doe 20x6

").
Proof. vm_compute. reflexivity. Qed.
Definition t90_sn : Snippet :=
 (set_s_CopyrightText ("Copyright (c) John Doe 20x6
Copyright (c) John Doe 20x6")
 (set_s_LicenseConcluded ("GPL-2.0-or-later")
 (set_s_Ranges [(set_sr_EndPointer (set_rp_Offset (209)%Z
 zero_RangePointer)
 (set_sr_StartPointer (set_rp_Offset (17)%Z
 zero_RangePointer)
 zero_SnippetRange))]
 (set_s_FromFile ("File292")
 (set_s_SPDXIdentifier ("Snippet17")
 zero_Snippet))))).
(** /repo/spdx/v2/v2_3/tagvalue/writer/save_snippet_test.go 107: TestSaverSnippetWrapsCopyrightMultiline *)
Example v23_SnippetWrapsCopyrightMultiline : bytes (render_snippet V23 t90_sn) = ("SnippetSPDXID: SPDXRef-Snippet17
SnippetFromFileSPDXID: SPDXRef-File292
SnippetByteRange: 17:209
SnippetLicenseConcluded: GPL-2.0-or-later
SnippetCopyrightText: <text>Copyright (c) John Doe 20x6
Copyright (c) John Doe 20x6</text>

").
Proof. vm_compute. reflexivity. Qed.
