(** * SPDX data model (generated by tools/gen_types.py).

    One record per Go struct, one field per Go field, with functional setters
    [set_x] and the Go zero value [zero_T].
    The records are those of v2_3; v2_2 and v2_1 are the same minus the fields
    that do not exist there, which stay empty (the model of the version
    specific readers and writers never touches them).  Pointers to structs are
    [option].  The element types of slices of pointers are parameters: values
    where no element is ever nil ([File], [Package], [Document], the documents of
    the tag-value and RDF readers), options where elements may be nil ([JFile],
    [JPackage], [JDocument], the documents of the JSON reader), references while
    the parser is at work ([FileArena], [PackageArena], [DocumentArena]). *)
From Verif Require Import GoStr.

(** /repo/spdx/v2/common/identifier.go 118-122 (DocElementID) *)
Record DocElementID := MkDEID {
  de_DocumentRefID : string;
  de_ElementRefID : string;
  de_SpecialID : string
}.
Definition zero_DocElementID : DocElementID :=
  MkDEID "" "" "".
Definition set_de_DocumentRefID (v : string) (r : DocElementID) : DocElementID :=
  MkDEID v (de_ElementRefID r) (de_SpecialID r).
Definition set_de_ElementRefID (v : string) (r : DocElementID) : DocElementID :=
  MkDEID (de_DocumentRefID r) v (de_SpecialID r).
Definition set_de_SpecialID (v : string) (r : DocElementID) : DocElementID :=
  MkDEID (de_DocumentRefID r) (de_ElementRefID r) v.

(** /repo/spdx/v2/common/checksum.go 31-34 (Checksum) *)
Record Checksum := MkChecksum {
  ck_Algorithm : string;
  ck_Value : string
}.
Definition zero_Checksum : Checksum :=
  MkChecksum "" "".
Definition set_ck_Algorithm (v : string) (r : Checksum) : Checksum :=
  MkChecksum v (ck_Value r).
Definition set_ck_Value (v : string) (r : Checksum) : Checksum :=
  MkChecksum (ck_Algorithm r) v.

(** /repo/spdx/v2/common/creation_info.go 14-18 (Creator) *)
Record Creator := MkCreator {
  cr_Creator : string;
  cr_CreatorType : string
}.
Definition zero_Creator : Creator :=
  MkCreator "" "".
Definition set_cr_Creator (v : string) (r : Creator) : Creator :=
  MkCreator v (cr_CreatorType r).
Definition set_cr_CreatorType (v : string) (r : Creator) : Creator :=
  MkCreator (cr_Creator r) v.

(** /repo/spdx/v2/common/annotation.go 12-16 (Annotator) *)
Record Annotator := MkAnnotator {
  an_Annotator : string;
  an_AnnotatorType : string
}.
Definition zero_Annotator : Annotator :=
  MkAnnotator "" "".
Definition set_an_Annotator (v : string) (r : Annotator) : Annotator :=
  MkAnnotator v (an_AnnotatorType r).
Definition set_an_AnnotatorType (v : string) (r : Annotator) : Annotator :=
  MkAnnotator (an_Annotator r) v.

(** /repo/spdx/v2/common/package.go 12-17 (Supplier) *)
Record Supplier := MkSupplier {
  su_Supplier : string;
  su_SupplierType : string
}.
Definition zero_Supplier : Supplier :=
  MkSupplier "" "".
Definition set_su_Supplier (v : string) (r : Supplier) : Supplier :=
  MkSupplier v (su_SupplierType r).
Definition set_su_SupplierType (v : string) (r : Supplier) : Supplier :=
  MkSupplier (su_Supplier r) v.

(** /repo/spdx/v2/common/package.go 55-60 (Originator) *)
Record Originator := MkOriginator {
  or_Originator : string;
  or_OriginatorType : string
}.
Definition zero_Originator : Originator :=
  MkOriginator "" "".
Definition set_or_Originator (v : string) (r : Originator) : Originator :=
  MkOriginator v (or_OriginatorType r).
Definition set_or_OriginatorType (v : string) (r : Originator) : Originator :=
  MkOriginator (or_Originator r) v.

(** /repo/spdx/v2/common/package.go 96-104 (PackageVerificationCode) *)
Record VerificationCode := MkVC {
  vc_Value : string;
  vc_ExcludedFiles : list string
}.
Definition zero_VerificationCode : VerificationCode :=
  MkVC "" [].
Definition set_vc_Value (v : string) (r : VerificationCode) : VerificationCode :=
  MkVC v (vc_ExcludedFiles r).
Definition set_vc_ExcludedFiles (v : list string) (r : VerificationCode) : VerificationCode :=
  MkVC (vc_Value r) v.

(** /repo/spdx/v2/common/snippet.go 5-15 (SnippetRangePointer) *)
Record RangePointer := MkRP {
  rp_Offset : Z;
  rp_LineNumber : Z;
  rp_FileSPDXIdentifier : string
}.
Definition zero_RangePointer : RangePointer :=
  MkRP 0%Z 0%Z "".
Definition set_rp_Offset (v : Z) (r : RangePointer) : RangePointer :=
  MkRP v (rp_LineNumber r) (rp_FileSPDXIdentifier r).
Definition set_rp_LineNumber (v : Z) (r : RangePointer) : RangePointer :=
  MkRP (rp_Offset r) v (rp_FileSPDXIdentifier r).
Definition set_rp_FileSPDXIdentifier (v : string) (r : RangePointer) : RangePointer :=
  MkRP (rp_Offset r) (rp_LineNumber r) v.

(** /repo/spdx/v2/common/snippet.go 17-20 (SnippetRange) *)
Record SnippetRange := MkRange {
  sr_StartPointer : RangePointer;
  sr_EndPointer : RangePointer
}.
Definition zero_SnippetRange : SnippetRange :=
  MkRange zero_RangePointer zero_RangePointer.
Definition set_sr_StartPointer (v : RangePointer) (r : SnippetRange) : SnippetRange :=
  MkRange v (sr_EndPointer r).
Definition set_sr_EndPointer (v : RangePointer) (r : SnippetRange) : SnippetRange :=
  MkRange (sr_StartPointer r) v.

(** /repo/spdx/v2/v2_3/document.go 18-29 (ExternalDocumentRef) *)
Record ExternalDocumentRef := MkEDR {
  edr_DocumentRefID : string;
  edr_URI : string;
  edr_Checksum : Checksum
}.
Definition zero_ExternalDocumentRef : ExternalDocumentRef :=
  MkEDR "" "" zero_Checksum.
Definition set_edr_DocumentRefID (v : string) (r : ExternalDocumentRef) : ExternalDocumentRef :=
  MkEDR v (edr_URI r) (edr_Checksum r).
Definition set_edr_URI (v : string) (r : ExternalDocumentRef) : ExternalDocumentRef :=
  MkEDR (edr_DocumentRefID r) v (edr_Checksum r).
Definition set_edr_Checksum (v : Checksum) (r : ExternalDocumentRef) : ExternalDocumentRef :=
  MkEDR (edr_DocumentRefID r) (edr_URI r) v.

(** /repo/spdx/v2/v2_3/creation_info.go 10-27 (CreationInfo) *)
Record CreationInfo := MkCI {
  ci_LicenseListVersion : string;
  ci_Creators : list Creator;
  ci_Created : string;
  ci_CreatorComment : string
}.
Definition zero_CreationInfo : CreationInfo :=
  MkCI "" [] "" "".
Definition set_ci_LicenseListVersion (v : string) (r : CreationInfo) : CreationInfo :=
  MkCI v (ci_Creators r) (ci_Created r) (ci_CreatorComment r).
Definition set_ci_Creators (v : list Creator) (r : CreationInfo) : CreationInfo :=
  MkCI (ci_LicenseListVersion r) v (ci_Created r) (ci_CreatorComment r).
Definition set_ci_Created (v : string) (r : CreationInfo) : CreationInfo :=
  MkCI (ci_LicenseListVersion r) (ci_Creators r) v (ci_CreatorComment r).
Definition set_ci_CreatorComment (v : string) (r : CreationInfo) : CreationInfo :=
  MkCI (ci_LicenseListVersion r) (ci_Creators r) (ci_Created r) v.

(** /repo/spdx/v2/v2_3/package.go 179-194 (PackageExternalReference) *)
Record ExternalRef := MkER {
  er_Category : string;
  er_RefType : string;
  er_Locator : string;
  er_Comment : string
}.
Definition zero_ExternalRef : ExternalRef :=
  MkER "" "" "" "".
Definition set_er_Category (v : string) (r : ExternalRef) : ExternalRef :=
  MkER v (er_RefType r) (er_Locator r) (er_Comment r).
Definition set_er_RefType (v : string) (r : ExternalRef) : ExternalRef :=
  MkER (er_Category r) v (er_Locator r) (er_Comment r).
Definition set_er_Locator (v : string) (r : ExternalRef) : ExternalRef :=
  MkER (er_Category r) (er_RefType r) v (er_Comment r).
Definition set_er_Comment (v : string) (r : ExternalRef) : ExternalRef :=
  MkER (er_Category r) (er_RefType r) (er_Locator r) v.

(** /repo/spdx/v2/v2_3/relationship.go 10-24 (Relationship) *)
Record Relationship := MkRln {
  r_RefA : DocElementID;
  r_RefB : DocElementID;
  r_Relationship : string;
  r_Comment : string
}.
Definition zero_Relationship : Relationship :=
  MkRln zero_DocElementID zero_DocElementID "" "".
Definition set_r_RefA (v : DocElementID) (r : Relationship) : Relationship :=
  MkRln v (r_RefB r) (r_Relationship r) (r_Comment r).
Definition set_r_RefB (v : DocElementID) (r : Relationship) : Relationship :=
  MkRln (r_RefA r) v (r_Relationship r) (r_Comment r).
Definition set_r_Relationship (v : string) (r : Relationship) : Relationship :=
  MkRln (r_RefA r) (r_RefB r) v (r_Comment r).
Definition set_r_Comment (v : string) (r : Relationship) : Relationship :=
  MkRln (r_RefA r) (r_RefB r) (r_Relationship r) v.

(** /repo/spdx/v2/v2_3/annotation.go 10-31 (Annotation) *)
Record Annotation := MkAnn {
  a_Annotator : Annotator;
  a_Date : string;
  a_Type : string;
  a_SPDXIdentifier : DocElementID;
  a_Comment : string
}.
Definition zero_Annotation : Annotation :=
  MkAnn zero_Annotator "" "" zero_DocElementID "".
Definition set_a_Annotator (v : Annotator) (r : Annotation) : Annotation :=
  MkAnn v (a_Date r) (a_Type r) (a_SPDXIdentifier r) (a_Comment r).
Definition set_a_Date (v : string) (r : Annotation) : Annotation :=
  MkAnn (a_Annotator r) v (a_Type r) (a_SPDXIdentifier r) (a_Comment r).
Definition set_a_Type (v : string) (r : Annotation) : Annotation :=
  MkAnn (a_Annotator r) (a_Date r) v (a_SPDXIdentifier r) (a_Comment r).
Definition set_a_SPDXIdentifier (v : DocElementID) (r : Annotation) : Annotation :=
  MkAnn (a_Annotator r) (a_Date r) (a_Type r) v (a_Comment r).
Definition set_a_Comment (v : string) (r : Annotation) : Annotation :=
  MkAnn (a_Annotator r) (a_Date r) (a_Type r) (a_SPDXIdentifier r) v.

(** /repo/spdx/v2/v2_3/review.go 7-25 (Review) *)
Record Review := MkRev {
  rv_Reviewer : string;
  rv_ReviewerType : string;
  rv_Date : string;
  rv_Comment : string
}.
Definition zero_Review : Review :=
  MkRev "" "" "" "".
Definition set_rv_Reviewer (v : string) (r : Review) : Review :=
  MkRev v (rv_ReviewerType r) (rv_Date r) (rv_Comment r).
Definition set_rv_ReviewerType (v : string) (r : Review) : Review :=
  MkRev (rv_Reviewer r) v (rv_Date r) (rv_Comment r).
Definition set_rv_Date (v : string) (r : Review) : Review :=
  MkRev (rv_Reviewer r) (rv_ReviewerType r) v (rv_Comment r).
Definition set_rv_Comment (v : string) (r : Review) : Review :=
  MkRev (rv_Reviewer r) (rv_ReviewerType r) (rv_Date r) v.

(** /repo/spdx/v2/v2_3/other_license.go 6-30 (OtherLicense) *)
Record OtherLicense := MkOL {
  ol_LicenseIdentifier : string;
  ol_ExtractedText : string;
  ol_LicenseName : string;
  ol_CrossReferences : list string;
  ol_Comment : string
}.
Definition zero_OtherLicense : OtherLicense :=
  MkOL "" "" "" [] "".
Definition set_ol_LicenseIdentifier (v : string) (r : OtherLicense) : OtherLicense :=
  MkOL v (ol_ExtractedText r) (ol_LicenseName r) (ol_CrossReferences r) (ol_Comment r).
Definition set_ol_ExtractedText (v : string) (r : OtherLicense) : OtherLicense :=
  MkOL (ol_LicenseIdentifier r) v (ol_LicenseName r) (ol_CrossReferences r) (ol_Comment r).
Definition set_ol_LicenseName (v : string) (r : OtherLicense) : OtherLicense :=
  MkOL (ol_LicenseIdentifier r) (ol_ExtractedText r) v (ol_CrossReferences r) (ol_Comment r).
Definition set_ol_CrossReferences (v : list string) (r : OtherLicense) : OtherLicense :=
  MkOL (ol_LicenseIdentifier r) (ol_ExtractedText r) (ol_LicenseName r) v (ol_Comment r).
Definition set_ol_Comment (v : string) (r : OtherLicense) : OtherLicense :=
  MkOL (ol_LicenseIdentifier r) (ol_ExtractedText r) (ol_LicenseName r) (ol_CrossReferences r) v.

(** /repo/spdx/v2/v2_3/snippet.go 10-50 (Snippet) *)
Record Snippet := MkSnippet {
  s_SPDXIdentifier : string;
  s_FromFile : string;
  s_Ranges : list SnippetRange;
  s_LicenseConcluded : string;
  s_LicenseInfoInSnippet : list string;
  s_LicenseComments : string;
  s_CopyrightText : string;
  s_Comment : string;
  s_Name : string;
  s_AttributionTexts : list string
}.
Definition zero_Snippet : Snippet :=
  MkSnippet "" "" [] "" [] "" "" "" "" [].
Definition set_s_SPDXIdentifier (v : string) (r : Snippet) : Snippet :=
  MkSnippet v (s_FromFile r) (s_Ranges r) (s_LicenseConcluded r) (s_LicenseInfoInSnippet r) (s_LicenseComments r) (s_CopyrightText r) (s_Comment r) (s_Name r) (s_AttributionTexts r).
Definition set_s_FromFile (v : string) (r : Snippet) : Snippet :=
  MkSnippet (s_SPDXIdentifier r) v (s_Ranges r) (s_LicenseConcluded r) (s_LicenseInfoInSnippet r) (s_LicenseComments r) (s_CopyrightText r) (s_Comment r) (s_Name r) (s_AttributionTexts r).
Definition set_s_Ranges (v : list SnippetRange) (r : Snippet) : Snippet :=
  MkSnippet (s_SPDXIdentifier r) (s_FromFile r) v (s_LicenseConcluded r) (s_LicenseInfoInSnippet r) (s_LicenseComments r) (s_CopyrightText r) (s_Comment r) (s_Name r) (s_AttributionTexts r).
Definition set_s_LicenseConcluded (v : string) (r : Snippet) : Snippet :=
  MkSnippet (s_SPDXIdentifier r) (s_FromFile r) (s_Ranges r) v (s_LicenseInfoInSnippet r) (s_LicenseComments r) (s_CopyrightText r) (s_Comment r) (s_Name r) (s_AttributionTexts r).
Definition set_s_LicenseInfoInSnippet (v : list string) (r : Snippet) : Snippet :=
  MkSnippet (s_SPDXIdentifier r) (s_FromFile r) (s_Ranges r) (s_LicenseConcluded r) v (s_LicenseComments r) (s_CopyrightText r) (s_Comment r) (s_Name r) (s_AttributionTexts r).
Definition set_s_LicenseComments (v : string) (r : Snippet) : Snippet :=
  MkSnippet (s_SPDXIdentifier r) (s_FromFile r) (s_Ranges r) (s_LicenseConcluded r) (s_LicenseInfoInSnippet r) v (s_CopyrightText r) (s_Comment r) (s_Name r) (s_AttributionTexts r).
Definition set_s_CopyrightText (v : string) (r : Snippet) : Snippet :=
  MkSnippet (s_SPDXIdentifier r) (s_FromFile r) (s_Ranges r) (s_LicenseConcluded r) (s_LicenseInfoInSnippet r) (s_LicenseComments r) v (s_Comment r) (s_Name r) (s_AttributionTexts r).
Definition set_s_Comment (v : string) (r : Snippet) : Snippet :=
  MkSnippet (s_SPDXIdentifier r) (s_FromFile r) (s_Ranges r) (s_LicenseConcluded r) (s_LicenseInfoInSnippet r) (s_LicenseComments r) (s_CopyrightText r) v (s_Name r) (s_AttributionTexts r).
Definition set_s_Name (v : string) (r : Snippet) : Snippet :=
  MkSnippet (s_SPDXIdentifier r) (s_FromFile r) (s_Ranges r) (s_LicenseConcluded r) (s_LicenseInfoInSnippet r) (s_LicenseComments r) (s_CopyrightText r) (s_Comment r) v (s_AttributionTexts r).
Definition set_s_AttributionTexts (v : list string) (r : Snippet) : Snippet :=
  MkSnippet (s_SPDXIdentifier r) (s_FromFile r) (s_Ranges r) (s_LicenseConcluded r) (s_LicenseInfoInSnippet r) (s_LicenseComments r) (s_CopyrightText r) (s_Comment r) (s_Name r) v.

(** /repo/spdx/v2/v2_3/file.go 82-98 (ArtifactOfProject) *)
Record Artifact := MkArtifact {
  ar_Name : string;
  ar_HomePage : string;
  ar_URI : string
}.
Definition zero_Artifact : Artifact :=
  MkArtifact "" "" "".
Definition set_ar_Name (v : string) (r : Artifact) : Artifact :=
  MkArtifact v (ar_HomePage r) (ar_URI r).
Definition set_ar_HomePage (v : string) (r : Artifact) : Artifact :=
  MkArtifact (ar_Name r) v (ar_URI r).
Definition set_ar_URI (v : string) (r : Artifact) : Artifact :=
  MkArtifact (ar_Name r) (ar_HomePage r) v.

(** /repo/spdx/v2/v2_3/file.go 10-76 (File); the Snippets map is an association list *)
Record FileOf (SN : Type) (AR : Type) := MkFile {
  f_FileName : string;
  f_SPDXIdentifier : string;
  f_FileTypes : list string;
  f_Checksums : list Checksum;
  f_LicenseConcluded : string;
  f_LicenseInfoInFiles : list string;
  f_LicenseComments : string;
  f_CopyrightText : string;
  f_Artifacts : list AR;
  f_Comment : string;
  f_Notice : string;
  f_Contributors : list string;
  f_AttributionTexts : list string;
  f_Dependencies : list string;
  f_Snippets : list (string * SN);
  f_Annotations : list Annotation
}.
Arguments MkFile {SN} {AR}.
Arguments f_FileName {SN} {AR} _.
Arguments f_SPDXIdentifier {SN} {AR} _.
Arguments f_FileTypes {SN} {AR} _.
Arguments f_Checksums {SN} {AR} _.
Arguments f_LicenseConcluded {SN} {AR} _.
Arguments f_LicenseInfoInFiles {SN} {AR} _.
Arguments f_LicenseComments {SN} {AR} _.
Arguments f_CopyrightText {SN} {AR} _.
Arguments f_Artifacts {SN} {AR} _.
Arguments f_Comment {SN} {AR} _.
Arguments f_Notice {SN} {AR} _.
Arguments f_Contributors {SN} {AR} _.
Arguments f_AttributionTexts {SN} {AR} _.
Arguments f_Dependencies {SN} {AR} _.
Arguments f_Snippets {SN} {AR} _.
Arguments f_Annotations {SN} {AR} _.
Definition zero_FileOf {SN : Type} {AR : Type} : FileOf SN AR :=
  MkFile "" "" [] [] "" [] "" "" [] "" "" [] [] [] [] [].
Definition set_f_FileName {SN : Type} {AR : Type} (v : string) (r : FileOf SN AR) : FileOf SN AR :=
  MkFile v (f_SPDXIdentifier r) (f_FileTypes r) (f_Checksums r) (f_LicenseConcluded r) (f_LicenseInfoInFiles r) (f_LicenseComments r) (f_CopyrightText r) (f_Artifacts r) (f_Comment r) (f_Notice r) (f_Contributors r) (f_AttributionTexts r) (f_Dependencies r) (f_Snippets r) (f_Annotations r).
Definition set_f_SPDXIdentifier {SN : Type} {AR : Type} (v : string) (r : FileOf SN AR) : FileOf SN AR :=
  MkFile (f_FileName r) v (f_FileTypes r) (f_Checksums r) (f_LicenseConcluded r) (f_LicenseInfoInFiles r) (f_LicenseComments r) (f_CopyrightText r) (f_Artifacts r) (f_Comment r) (f_Notice r) (f_Contributors r) (f_AttributionTexts r) (f_Dependencies r) (f_Snippets r) (f_Annotations r).
Definition set_f_FileTypes {SN : Type} {AR : Type} (v : list string) (r : FileOf SN AR) : FileOf SN AR :=
  MkFile (f_FileName r) (f_SPDXIdentifier r) v (f_Checksums r) (f_LicenseConcluded r) (f_LicenseInfoInFiles r) (f_LicenseComments r) (f_CopyrightText r) (f_Artifacts r) (f_Comment r) (f_Notice r) (f_Contributors r) (f_AttributionTexts r) (f_Dependencies r) (f_Snippets r) (f_Annotations r).
Definition set_f_Checksums {SN : Type} {AR : Type} (v : list Checksum) (r : FileOf SN AR) : FileOf SN AR :=
  MkFile (f_FileName r) (f_SPDXIdentifier r) (f_FileTypes r) v (f_LicenseConcluded r) (f_LicenseInfoInFiles r) (f_LicenseComments r) (f_CopyrightText r) (f_Artifacts r) (f_Comment r) (f_Notice r) (f_Contributors r) (f_AttributionTexts r) (f_Dependencies r) (f_Snippets r) (f_Annotations r).
Definition set_f_LicenseConcluded {SN : Type} {AR : Type} (v : string) (r : FileOf SN AR) : FileOf SN AR :=
  MkFile (f_FileName r) (f_SPDXIdentifier r) (f_FileTypes r) (f_Checksums r) v (f_LicenseInfoInFiles r) (f_LicenseComments r) (f_CopyrightText r) (f_Artifacts r) (f_Comment r) (f_Notice r) (f_Contributors r) (f_AttributionTexts r) (f_Dependencies r) (f_Snippets r) (f_Annotations r).
Definition set_f_LicenseInfoInFiles {SN : Type} {AR : Type} (v : list string) (r : FileOf SN AR) : FileOf SN AR :=
  MkFile (f_FileName r) (f_SPDXIdentifier r) (f_FileTypes r) (f_Checksums r) (f_LicenseConcluded r) v (f_LicenseComments r) (f_CopyrightText r) (f_Artifacts r) (f_Comment r) (f_Notice r) (f_Contributors r) (f_AttributionTexts r) (f_Dependencies r) (f_Snippets r) (f_Annotations r).
Definition set_f_LicenseComments {SN : Type} {AR : Type} (v : string) (r : FileOf SN AR) : FileOf SN AR :=
  MkFile (f_FileName r) (f_SPDXIdentifier r) (f_FileTypes r) (f_Checksums r) (f_LicenseConcluded r) (f_LicenseInfoInFiles r) v (f_CopyrightText r) (f_Artifacts r) (f_Comment r) (f_Notice r) (f_Contributors r) (f_AttributionTexts r) (f_Dependencies r) (f_Snippets r) (f_Annotations r).
Definition set_f_CopyrightText {SN : Type} {AR : Type} (v : string) (r : FileOf SN AR) : FileOf SN AR :=
  MkFile (f_FileName r) (f_SPDXIdentifier r) (f_FileTypes r) (f_Checksums r) (f_LicenseConcluded r) (f_LicenseInfoInFiles r) (f_LicenseComments r) v (f_Artifacts r) (f_Comment r) (f_Notice r) (f_Contributors r) (f_AttributionTexts r) (f_Dependencies r) (f_Snippets r) (f_Annotations r).
Definition set_f_Artifacts {SN : Type} {AR : Type} (v : list AR) (r : FileOf SN AR) : FileOf SN AR :=
  MkFile (f_FileName r) (f_SPDXIdentifier r) (f_FileTypes r) (f_Checksums r) (f_LicenseConcluded r) (f_LicenseInfoInFiles r) (f_LicenseComments r) (f_CopyrightText r) v (f_Comment r) (f_Notice r) (f_Contributors r) (f_AttributionTexts r) (f_Dependencies r) (f_Snippets r) (f_Annotations r).
Definition set_f_Comment {SN : Type} {AR : Type} (v : string) (r : FileOf SN AR) : FileOf SN AR :=
  MkFile (f_FileName r) (f_SPDXIdentifier r) (f_FileTypes r) (f_Checksums r) (f_LicenseConcluded r) (f_LicenseInfoInFiles r) (f_LicenseComments r) (f_CopyrightText r) (f_Artifacts r) v (f_Notice r) (f_Contributors r) (f_AttributionTexts r) (f_Dependencies r) (f_Snippets r) (f_Annotations r).
Definition set_f_Notice {SN : Type} {AR : Type} (v : string) (r : FileOf SN AR) : FileOf SN AR :=
  MkFile (f_FileName r) (f_SPDXIdentifier r) (f_FileTypes r) (f_Checksums r) (f_LicenseConcluded r) (f_LicenseInfoInFiles r) (f_LicenseComments r) (f_CopyrightText r) (f_Artifacts r) (f_Comment r) v (f_Contributors r) (f_AttributionTexts r) (f_Dependencies r) (f_Snippets r) (f_Annotations r).
Definition set_f_Contributors {SN : Type} {AR : Type} (v : list string) (r : FileOf SN AR) : FileOf SN AR :=
  MkFile (f_FileName r) (f_SPDXIdentifier r) (f_FileTypes r) (f_Checksums r) (f_LicenseConcluded r) (f_LicenseInfoInFiles r) (f_LicenseComments r) (f_CopyrightText r) (f_Artifacts r) (f_Comment r) (f_Notice r) v (f_AttributionTexts r) (f_Dependencies r) (f_Snippets r) (f_Annotations r).
Definition set_f_AttributionTexts {SN : Type} {AR : Type} (v : list string) (r : FileOf SN AR) : FileOf SN AR :=
  MkFile (f_FileName r) (f_SPDXIdentifier r) (f_FileTypes r) (f_Checksums r) (f_LicenseConcluded r) (f_LicenseInfoInFiles r) (f_LicenseComments r) (f_CopyrightText r) (f_Artifacts r) (f_Comment r) (f_Notice r) (f_Contributors r) v (f_Dependencies r) (f_Snippets r) (f_Annotations r).
Definition set_f_Dependencies {SN : Type} {AR : Type} (v : list string) (r : FileOf SN AR) : FileOf SN AR :=
  MkFile (f_FileName r) (f_SPDXIdentifier r) (f_FileTypes r) (f_Checksums r) (f_LicenseConcluded r) (f_LicenseInfoInFiles r) (f_LicenseComments r) (f_CopyrightText r) (f_Artifacts r) (f_Comment r) (f_Notice r) (f_Contributors r) (f_AttributionTexts r) v (f_Snippets r) (f_Annotations r).
Definition set_f_Snippets {SN : Type} {AR : Type} (v : list (string * SN)) (r : FileOf SN AR) : FileOf SN AR :=
  MkFile (f_FileName r) (f_SPDXIdentifier r) (f_FileTypes r) (f_Checksums r) (f_LicenseConcluded r) (f_LicenseInfoInFiles r) (f_LicenseComments r) (f_CopyrightText r) (f_Artifacts r) (f_Comment r) (f_Notice r) (f_Contributors r) (f_AttributionTexts r) (f_Dependencies r) v (f_Annotations r).
Definition set_f_Annotations {SN : Type} {AR : Type} (v : list Annotation) (r : FileOf SN AR) : FileOf SN AR :=
  MkFile (f_FileName r) (f_SPDXIdentifier r) (f_FileTypes r) (f_Checksums r) (f_LicenseConcluded r) (f_LicenseInfoInFiles r) (f_LicenseComments r) (f_CopyrightText r) (f_Artifacts r) (f_Comment r) (f_Notice r) (f_Contributors r) (f_AttributionTexts r) (f_Dependencies r) (f_Snippets r) v.

(** /repo/spdx/v2/v2_3/package.go 14-142 (Package), without the unexported hasFiles *)
Record PackageOf (FI : Type) (ER : Type) := MkPackage {
  p_IsUnpackaged : bool;
  p_PackageName : string;
  p_SPDXIdentifier : string;
  p_Version : string;
  p_FileName : string;
  p_Supplier : option Supplier;
  p_Originator : option Originator;
  p_DownloadLocation : string;
  p_FilesAnalyzed : bool;
  p_IsFilesAnalyzedTagPresent : bool;
  p_VerificationCode : option VerificationCode;
  p_Checksums : list Checksum;
  p_HomePage : string;
  p_SourceInfo : string;
  p_LicenseConcluded : string;
  p_LicenseInfoFromFiles : list string;
  p_LicenseDeclared : string;
  p_LicenseComments : string;
  p_CopyrightText : string;
  p_Summary : string;
  p_Description : string;
  p_Comment : string;
  p_ExternalReferences : list ER;
  p_AttributionTexts : list string;
  p_PrimaryPackagePurpose : string;
  p_ReleaseDate : string;
  p_BuiltDate : string;
  p_ValidUntilDate : string;
  p_Files : list FI;
  p_Annotations : list Annotation
}.
Arguments MkPackage {FI} {ER}.
Arguments p_IsUnpackaged {FI} {ER} _.
Arguments p_PackageName {FI} {ER} _.
Arguments p_SPDXIdentifier {FI} {ER} _.
Arguments p_Version {FI} {ER} _.
Arguments p_FileName {FI} {ER} _.
Arguments p_Supplier {FI} {ER} _.
Arguments p_Originator {FI} {ER} _.
Arguments p_DownloadLocation {FI} {ER} _.
Arguments p_FilesAnalyzed {FI} {ER} _.
Arguments p_IsFilesAnalyzedTagPresent {FI} {ER} _.
Arguments p_VerificationCode {FI} {ER} _.
Arguments p_Checksums {FI} {ER} _.
Arguments p_HomePage {FI} {ER} _.
Arguments p_SourceInfo {FI} {ER} _.
Arguments p_LicenseConcluded {FI} {ER} _.
Arguments p_LicenseInfoFromFiles {FI} {ER} _.
Arguments p_LicenseDeclared {FI} {ER} _.
Arguments p_LicenseComments {FI} {ER} _.
Arguments p_CopyrightText {FI} {ER} _.
Arguments p_Summary {FI} {ER} _.
Arguments p_Description {FI} {ER} _.
Arguments p_Comment {FI} {ER} _.
Arguments p_ExternalReferences {FI} {ER} _.
Arguments p_AttributionTexts {FI} {ER} _.
Arguments p_PrimaryPackagePurpose {FI} {ER} _.
Arguments p_ReleaseDate {FI} {ER} _.
Arguments p_BuiltDate {FI} {ER} _.
Arguments p_ValidUntilDate {FI} {ER} _.
Arguments p_Files {FI} {ER} _.
Arguments p_Annotations {FI} {ER} _.
Definition zero_PackageOf {FI : Type} {ER : Type} : PackageOf FI ER :=
  MkPackage false "" "" "" "" None None "" false false None [] "" "" "" [] "" "" "" "" "" "" [] [] "" "" "" "" [] [].
Definition set_p_IsUnpackaged {FI : Type} {ER : Type} (v : bool) (r : PackageOf FI ER) : PackageOf FI ER :=
  MkPackage v (p_PackageName r) (p_SPDXIdentifier r) (p_Version r) (p_FileName r) (p_Supplier r) (p_Originator r) (p_DownloadLocation r) (p_FilesAnalyzed r) (p_IsFilesAnalyzedTagPresent r) (p_VerificationCode r) (p_Checksums r) (p_HomePage r) (p_SourceInfo r) (p_LicenseConcluded r) (p_LicenseInfoFromFiles r) (p_LicenseDeclared r) (p_LicenseComments r) (p_CopyrightText r) (p_Summary r) (p_Description r) (p_Comment r) (p_ExternalReferences r) (p_AttributionTexts r) (p_PrimaryPackagePurpose r) (p_ReleaseDate r) (p_BuiltDate r) (p_ValidUntilDate r) (p_Files r) (p_Annotations r).
Definition set_p_PackageName {FI : Type} {ER : Type} (v : string) (r : PackageOf FI ER) : PackageOf FI ER :=
  MkPackage (p_IsUnpackaged r) v (p_SPDXIdentifier r) (p_Version r) (p_FileName r) (p_Supplier r) (p_Originator r) (p_DownloadLocation r) (p_FilesAnalyzed r) (p_IsFilesAnalyzedTagPresent r) (p_VerificationCode r) (p_Checksums r) (p_HomePage r) (p_SourceInfo r) (p_LicenseConcluded r) (p_LicenseInfoFromFiles r) (p_LicenseDeclared r) (p_LicenseComments r) (p_CopyrightText r) (p_Summary r) (p_Description r) (p_Comment r) (p_ExternalReferences r) (p_AttributionTexts r) (p_PrimaryPackagePurpose r) (p_ReleaseDate r) (p_BuiltDate r) (p_ValidUntilDate r) (p_Files r) (p_Annotations r).
Definition set_p_SPDXIdentifier {FI : Type} {ER : Type} (v : string) (r : PackageOf FI ER) : PackageOf FI ER :=
  MkPackage (p_IsUnpackaged r) (p_PackageName r) v (p_Version r) (p_FileName r) (p_Supplier r) (p_Originator r) (p_DownloadLocation r) (p_FilesAnalyzed r) (p_IsFilesAnalyzedTagPresent r) (p_VerificationCode r) (p_Checksums r) (p_HomePage r) (p_SourceInfo r) (p_LicenseConcluded r) (p_LicenseInfoFromFiles r) (p_LicenseDeclared r) (p_LicenseComments r) (p_CopyrightText r) (p_Summary r) (p_Description r) (p_Comment r) (p_ExternalReferences r) (p_AttributionTexts r) (p_PrimaryPackagePurpose r) (p_ReleaseDate r) (p_BuiltDate r) (p_ValidUntilDate r) (p_Files r) (p_Annotations r).
Definition set_p_Version {FI : Type} {ER : Type} (v : string) (r : PackageOf FI ER) : PackageOf FI ER :=
  MkPackage (p_IsUnpackaged r) (p_PackageName r) (p_SPDXIdentifier r) v (p_FileName r) (p_Supplier r) (p_Originator r) (p_DownloadLocation r) (p_FilesAnalyzed r) (p_IsFilesAnalyzedTagPresent r) (p_VerificationCode r) (p_Checksums r) (p_HomePage r) (p_SourceInfo r) (p_LicenseConcluded r) (p_LicenseInfoFromFiles r) (p_LicenseDeclared r) (p_LicenseComments r) (p_CopyrightText r) (p_Summary r) (p_Description r) (p_Comment r) (p_ExternalReferences r) (p_AttributionTexts r) (p_PrimaryPackagePurpose r) (p_ReleaseDate r) (p_BuiltDate r) (p_ValidUntilDate r) (p_Files r) (p_Annotations r).
Definition set_p_FileName {FI : Type} {ER : Type} (v : string) (r : PackageOf FI ER) : PackageOf FI ER :=
  MkPackage (p_IsUnpackaged r) (p_PackageName r) (p_SPDXIdentifier r) (p_Version r) v (p_Supplier r) (p_Originator r) (p_DownloadLocation r) (p_FilesAnalyzed r) (p_IsFilesAnalyzedTagPresent r) (p_VerificationCode r) (p_Checksums r) (p_HomePage r) (p_SourceInfo r) (p_LicenseConcluded r) (p_LicenseInfoFromFiles r) (p_LicenseDeclared r) (p_LicenseComments r) (p_CopyrightText r) (p_Summary r) (p_Description r) (p_Comment r) (p_ExternalReferences r) (p_AttributionTexts r) (p_PrimaryPackagePurpose r) (p_ReleaseDate r) (p_BuiltDate r) (p_ValidUntilDate r) (p_Files r) (p_Annotations r).
Definition set_p_Supplier {FI : Type} {ER : Type} (v : option Supplier) (r : PackageOf FI ER) : PackageOf FI ER :=
  MkPackage (p_IsUnpackaged r) (p_PackageName r) (p_SPDXIdentifier r) (p_Version r) (p_FileName r) v (p_Originator r) (p_DownloadLocation r) (p_FilesAnalyzed r) (p_IsFilesAnalyzedTagPresent r) (p_VerificationCode r) (p_Checksums r) (p_HomePage r) (p_SourceInfo r) (p_LicenseConcluded r) (p_LicenseInfoFromFiles r) (p_LicenseDeclared r) (p_LicenseComments r) (p_CopyrightText r) (p_Summary r) (p_Description r) (p_Comment r) (p_ExternalReferences r) (p_AttributionTexts r) (p_PrimaryPackagePurpose r) (p_ReleaseDate r) (p_BuiltDate r) (p_ValidUntilDate r) (p_Files r) (p_Annotations r).
Definition set_p_Originator {FI : Type} {ER : Type} (v : option Originator) (r : PackageOf FI ER) : PackageOf FI ER :=
  MkPackage (p_IsUnpackaged r) (p_PackageName r) (p_SPDXIdentifier r) (p_Version r) (p_FileName r) (p_Supplier r) v (p_DownloadLocation r) (p_FilesAnalyzed r) (p_IsFilesAnalyzedTagPresent r) (p_VerificationCode r) (p_Checksums r) (p_HomePage r) (p_SourceInfo r) (p_LicenseConcluded r) (p_LicenseInfoFromFiles r) (p_LicenseDeclared r) (p_LicenseComments r) (p_CopyrightText r) (p_Summary r) (p_Description r) (p_Comment r) (p_ExternalReferences r) (p_AttributionTexts r) (p_PrimaryPackagePurpose r) (p_ReleaseDate r) (p_BuiltDate r) (p_ValidUntilDate r) (p_Files r) (p_Annotations r).
Definition set_p_DownloadLocation {FI : Type} {ER : Type} (v : string) (r : PackageOf FI ER) : PackageOf FI ER :=
  MkPackage (p_IsUnpackaged r) (p_PackageName r) (p_SPDXIdentifier r) (p_Version r) (p_FileName r) (p_Supplier r) (p_Originator r) v (p_FilesAnalyzed r) (p_IsFilesAnalyzedTagPresent r) (p_VerificationCode r) (p_Checksums r) (p_HomePage r) (p_SourceInfo r) (p_LicenseConcluded r) (p_LicenseInfoFromFiles r) (p_LicenseDeclared r) (p_LicenseComments r) (p_CopyrightText r) (p_Summary r) (p_Description r) (p_Comment r) (p_ExternalReferences r) (p_AttributionTexts r) (p_PrimaryPackagePurpose r) (p_ReleaseDate r) (p_BuiltDate r) (p_ValidUntilDate r) (p_Files r) (p_Annotations r).
Definition set_p_FilesAnalyzed {FI : Type} {ER : Type} (v : bool) (r : PackageOf FI ER) : PackageOf FI ER :=
  MkPackage (p_IsUnpackaged r) (p_PackageName r) (p_SPDXIdentifier r) (p_Version r) (p_FileName r) (p_Supplier r) (p_Originator r) (p_DownloadLocation r) v (p_IsFilesAnalyzedTagPresent r) (p_VerificationCode r) (p_Checksums r) (p_HomePage r) (p_SourceInfo r) (p_LicenseConcluded r) (p_LicenseInfoFromFiles r) (p_LicenseDeclared r) (p_LicenseComments r) (p_CopyrightText r) (p_Summary r) (p_Description r) (p_Comment r) (p_ExternalReferences r) (p_AttributionTexts r) (p_PrimaryPackagePurpose r) (p_ReleaseDate r) (p_BuiltDate r) (p_ValidUntilDate r) (p_Files r) (p_Annotations r).
Definition set_p_IsFilesAnalyzedTagPresent {FI : Type} {ER : Type} (v : bool) (r : PackageOf FI ER) : PackageOf FI ER :=
  MkPackage (p_IsUnpackaged r) (p_PackageName r) (p_SPDXIdentifier r) (p_Version r) (p_FileName r) (p_Supplier r) (p_Originator r) (p_DownloadLocation r) (p_FilesAnalyzed r) v (p_VerificationCode r) (p_Checksums r) (p_HomePage r) (p_SourceInfo r) (p_LicenseConcluded r) (p_LicenseInfoFromFiles r) (p_LicenseDeclared r) (p_LicenseComments r) (p_CopyrightText r) (p_Summary r) (p_Description r) (p_Comment r) (p_ExternalReferences r) (p_AttributionTexts r) (p_PrimaryPackagePurpose r) (p_ReleaseDate r) (p_BuiltDate r) (p_ValidUntilDate r) (p_Files r) (p_Annotations r).
Definition set_p_VerificationCode {FI : Type} {ER : Type} (v : option VerificationCode) (r : PackageOf FI ER) : PackageOf FI ER :=
  MkPackage (p_IsUnpackaged r) (p_PackageName r) (p_SPDXIdentifier r) (p_Version r) (p_FileName r) (p_Supplier r) (p_Originator r) (p_DownloadLocation r) (p_FilesAnalyzed r) (p_IsFilesAnalyzedTagPresent r) v (p_Checksums r) (p_HomePage r) (p_SourceInfo r) (p_LicenseConcluded r) (p_LicenseInfoFromFiles r) (p_LicenseDeclared r) (p_LicenseComments r) (p_CopyrightText r) (p_Summary r) (p_Description r) (p_Comment r) (p_ExternalReferences r) (p_AttributionTexts r) (p_PrimaryPackagePurpose r) (p_ReleaseDate r) (p_BuiltDate r) (p_ValidUntilDate r) (p_Files r) (p_Annotations r).
Definition set_p_Checksums {FI : Type} {ER : Type} (v : list Checksum) (r : PackageOf FI ER) : PackageOf FI ER :=
  MkPackage (p_IsUnpackaged r) (p_PackageName r) (p_SPDXIdentifier r) (p_Version r) (p_FileName r) (p_Supplier r) (p_Originator r) (p_DownloadLocation r) (p_FilesAnalyzed r) (p_IsFilesAnalyzedTagPresent r) (p_VerificationCode r) v (p_HomePage r) (p_SourceInfo r) (p_LicenseConcluded r) (p_LicenseInfoFromFiles r) (p_LicenseDeclared r) (p_LicenseComments r) (p_CopyrightText r) (p_Summary r) (p_Description r) (p_Comment r) (p_ExternalReferences r) (p_AttributionTexts r) (p_PrimaryPackagePurpose r) (p_ReleaseDate r) (p_BuiltDate r) (p_ValidUntilDate r) (p_Files r) (p_Annotations r).
Definition set_p_HomePage {FI : Type} {ER : Type} (v : string) (r : PackageOf FI ER) : PackageOf FI ER :=
  MkPackage (p_IsUnpackaged r) (p_PackageName r) (p_SPDXIdentifier r) (p_Version r) (p_FileName r) (p_Supplier r) (p_Originator r) (p_DownloadLocation r) (p_FilesAnalyzed r) (p_IsFilesAnalyzedTagPresent r) (p_VerificationCode r) (p_Checksums r) v (p_SourceInfo r) (p_LicenseConcluded r) (p_LicenseInfoFromFiles r) (p_LicenseDeclared r) (p_LicenseComments r) (p_CopyrightText r) (p_Summary r) (p_Description r) (p_Comment r) (p_ExternalReferences r) (p_AttributionTexts r) (p_PrimaryPackagePurpose r) (p_ReleaseDate r) (p_BuiltDate r) (p_ValidUntilDate r) (p_Files r) (p_Annotations r).
Definition set_p_SourceInfo {FI : Type} {ER : Type} (v : string) (r : PackageOf FI ER) : PackageOf FI ER :=
  MkPackage (p_IsUnpackaged r) (p_PackageName r) (p_SPDXIdentifier r) (p_Version r) (p_FileName r) (p_Supplier r) (p_Originator r) (p_DownloadLocation r) (p_FilesAnalyzed r) (p_IsFilesAnalyzedTagPresent r) (p_VerificationCode r) (p_Checksums r) (p_HomePage r) v (p_LicenseConcluded r) (p_LicenseInfoFromFiles r) (p_LicenseDeclared r) (p_LicenseComments r) (p_CopyrightText r) (p_Summary r) (p_Description r) (p_Comment r) (p_ExternalReferences r) (p_AttributionTexts r) (p_PrimaryPackagePurpose r) (p_ReleaseDate r) (p_BuiltDate r) (p_ValidUntilDate r) (p_Files r) (p_Annotations r).
Definition set_p_LicenseConcluded {FI : Type} {ER : Type} (v : string) (r : PackageOf FI ER) : PackageOf FI ER :=
  MkPackage (p_IsUnpackaged r) (p_PackageName r) (p_SPDXIdentifier r) (p_Version r) (p_FileName r) (p_Supplier r) (p_Originator r) (p_DownloadLocation r) (p_FilesAnalyzed r) (p_IsFilesAnalyzedTagPresent r) (p_VerificationCode r) (p_Checksums r) (p_HomePage r) (p_SourceInfo r) v (p_LicenseInfoFromFiles r) (p_LicenseDeclared r) (p_LicenseComments r) (p_CopyrightText r) (p_Summary r) (p_Description r) (p_Comment r) (p_ExternalReferences r) (p_AttributionTexts r) (p_PrimaryPackagePurpose r) (p_ReleaseDate r) (p_BuiltDate r) (p_ValidUntilDate r) (p_Files r) (p_Annotations r).
Definition set_p_LicenseInfoFromFiles {FI : Type} {ER : Type} (v : list string) (r : PackageOf FI ER) : PackageOf FI ER :=
  MkPackage (p_IsUnpackaged r) (p_PackageName r) (p_SPDXIdentifier r) (p_Version r) (p_FileName r) (p_Supplier r) (p_Originator r) (p_DownloadLocation r) (p_FilesAnalyzed r) (p_IsFilesAnalyzedTagPresent r) (p_VerificationCode r) (p_Checksums r) (p_HomePage r) (p_SourceInfo r) (p_LicenseConcluded r) v (p_LicenseDeclared r) (p_LicenseComments r) (p_CopyrightText r) (p_Summary r) (p_Description r) (p_Comment r) (p_ExternalReferences r) (p_AttributionTexts r) (p_PrimaryPackagePurpose r) (p_ReleaseDate r) (p_BuiltDate r) (p_ValidUntilDate r) (p_Files r) (p_Annotations r).
Definition set_p_LicenseDeclared {FI : Type} {ER : Type} (v : string) (r : PackageOf FI ER) : PackageOf FI ER :=
  MkPackage (p_IsUnpackaged r) (p_PackageName r) (p_SPDXIdentifier r) (p_Version r) (p_FileName r) (p_Supplier r) (p_Originator r) (p_DownloadLocation r) (p_FilesAnalyzed r) (p_IsFilesAnalyzedTagPresent r) (p_VerificationCode r) (p_Checksums r) (p_HomePage r) (p_SourceInfo r) (p_LicenseConcluded r) (p_LicenseInfoFromFiles r) v (p_LicenseComments r) (p_CopyrightText r) (p_Summary r) (p_Description r) (p_Comment r) (p_ExternalReferences r) (p_AttributionTexts r) (p_PrimaryPackagePurpose r) (p_ReleaseDate r) (p_BuiltDate r) (p_ValidUntilDate r) (p_Files r) (p_Annotations r).
Definition set_p_LicenseComments {FI : Type} {ER : Type} (v : string) (r : PackageOf FI ER) : PackageOf FI ER :=
  MkPackage (p_IsUnpackaged r) (p_PackageName r) (p_SPDXIdentifier r) (p_Version r) (p_FileName r) (p_Supplier r) (p_Originator r) (p_DownloadLocation r) (p_FilesAnalyzed r) (p_IsFilesAnalyzedTagPresent r) (p_VerificationCode r) (p_Checksums r) (p_HomePage r) (p_SourceInfo r) (p_LicenseConcluded r) (p_LicenseInfoFromFiles r) (p_LicenseDeclared r) v (p_CopyrightText r) (p_Summary r) (p_Description r) (p_Comment r) (p_ExternalReferences r) (p_AttributionTexts r) (p_PrimaryPackagePurpose r) (p_ReleaseDate r) (p_BuiltDate r) (p_ValidUntilDate r) (p_Files r) (p_Annotations r).
Definition set_p_CopyrightText {FI : Type} {ER : Type} (v : string) (r : PackageOf FI ER) : PackageOf FI ER :=
  MkPackage (p_IsUnpackaged r) (p_PackageName r) (p_SPDXIdentifier r) (p_Version r) (p_FileName r) (p_Supplier r) (p_Originator r) (p_DownloadLocation r) (p_FilesAnalyzed r) (p_IsFilesAnalyzedTagPresent r) (p_VerificationCode r) (p_Checksums r) (p_HomePage r) (p_SourceInfo r) (p_LicenseConcluded r) (p_LicenseInfoFromFiles r) (p_LicenseDeclared r) (p_LicenseComments r) v (p_Summary r) (p_Description r) (p_Comment r) (p_ExternalReferences r) (p_AttributionTexts r) (p_PrimaryPackagePurpose r) (p_ReleaseDate r) (p_BuiltDate r) (p_ValidUntilDate r) (p_Files r) (p_Annotations r).
Definition set_p_Summary {FI : Type} {ER : Type} (v : string) (r : PackageOf FI ER) : PackageOf FI ER :=
  MkPackage (p_IsUnpackaged r) (p_PackageName r) (p_SPDXIdentifier r) (p_Version r) (p_FileName r) (p_Supplier r) (p_Originator r) (p_DownloadLocation r) (p_FilesAnalyzed r) (p_IsFilesAnalyzedTagPresent r) (p_VerificationCode r) (p_Checksums r) (p_HomePage r) (p_SourceInfo r) (p_LicenseConcluded r) (p_LicenseInfoFromFiles r) (p_LicenseDeclared r) (p_LicenseComments r) (p_CopyrightText r) v (p_Description r) (p_Comment r) (p_ExternalReferences r) (p_AttributionTexts r) (p_PrimaryPackagePurpose r) (p_ReleaseDate r) (p_BuiltDate r) (p_ValidUntilDate r) (p_Files r) (p_Annotations r).
Definition set_p_Description {FI : Type} {ER : Type} (v : string) (r : PackageOf FI ER) : PackageOf FI ER :=
  MkPackage (p_IsUnpackaged r) (p_PackageName r) (p_SPDXIdentifier r) (p_Version r) (p_FileName r) (p_Supplier r) (p_Originator r) (p_DownloadLocation r) (p_FilesAnalyzed r) (p_IsFilesAnalyzedTagPresent r) (p_VerificationCode r) (p_Checksums r) (p_HomePage r) (p_SourceInfo r) (p_LicenseConcluded r) (p_LicenseInfoFromFiles r) (p_LicenseDeclared r) (p_LicenseComments r) (p_CopyrightText r) (p_Summary r) v (p_Comment r) (p_ExternalReferences r) (p_AttributionTexts r) (p_PrimaryPackagePurpose r) (p_ReleaseDate r) (p_BuiltDate r) (p_ValidUntilDate r) (p_Files r) (p_Annotations r).
Definition set_p_Comment {FI : Type} {ER : Type} (v : string) (r : PackageOf FI ER) : PackageOf FI ER :=
  MkPackage (p_IsUnpackaged r) (p_PackageName r) (p_SPDXIdentifier r) (p_Version r) (p_FileName r) (p_Supplier r) (p_Originator r) (p_DownloadLocation r) (p_FilesAnalyzed r) (p_IsFilesAnalyzedTagPresent r) (p_VerificationCode r) (p_Checksums r) (p_HomePage r) (p_SourceInfo r) (p_LicenseConcluded r) (p_LicenseInfoFromFiles r) (p_LicenseDeclared r) (p_LicenseComments r) (p_CopyrightText r) (p_Summary r) (p_Description r) v (p_ExternalReferences r) (p_AttributionTexts r) (p_PrimaryPackagePurpose r) (p_ReleaseDate r) (p_BuiltDate r) (p_ValidUntilDate r) (p_Files r) (p_Annotations r).
Definition set_p_ExternalReferences {FI : Type} {ER : Type} (v : list ER) (r : PackageOf FI ER) : PackageOf FI ER :=
  MkPackage (p_IsUnpackaged r) (p_PackageName r) (p_SPDXIdentifier r) (p_Version r) (p_FileName r) (p_Supplier r) (p_Originator r) (p_DownloadLocation r) (p_FilesAnalyzed r) (p_IsFilesAnalyzedTagPresent r) (p_VerificationCode r) (p_Checksums r) (p_HomePage r) (p_SourceInfo r) (p_LicenseConcluded r) (p_LicenseInfoFromFiles r) (p_LicenseDeclared r) (p_LicenseComments r) (p_CopyrightText r) (p_Summary r) (p_Description r) (p_Comment r) v (p_AttributionTexts r) (p_PrimaryPackagePurpose r) (p_ReleaseDate r) (p_BuiltDate r) (p_ValidUntilDate r) (p_Files r) (p_Annotations r).
Definition set_p_AttributionTexts {FI : Type} {ER : Type} (v : list string) (r : PackageOf FI ER) : PackageOf FI ER :=
  MkPackage (p_IsUnpackaged r) (p_PackageName r) (p_SPDXIdentifier r) (p_Version r) (p_FileName r) (p_Supplier r) (p_Originator r) (p_DownloadLocation r) (p_FilesAnalyzed r) (p_IsFilesAnalyzedTagPresent r) (p_VerificationCode r) (p_Checksums r) (p_HomePage r) (p_SourceInfo r) (p_LicenseConcluded r) (p_LicenseInfoFromFiles r) (p_LicenseDeclared r) (p_LicenseComments r) (p_CopyrightText r) (p_Summary r) (p_Description r) (p_Comment r) (p_ExternalReferences r) v (p_PrimaryPackagePurpose r) (p_ReleaseDate r) (p_BuiltDate r) (p_ValidUntilDate r) (p_Files r) (p_Annotations r).
Definition set_p_PrimaryPackagePurpose {FI : Type} {ER : Type} (v : string) (r : PackageOf FI ER) : PackageOf FI ER :=
  MkPackage (p_IsUnpackaged r) (p_PackageName r) (p_SPDXIdentifier r) (p_Version r) (p_FileName r) (p_Supplier r) (p_Originator r) (p_DownloadLocation r) (p_FilesAnalyzed r) (p_IsFilesAnalyzedTagPresent r) (p_VerificationCode r) (p_Checksums r) (p_HomePage r) (p_SourceInfo r) (p_LicenseConcluded r) (p_LicenseInfoFromFiles r) (p_LicenseDeclared r) (p_LicenseComments r) (p_CopyrightText r) (p_Summary r) (p_Description r) (p_Comment r) (p_ExternalReferences r) (p_AttributionTexts r) v (p_ReleaseDate r) (p_BuiltDate r) (p_ValidUntilDate r) (p_Files r) (p_Annotations r).
Definition set_p_ReleaseDate {FI : Type} {ER : Type} (v : string) (r : PackageOf FI ER) : PackageOf FI ER :=
  MkPackage (p_IsUnpackaged r) (p_PackageName r) (p_SPDXIdentifier r) (p_Version r) (p_FileName r) (p_Supplier r) (p_Originator r) (p_DownloadLocation r) (p_FilesAnalyzed r) (p_IsFilesAnalyzedTagPresent r) (p_VerificationCode r) (p_Checksums r) (p_HomePage r) (p_SourceInfo r) (p_LicenseConcluded r) (p_LicenseInfoFromFiles r) (p_LicenseDeclared r) (p_LicenseComments r) (p_CopyrightText r) (p_Summary r) (p_Description r) (p_Comment r) (p_ExternalReferences r) (p_AttributionTexts r) (p_PrimaryPackagePurpose r) v (p_BuiltDate r) (p_ValidUntilDate r) (p_Files r) (p_Annotations r).
Definition set_p_BuiltDate {FI : Type} {ER : Type} (v : string) (r : PackageOf FI ER) : PackageOf FI ER :=
  MkPackage (p_IsUnpackaged r) (p_PackageName r) (p_SPDXIdentifier r) (p_Version r) (p_FileName r) (p_Supplier r) (p_Originator r) (p_DownloadLocation r) (p_FilesAnalyzed r) (p_IsFilesAnalyzedTagPresent r) (p_VerificationCode r) (p_Checksums r) (p_HomePage r) (p_SourceInfo r) (p_LicenseConcluded r) (p_LicenseInfoFromFiles r) (p_LicenseDeclared r) (p_LicenseComments r) (p_CopyrightText r) (p_Summary r) (p_Description r) (p_Comment r) (p_ExternalReferences r) (p_AttributionTexts r) (p_PrimaryPackagePurpose r) (p_ReleaseDate r) v (p_ValidUntilDate r) (p_Files r) (p_Annotations r).
Definition set_p_ValidUntilDate {FI : Type} {ER : Type} (v : string) (r : PackageOf FI ER) : PackageOf FI ER :=
  MkPackage (p_IsUnpackaged r) (p_PackageName r) (p_SPDXIdentifier r) (p_Version r) (p_FileName r) (p_Supplier r) (p_Originator r) (p_DownloadLocation r) (p_FilesAnalyzed r) (p_IsFilesAnalyzedTagPresent r) (p_VerificationCode r) (p_Checksums r) (p_HomePage r) (p_SourceInfo r) (p_LicenseConcluded r) (p_LicenseInfoFromFiles r) (p_LicenseDeclared r) (p_LicenseComments r) (p_CopyrightText r) (p_Summary r) (p_Description r) (p_Comment r) (p_ExternalReferences r) (p_AttributionTexts r) (p_PrimaryPackagePurpose r) (p_ReleaseDate r) (p_BuiltDate r) v (p_Files r) (p_Annotations r).
Definition set_p_Files {FI : Type} {ER : Type} (v : list FI) (r : PackageOf FI ER) : PackageOf FI ER :=
  MkPackage (p_IsUnpackaged r) (p_PackageName r) (p_SPDXIdentifier r) (p_Version r) (p_FileName r) (p_Supplier r) (p_Originator r) (p_DownloadLocation r) (p_FilesAnalyzed r) (p_IsFilesAnalyzedTagPresent r) (p_VerificationCode r) (p_Checksums r) (p_HomePage r) (p_SourceInfo r) (p_LicenseConcluded r) (p_LicenseInfoFromFiles r) (p_LicenseDeclared r) (p_LicenseComments r) (p_CopyrightText r) (p_Summary r) (p_Description r) (p_Comment r) (p_ExternalReferences r) (p_AttributionTexts r) (p_PrimaryPackagePurpose r) (p_ReleaseDate r) (p_BuiltDate r) (p_ValidUntilDate r) v (p_Annotations r).
Definition set_p_Annotations {FI : Type} {ER : Type} (v : list Annotation) (r : PackageOf FI ER) : PackageOf FI ER :=
  MkPackage (p_IsUnpackaged r) (p_PackageName r) (p_SPDXIdentifier r) (p_Version r) (p_FileName r) (p_Supplier r) (p_Originator r) (p_DownloadLocation r) (p_FilesAnalyzed r) (p_IsFilesAnalyzedTagPresent r) (p_VerificationCode r) (p_Checksums r) (p_HomePage r) (p_SourceInfo r) (p_LicenseConcluded r) (p_LicenseInfoFromFiles r) (p_LicenseDeclared r) (p_LicenseComments r) (p_CopyrightText r) (p_Summary r) (p_Description r) (p_Comment r) (p_ExternalReferences r) (p_AttributionTexts r) (p_PrimaryPackagePurpose r) (p_ReleaseDate r) (p_BuiltDate r) (p_ValidUntilDate r) (p_Files r) v.

(** /repo/spdx/v2/v2_3/document.go 33-73 (Document) *)
Record DocumentOf (PK : Type) (FI : Type) (OL : Type) (RL : Type) (AN : Type) := MkDoc {
  d_SPDXVersion : string;
  d_DataLicense : string;
  d_SPDXIdentifier : string;
  d_DocumentName : string;
  d_DocumentNamespace : string;
  d_ExternalDocumentReferences : list ExternalDocumentRef;
  d_DocumentComment : string;
  d_CreationInfo : option CreationInfo;
  d_Packages : list PK;
  d_Files : list FI;
  d_OtherLicenses : list OL;
  d_Relationships : list RL;
  d_Annotations : list AN;
  d_Snippets : list Snippet;
  d_Reviews : list Review
}.
Arguments MkDoc {PK} {FI} {OL} {RL} {AN}.
Arguments d_SPDXVersion {PK} {FI} {OL} {RL} {AN} _.
Arguments d_DataLicense {PK} {FI} {OL} {RL} {AN} _.
Arguments d_SPDXIdentifier {PK} {FI} {OL} {RL} {AN} _.
Arguments d_DocumentName {PK} {FI} {OL} {RL} {AN} _.
Arguments d_DocumentNamespace {PK} {FI} {OL} {RL} {AN} _.
Arguments d_ExternalDocumentReferences {PK} {FI} {OL} {RL} {AN} _.
Arguments d_DocumentComment {PK} {FI} {OL} {RL} {AN} _.
Arguments d_CreationInfo {PK} {FI} {OL} {RL} {AN} _.
Arguments d_Packages {PK} {FI} {OL} {RL} {AN} _.
Arguments d_Files {PK} {FI} {OL} {RL} {AN} _.
Arguments d_OtherLicenses {PK} {FI} {OL} {RL} {AN} _.
Arguments d_Relationships {PK} {FI} {OL} {RL} {AN} _.
Arguments d_Annotations {PK} {FI} {OL} {RL} {AN} _.
Arguments d_Snippets {PK} {FI} {OL} {RL} {AN} _.
Arguments d_Reviews {PK} {FI} {OL} {RL} {AN} _.
Definition zero_DocumentOf {PK : Type} {FI : Type} {OL : Type} {RL : Type} {AN : Type} : DocumentOf PK FI OL RL AN :=
  MkDoc "" "" "" "" "" [] "" None [] [] [] [] [] [] [].
Definition set_d_SPDXVersion {PK : Type} {FI : Type} {OL : Type} {RL : Type} {AN : Type} (v : string) (r : DocumentOf PK FI OL RL AN) : DocumentOf PK FI OL RL AN :=
  MkDoc v (d_DataLicense r) (d_SPDXIdentifier r) (d_DocumentName r) (d_DocumentNamespace r) (d_ExternalDocumentReferences r) (d_DocumentComment r) (d_CreationInfo r) (d_Packages r) (d_Files r) (d_OtherLicenses r) (d_Relationships r) (d_Annotations r) (d_Snippets r) (d_Reviews r).
Definition set_d_DataLicense {PK : Type} {FI : Type} {OL : Type} {RL : Type} {AN : Type} (v : string) (r : DocumentOf PK FI OL RL AN) : DocumentOf PK FI OL RL AN :=
  MkDoc (d_SPDXVersion r) v (d_SPDXIdentifier r) (d_DocumentName r) (d_DocumentNamespace r) (d_ExternalDocumentReferences r) (d_DocumentComment r) (d_CreationInfo r) (d_Packages r) (d_Files r) (d_OtherLicenses r) (d_Relationships r) (d_Annotations r) (d_Snippets r) (d_Reviews r).
Definition set_d_SPDXIdentifier {PK : Type} {FI : Type} {OL : Type} {RL : Type} {AN : Type} (v : string) (r : DocumentOf PK FI OL RL AN) : DocumentOf PK FI OL RL AN :=
  MkDoc (d_SPDXVersion r) (d_DataLicense r) v (d_DocumentName r) (d_DocumentNamespace r) (d_ExternalDocumentReferences r) (d_DocumentComment r) (d_CreationInfo r) (d_Packages r) (d_Files r) (d_OtherLicenses r) (d_Relationships r) (d_Annotations r) (d_Snippets r) (d_Reviews r).
Definition set_d_DocumentName {PK : Type} {FI : Type} {OL : Type} {RL : Type} {AN : Type} (v : string) (r : DocumentOf PK FI OL RL AN) : DocumentOf PK FI OL RL AN :=
  MkDoc (d_SPDXVersion r) (d_DataLicense r) (d_SPDXIdentifier r) v (d_DocumentNamespace r) (d_ExternalDocumentReferences r) (d_DocumentComment r) (d_CreationInfo r) (d_Packages r) (d_Files r) (d_OtherLicenses r) (d_Relationships r) (d_Annotations r) (d_Snippets r) (d_Reviews r).
Definition set_d_DocumentNamespace {PK : Type} {FI : Type} {OL : Type} {RL : Type} {AN : Type} (v : string) (r : DocumentOf PK FI OL RL AN) : DocumentOf PK FI OL RL AN :=
  MkDoc (d_SPDXVersion r) (d_DataLicense r) (d_SPDXIdentifier r) (d_DocumentName r) v (d_ExternalDocumentReferences r) (d_DocumentComment r) (d_CreationInfo r) (d_Packages r) (d_Files r) (d_OtherLicenses r) (d_Relationships r) (d_Annotations r) (d_Snippets r) (d_Reviews r).
Definition set_d_ExternalDocumentReferences {PK : Type} {FI : Type} {OL : Type} {RL : Type} {AN : Type} (v : list ExternalDocumentRef) (r : DocumentOf PK FI OL RL AN) : DocumentOf PK FI OL RL AN :=
  MkDoc (d_SPDXVersion r) (d_DataLicense r) (d_SPDXIdentifier r) (d_DocumentName r) (d_DocumentNamespace r) v (d_DocumentComment r) (d_CreationInfo r) (d_Packages r) (d_Files r) (d_OtherLicenses r) (d_Relationships r) (d_Annotations r) (d_Snippets r) (d_Reviews r).
Definition set_d_DocumentComment {PK : Type} {FI : Type} {OL : Type} {RL : Type} {AN : Type} (v : string) (r : DocumentOf PK FI OL RL AN) : DocumentOf PK FI OL RL AN :=
  MkDoc (d_SPDXVersion r) (d_DataLicense r) (d_SPDXIdentifier r) (d_DocumentName r) (d_DocumentNamespace r) (d_ExternalDocumentReferences r) v (d_CreationInfo r) (d_Packages r) (d_Files r) (d_OtherLicenses r) (d_Relationships r) (d_Annotations r) (d_Snippets r) (d_Reviews r).
Definition set_d_CreationInfo {PK : Type} {FI : Type} {OL : Type} {RL : Type} {AN : Type} (v : option CreationInfo) (r : DocumentOf PK FI OL RL AN) : DocumentOf PK FI OL RL AN :=
  MkDoc (d_SPDXVersion r) (d_DataLicense r) (d_SPDXIdentifier r) (d_DocumentName r) (d_DocumentNamespace r) (d_ExternalDocumentReferences r) (d_DocumentComment r) v (d_Packages r) (d_Files r) (d_OtherLicenses r) (d_Relationships r) (d_Annotations r) (d_Snippets r) (d_Reviews r).
Definition set_d_Packages {PK : Type} {FI : Type} {OL : Type} {RL : Type} {AN : Type} (v : list PK) (r : DocumentOf PK FI OL RL AN) : DocumentOf PK FI OL RL AN :=
  MkDoc (d_SPDXVersion r) (d_DataLicense r) (d_SPDXIdentifier r) (d_DocumentName r) (d_DocumentNamespace r) (d_ExternalDocumentReferences r) (d_DocumentComment r) (d_CreationInfo r) v (d_Files r) (d_OtherLicenses r) (d_Relationships r) (d_Annotations r) (d_Snippets r) (d_Reviews r).
Definition set_d_Files {PK : Type} {FI : Type} {OL : Type} {RL : Type} {AN : Type} (v : list FI) (r : DocumentOf PK FI OL RL AN) : DocumentOf PK FI OL RL AN :=
  MkDoc (d_SPDXVersion r) (d_DataLicense r) (d_SPDXIdentifier r) (d_DocumentName r) (d_DocumentNamespace r) (d_ExternalDocumentReferences r) (d_DocumentComment r) (d_CreationInfo r) (d_Packages r) v (d_OtherLicenses r) (d_Relationships r) (d_Annotations r) (d_Snippets r) (d_Reviews r).
Definition set_d_OtherLicenses {PK : Type} {FI : Type} {OL : Type} {RL : Type} {AN : Type} (v : list OL) (r : DocumentOf PK FI OL RL AN) : DocumentOf PK FI OL RL AN :=
  MkDoc (d_SPDXVersion r) (d_DataLicense r) (d_SPDXIdentifier r) (d_DocumentName r) (d_DocumentNamespace r) (d_ExternalDocumentReferences r) (d_DocumentComment r) (d_CreationInfo r) (d_Packages r) (d_Files r) v (d_Relationships r) (d_Annotations r) (d_Snippets r) (d_Reviews r).
Definition set_d_Relationships {PK : Type} {FI : Type} {OL : Type} {RL : Type} {AN : Type} (v : list RL) (r : DocumentOf PK FI OL RL AN) : DocumentOf PK FI OL RL AN :=
  MkDoc (d_SPDXVersion r) (d_DataLicense r) (d_SPDXIdentifier r) (d_DocumentName r) (d_DocumentNamespace r) (d_ExternalDocumentReferences r) (d_DocumentComment r) (d_CreationInfo r) (d_Packages r) (d_Files r) (d_OtherLicenses r) v (d_Annotations r) (d_Snippets r) (d_Reviews r).
Definition set_d_Annotations {PK : Type} {FI : Type} {OL : Type} {RL : Type} {AN : Type} (v : list AN) (r : DocumentOf PK FI OL RL AN) : DocumentOf PK FI OL RL AN :=
  MkDoc (d_SPDXVersion r) (d_DataLicense r) (d_SPDXIdentifier r) (d_DocumentName r) (d_DocumentNamespace r) (d_ExternalDocumentReferences r) (d_DocumentComment r) (d_CreationInfo r) (d_Packages r) (d_Files r) (d_OtherLicenses r) (d_Relationships r) v (d_Snippets r) (d_Reviews r).
Definition set_d_Snippets {PK : Type} {FI : Type} {OL : Type} {RL : Type} {AN : Type} (v : list Snippet) (r : DocumentOf PK FI OL RL AN) : DocumentOf PK FI OL RL AN :=
  MkDoc (d_SPDXVersion r) (d_DataLicense r) (d_SPDXIdentifier r) (d_DocumentName r) (d_DocumentNamespace r) (d_ExternalDocumentReferences r) (d_DocumentComment r) (d_CreationInfo r) (d_Packages r) (d_Files r) (d_OtherLicenses r) (d_Relationships r) (d_Annotations r) v (d_Reviews r).
Definition set_d_Reviews {PK : Type} {FI : Type} {OL : Type} {RL : Type} {AN : Type} (v : list Review) (r : DocumentOf PK FI OL RL AN) : DocumentOf PK FI OL RL AN :=
  MkDoc (d_SPDXVersion r) (d_DataLicense r) (d_SPDXIdentifier r) (d_DocumentName r) (d_DocumentNamespace r) (d_ExternalDocumentReferences r) (d_DocumentComment r) (d_CreationInfo r) (d_Packages r) (d_Files r) (d_OtherLicenses r) (d_Relationships r) (d_Annotations r) (d_Snippets r) v.

Definition File := FileOf Snippet Artifact.
Definition Package := PackageOf File ExternalRef.
Definition Document := DocumentOf Package File OtherLicense Relationship Annotation.

Notation FileArena := (FileOf nat Artifact).
Notation PackageArena := (PackageOf nat ExternalRef).
Notation DocumentArena := (DocumentOf nat nat OtherLicense Relationship Annotation).

Definition JFile := FileOf Snippet (option Artifact).
Definition JPackage := PackageOf (option JFile) (option ExternalRef).
Definition JDocument := DocumentOf (option JPackage) (option JFile) (option OtherLicense) (option Relationship) (option Annotation).
