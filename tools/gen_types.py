#!/usr/bin/env python3
"""Generates rocq/theories/Types.v: the SPDX data model and its field setters."""
import os
S="string"; L="list string"
def rec(name, params, ctor, cite, fields):
    return (name, params, ctor, cite, fields)
recs=[
 ("DocElementID",[],"MkDEID","spdx/v2/common/identifier.go 118-122 (DocElementID)",
  [("de_DocumentRefID",S),("de_ElementRefID",S),("de_SpecialID",S)]),
 ("Checksum",[],"MkChecksum","spdx/v2/common/checksum.go 31-34 (Checksum)",
  [("ck_Algorithm",S),("ck_Value",S)]),
 ("Creator",[],"MkCreator","spdx/v2/common/creation_info.go 14-18 (Creator)",
  [("cr_Creator",S),("cr_CreatorType",S)]),
 ("Annotator",[],"MkAnnotator","spdx/v2/common/annotation.go 12-16 (Annotator)",
  [("an_Annotator",S),("an_AnnotatorType",S)]),
 ("Supplier",[],"MkSupplier","spdx/v2/common/package.go 12-17 (Supplier)",
  [("su_Supplier",S),("su_SupplierType",S)]),
 ("Originator",[],"MkOriginator","spdx/v2/common/package.go 55-60 (Originator)",
  [("or_Originator",S),("or_OriginatorType",S)]),
 ("VerificationCode",[],"MkVC","spdx/v2/common/package.go 96-104 (PackageVerificationCode)",
  [("vc_Value",S),("vc_ExcludedFiles",L)]),
 ("RangePointer",[],"MkRP","spdx/v2/common/snippet.go 5-15 (SnippetRangePointer)",
  [("rp_Offset","Z"),("rp_LineNumber","Z"),("rp_FileSPDXIdentifier",S)]),
 ("SnippetRange",[],"MkRange","spdx/v2/common/snippet.go 17-20 (SnippetRange)",
  [("sr_StartPointer","RangePointer"),("sr_EndPointer","RangePointer")]),
 ("ExternalDocumentRef",[],"MkEDR","spdx/v2/v2_3/document.go 18-29 (ExternalDocumentRef)",
  [("edr_DocumentRefID",S),("edr_URI",S),("edr_Checksum","Checksum")]),
 ("CreationInfo",[],"MkCI","spdx/v2/v2_3/creation_info.go 10-27 (CreationInfo)",
  [("ci_LicenseListVersion",S),("ci_Creators","list Creator"),("ci_Created",S),("ci_CreatorComment",S)]),
 ("ExternalRef",[],"MkER","spdx/v2/v2_3/package.go 179-194 (PackageExternalReference)",
  [("er_Category",S),("er_RefType",S),("er_Locator",S),("er_Comment",S)]),
 ("Relationship",[],"MkRln","spdx/v2/v2_3/relationship.go 10-24 (Relationship)",
  [("r_RefA","DocElementID"),("r_RefB","DocElementID"),("r_Relationship",S),("r_Comment",S)]),
 ("Annotation",[],"MkAnn","spdx/v2/v2_3/annotation.go 10-31 (Annotation)",
  [("a_Annotator","Annotator"),("a_Date",S),("a_Type",S),("a_SPDXIdentifier","DocElementID"),("a_Comment",S)]),
 ("Review",[],"MkRev","spdx/v2/v2_3/review.go 7-25 (Review)",
  [("rv_Reviewer",S),("rv_ReviewerType",S),("rv_Date",S),("rv_Comment",S)]),
 ("OtherLicense",[],"MkOL","spdx/v2/v2_3/other_license.go 6-30 (OtherLicense)",
  [("ol_LicenseIdentifier",S),("ol_ExtractedText",S),("ol_LicenseName",S),("ol_CrossReferences",L),("ol_Comment",S)]),
 ("Snippet",[],"MkSnippet","spdx/v2/v2_3/snippet.go 10-50 (Snippet)",
  [("s_SPDXIdentifier",S),("s_FromFile",S),("s_Ranges","list SnippetRange"),("s_LicenseConcluded",S),
   ("s_LicenseInfoInSnippet",L),("s_LicenseComments",S),("s_CopyrightText",S),("s_Comment",S),("s_Name",S),("s_AttributionTexts",L)]),
 ("Artifact",[],"MkArtifact","spdx/v2/v2_3/file.go 82-98 (ArtifactOfProject)",
  [("ar_Name",S),("ar_HomePage",S),("ar_URI",S)]),
 ("FileOf",["SN","AR"],"MkFile","spdx/v2/v2_3/file.go 10-76 (File); the Snippets map is an association list",
  [("f_FileName",S),("f_SPDXIdentifier",S),("f_FileTypes",L),("f_Checksums","list Checksum"),("f_LicenseConcluded",S),
   ("f_LicenseInfoInFiles",L),("f_LicenseComments",S),("f_CopyrightText",S),("f_Artifacts","list AR"),("f_Comment",S),
   ("f_Notice",S),("f_Contributors",L),("f_AttributionTexts",L),("f_Dependencies",L),("f_Snippets","list (string * SN)"),
   ("f_Annotations","list Annotation")]),
 ("PackageOf",["FI","ER"],"MkPackage","spdx/v2/v2_3/package.go 14-142 (Package), without the unexported hasFiles",
  [("p_IsUnpackaged","bool"),("p_PackageName",S),("p_SPDXIdentifier",S),("p_Version",S),("p_FileName",S),
   ("p_Supplier","option Supplier"),("p_Originator","option Originator"),("p_DownloadLocation",S),
   ("p_FilesAnalyzed","bool"),("p_IsFilesAnalyzedTagPresent","bool"),("p_VerificationCode","option VerificationCode"),
   ("p_Checksums","list Checksum"),("p_HomePage",S),("p_SourceInfo",S),("p_LicenseConcluded",S),("p_LicenseInfoFromFiles",L),
   ("p_LicenseDeclared",S),("p_LicenseComments",S),("p_CopyrightText",S),("p_Summary",S),("p_Description",S),("p_Comment",S),
   ("p_ExternalReferences","list ER"),("p_AttributionTexts",L),("p_PrimaryPackagePurpose",S),("p_ReleaseDate",S),
   ("p_BuiltDate",S),("p_ValidUntilDate",S),("p_Files","list FI"),("p_Annotations","list Annotation")]),
 ("DocumentOf",["PK","FI","OL","RL","AN"],"MkDoc","spdx/v2/v2_3/document.go 33-73 (Document)",
  [("d_SPDXVersion",S),("d_DataLicense",S),("d_SPDXIdentifier",S),("d_DocumentName",S),("d_DocumentNamespace",S),
   ("d_ExternalDocumentReferences","list ExternalDocumentRef"),("d_DocumentComment",S),("d_CreationInfo","option CreationInfo"),
   ("d_Packages","list PK"),("d_Files","list FI"),("d_OtherLicenses","list OL"),("d_Relationships","list RL"),
   ("d_Annotations","list AN"),("d_Snippets","list Snippet"),("d_Reviews","list Review")]),
]

def zero(t):
    if t=="string": return '""'
    if t.startswith("list"): return "[]"
    if t.startswith("option"): return "None"
    if t=="bool": return "false"
    if t=="Z": return "0%Z"
    if t=="pst": return "PsStart"
    return "zero_"+t
def emit(out, recs):
  for name,params,ctor,cite,fields in recs:
    P="".join(" (%s : Type)"%p for p in params)
    out.append("(** /repo/%s *)"%cite)
    out.append("Record %s%s := %s {"%(name,P,ctor))
    out.append(";\n".join("  %s : %s"%(f,t) for f,t in fields))
    out.append("}.")
    if params:
        ps=" ".join("{%s}"%p for p in params)
        out.append("Arguments %s %s."%(ctor,ps))
        for f,t in fields: out.append("Arguments %s %s _."%(f,ps))
    tn=name+"".join(" "+p for p in params)
    tp="".join(" {%s : Type}"%p for p in params)
    out.append("Definition zero_%s%s : %s :="%(name,tp,tn))
    out.append("  %s %s."%(ctor," ".join(zero(t) for f,t in fields)))
    for f,t in fields:
        out.append("Definition set_%s%s (v : %s) (r : %s) : %s :="%(f,tp,t,tn,tn))
        args=" ".join("v" if g==f else "(%s r)"%g for g,_ in fields)
        out.append("  %s %s."%(ctor,args))
    out.append("")
def write(fn,out):
  open(os.path.join(os.path.dirname(os.path.abspath(__file__)),"../rocq/theories/"+fn),"w").write("\n".join(out))
out=["""(** * SPDX data model (generated by tools/gen_types.py).

    One record per Go struct, one field per Go field, with functional setters
    [set_x] and the Go zero value [zero_T].
    The records are those of v2_3; v2_2 and v2_1 are the same minus the fields
    that do not exist there, which stay empty (the model of the version
    specific readers and writers never touches them).  Pointers to structs are
    [option].  The element types of slices of pointers are parameters: values
    where no element is ever nil ([File], [Package], [Document], the documents of
    the tag-value and RDF readers), options where elements may be nil ([JFile],
    [JPackage], [JDocument], the documents of the JSON reader), references while
    the parser is at work ([FileArena], [PackageArena], [DocumentArena]). *)
From Verif Require Import GoStr.
"""]
emit(out,recs)
out+=["Definition File := FileOf Snippet Artifact.","Definition Package := PackageOf File ExternalRef.",
      "Definition Document := DocumentOf Package File OtherLicense Relationship Annotation.","",
      "Notation FileArena := (FileOf nat Artifact).","Notation PackageArena := (PackageOf nat ExternalRef).",
      "Notation DocumentArena := (DocumentOf nat nat OtherLicense Relationship Annotation).","",
      "Definition JFile := FileOf Snippet (option Artifact).","Definition JPackage := PackageOf (option JFile) (option ExternalRef).",
      "Definition JDocument := DocumentOf (option JPackage) (option JFile) (option OtherLicense) (option Relationship) (option Annotation).",""]
write("Types.v",out)
out=["""(** * State of the tag-value parser (generated by tools/gen_types.py).

    The Go parser holds pointers to the objects it is filling, and the same
    objects are reachable from the document.  The model keeps packages, files
    and snippets in arenas (lists of all objects ever created); a Go pointer is
    an index into the arena and nil is [None].  Relationships, annotations,
    other licenses and reviews are appended to the document when they are
    created, so the document's own list is their arena.  Pointers to an
    external reference and to an ArtifactOfProject are pairs (index of the owner,
    index in the owner's list). *)
From Verif Require Import GoStr Types.

(** /repo/spdx/v2/v2_3/tagvalue/reader/types.go 32-55 (tvParserState) *)
Inductive pst := PsStart | PsCreationInfo | PsPackage | PsFile | PsSnippet | PsOtherLicense | PsReview.
"""]
emit(out,[("pstate",[],"MkPstate","spdx/v2/v2_3/tagvalue/reader/types.go 10-29 (tvParser)",
 [("ps_doc","option DocumentArena"),("ps_st","pst"),("ps_pkgs","list PackageArena"),("ps_files","list FileArena"),("ps_snips","list Snippet"),
  ("ps_pkg","option nat"),("ps_extref","option (nat * nat)"),("ps_file","option nat"),("ps_aop","option (nat * nat)"),("ps_snip","option nat"),
  ("ps_lic","option nat"),("ps_rln","option nat"),("ps_ann","option nat"),("ps_rev","option nat")])])
write("TvState.v",out)
