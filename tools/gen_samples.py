#!/usr/bin/env python3
"""Generates rocq/theories/Samples.v (sample documents of /repo/examples as texts)
and rocq/theories/SampleDocs.v (the handwritten documents of example.go as values)."""
import os, re, sys
REPO="/repo/"
OUT=os.path.join(os.path.dirname(os.path.abspath(__file__)),"../rocq/theories/")

def lit(b):
    """bytes as a Coq string; control characters other than TAB and LF through ch"""
    parts=[]; cur=bytearray()
    for x in b:
        if x in (9,10) or x>=32:
            cur.append(x)
            if x==34: cur.append(x)
        else:
            parts.append(('s',bytes(cur))); cur=bytearray(); parts.append(('c',x))
    parts.append(('s',bytes(cur)))
    out=b''
    for k,p in parts:
        if k=='s':
            if p or len(parts)==1: out+=(b' ++ ' if out else b'')+b'"'+p+b'"'
        else: out+=(b' ++ ' if out else b'')+b'String (ch %d) ""'%p
    return out

texts=[("json_22","examples/sample-docs/json/SPDXJSONExample-v2.2.spdx.json"),("json_23","examples/sample-docs/json/SPDXJSONExample-v2.3.spdx.json"),
       ("tv_22","examples/sample-docs/tv/SPDXTagExample-v2.2.spdx"),("tv_23","examples/sample-docs/tv/SPDXTagExample-v2.3.spdx"),
       ("hello","examples/sample-docs/tv/hello.spdx"),("hello_modified","examples/sample-docs/tv/hello-modified.spdx"),
       ("fixture_23","json/test_fixtures/spdx2_3.json"),
       ("null_package_22","json/test_fixtures/spdx2_2_null_package.json"),("null_package_23","json/test_fixtures/spdx2_3_null_package.json"),
       ("null_relationships_22","spdx/v2/v2_2/json/testdata/spdx-null-relationships.json"),("null_relationships_23","spdx/v2/v2_3/json/testdata/spdx-null-relationships.json")]
out=[b'''(** * Sample documents as texts (generated by tools/gen_samples.py).

    Byte for byte the files named below. *)
From Verif Require Import GoStr Json.
Local Open Scope string_scope.
''']
for n,f in texts:
    b=open(REPO+f,"rb").read()
    # long literals in pieces, so that the parser of Coq does not recurse too deeply
    step=2000; pieces=[b[i:i+step] for i in range(0,len(b),step)]
    out.append(b"(** /repo/%s *)"%f.encode())
    out.append(b"Definition %s : string := String.concat \"\" [\n%s]."%(n.encode(),b";\n".join(lit(p) for p in pieces)))
open(OUT+"Samples.v","wb").write(b"\n".join(out)+b"\n")

# ---- Go literals
S="string"
types={
 "Document":("zero_DocumentOf",{"DataLicense":("d_DataLicense",S),"SPDXVersion":("d_SPDXVersion",S),"SPDXIdentifier":("d_SPDXIdentifier",S),
   "DocumentName":("d_DocumentName",S),"DocumentNamespace":("d_DocumentNamespace",S),"CreationInfo":("d_CreationInfo","?CreationInfo"),
   "DocumentComment":("d_DocumentComment",S),"ExternalDocumentReferences":("d_ExternalDocumentReferences","[ExternalDocumentRef"),
   "OtherLicenses":("d_OtherLicenses","[OtherLicense"),"Annotations":("d_Annotations","[Annotation"),"Packages":("d_Packages","[Package"),
   "Files":("d_Files","[File"),"Snippets":("d_Snippets","[Snippet"),"Relationships":("d_Relationships","[Relationship"),"Reviews":("d_Reviews","[Review")}),
 "CreationInfo":("zero_CreationInfo",{"LicenseListVersion":("ci_LicenseListVersion",S),"Creators":("ci_Creators","[Creator"),"Created":("ci_Created",S),"CreatorComment":("ci_CreatorComment",S)}),
 "Creator":("zero_Creator",{"CreatorType":("cr_CreatorType",S),"Creator":("cr_Creator",S)}),
 "ExternalDocumentRef":("zero_ExternalDocumentRef",{"DocumentRefID":("edr_DocumentRefID",S),"URI":("edr_URI",S),"Checksum":("edr_Checksum","Checksum")}),
 "Checksum":("zero_Checksum",{"Algorithm":("ck_Algorithm",S),"Value":("ck_Value",S)}),
 "OtherLicense":("zero_OtherLicense",{"LicenseIdentifier":("ol_LicenseIdentifier",S),"ExtractedText":("ol_ExtractedText",S),"LicenseComment":("ol_Comment",S),
   "LicenseName":("ol_LicenseName",S),"LicenseCrossReferences":("ol_CrossReferences","[string")}),
 "Annotation":("zero_Annotation",{"Annotator":("a_Annotator","Annotator"),"AnnotationDate":("a_Date",S),"AnnotationType":("a_Type",S),"AnnotationComment":("a_Comment",S)}),
 "Annotator":("zero_Annotator",{"Annotator":("an_Annotator",S),"AnnotatorType":("an_AnnotatorType",S)}),
 "Supplier":("zero_Supplier",{"Supplier":("su_Supplier",S),"SupplierType":("su_SupplierType",S)}),
 "Originator":("zero_Originator",{"Originator":("or_Originator",S),"OriginatorType":("or_OriginatorType",S)}),
 "PackageVerificationCode":("zero_VerificationCode",{"Value":("vc_Value",S),"ExcludedFiles":("vc_ExcludedFiles","[string")}),
 "PackageExternalReference":("zero_ExternalRef",{"Category":("er_Category",S),"RefType":("er_RefType",S),"Locator":("er_Locator",S),"ExternalRefComment":("er_Comment",S)}),
 "Package":("zero_PackageOf",{"PackageName":("p_PackageName",S),"PackageSPDXIdentifier":("p_SPDXIdentifier",S),"PackageVersion":("p_Version",S),
   "PackageFileName":("p_FileName",S),"PackageSupplier":("p_Supplier","?Supplier"),"PackageOriginator":("p_Originator","?Originator"),
   "PackageDownloadLocation":("p_DownloadLocation",S),"FilesAnalyzed":("p_FilesAnalyzed","bool"),"IsFilesAnalyzedTagPresent":("p_IsFilesAnalyzedTagPresent","bool"),
   "PackageVerificationCode":("p_VerificationCode","!PackageVerificationCode"),"PackageChecksums":("p_Checksums","[Checksum"),"PackageHomePage":("p_HomePage",S),
   "PackageSourceInfo":("p_SourceInfo",S),"PackageLicenseConcluded":("p_LicenseConcluded",S),"PackageLicenseInfoFromFiles":("p_LicenseInfoFromFiles","[string"),
   "PackageLicenseDeclared":("p_LicenseDeclared",S),"PackageLicenseComments":("p_LicenseComments",S),"PackageCopyrightText":("p_CopyrightText",S),
   "PackageSummary":("p_Summary",S),"PackageDescription":("p_Description",S),"PackageComment":("p_Comment",S),
   "PackageExternalReferences":("p_ExternalReferences","[PackageExternalReference"),"PackageAttributionTexts":("p_AttributionTexts","[string"),
   "PrimaryPackagePurpose":("p_PrimaryPackagePurpose",S),"ReleaseDate":("p_ReleaseDate",S),"BuiltDate":("p_BuiltDate",S),"ValidUntilDate":("p_ValidUntilDate",S),
   "Files":("p_Files","[File"),"Annotations":("p_Annotations","[Annotation")}),
 "File":("zero_FileOf",{"FileName":("f_FileName",S),"FileSPDXIdentifier":("f_SPDXIdentifier",S),"FileTypes":("f_FileTypes","[string"),"Checksums":("f_Checksums","[Checksum"),
   "LicenseConcluded":("f_LicenseConcluded",S),"LicenseInfoInFiles":("f_LicenseInfoInFiles","[string"),"LicenseComments":("f_LicenseComments",S),
   "FileCopyrightText":("f_CopyrightText",S),"FileComment":("f_Comment",S),"FileNotice":("f_Notice",S),"FileContributors":("f_Contributors","[string"),
   "FileAttributionTexts":("f_AttributionTexts","[string"),"FileDependencies":("f_Dependencies","[string"),"Annotations":("f_Annotations","[Annotation")}),
 "Snippet":("zero_Snippet",{"SnippetSPDXIdentifier":("s_SPDXIdentifier",S),"SnippetFromFileSPDXIdentifier":("s_FromFile",S),"Ranges":("s_Ranges","[SnippetRange"),
   "SnippetLicenseConcluded":("s_LicenseConcluded",S),"LicenseInfoInSnippet":("s_LicenseInfoInSnippet","[string"),"SnippetLicenseComments":("s_LicenseComments",S),
   "SnippetCopyrightText":("s_CopyrightText",S),"SnippetComment":("s_Comment",S),"SnippetName":("s_Name",S),"SnippetAttributionTexts":("s_AttributionTexts","[string")}),
 "SnippetRange":("zero_SnippetRange",{"StartPointer":("sr_StartPointer","SnippetRangePointer"),"EndPointer":("sr_EndPointer","SnippetRangePointer")}),
 "SnippetRangePointer":("zero_RangePointer",{"Offset":("rp_Offset","Z"),"LineNumber":("rp_LineNumber","Z"),"FileSPDXIdentifier":("rp_FileSPDXIdentifier",S)}),
 "Relationship":("zero_Relationship",{"RefA":("r_RefA","DocElementID"),"RefB":("r_RefB","DocElementID"),"Relationship":("r_Relationship",S),"RelationshipComment":("r_Comment",S)}),
 "Review":("zero_Review",{"Reviewer":("rv_Reviewer",S),"ReviewerType":("rv_ReviewerType",S),"ReviewDate":("rv_Date",S),"ReviewComment":("rv_Comment",S)}),
}
tok=re.compile(rb'\s+|//[^\n]*|"(?:[^"\\]|\\.)*"|`[^`]*`|[A-Za-z_][\w.]*|-?\d+|[{}\[\](),:&*=]')
def gostr(t):
    if t[:1]==b'`': return t[1:-1].replace(b"\r",b"")
    s=t[1:-1]; o=bytearray(); i=0
    while i<len(s):
        if s[i]!=92: o.append(s[i]); i+=1; continue
        c=chr(s[i+1]); i+=2
        if c in 'ntr"\\': o.append({'n':10,'t':9,'r':13,'"':34,'\\':92}[c])
        elif c=='u': o+=chr(int(s[i:i+4],16)).encode(); i+=4
        else: raise Exception("escape "+c)
    return bytes(o)
consts={}
class P:
    def __init__(self,b,consts):
        self.t=[m for m in tok.findall(b) if not m.isspace() and not m.startswith(b'//')]; self.i=0; self.consts=consts
    def peek(self): return self.t[self.i]
    def next(self): self.i+=1; return self.t[self.i-1]
    def eat(self,x):
        g=self.next()
        assert g==x,(g,x,self.t[self.i-8:self.i+5])
    def value(self,ty):
        if ty[0]=='[':
            if self.peek()==b'nil': self.next(); return b'[]'
            while self.peek()!=b'{': self.next()
            self.eat(b'{'); xs=[]
            while self.peek()!=b'}':
                xs.append(self.value(ty[1:]))
                if self.peek()==b',': self.next()
            self.eat(b'}')
            return b'['+b'; '.join(xs)+b']'
        if ty[0]=='?': return b'(Some '+self.value(ty[1:])+b')'
        if ty[0]=='!': # a pointer in 2.3, a struct in 2.2
            return b'(Some '+self.value(ty[1:])+b')'
        if ty=='string':
            g=self.next()
            if g[:1] in b'"`': return b'('+lit(gostr(g))+b')'
            return b'('+lit(self.consts[g])+b')'
        if ty=='bool': return self.next()
        if ty=='Z': return b'('+self.next()+b')%Z'
        if ty=='DocElementID':
            f=self.next(); self.eat(b'('); a=[gostr(self.next())]
            while self.peek()==b',': self.next(); a.append(gostr(self.next()))
            self.eat(b')')
            if f.endswith(b'MakeDocElementID'): return b'(MkDEID '+lit(a[0])+b' '+lit(a[1])+b' "")'
            assert f.endswith(b'MakeDocElementSpecial'),f
            return b'(MkDEID "" "" '+lit(a[0])+b')'
        z,fs=types[ty]
        while self.peek()!=b'{': self.next()
        self.eat(b'{'); r=z.encode()
        while self.peek()!=b'}':
            f=self.next().decode(); self.eat(b':')
            n,t=fs[f]
            r=b'(set_'+n.encode()+b' '+self.value(t)+b'\n '+r+b')'
            if self.peek()==b',': self.next()
        self.eat(b'}')
        return r
out=[b'''(** * The handwritten documents of /repo (generated by tools/gen_samples.py). *)
From Verif Require Import GoStr Types Json.
Local Open Scope string_scope.
''']
for n,v,ver in (("example_22","v2_2",b"SPDX-2.2"),("example_23","v2_3",b"SPDX-2.3")):
    f="spdx/v2/%s/example/example.go"%v
    b=open(REPO+f,"rb").read(); k=b.index(b"var example = ")+14; line=b[:k].count(b"\n")+1
    c={b"spdx.DataLicense":b"CC0-1.0",b"spdx.Version":ver,b"common.SHA1":b"SHA1",b"common.MD5":b"MD5",b"common.SHA256":b"SHA256"}
    out.append(b"(** /repo/%s %d-%d *)"%(f.encode(),line,b.count(b"\n")))
    out.append(b"Definition %s : Document :=\n%s."%(n.encode(),P(b[k:],c).value("Document")))
open(OUT+"SampleDocs.v","wb").write(b"\n".join(out)+b"\n")
