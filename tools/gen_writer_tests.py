#!/usr/bin/env python3
"""Generates rocq/theories/WriterTests.v: the tests of the tag-value writers of /repo
(spdx/v2/v2_*/tagvalue/writer/*_test.go) as examples about the model."""
import re, glob, os, sys
sys.dont_write_bytecode=True
import gen_samples as g
from gen_samples import lit, gostr, types, OUT, REPO

tok=re.compile(rb'\s+|//[^\n]*|"(?:[^"\\]|\\.)*"|`[^`]*`|[A-Za-z_][\w.]*|-?\d+|:=|!=|==|.',re.S)
types["File"][1]["Snippets"]=("f_Snippets","map")
types["File"][1]["ArtifactOfProjects"]=("f_Artifacts","[ArtifactOfProject")
types["ArtifactOfProject"]=("zero_Artifact",{"Name":("ar_Name","string"),"HomePage":("ar_HomePage","string"),"URI":("ar_URI","string")})
types["Annotation"][1]["AnnotationSPDXIdentifier"]=("a_SPDXIdentifier","DocElementID")
types["Package"][1]["IsUnpackaged"]=("p_IsUnpackaged","bool")
CONST={b"spdx.DataLicense":b"CC0-1.0"}
for m in re.finditer(rb'(\w+)\s+ChecksumAlgorithm = "([^"]*)"',open(REPO+"spdx/v2/common/checksum.go","rb").read()): CONST[b"common."+m[1]]=m[2]
for m in re.finditer(rb'(\w+)\s+(?:string )?\s*= "([^"]*)"',open(REPO+"spdx/v2/common/external.go","rb").read()): CONST[b"common."+m[1]]=m[2]
class P(g.P):
    def __init__(self,b,consts,env):
        self.t=[m for m in tok.findall(b) if not m.isspace() and not m.startswith(b'//')]; self.i=0; self.consts=consts; self.env=env
    def str(self):
        """a string expression, as bytes"""
        x=self.next()
        if x[:1] in b'"`': r=gostr(x)
        elif x.endswith(b'.ElementID') or x.endswith(b'NewBufferString'): self.eat(b'('); r=self.str(); self.eat(b')')
        elif x.endswith(b'.MakeDocElementID'):
            self.eat(b'('); a=self.str(); self.eat(b','); r=self.str(); self.eat(b')'); assert a==b''
            self.eat(b'.'); self.eat(b'ElementRefID')
        else: r=self.consts[x]
        if self.peek()==b'+': self.next(); r+=self.str()
        return r
    def value(self,ty):
        x=self.peek()
        if x in self.env and self.t[self.i+1] in b',})':
            self.next(); v=self.env[x]
            return b'(Some %s)'%v if ty[0] in '?!' else v
        if ty=='string': return b'('+lit(self.str())+b')'
        if ty=='DocElementID' and x==b'id':
            self.next(); self.eat(b'('); r=self.str(); self.eat(b')')
            return b'(MkDEID "" '+lit(r)+b' "")'
        if ty=='map':
            if self.peek()==b'nil': self.next(); return b'[]'
            while self.peek()!=b'{': self.next()
            self.eat(b'{'); xs=[]
            while self.peek()!=b'}':
                k=self.str(); self.eat(b':'); xs.append(b'('+lit(k)+b', '+self.value('Snippet')+b')')
                if self.peek()==b',': self.next()
            self.eat(b'}'); return b'['+b'; '.join(xs)+b']'
        return super().value(ty)
# g.P.value, in the recursive calls, is overridden here; '&' and the type before a brace are skipped there
RENDER={b"CreationInfo":b"render_creation_info %s",b"Annotation":b"render_annotation %s",b"Relationship":b"render_relationship %s",b"Review":b"render_review %s",
 b"OtherLicense":b"render_other_license %s",b"Snippet":b"render_snippet V %s",b"File":b"render_file insertion_sorter V %s",b"Package":b"render_package insertion_sorter V %s"}
out=[b'''(** * The tests of the tag-value writers (generated by tools/gen_writer_tests.py).

    Each example is one test of /repo/spdx/v2/v2_*/tagvalue/writer: the value the test
    renders, and the text it expects.  They check that the model writes what the tests
    of the code say the code writes; they are not among the claims. *)
From Verif Require Import GoStr Json Types TvUtil Sorting TvWriter.
Local Open Scope string_scope.
''']
n=0
for v,V in (("v2_1",b"V21"),("v2_2",b"V22"),("v2_3",b"V23")):
    for f in sorted(glob.glob(REPO+"spdx/v2/%s/tagvalue/writer/save_*_test.go"%v)):
        b=open(f,"rb").read(); fn=f[len(REPO):].encode()
        for m in re.finditer(rb'^func (Test\w+)\(t \*testing.T\) \{\n(.*?)^\}\n',b,re.M|re.S):
            body=m[2]; line=b[:m.start()].count(b"\n")+1
            c=dict(CONST); c[b"spdx.Version"]=b"SPDX-"+v[1:].replace("_",".").encode()
            env={}; defs=[]; wants={}; k=0
            p=P(body,c,env); pre=V.lower()+b"_"+re.sub(rb'^TestSaver',b'',m[1])
            while p.i<len(p.t):
                t=p.t; i=p.i
                if i+1<len(t) and t[i+1]==b':=' and t[i+2]==b'bytes.NewBufferString':
                    name=t[i]; p.i+=2; wants[name]=p.str(); continue
                if i+1<len(t) and t[i+1]==b':=' and (t[i+2]==b'&' or t[i+2] in (b'[',b'map') or t[i+2].startswith((b'spdx.',b'common.'))):
                    name=t[i]; p.i+=2; q=p.i
                    isl=t[q]==b'['; ism=t[q]==b'map'
                    while t[q] in (b'&',b'[',b']',b'*'): q+=1
                    ty='map' if ism else t[q].split(b'.')[1].decode()
                    val=p.value(('[' if isl else '')+ty)
                    cty={'Document':'Document','File':'File','Package':'Package','PackageExternalReference':'ExternalRef','map':'list (string * Snippet)'}.get(ty,ty)
                    defs.append((name,('list ' if isl else '')+cty,val)); env[name]=b"t%d_%s"%(n,name); continue
                mm=re.match(rb'(?:render(\w+)|(RenderDocument))$',t[i])
                if mm and t[i+1]==b'(':
                    arg=t[i+2]; got=t[i+5]; want=wants.get(got.replace(b'got',b'want'))
                    used=defs; 
                    for nm,cty,val in defs: out.append(b"Definition %s : %s :=\n %s."%(env[nm],cty.encode(),val))
                    defs=[]
                    k+=1
                    out.append(b"(** /repo/%s %d: %s *)"%(fn,line,m[1]))
                    nm=pre+(b"_%d"%k if k>1 else b"")
                    if mm[2]:
                        if want is None: out.append(b'Example %s : match render_document insertion_sorter %s %s with Err _ => true | _ => false end = true.\nProof. reflexivity. Qed.'%(nm,V,env[arg]))
                        else: out.append(b'Example %s : (let* r := render_document insertion_sorter %s %s in Ok (fst r)) = Ok (%s).\nProof. vm_compute. reflexivity. Qed.'%(nm,V,env[arg],lit(want)))
                    else:
                        out.append(b'Example %s : bytes (%s) = (%s).\nProof. vm_compute. reflexivity. Qed.'%(nm,RENDER[mm[1]].replace(b" V ",b" "+V+b" ")%env[arg],lit(want)))
                    p.i+=7; continue
                p.i+=1
            n+=1
open(OUT+"WriterTests.v","wb").write(b"\n".join(out)+b"\n")
print(n,"tests")

# the documents written inline in the tests of the JSON reader
out=[b'''(** * The inline documents of the tests of the JSON reader (generated by tools/gen_writer_tests.py).

    For each test of /repo/spdx/v2/v2_*/json/json_test.go with an inline document, the
    text read and the document expected. *)
From Verif Require Import GoStr Types Json.
Local Open Scope string_scope.
''']
for v in ("v2_2","v2_3"):
    fn="spdx/v2/%s/json/json_test.go"%v; b=open(REPO+fn,"rb").read()
    c=dict(CONST); c[b"spdx.Version"]=b"SPDX-"+v[1:].replace("_",".").encode()
    for m in re.finditer(rb'^func Test_(\w+)\(t \*testing.T\) \{\n(.*?)^\}\n',b,re.M|re.S):
        if b"contents := " not in m[2]: continue
        line=b[:m.start()].count(b"\n")+1
        nm=m[1]+b"_"+v[1:].replace("_","").encode()
        k=m[2].index(b"contents := ")+12; text=P(m[2][k:],c,{}).str()
        k=[x.end() for x in re.finditer(rb'(?:want := |require.Equal\(t, )(?=spdx.Document\{)',m[2])][0]
        out.append(b"(** /repo/%s %d: Test_%s *)"%(fn.encode(),line,m[1]))
        out.append(b"Definition text_%s : string := %s."%(nm,lit(text)))
        out.append(b"Definition want_%s : Document :=\n %s."%(nm,P(m[2][k:],c,{}).value("Document")))
open(OUT+"JsonTests.v","wb").write(b"\n".join(out)+b"\n")
