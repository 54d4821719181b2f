#!/usr/bin/env python3
"""Generates rocq/theories/ToolTests.v: the directories of /repo/testdata as trees, and
the tests of utils, builder, idsearcher, spdxlib, licensediff, convert and
spdx/v2/common as examples about the model."""
import re, os, sys, hashlib
sys.dont_write_bytecode=True
from gen_writer_tests import P as P0, CONST, lit, gostr, OUT, REPO
class P(P0):
    def value(self,ty):
        if ty[0]=='?' and self.peek()==b'nil': self.next(); return b'None'
        if ty=='DocElementID' and self.peek().endswith(b'DocElementID') and self.t[self.i+1]==b'{':
            self.next(); self.eat(b'{'); d={}
            while self.peek()!=b'}':
                f=self.next(); self.eat(b':'); d[f]=lit(self.str())
                if self.peek()==b',': self.next()
            self.eat(b'}')
            return b'(MkDEID %s %s %s)'%tuple(d.get(k,b'""') for k in (b"DocumentRefID",b"ElementRefID",b"SpecialID"))
        return P0.value(self,ty)
out=[b'''(** * The tests of the tools (generated by tools/gen_tool_tests.py).

    The directories of /repo/testdata as trees, and the tests of utils, builder,
    idsearcher, spdxlib, licensediff, convert and spdx/v2/common.  The hash
    functions are tables of what SHA1, SHA256 and MD5 give for the contents that occur,
    computed by the generator; the values expected are those in the tests.  The
    examples check that the model does what the tests of the code say the code does;
    they are not among the claims. *)
From Verif Require Import GoStr Sorting Json Types TvUtil TvState Utils Builder IdSearcher SpdxLib LicenseTools Stream TabWriter Report JsonSpdx JsonText Convert ConvertGo.
Local Open Scope string_scope.
''']
def tree(d):
    es=[]
    for n in os.listdir(d):
        p=os.path.join(d,n)
        if os.path.islink(p): x=b'NLink'
        elif os.path.isdir(p): x=tree(p)
        else:
            c=open(p,'rb').read(); seen.add(c); x=b'NFile (Some (%s))'%lit(c)
        es.append((n,b'("%s", %s)'%(n.encode(),x)))
    # not in the order of their names, as a directory need not be
    es.sort(key=lambda e: hashlib.md5(e[0].encode()).digest())
    return b'NDir [%s]'%b';\n '.join(e[1] for e in es)
seen=set()
for k in (1,2,3,4):
    out.append(b"(** /repo/testdata/project%d *)\nDefinition project%d : node := %s."%(k,k,tree(REPO+"testdata/project%d"%k)))
def sha1(b): return hashlib.sha1(b).hexdigest().encode()
# the concatenations hashed for verification codes
A=b"aaaaaaaaaabbbbbbbbbbccccccccccdddddddddd"; B=b"3333333333bbbbbbbbbbccccccccccdddddddddd"; C=b"8888888888bbbbbbbbbbccccccccccdddddddddd"
D=b"2222222222bbbbbbbbbbccccccccccdddddddddd"; E=b"bbbbbbbbbbccccccccccddddddddddaaaaaaaaaa"
def files_under(d): return [open(os.path.join(r,f),'rb').read() for r,_,fs in os.walk(d) for f in fs if not os.path.islink(os.path.join(r,f))]
codes=[b''.join(sorted([A,B,C,D,E])),b''.join(sorted([A,B,C,D])),b''.join(sorted(map(sha1,files_under(REPO+"testdata/project1"))))]
out.append(b"Fixpoint table (l : list (string * string)) (s : string) : string := match l with [] => \"\" | (k, x) :: l => if String.eqb k s then x else table l s end.")
def tab(h,cs): return b'table [%s]'%b';\n '.join(b'(%s, "%s")'%(lit(c),h(c).hexdigest().encode()) for c in cs)
S=sorted(seen)
out.append(b"Definition h : hashes := MkHashes\n (%s)\n (%s)\n (%s)."%(tab(hashlib.sha1,S+codes),tab(hashlib.sha256,S),tab(hashlib.md5,S)))
def ex(cite,name,stmt): out.append(b"(** /repo/%s *)\nExample %s : %s.\nProof. vm_compute. reflexivity. Qed."%(cite.encode(),name.encode(),stmt if isinstance(stmt,bytes) else stmt.encode()))
def line(f,pat):
    b=open(REPO+f).read(); return b[:b.index(pat)].count("\n")+1
def cite(f,t): return "%s %d: %s"%(f,line(f,"func "+t+"("),t)
F="utils/filesystem_test.go"
ex(cite(F,"TestFilesystemCanGetSliceOfFolderContents"),"paths_1",'get_all_file_paths insertion_sorter "/repo/testdata/project1" project1 None = Ok ["/emptyfile.testdata.txt"; "/file1.testdata.txt"; "/file3.testdata.txt"; "/folder1/file4.testdata.txt"; "/lastfile.testdata.txt"]')
PAT='["**/ignoredir/"; "/excludedir/"; "**/ignorefile.txt"; "/alsoEXCLUDEthis.txt"]'
ex(cite(F,"TestFilesystemGetAllFilePathsFailsForNonExistentDirectory"),"paths_missing",'match get_all_file_paths insertion_sorter "/repo/utils/does/not/exist" NBad None with Err _ => true | _ => false end = true')
ex(cite(F,"TestFilesystemCanIgnoreFilesWhenGettingFilePaths"),"paths_3",'get_all_file_paths insertion_sorter "/repo/testdata/project3" project3 (Some %s) = Ok ["/dontscan.txt"; "/keep/keep.txt"; "/keep.txt"; "/subdir/keep/dontscan.txt"; "/subdir/keep/keep.txt"]'%PAT)
ex(cite(F,"TestFilesystemGetsHashesForFilePath"),"hashes_1",'get_hashes_for_file_path h project1 "/file1.testdata.txt" = Ok ("024f870eb6323f532515f7a09d5646a97083b819", "b14e44284ca477b4c0db34b15ca4c454b2947cce7883e22321cf2984050e15bf", "37c8208479dfe42d2bb29debd6e32d4a")')
ex(cite(F,"TestFilesystemGetsErrorWhenRequestingHashesForInvalidFilePath"),"hashes_missing",'get_hashes_for_file_path h project1 "./does/not/exist" = Err "open"')
# ShouldIgnore: the statements of the test in order
b=open(REPO+F,"rb").read(); body=re.search(rb'func TestFilesystemExcludesForIgnoredPaths.*?^}',b,re.S|re.M)[0]
pats=name=None; cs=[]
for m in re.finditer(rb'pathsIgnored :?= \[\]string\{(.*?)\}|fileName :?= "(.*?)"|if (!?)ShouldIgnore',body):
    if m[1] is not None: pats=b'; '.join(re.findall(rb'"[^"]*"',m[1]))
    elif m[2] is not None: name=m[2]
    else: cs.append(b'(should_ignore "%s" [%s], %s)'%(name,pats,b'true' if m[3] else b'false'))
ex(cite(F,"TestFilesystemExcludesForIgnoredPaths"),"should_ignore_test",b'forallb (fun c => Bool.eqb (fst c) (snd c)) [%s] = true'%b';\n '.join(cs))
F="utils/verification_test.go"
def vfile(n,s): return '(set_f_FileName "%s" (set_f_Checksums [MkChecksum "SHA1" "%s"] zero_FileOf) : File)'%(n,s.decode())
def vfiles(l): return '['+'; '.join('None' if x is None else 'Some '+vfile(*x) for x in l)+']'
ex(cite(F,"TestPackageCanGetVerificationCode"),"code_1",'(let* c := get_verification_code insertion_sorter (h_sha1 h) %s "" in Ok (vc_Value c)) = Ok "ac924b375119c81c1f08c3e2722044bfbbdcd3dc"'%vfiles([("file2.txt",A),("file1.txt",B),("file3.txt",C),("file5.txt",D),("file4.txt",E)]))
ex(cite(F,"TestPackageCanGetVerificationCodeIgnoringExcludesFile"),"code_2",'(let* c := get_verification_code insertion_sorter (h_sha1 h) %s "thisfile.spdx" in Ok (vc_Value c)) = Ok "17fab1bd18fe5c13b5d3983f1c17e5f88b8ff266"'%vfiles([("file1.txt",A),("file2.txt",B),("thisfile.spdx",E),("file3.txt",C),("file4.txt",D)]))
ex(cite(F,"TestPackageGetVerificationCodeFailsIfNilFileInSlice"),"code_nil",'get_verification_code insertion_sorter (h_sha1 h) %s "" = Err "got nil file for identifier"'%vfiles([("file2.txt",A),None,("file3.txt",C)]))
# builder
F="builder/build_test.go"
b=open(REPO+F,"rb").read(); body=re.search(rb'func TestBuildCreatesDocument.*?^}',b,re.S|re.M)[0]
names=re.findall(rb'FileName != "(.*?)"',body); ids=re.findall(rb'FileSPDXIdentifier != common.ElementID\("(.*?)"\)',body)
sums=re.findall(rb'checksum.Value != "(.*?)"',body); assert len(names)==5==len(ids) and len(sums)==15
files=b';\n  '.join(b'("%s", "%s", [MkChecksum "SHA1" "%s"; MkChecksum "SHA256" "%s"; MkChecksum "MD5" "%s"], "NOASSERTION", ["NOASSERTION"], "NOASSERTION")'%(names[i],ids[i],sums[3*i],sums[3*i+1],sums[3*i+2]) for i in range(5))
out.append(b'Definition cfg (ignored : option (list string)) : BuildConfig := MkBC "https://github.com/swinslow/spdx-docs/spdx-go/testdata-" "Person" "John Doe" ignored "2018-10-19T04:38:00Z".')
out.append(b'Definition seen_package (p : Package) := (p_PackageName p, p_SPDXIdentifier p, p_DownloadLocation p, p_FilesAnalyzed p, p_IsFilesAnalyzedTagPresent p, option_map vc_Value (p_VerificationCode p),\n  p_LicenseConcluded p, p_LicenseInfoFromFiles p, p_LicenseDeclared p, p_CopyrightText p,\n  map (fun f => (f_FileName f, f_SPDXIdentifier f, f_Checksums f, f_LicenseConcluded f, f_LicenseInfoInFiles f, f_CopyrightText f)) (p_Files p)).')
PK=b'("project1", "Package-project1", "NOASSERTION", true, true, Some "fc9ac4a370af0a471c2e52af66d6b4cf4e2ba12b", "NOASSERTION", [] : list string, "NOASSERTION", "NOASSERTION",\n [%s])'%files
ex(cite(F,"TestBuildCreatesDocument"),"build_1",b'(let* d := build insertion_sorter h project1 "/repo/testdata/project1" "project1" (cfg None) in\n  Ok (d_SPDXVersion d, d_DataLicense d, d_SPDXIdentifier d, d_DocumentName d, d_DocumentNamespace d, d_CreationInfo d, map seen_package (d_Packages d), d_Relationships d, d_OtherLicenses d, d_Annotations d, d_Reviews d)) =\n Ok ("SPDX-2.3", "CC0-1.0", "DOCUMENT", "project1", "https://github.com/swinslow/spdx-docs/spdx-go/testdata-project1-{fc9ac4a370af0a471c2e52af66d6b4cf4e2ba12b []}",\n  Some (MkCI "" [MkCreator "github.com/spdx/tools-golang/builder" "Tool"; MkCreator "John Doe" "Person"] "2018-10-19T04:38:00Z" ""),\n  [%s],\n  [MkRln (MkDEID "" "DOCUMENT" "") (MkDEID "" "Package-project1" "") "DESCRIBES" ""], [], [], [])'%PK)
ex(cite(F,"TestBuildCanIgnoreFiles"),"build_3",'(let* d := build insertion_sorter h project3 "/repo/testdata/project3" "project1" (cfg (Some %s)) in Ok (map (fun p => map f_FileName (p_Files p)) (d_Packages d))) = Ok [["./dontscan.txt"; "./keep/keep.txt"; "./keep.txt"; "./subdir/keep/dontscan.txt"; "./subdir/keep/keep.txt"]]'%PAT)
F="builder/build_package_test.go"
ex(cite(F,"TestBuilderCanBuildPackageSection"),"build_package_1",b'(let* p := build_package_section insertion_sorter h project1 "/repo/testdata/project1" "project1" None in Ok (seen_package p)) = Ok (%s)'%PK)
# idsearcher
F="idsearcher/idsearcher_test.go"
b=open(REPO+F,"rb").read()
out.append(b'Definition seen_files (d : Document) := map (fun p => (map (fun f => (f_FileName f, f_LicenseInfoInFiles f, f_LicenseConcluded f)) (p_Files p), p_LicenseInfoFromFiles p)) (d_Packages d).')
def strs(l): return '['+'; '.join('"%s"'%x for x in l)+']'
body=re.search(rb'func TestSearcherCanFillInIDs\(.*?^}',b,re.S|re.M)[0].decode()
per=re.findall(r'(\w+) := pkg\.Files\[\d\]',body); ln=6
got=[(re.findall(r'if %s\.LicenseInfoInFiles\[\d\] != "(.*?)"'%f,body),re.findall(r'if %s\.LicenseConcluded != "(.*?)"'%f,body)[0]) for f in per]
allf=re.findall(r'if pkg\.PackageLicenseInfoFromFiles\[\d\] != "(.*?)"',body)
assert len(per)==6 and len(allf)==7
ex(cite(F,"TestSearcherCanFillInIDs"),"search_2",'(let* d := build_ids_document insertion_sorter h project2 "/repo/testdata/project2" (MkIC "https://github.com/swinslow/spdx-docs/spdx-go/testdata-" None [] "now") "project2" in Ok (map (fun x => (map (fun f => (snd (fst f), snd f)) (fst x), snd x)) (seen_files d))) =\n Ok [([%s], %s)]'%(';\n  '.join('(%s, "%s")'%(strs(a),c) for a,c in got),strs(allf)))
for m in re.finditer(r'^func (Test\w+)\(.*?^}',b.decode(),re.S|re.M):
    t,body=m[1],m[0]
    if 'searchFileIDs("' in body or 'searchFileIDs(filePath)' in body and 'err == nil' not in body:
        path=re.search(r'filePath := "../testdata/(project\d)(/.*?)"',body); want=re.findall(r'ids\[\d\] != "(.*?)"',body); n=int(re.search(r'len\(ids\) != (\d)',body)[1]); assert n==len(want)
        ex(cite(F,t),"ids_"+t[4:],'option_map (search_file_ids insertion_sorter) (open_file %s "%s") = Some %s'%(path[1],path[2],strs(want)))
    if 'stripTrash' in body:
        pairs=list(zip(re.findall(r'lid :?= ("(?:[^"\\]|\\.)*")',body),re.findall(r'want :?= "(.*?)"',body)))
        ex(cite(F,t),"trash_"+t[4:],b'['+b'; '.join(b'strip_trash (%s)'%lit(gostr(a.encode())) for a,_ in pairs)+b'] = '+strs([w for _,w in pairs]).encode())
    if 'makeElement' in body:
        a=re.findall(r'lic(?:ID)? :?= "(.*?)"',body); w=re.findall(r'retval != "(.*?)"',body)
        ex(cite(F,t),"element_"+t[4:],'map make_element %s = %s'%(strs(a),strs(w)))
    if 'getIndividualLicenses' in body:
        parts=re.split(r'lic :?= ',body)[1:]
        ex(cite(F,t),"individual_"+t[4:],'map (get_individual_licenses insertion_sorter) %s =\n [%s]'%('['+'; '.join(re.match(r'"[^"]*"',p)[0] for p in parts)+']','; '.join(strs(re.findall(r'lics\[\d\] != "(.*?)"',p)) for p in parts)))
    if 'SearcherPathsIgnored' in body:
        def l(k):
            x=re.search(k+r': +\[\]string\{(.*?)\}',body,re.S)
            return strs(re.findall(r'"(.*?)"',x[1])) if x else None
        bp=l('BuilderPathsIgnored'); sp=l('SearcherPathsIgnored')
        proj=re.search(r'testdata/(project\d)',body)[1]
        chunks=re.split(r'f :?= pkg\.Files\[\d\]',body)[1:]
        want='; '.join('("%s", %s, "%s")'%(re.search(r'f\.FileName != "(.*?)"',c)[1],strs(re.findall(r'LicenseInfoInFiles\[\d\] != "(.*?)"',c)),re.search(r'LicenseConcluded != "(.*?)"',c)[1]) for c in chunks)
        ex(cite(F,t),"search_"+t[4:],'(let* d := build_ids_document insertion_sorter h %s "/repo/testdata/%s" (MkIC "x" (%s) %s "now") "%s" in Ok (map fst (seen_files d))) = Ok [[%s]]'%(proj,proj,'Some '+bp if bp else 'None',sp,proj,want))
# spdxlib
def docs(body):
    r=[]
    for m in re.finditer(rb'doc :?= &',body):
        p=P(body[m.end():],c,{}); r.append(p.value("Document"))
    return r
c=dict(CONST); c[b"spdx.Version"]=b"SPDX-2.3"; c[b"v2_1.Version"]=b"SPDX-2.1"; c[b"v2_2.Version"]=b"SPDX-2.2"
for x in ("v2_1","v2_2"): c[x.encode()+b".DataLicense"]=b"CC0-1.0"
for F in ("spdxlib/described_elements_test.go","spdxlib/documents_test.go"):
    b=open(REPO+F,"rb").read()
    for m in re.finditer(rb'^func (Test\w+)\(.*?^}',b,re.S|re.M):
        t,body=m[1].decode(),re.sub(rb'&(?=spdx.Relationship)',b'',m[0])
        for k,d in enumerate(docs(body)):
            call=b'get_described_package_ids insertion_sorter' if 'described' in F else b'validate_document'
            ids=re.findall(rb'describedPkgIDs\[\d\] != common.ElementID\("(.*?)"\)',body)
            if b'err == nil' in body: s=b'match %s (%s) with Err _ => true | _ => false end = true'%(call,d)
            elif ids: s=b'%s (%s) = Ok %s'%(call,d,strs([i.decode() for i in ids]).encode())
            else: s=b'%s (%s) = Ok tt'%(call,d)
            ex(cite(F,t),"lib_"+t[4:]+("_%d"%(k+1) if k else ""),s)
F="spdxlib/element_ids_test.go"
ex(cite(F,"TestSortElementIDs"),"lib_sort",'sort_element_ids insertion_sorter ["def"; "abc"; "123"] = ["123"; "abc"; "def"]')
F="spdxlib/relationships_test.go"
b=open(REPO+F,"rb").read()
ex(cite(F,"TestFindsDependsOnRelationships"),"lib_filter",b'filter_relationships (d_Relationships (%s : Document)) (fun r =>\n  let p1 := make_doc_element_id "" "p1" in\n  if String.eqb (r_Relationship r) "DEPENDS_ON" && deid_eqb (r_RefA r) p1 then Some (de_ElementRefID (r_RefB r))\n  else if String.eqb (r_Relationship r) "DEPENDENCY_OF" && deid_eqb (r_RefB r) p1 then Some (de_ElementRefID (r_RefA r)) else None) = ["p2"]'%docs(b)[0])
# licensediff
F="licensediff/licensediff_test.go"
b=open(REPO+F,"rb").read()
for m in re.finditer(rb'^func (Test\w+)\(.*?^}',b,re.S|re.M):
    t,body=m[1].decode(),m[0]; env={}; defs=[]
    for x in re.finditer(rb'^\t(\w+) := &(spdx\.File|spdx\.Package)\{',body,re.M):
        ty=x[2].split(b'.')[1].decode(); v=P(body[x.end(2)-len(x[2]):],c,env).value(ty); env[x[1]]=b"ld_%s_%s"%(t[-7:].encode(),x[1]); out.append(b"Definition %s : %s := %s."%(env[x[1]],ty.encode(),v))
    ps=[v for k,v in env.items() if k.startswith(b'p')]; assert len(ps)==2,ps
    if 'Pairs' in t:
        keys=re.findall(rb'(\w+), ok := diffMap\["(.*?)"\]|(\w+), ok = diffMap\["(.*?)"\]',body)
        rows=[]
        for ch in re.split(rb'(?=(?:lp|\w+), ok :?= \w+\["|\w+\["[^"]*"\])',body)[1:]: pass
        names=re.findall(rb'pairs\["(.*?)"\]|ok :?= \w+\["(.*?)"\]',body); names=[a or b2 for a,b2 in names]
        fst=re.findall(rb'\.First != (\w+\.LicenseConcluded|".*?")',body); snd=re.findall(rb'\.Second != (\w+\.LicenseConcluded|".*?")',body)
        assert len(names)==len(fst)==len(snd),(names,fst,snd)
        cv=lambda e: e if e[:1]==b'"' else b'f_LicenseConcluded '+env[e.split(b'.')[0]]
        ex(cite(F,t),"pairs_"+t[4:],b'(List.length (make_pairs %s %s), map (fun k => map_get k (make_pairs %s %s)) [%s]) =\n (%d, [%s])'%(ps[0],ps[1],ps[0],ps[1],b'; '.join(b'"%s"'%n for n in names),len(names),b'; '.join(b'Some (MkLP (%s) (%s))'%(cv(x),cv(y)) for x,y in zip(fst,snd))))
    else:
        rows=[]
        for f,k,e in re.findall(rb'ok :?= diffResults\.(\w+)\["(.*?)"\].*?((?:\tif check\d.*?\n\t\}\n)+)',body,re.S):
            e=re.findall(rb'if check\d(?:\.\w+)? != (\w+)\.',e)
            ls=[b'f_LicenseConcluded '+env[x] for x in e]
            rows.append(b'map_get "%s" (ld_%s r) = Some (%s)'%(k,f,b'MkLP (%s) (%s)'%tuple(ls) if f==b'InBothChanged' else ls[0]))
        assert len(rows)==6
        ex(cite(F,t),"results_"+t[4:],b'let r := make_results (make_pairs %s %s) in\n List.length (ld_InBothChanged r) = 2 /\\ List.length (ld_InBothSame r) = 2 /\\ List.length (ld_InFirstOnly r) = 1 /\\ List.length (ld_InSecondOnly r) = 1 /\\\n %s'%(ps[0],ps[1],b' /\\\n '.join(rows)))
        out[-1]=out[-1].replace(b'vm_compute. reflexivity',b'vm_compute. repeat split')
# convert: the test compares the JSON texts, where IsUnpackaged does not show
def nounp(s): return re.sub(rb'IsUnpackaged: *\w+,',b'',s)
F="convert/spdx_document_conversion_test.go"
b=open(REPO+F,"rb").read(); body=b[b.index(b'tests := '):]
for k,m in enumerate(re.finditer(rb'\{\n\t\t\tname: "(.*?)",\n\t\t\tsource: (v2_\d)\.Document',body)):
    s=body[m.end()-len(b"v2_1.Document"):]; i=s.index(b'expected: ')
    V={b"v2_1":b"V21",b"v2_2":b"V22"}[m[2]]
    out.append(b"Definition conv_source_%d : Document := %s."%(k,P(nounp(s),c,{}).value("Document")))
    out.append(b"Definition conv_expected_%d : Document := %s."%(k,P(nounp(s[i+10:]),c,{}).value("Document")))
    ex("%s %d: %s"%(F,b[:b.index(m[1])].count(b"\n")+1,m[1].decode()),"convert_%d"%k,b'map (fun dz => convert_document dz %s V23 (go_document %s conv_source_%d)) [true; false] = [Ok (go_document V23 conv_expected_%d); Ok (go_document V23 conv_expected_%d)]'%(V,V,k,k,k))
# spdx/v2/common
F="spdx/v2/common/identifier_test.go"
b=open(REPO+F,"rb").read().decode()
COD={"DocElementID":("c_doc_element_id",'(MkDEID "" "" "")'),"ElementID":("c_element_id",'""'),"DocumentID":("c_document_id",'""')}
def goval(ty,x):
    if ty=="DocElementID":
        d=dict(re.findall(r'(\w+): +"(.*?)"',x)); return '(MkDEID "%s" "%s" "%s")'%tuple(d.get(k,'') for k in ("DocumentRefID","ElementRefID","SpecialID"))
    return '"%s"'%re.search(r'"(.*?)"',x)[1]
out.append(b'Definition dec_text {X} (c : codec X) (zero : X) (s : string) : option X := match parse_text (String dquote s ++ String dquote "") with Some j => match dec c j zero with Ok x => Some x | _ => None end | None => None end.')
out.append(b'Definition enc_text {X} (c : codec X) (x : X) : option string := match enc c x with Ok j => Some (text j) | _ => None end.')
for m in re.finditer(r'^func (Test_(\w+?)(Encoding|Decoding))\(.*?^}',b,re.S|re.M):
    t,ty,kind=m[1],m[2],m[3]
    if ty not in COD: continue
    rows=re.findall(r'\{\n\t\t\tname: +"[^"]*",\n(.*?)\n\t\t\},',m[0],re.S); got=[]; want=[]
    c1,z=COD[ty]
    for r in rows:
        err=re.search(r'err: +true',r)
        v=re.search(r'value: +(.*?)(?=,\n\t\t\t(?:expected|err)|,?$)',r,re.S)[1]; e=re.search(r'expected: +(.*)',r,re.S)
        if kind=="Encoding":
            got.append('enc_text %s %s'%(c1,goval(ty,v))); want.append('None' if err else 'Some (String dquote "%s" ++ String dquote "")'%re.search(r'"(.*?)"',e[1])[1])
        else:
            got.append('dec_text %s %s %s'%(c1,z,v)); want.append('None' if err else 'Some %s'%goval(ty,e[1]))
    assert len(rows)>1
    ex(cite(F,t),"id_"+t[5:],'[%s] =\n [%s]'%(';\n '.join(got),'; '.join(want)))
F="spdx/v2/common/package_test.go"
b=open(REPO+F,"rb").read().decode()
m=re.search(r'func TestOriginator_UnmarshalJSON.*?^}',b,re.S|re.M)[0]
rows=re.findall(r'data: +\[\]byte\(("(?:[^"\\]|\\.)*")\),\s*wantErr: (\w+)',m)
ex(cite(F,"TestOriginator_UnmarshalJSON"),"originator_read",b'map (fun t => match parse_text t with Some j => match dec c_originator j (MkOriginator "" "") with Ok _ => false | _ => true end | None => true end) [%s] =\n [%s]'%(b'; '.join(lit(gostr(x.encode())) for x,_ in rows),b'; '.join(w.encode() for _,w in rows)))
m=re.search(r'func TestOriginator_MarshalJSON.*?^}',b,re.S|re.M)[0]
rows=re.findall(r'data: Originator\{(.*?)\},\s*wantErr: (\w+)',m,re.S)
def orig(x):
    d=dict(re.findall(r'(\w+): +"(.*?)"',x)); return 'MkOriginator "%s" "%s"'%(d.get("Originator",""),d.get("OriginatorType",""))
ex(cite(F,"TestOriginator_MarshalJSON"),"originator_write",'map (fun o => match enc c_originator o with Ok _ => false | _ => true end) [%s] = [%s]'%('; '.join(orig(x) for x,_ in rows),'; '.join(w for _,w in rows)))
open(OUT+"ToolTests.v","wb").write(b"\n".join(out)+b"\n")
