#!/usr/bin/env python3
"""Generates rocq/theories/ReaderTests.v: the tests of the tag-value readers of /repo
(spdx/v2/v2_*/tagvalue/reader/*_test.go) as examples about the model.

The test functions are executed here with symbolic parser states: a call of the parser
becomes a term of the model, and each condition under which the test fails becomes a
term of type bool that has to be false."""
import re, glob, sys
sys.dont_write_bytecode=True
from gen_reader_parse import P, name_of
from gen_samples import lit, gostr, types, OUT, REPO
S="string"
T={k:dict(v[1]) for k,v in types.items()}; ZERO={k:v[0] for k,v in types.items()}
T["File"]["ArtifactOfProjects"]=("f_Artifacts","[ArtifactOfProject"); T["File"]["Snippets"]=("f_Snippets","map")
T["ArtifactOfProject"]={"Name":("ar_Name",S),"HomePage":("ar_HomePage",S),"URI":("ar_URI",S)}; ZERO["ArtifactOfProject"]="zero_Artifact"
T["Annotation"]["AnnotationSPDXIdentifier"]=("a_SPDXIdentifier","DocElementID")
T["DocElementID"]={"DocumentRefID":("de_DocumentRefID",S),"ElementRefID":("de_ElementRefID",S),"SpecialID":("de_SpecialID",S)}
PTR={"Package":"ps_pkgs","File":"ps_files","Snippet":"ps_snips"}
INDOC={"OtherLicense":"d_OtherLicenses","Relationship":"d_Relationships","Annotation":"d_Annotations","Review":"d_Reviews"}
INOWN={"PackageExternalReference":("ps_pkgs","p_ExternalReferences"),"ArtifactOfProject":("ps_files","f_Artifacts")}
CUR={"pkg":("ps_pkg","Package"),"file":("ps_file","File"),"snippet":("ps_snip","Snippet"),"otherLic":("ps_lic","OtherLicense"),"rln":("ps_rln","Relationship"),
 "ann":("ps_ann","Annotation"),"rev":("ps_rev","Review"),"pkgExtRef":("ps_extref","PackageExternalReference"),"fileAOP":("ps_aop","ArtifactOfProject")}
CONST={m[1]:gostr(m[2]) for f in ("checksum","external") for m in re.finditer(rb'(\w+)\s*(?:ChecksumAlgorithm|string)?\s*=\s*("[^"]*")',open(REPO+"spdx/v2/common/%s.go"%f,"rb").read())}
# ---- symbolic execution
class Sym:
    """a term of type option (kind); [own]: the parser whose state a pointer belongs to"""
    def __init__(s,k,e,own=None): s.k=k; s.e=e; s.own=own
class Lit:
    def __init__(s,ty,fs): s.ty=ty; s.fs=fs
class Run:
    def __init__(r,V,ver,funcs): r.V=V; r.ver=ver; r.funcs=funcs; r.lets=[]; r.checks=[]; r.n=0
    def let(r,e,pre=b's'): r.n+=1; x=b'%s%d'%(pre,r.n); r.lets.append((x,e)); return x
    # literals as terms
    def term(r,v,ty):
        if isinstance(v,Sym): raise Exception("symbolic field")
        if ty==S: return b'('+lit(v)+b')'
        if ty=='bool': return b'true' if v else b'false'
        if ty[0]=='[': assert v==[],v; return b'[]'
        if ty=='map': assert v in ({},[]),v; return b'[]'
        assert isinstance(v,Lit),(v,ty)
        e=ZERO[ty].encode()
        for f,x in v.fs:
            p,t=T[ty][f.decode()]; e=b'(set_%s %s %s)'%(p.encode(),r.term(x,t),e)
        return e
    def parser(r,fs):
        d=dict(fs); e=b'zero_pstate'; doc=None
        if b'doc' in d: doc=r.term(d[b'doc'],'Document')
        for f,(p,ty) in CUR.items():
            v=d.get(f.encode())
            if v is None: continue
            x=r.term(v,ty)
            if ty in PTR: e=b'(set_%s [%s] (set_%s (Some 0) %s))'%(PTR[ty].encode(),x,p.encode(),e)
            else: doc=b'(set_%s [%s] %s)'%(INDOC[ty].encode(),x,doc); e=b'(set_%s (Some 0) %s)'%(p.encode(),e)
        if doc: e=b'(set_ps_doc (Some %s) %s)'%(doc,e)
        if b'st' in d: e=b'(set_ps_st %s %s)'%(r.st(d[b'st']),e)
        o=Par(); o.s=r.let(e); o.own={f.encode() for f in CUR if d.get(f.encode()) is not None}; return o
    def st(r,x): return b'P'+x[1:]
    # expressions
    def ev(r,a,env):
        k=a[0]
        if k in ('str','int'): return a[1]
        if k=='id':
            n=a[1]
            if n in env: return env[n]
            if n in (b'true',b'false'): return n==b'true'
            if n==b'nil': return None
            if n.startswith(b'ps'): return ('st',n)
            raise Exception(b'name '+n)
        if k=='new': return r.ev(a[1],env)
        if k=='list': return [r.ev(x if x[0]!='lit' else ('struct',('id',b'?'),x[1]),env) for x in a[1]]
        if k=='map': return {r.ev(x[1],env):r.ev(x[2],env) for x in a[1]}
        if k=='struct':
            fs=[(x[1][1],(lambda v:v[1] if isinstance(v,tuple) and v[0]=='st' else v)(r.ev(x[2],env))) for x in a[2]]
            ty=name_of(a[1]).decode()
            return r.parser(fs) if ty=='tvParser' else Lit(ty,fs)
        if k=='sel':
            if a[1]==('id',b'spdx') or (a[1][0]=='id' and a[1][1].startswith(b'v2_')):
                return {b'Version':r.ver,b'DataLicense':b'CC0-1.0'}[a[2]]
            if a[1]==('id',b'common'): return CONST[a[2]]
            return r.sel(r.ev(a[1],env),a[2])
        if k=='idx':
            l=r.ev(a[1],env); i=r.ev(a[2],env)
            if isinstance(l,list): return l[i]
            if isinstance(l,dict):
                if isinstance(i,Sym): return Sym(S,b'(obind %s (fun k => lookup k [%s]))'%(i.e,b'; '.join(b'(%s, %s)'%(lit(x),lit(y)) for x,y in l.items())))
                return l[i]
            if l.k=='map': return Sym('&Snippet',b'(obind %s (fun m => option_map (fun i => Some (i, 0)) (lookup %s m)))'%(l.e,r.str(i)),l.own)
            assert l.k[0]=='['; return Sym(l.k[1:],b'(obind %s (fun l => nth_error l %d))'%(l.e,i),l.own)
        if k in ('==','!=','&&','||'):
            x=r.ev(a[1],env)
            y=r.ev(a[2],env)
            return r.cmp(k,x,y)
        if k=='+': return r.ev(a[1],env)+r.ev(a[2],env)
        if k=='call': return r.call(a,env)
        raise Exception(a)
    def str(r,x): return b'('+lit(x)+b')'
    def opt(r,x,k):
        if isinstance(x,Sym): return x.e
        if k==S: return b'(Some %s)'%r.str(x)
        if k=='nat': return b'(Some %d)'%x
        if k=='Z': return b'(Some %d%%Z)'%x
        if k=='bool': return b'(Some %s)'%(b'true' if x else b'false')
        if k=='pst': return b'(Some %s)'%r.st(x[1])
        if k[0]=='&' and x is None: return b'(Some None)'
        if k=='err' and x is None: return b'(Some false)'
        raise Exception((k,x))
    def cmp(r,o,x,y):
        if o in ('&&','||'):
            if isinstance(x,bool): return (y if x else False) if o=='&&' else (True if x else y)
            if isinstance(y,bool): return (x if y else False) if o=='&&' else (True if y else x)
            return Sym('bool',b'(olift %s %s %s)'%({'&&':b'andb','||':b'orb'}[o],x.e,y.e))
        if not isinstance(x,Sym) and not isinstance(y,Sym): return (x==y)==(o=='==')
        if not isinstance(x,Sym): x,y=y,x
        if isinstance(y,bool) and x.k=='bool':
            return x if y==(o=='==') else Sym('bool',b'(option_map negb %s)'%x.e)
        if isinstance(y,Lit): raise Exception("literal")
        k=x.k; eq={'string':b'String.eqb','nat':b'Nat.eqb','Z':b'Z.eqb','bool':b'Bool.eqb','pst':b'pst_eqb','err':b'Bool.eqb'}.get(k,b'ptr_eqb' if k[0]=='&' else None)
        if k[0]=='?' and y is None: e=b'(option_map (fun o => match o with None => true | Some _ => false end) %s)'%x.e
        else: e=b'(olift %s %s %s)'%(eq,x.e,r.opt(y,k))
        return Sym('bool',e if o=='==' else b'(option_map negb %s)'%e)
    def sel(r,x,f):
        if isinstance(x,Lit): return dict(x.fs)[f]
        f=f.decode()
        if isinstance(x,Par):
            if f=='st': return Sym('pst',b'(Some (ps_st %s))'%x.s)
            if f=='doc': return Sym('?Document',b'(Some (ps_doc %s))'%x.s,x)
            p,ty=CUR[f]; e=b'(%s %s)'%(p.encode(),x.s)
            if ty not in INOWN: e=b'(option_map (fun i => (i, 0)) %s)'%e
            return Sym('&'+ty,b'(Some %s)'%e,x)
        k=x.k; e=x.e
        if k[0]=='?': k=k[1:]; e=b'(obind %s (fun o => o))'%e
        if k[0]=='!': k=k[1:]; e=b'(option_map (fun o => match o with Some c => c | None => %s end) %s)'%(ZERO[k].encode(),e)
        if k[0]=='&': k,e=k[1:],r.deref(x)
        if k=='SnippetRangePointer' or True:
            p,ty=T[k][f]; p=p.encode()
        e2=b'(option_map (fun x => %s x) %s)'%(p,e)
        if ty[0]=='[':
            el=ty[1:]
            if el in PTR: return Sym('[&'+el,b'(option_map (map (fun i => Some (i, 0))) %s)'%e2,x.own)
            if el in INDOC and k=='Document': return Sym('[&'+el,b'(option_map (fun l => map (fun i => Some (i, 0)) (seq 0 (List.length l))) %s)'%e2,x.own)
            if el in INOWN and x.k[0]=='&': return Sym('[&'+el,b'(obind %s (fun p => obind p (fun p => option_map (fun l => map (fun j => Some (fst p, j)) (seq 0 (List.length l))) %s)))'%(x.e,e2),x.own)
        return Sym(ty,e2,x.own)
    def deref(r,x):
        ty=x.k[1:]; s=x.own.s
        if ty in PTR: f=b'nth_error (%s %s) (fst p)'%(PTR[ty].encode(),s)
        elif ty in INDOC: f=b'obind (ps_doc %s) (fun d => nth_error (%s d) (fst p))'%(s,INDOC[ty].encode())
        else: ar,fl=INOWN[ty]; f=b'obind (nth_error (%s %s) (fst p)) (fun w => nth_error (%s w) (snd p))'%(ar.encode(),s,fl.encode())
        return b'(obind %s (fun p => obind p (fun p => %s)))'%(x.e,f)
    def call(r,a,env):
        fn=a[1]; n=name_of(fn).decode(); A=a[2]
        if n in ('Errorf','Fatalf','Fatal','Error'): return 'fail'
        if n in r.funcs and fn[0]=='id':
            ps,body=r.funcs[n]; e={p:r.ev(x,env) for p,x in zip(ps,A) if x!=('id',b't')}
            r.block(body,e); return None
        v=[r.ev(x,env) for x in A] if not (n=='append') else None
        if n in ('ElementID','string','DocumentID'): return v[0]
        if n=='Sprintf':
            s=v[0]
            for x in v[1:]: s=s.replace(b'%s',x,1)
            return s
        if n=='len':
            if isinstance(v[0],(list,dict)): return len(v[0])
            return Sym('nat',b'(option_map (@List.length _) %s)'%v[0].e)
        if n=='append': return ('append',r.ev(A[0],env),r.ev(A[1],env),A[0])
        if n.startswith('parsePair'):
            p=r.ev(fn[1],env); f={'parsePair':None,'parsePairFromStart':b'parse_start','parsePairFromCreationInfo':b'parse_creation_info','parsePairFromPackage':b'parse_package',
              'parsePairFromFile':b'parse_file','parsePairFromSnippet':b'parse_snippet','parsePairFromOtherLicense':b'parse_license','parsePairFromReview':b'parse_review'}[n]
            e=b'parse_pair %s %s (%s, %s)'%(r.V,p.s,r.str(v[0]),r.str(v[1])) if f is None else b'%s %s %s %s %s'%(f,r.V,r.str(v[0]),r.str(v[1]),p.s)
            q=r.let(e,b'r'); p.s=r.let(b'after %s %s'%(p.s,q)); return Sym('err',b'(failed %s)'%q)
        X={'extractSubs':(b'extract_subs %s',[b'fst %s',b'snd %s'],b'("", "")',S),'extractDocElementID':(b'extract_doc_element_id %s',[b'%s'],b'(MkDEID "" "" "")','DocElementID'),
           'extractElementID':(b'extract_element_id %s',[b'%s'],b'""',S),
           'extractPackageExternalReference':(b'extract_package_external_reference %s',[b'fst (fst %s)',b'snd (fst %s)',b'snd %s'],b'("", "", "")',S),
           'extractExternalDocumentReference':(b'extract_external_document_reference %s',[b'edr_DocumentRefID %s',b'edr_URI %s',b'ck_Algorithm (edr_Checksum %s)',b'ck_Value (edr_Checksum %s)'],b'zero_ExternalDocumentRef',S)}
        if n in X:
            f,ps,z,ty=X[n]; q=r.let(f%r.str(v[0]),b'r'); w=r.let(b'match %s with Ok x => x | _ => %s end'%(q,z),b'w')
            return ('multi',[Sym(ty,b'(Some (%s))'%(p%w)) for p in ps]+[Sym('err',b'(failed %s)'%q)])
        if n=='extractDocElementSpecial':
            q=r.let(b'extract_doc_element_special %s [%s]'%(r.str(v[0]),b'; '.join(lit(x) for x in v[1])),b'r'); w=r.let(b'match %s with Ok x => x | _ => MkDEID "" "" "" end'%q,b'w')
            return ('multi',[Sym('DocElementID',b'(Some %s)'%w),Sym('err',b'(failed %s)'%q)])
        if n=='extractCodeAndExcludes': return Sym('PackageVerificationCode',b'(Some (extract_code_and_excludes %s))'%r.str(v[0]))
        if n=='ParseTagValues':
            q=r.let(b'parse_tag_values %s [%s]'%(r.V,b'; '.join(b'(%s, %s)'%(lit(dict(x.fs)[b'Tag']),lit(dict(x.fs)[b'Value'])) for x in v[0])),b'r')
            return ('multi',[Sym('?Document',b'match %s with Ok o => Some o | _ => None end'%q),Sym('err',b'(failed %s)'%q)])
        raise Exception('call '+n)
    # statements
    def fails(r,b): return any((s[0]=='do' and s[1][0]=='call' and name_of(s[1][1]) in (b'Errorf',b'Fatalf')) or (s[0]=='if' and r.fails(s[3])) for s in b)
    def block(r,b,env):
        for s in b: r.stmt(s,env)
    def stmt(r,s,env):
        k=s[0]
        if k=='do':
            if r.ev(s[1],env)=='fail': raise Exception('the test fails')
        elif k=='set':
            v=r.ev(s[2],env)
            if isinstance(v,tuple) and v[0]=='multi':
                assert len(v[1])==len(s[1]),(s,len(v[1]))
                for l,x in zip(s[1],v[1]): env[l[1]]=x
                return
            l=s[1][0]
            if isinstance(v,tuple) and v[0]=='append':
                if isinstance(v[1],list): env[l[1]]=v[1]+[v[2]]; return
                _,lst,x,path=v; assert path==l; own=x.own; el=x.k[1:]; f=path[2]; owner=r.ev(path[1],env)
                if el in INDOC: assert el!='x' ; return   # is in the list of the document from the start
                if owner.k=='?Document': own.s=r.let(b'push_doc_%s %s %s'%(f.lower(),x.e,own.s))
                else: own.s=r.let(b'push_pkg_%s %s %s %s'%(f.lower(),owner.e,x.e,own.s))
                return
            if l[0]=='idx':
                m=l[1]; f=r.ev(m[1],env); assert m[2]==b'Snippets'; v.own.s=r.let(b'put_snippet %s %s %s %s'%(f.e,r.str(r.ev(l[2],env)),v.e,v.own.s)); return
            if l[0]=='sel': o=r.ev(l[1],env); assert v is None and isinstance(o,Par); o.s=r.let(b'set_%s None %s'%(CUR[l[2].decode()][0].encode(),o.s)); return
            env[l[1]]=v
        elif k=='if':
            if s[1]: r.stmt(s[1],env)
            c=r.ev(s[2],env)
            if isinstance(c,bool): r.block(s[3] if c else s[4],env); return
            assert r.fails(s[3]),s
            r.checks.append(c.e)
        elif k=='switch':
            for c,b in s[2]:
                w=r.cmp('==',r.ev(s[1],env),r.ev(c,env)); n=len(r.checks); r.block(b,env)
                r.checks[n:]=[b'(olift andb %s %s)'%(w.e,x) for x in r.checks[n:]]
        elif k=='for':
            l=r.ev(s[3],env)
            if isinstance(l,list):
                for x in l: env[s[2]]=x; r.block(s[4],env)
            elif isinstance(l,dict):
                for a,x in l.items(): env[s[1]]=a; env[s[2]]=x; r.block(s[4],env)
            else:
                b=s[4]; assert len(b)==1 and b[0][0] in ('if','switch')
                if b[0][0]=='if' and not r.fails(b[0][3]):
                    c,th=b[0][2],b[0][3]; assert th[0][0]=='set' and c[0]=='==' and c[2]==('id',s[2]) and l.k=='[string'
                    env[th[0][1][0][1]]=Sym('bool',b'(option_map (mem %s) %s)'%(r.str(r.ev(c[1],env)),l.e))
                else:
                    n=len(r.checks); nl=len(r.lets); env[s[2]]=Sym(l.k[1:],b'(Some it)',l.own); r.block(b,env); assert nl==len(r.lets)
                    cs=r.checks[n:]; del r.checks[n:]
                    r.checks+= [b'(obind %s (oexists (fun it => %s)))'%(l.e,c) for c in cs]
        else: raise Exception(s)
class Par: pass
out=[b'''(** * The tests of the tag-value readers (generated by tools/gen_reader_tests.py).

    Each example is one test of /repo/spdx/v2/v2_*/tagvalue/reader: the calls it makes,
    and the conditions under which it fails, each of which must be [Some false]: it can
    be evaluated without following a nil pointer, and is false.  The examples check that
    the model does what the tests of the code say the code does; they are not among the
    claims.  After an error a test goes on with the state before the call. *)
From Verif Require Import GoStr Types TvState TvUtil TvReader TvParser.
Local Open Scope string_scope.
Definition obind {A B} (o : option A) (f : A -> option B) : option B := match o with Some x => f x | None => None end.
Definition olift {A B C} (f : A -> B -> C) (a : option A) (b : option B) : option C := obind a (fun x => option_map (f x) b).
Fixpoint oexists {A} (f : A -> option bool) (l : list A) : option bool :=
  match l with [] => Some false | x :: l => olift orb (f x) (oexists f l) end.
Definition pst_eqb (a b : pst) : bool :=
  match a, b with
  | PsStart, PsStart | PsCreationInfo, PsCreationInfo | PsPackage, PsPackage | PsFile, PsFile | PsSnippet, PsSnippet
  | PsOtherLicense, PsOtherLicense | PsReview, PsReview => true
  | _, _ => false
  end.
Definition ptr_eqb (a b : option (nat * nat)) : bool :=
  match a, b with
  | None, None => true
  | Some (i, j), Some (k, l) => Nat.eqb i k && Nat.eqb j l
  | _, _ => false
  end.
Definition after (s : pstate) (r : res pstate) : pstate := match r with Ok s' => s' | _ => s end.
Definition failed {A} (r : res A) : option bool := match r with Ok _ => Some false | Err _ => Some true | Panic => None end.
Definition ptr := option (option (nat * nat)).
Definition index (p : ptr) : nat := match p with Some (Some (i, _)) => i | _ => 0 end.
Definition on_nth {A} (i : nat) (f : A -> A) (l : list A) : list A := match update_nth i f l with Some l' => l' | None => l end.
Definition push_doc_packages (p : ptr) (s : pstate) : pstate :=
  set_ps_doc (option_map (fun d => set_d_Packages (d_Packages d ++ [index p])%list d) (ps_doc s)) s.
Definition push_pkg_files (q p : ptr) (s : pstate) : pstate :=
  set_ps_pkgs (on_nth (index q) (fun x => set_p_Files (p_Files x ++ [index p])%list x) (ps_pkgs s)) s.
Definition put_snippet (f : ptr) (id : string) (p : ptr) (s : pstate) : pstate :=
  set_ps_files (on_nth (index f) (fun x => set_f_Snippets (map_put id (index p) (f_Snippets x)) x) (ps_files s)) s.
Fixpoint lookup {A} (k : string) (l : list (string * A)) : option A :=
  match l with [] => None | (x, a) :: l => if String.eqb k x then Some a else lookup k l end.
Definition is_false (o : option bool) : bool := match o with Some b => negb b | None => false end.
''']
n=nc=0; skipped=[]
for v,V in (("v2_1",b"V21"),("v2_2",b"V22"),("v2_3",b"V23")):
    for f in sorted(glob.glob(REPO+"spdx/v2/%s/tagvalue/reader/*_test.go"%v)):
        b=open(f,"rb").read(); fn=f[len(REPO):].encode()
        funcs={}
        for m in re.finditer(rb'^func (helper\w+)\(([^)]*)\) \{\n(.*?)^\}\n',b,re.M|re.S):
            funcs[m[1].decode()]=([x.split()[0] for x in m[2].split(b',')],P(b'{'+m[3]+b'}').block())
        for m in re.finditer(rb'^func (Test\w+)\(t \*testing.T\) \{\n(.*?)^\}\n',b,re.M|re.S):
            if b"InvalidState" in m[1]: continue # the states the parser never calls the function in
            line=b[:m.start()].count(b"\n")+1
            r=Run(V,b"SPDX-"+v[1:].replace("_",".").encode(),funcs)
            try: r.block(P(b'{'+m[2]+b'}').block(),{})
            except Exception as e:
                skipped.append((fn,m[1],repr(e)[:150])); continue
            used=b' '.join(r.checks)
            t=b''.join(b'  let %s := %s in\n'%x for x in r.lets)+b'  ['+b';\n   '.join(r.checks)+b']'
            out.append(b"(** /repo/%s %d *)\nExample %s_%s : forallb is_false (\n%s) = true.\nProof. vm_compute. reflexivity. Qed."%(fn,line,V.lower(),m[1],t)); n+=1; nc+=len(r.checks)
open(OUT+"ReaderTests.v","wb").write(b"\n".join(out)+b"\n")
print(n,"tests",nc,"checks"); 
for s in skipped: print(s)
