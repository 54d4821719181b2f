#!/usr/bin/env python3
"""Generates rocq/theories/RdfTests.v: tests of the RDF readers of /repo
(spdx/v2/v2_*/rdf/reader/*_test.go) as examples about the model.

The RDF/XML of a test is turned into triples here (gordf, which the tests use for it, is
no part of /repo), the calls of the reader become terms of the model.  Conditions that
look at values the model does not have are left out, and counted."""
import re, glob, sys
import xml.etree.ElementTree as ET
sys.dont_write_bytecode=True
from gen_samples import lit, gostr, OUT, REPO
import gen_reader_parse as grp
P=grp.P
RDF="http://www.w3.org/1999/02/22-rdf-syntax-ns#"
HEAD='''<rdf:RDF xmlns:spdx="http://spdx.org/rdf/terms#" xmlns:rdf="http://www.w3.org/1999/02/22-rdf-syntax-ns#" xmlns="http://spdx.org/spdxdocs/spdx-example-444504E0-4F89-41D3-9A0C-0305E82C3301#" xmlns:doap="http://usefulinc.com/ns/doap#" xmlns:j.0="http://www.w3.org/2009/pointers#" xmlns:rdfs="http://www.w3.org/2000/01/rdf-schema#">'''
BASE="http://spdx.org/spdxdocs/spdx-example-444504E0-4F89-41D3-9A0C-0305E82C3301"
class Unsupported(Exception): pass
class Stop(Exception): pass
class Unknown: pass
class Node:
    def __init__(s,ty,id): s.ty=ty; s.id=id
    def key(s): return (s.ty,s.id)
class Triple:
    def __init__(s,a,p,o): s.a=a; s.p=p; s.o=o
class Sym:
    def __init__(s,k,e): s.k=k; s.e=e
class Obj:  # a struct made by the test
    def __init__(s,ty,fs): s.ty=ty; s.fs=fs
def uri(tag): return tag[1:].replace('}','') if tag[0]=='{' else tag
def absolute(u): return (BASE+u) if u.startswith('#') else u
def triples(xml):
    root=ET.fromstring(HEAD+xml+"</rdf:RDF>"); ts=[]; n=[0]
    def subject(e):
        for a,v in e.attrib.items():
            a=uri(a)
            if a==RDF+"about": return Node('IRI',absolute(v))
            if a==RDF+"ID": return Node('IRI',BASE+'#'+v)
            if a==RDF+"nodeID": return Node('NODEIDLITERAL',v)
        n[0]+=1; return Node('BLANK','N%d'%n[0])
    def block(e,s):
        ts.append(Triple(s,RDF+"type",Node('IRI',uri(e.tag))))
        for c in e:
            p=uri(c.tag); r=c.attrib.get('{%s}resource'%RDF); i=c.attrib.get('{%s}nodeID'%RDF)
            if r is not None: ts.append(Triple(s,p,Node('RESOURCELITERAL',absolute(r)))); continue
            if i is not None: ts.append(Triple(s,p,Node('NODEIDLITERAL',i))); continue
            if len(c)==0: ts.append(Triple(s,p,Node('LITERAL',c.text or ''))); continue
            for o in c:
                w=subject(o); ts.append(Triple(s,p,w)); block(o,w)
    for e in root: block(e,subject(e))
    return ts
def b(x): return x if isinstance(x,bytes) else x.encode()
def st(x): return b'('+lit(b(x))+b')'
def node(n): return b'(MkNode %s %s)'%(b'NIri' if n.ty=='IRI' else b'(NOther "%s")'%n.ty.encode(),st(n.id))
def triple(t): return b'(MkTriple %s %s %s)'%(node(t.a),st(t.p),node(t.o))
def graph(ts):
    subs=[]; objs={t.o.key() for t in ts}
    for t in ts:
        if t.a.key() not in objs and t.a.key() not in [s.key() for s in subs]: subs.append(t.a)
    return b'MkGraph [%s] [%s] test_uri'%(b';\n    '.join(map(triple,ts)),b'; '.join(map(node,subs)))
class Parser:
    def __init__(s,ts): s.ts=ts
# function: (model term, kinds of the results before the error); S: changes the state
F={ # name: (arguments used, term, results)
 'getPackageFromNode':(0,'get_package V G A S',('pkg',),'snd'), 'getFileFromNode':(0,'get_file V G A S',('file',),'snd'),
 'getAnyLicenseFromNode':(0,'get_any_license G A (rs_cache S)',('license',),None),
 'parseSpdxDocumentNode':(0,'parse_document_node V G A S',(),'id'), 'parseRelationship':(0,'parse_relationship V G A S',(),'id'),
 'setFileChecksumFromNode':(1,'element_checksum V G A',(),None),'setPackageChecksum':(1,'element_checksum V G A',(),None),
 'getLicenseFromNode':(0,'license_from_node G A',('?',),None),'getWithExceptionOperatorFromNode':(0,'with_exception_from_node G A',('?',),None),
 'getOrLaterOperatorFromNode':(0,'or_later_from_node G A',('?',),None),'getSpecialLicenseFromNode':(0,'special_license A',('string',),None),
 'getSimpleLicensingInfoFromTriples':(0,'simple_from_triples G A',('simple',),None),'getSimpleLicensingInfoFromNode':(0,'simple_from_node G A',('simple',),None),
 'getLicenseExceptionFromNode':(0,'exception_from_node G A',('exception',),None),'getExtractedLicensingInfoFromNode':(0,'extracted_from_node G A',('?',),None),
 'parseRelatedElementFromTriple':(1,'related_element (go V G (enough G)) A zero_Relationship S',(),'snd'),
 'setSnippetRangeFromNode':(0,'range_from_node V G A "" S',(),'snd'), 'getPointerFromNode':(0,'pointer_from_node V G A S',('?','Z'),'snd'),
 'getSpdxDocNode':(None,'get_doc_node G',('?',),None), 'LoadFromGoRDFParser':(None,'load V G (fun l => l)',('?',),None),
 'setPackageSupplier':(1,'package_actor A',(),None),'setPackageOriginator':(1,'package_actor A',(),None),
 'setDocumentLocationFromURI':(1,'location_from_uri G A',(),None),'getPackageExternalRef':(0,'external_ref_from_node G A',('?',),None),
 'getReferenceFromURI':(0,'reference_from_uri A',('DocElementID',),None),'setAnnotationType':(0,'annotation_type A',(),None),
 'parseAnnotationFromNode':(0,'parse_annotation G A S',(),'id'),'getArtifactFromNode':(0,'artifact_from_node G A',('artifact',),None),
 'setReviewFromNode':(0,'set_review G A S',(),'id'),'parseRangeReference':(0,'range_reference V G A S',(),'id'),
 'parseCreationInfoFromNode':(1,'for_each creation_info_step (triples_of G A) zero_CreationInfo',(),None),
 'getExternalDocumentRefFromNode':(0,'external_document_from_node G A',('?',),None),'getChecksumFromNode':(0,'checksum_from_node G A',('ck_Algorithm','ck_Value'),None),
 'getSnippetInformationFromNode2_3':(0,'snippet_from_node V G A S',('?',),'snd'),'getSnippetInformationFromNode2_2':(0,'snippet_from_node V G A S',('?',),'snd'),
 'getAlgorithmFromURI':(0,'algorithm_from_uri A',('string',),None),'boolFromString':(0,'bool_from_string A',('bool',),None),'setFilesAnalyzed':(1,'bool_from_string A',(),None),
 'setFileIdentifier':(0,'file_identifier A',(),None),'getFileTypeFromUri':(0,'file_type_from_uri A',('string',),None),
 'setPackageVerificationCode':(1,'verification_from_node G A None',(),None),'getRelationshipTypeFromURI':(0,'relationship_type_from_uri A',('string',),None),
}
SETS={'setAnnotationType':(1,[('AnnotationType','string',b'x')]),'setFileIdentifier':(1,[('FileSPDXIdentifier','string',b'x')]),
 'setDocumentLocationFromURI':(0,[('PackageDownloadLocation','string',b'x')]),'parseCreationInfoFromNode':(0,[('LicenseListVersion','string',b'ci_LicenseListVersion x'),('Created','string',b'ci_Created x'),('CreatorComment','string',b'ci_CreatorComment x')]),
 'setFilesAnalyzed':(0,[('FilesAnalyzed','bool',b'x')]),
 'parseRelatedElementFromTriple':(0,[('RefA','DocElementID',b'r_RefA (fst x)'),('RefB','DocElementID',b'r_RefB (fst x)')]),
 'setPackageVerificationCode':(0,[('PackageVerificationCode','vcode',b'x')])}
PURE={'getNoticeTextFromNode':'notice_text A','getLicenseStringFromURI':'license_string_from_uri A','getLastPartOfURI':'last_part A'}
FIELDS={'doc':{'Annotations':('d_Annotations','[ann'),'Relationships':('d_Relationships','[rel'),'Reviews':('d_Reviews','[rev'),'OtherLicenses':('d_OtherLicenses','[lic'),'Packages':('d_Packages','[nat'),'Files':('d_Files','[nat'),
   'SPDXVersion':('d_SPDXVersion','string'),'DataLicense':('d_DataLicense','string'),'DocumentName':('d_DocumentName','string'),'DocumentNamespace':('d_DocumentNamespace','string'),'DocumentComment':('d_DocumentComment','string')},
 'ann':{'AnnotationType':('a_Type','string'),'AnnotationDate':('a_Date','string'),'AnnotationComment':('a_Comment','string')},
 'rel':{'Relationship':('r_Relationship','string'),'RelationshipComment':('r_Comment','string'),'RefA':('r_RefA','DocElementID'),'RefB':('r_RefB','DocElementID')},
 'vcode':{'Value':('vc_Value','string')},'pkg':{'PackageName':('p_PackageName','string'),'PackageVersion':('p_PackageVersion','string'),'PackageFileName':('p_FileName','string')},
 'file':{'FileName':('f_FileName','string'),'FileCopyrightText':('f_CopyrightText','string'),'FileComment':('f_Comment','string')},
 'artifact':{'Name':('ar_Name','string'),'HomePage':('ar_HomePage','string'),'URI':('ar_URI','string')},
 'simple':{'licenseID':('sl_licenseID','string'),'name':('sl_name','string'),'comment':('sl_comment','string'),'example':('sl_example','string')},
 'exception':{'licenseExceptionId':('ex_id','string'),'licenseExceptionText':('ex_text','string'),'seeAlso':('ex_seeAlso','string'),'name':('ex_name','string'),'example':('ex_example','string'),'comment':('ex_comment','string')},
 'DocElementID':{'DocumentRefID':('de_DocumentRefID','string'),'ElementRefID':('de_ElementRefID','string')}}
LIC={'SpecialLicense':'LSpecial _','DisjunctiveLicenseSet':'LDisjunctive _','ConjunctiveLicenseSet':'LConjunctive _','ExtractedLicensingInfo':'LExtracted _ _','License':'LLicense _ _',
 'WithExceptionOperator':'LWithException _ _','OrLaterOperator':'LOrLater _','SimpleLicensingInfo':'LSimple _'}
dropped=0; WHY=[]
def opt_eq(k): return {'string':b'String.eqb','bool':b'Bool.eqb','Z':b'Z.eqb','err':b'Bool.eqb','nat':b'Nat.eqb'}[k]
class Run:
    def __init__(r,V,consts,funcs): r.V=V; r.c=consts; r.f=funcs; r.lets=[]; r.checks=[]; r.n=0
    def let(r,e,pre): r.n+=1; x=b'%s%d'%(pre,r.n); r.lets.append((x,e)); return x
    def ev(r,a,env):
        k=a[0]
        if k in ('str','int'): return a[1]
        if k=='id':
            n=a[1]
            if n in env: return env[n]
            if n in (b'true',b'false'): return n==b'true'
            if n==b'nil': return None
            if n in r.c: return r.c[n]
            raise Unsupported(n)
        if k=='new': return r.ev(a[1],env)
        if k=='not':
            x=r.ev(a[1],env)
            if isinstance(x,bool): return not x
            return Sym('bool',b'(option_map negb %s)'%x.e)
        if k=='list': return [r.ev(x if x[0]!='lit' else ('struct',('id',b'?'),x[1]),env) for x in a[1]]
        if k=='struct':
            ty=grp.name_of(a[1]).decode()
            fs={}
            for x in a[2]: 
                if x[0]!='kv': raise Unsupported('struct')
                fs[x[1][1].decode()]=r.ev(x[2],env)
            if ty=='Node' or ('NodeType' in fs): return Node(fs['NodeType'],fs['ID'])
            if ty=='Triple' or 'Predicate' in fs: return Triple(fs['Subject'],fs['Predicate'].id,fs.get('Object'))
            return Obj(ty,fs)
        if k=='sel':
            if a[1]==('id',b'gordfParser'): return a[2].decode()
            x=r.ev(a[1],env); f=a[2].decode()
            if isinstance(x,Parser) and f=='gordfParserObj': return ('gordf',x)
            if isinstance(x,tuple) and f=='Triples': return x[1].ts
            if isinstance(x,Triple): return {'Subject':x.a,'Object':x.o,'Predicate':Node('IRI',x.p)}[f]
            if isinstance(x,Node): return {'ID':x.id,'NodeType':x.ty}[f]
            if isinstance(x,Sym) and x.k in FIELDS and f in FIELDS[x.k]:
                p,t=FIELDS[x.k][f]; return Sym(t,b'(option_map (fun x => %s x) %s)'%(p.encode(),x.e))
            if isinstance(x,Obj) and f in x.fs: return x.fs[f]
            if isinstance(x,Parser) and f=='doc': return Sym('doc',b'(Some (rs_doc %s))'%x.s)
            raise Unsupported(f)
        if k=='idx':
            l=r.ev(a[1],env); i=r.ev(a[2],env)
            if isinstance(l,list): return l[i]
            if isinstance(l,Sym) and l.k[0]=='[': return Sym(l.k[1:],b'(obind %s (fun l => nth_error l %d))'%(l.e,i))
            raise Unsupported('index')
        if k in ('==','!=','&&','||'):
            x=r.ev(a[1],env)
            if isinstance(x,Unknown): raise Unsupported('unknown')
            y=r.ev(a[2],env)
            if isinstance(y,Unknown): raise Unsupported('unknown')
            if k in ('&&','||'):
                if isinstance(x,Sym) and isinstance(y,Sym): return Sym('bool',b'(olift %s %s %s)'%({'&&':b'andb','||':b'orb'}[k],x.e,y.e))
                raise Unsupported('bool')
            if not isinstance(x,Sym): x,y=y,x
            if not isinstance(x,Sym):
                if isinstance(x,(bytes,int,bool)): return (x==y)==(k=='==')
                raise Unsupported('cmp')
            if isinstance(y,Sym): z=y.e
            elif x.k=='err' and y is None: z=b'(Some false)'
            elif x.k=='string' and isinstance(y,bytes): z=b'(Some %s)'%st(y)
            elif x.k=='bool' and isinstance(y,bool): z=b'(Some %s)'%(b'true' if y else b'false')
            elif x.k in('Z','nat') and isinstance(y,int): z=b'(Some %d%s)'%(y,b'%Z' if x.k=='Z' else b'')
            else: raise Unsupported('cmp')
            e=b'(olift %s %s %s)'%(opt_eq(x.k),x.e,z)
            return Sym('bool',e if k=='==' else b'(option_map negb %s)'%e)
        if k=='+':
            x,y=r.ev(a[1],env),r.ev(a[2],env)
            if isinstance(x,bytes) and isinstance(y,bytes): return x+y
            raise Unsupported('+')
        if k=='call': return r.call(a,env)
        raise Unsupported(k)
    def arg(r,x):
        if isinstance(x,Node): return node(x)
        if isinstance(x,Triple): return triple(x)
        if isinstance(x,list) and all(isinstance(t,Triple) for t in x): return b'[%s]'%b'; '.join(map(triple,x))
        if isinstance(x,bytes): return st(x)
        raise Unsupported('argument')
    def call(r,a,env):
        fn=a[1]; n=grp.name_of(fn).decode(); A=a[2]
        if n in ('Errorf','Fatalf','Fatal','Error'): return 'fail'
        if n=='Log': return None
        if n=='parserFromBodyContent':
            p=Parser(triples(r.ev(A[0],env).decode())); p.g=r.let(graph(p.ts),b'g'); p.s=b'init_state'; return ('multi',[p,Unknown()])
        if n=='FilterTriples':
            ts=r.ev(A[0],env); f=[r.ev(x,env) for x in A[1:4]]
            f=[x if x is None else b(x) for x in f]
            return [t for t in ts if all(w is None or b(v)==w for w,v in zip(f,(t.a.id,t.p,t.o.id)))]
        if n=='nodeToTriples':
            p=r.ev(fn[1],env); m=r.ev(A[0],env)
            return [] if m is None else [t for t in p.ts if t.a.key()==m.key()]
        if n=='len':
            x=r.ev(A[0],env)
            if isinstance(x,list): return len(x)
            if isinstance(x,Sym) and x.k[0]=='[': return Sym('nat',b'(option_map (@List.length _) %s)'%x.e)
            raise Unsupported('len')
        if n in ('string','ElementID','DocumentID'): return r.ev(A[0],env)
        if n=='ToLicenseString':
            x=r.ev(fn[1],env)
            if isinstance(x,Sym) and x.k=='license': return Sym('string',b'(option_map license_string %s)'%x.e)
            if isinstance(x,Obj): return Sym('string',b'(Some (license_string %s))'%r.lic(x))
            raise Unsupported(n)
        if n in PURE: return Sym('string',b'(Some (%s))'%PURE[n].encode().replace(b'A',r.arg(r.ev(A[0],env))))
        if n=='DeepEqual':
            x,y=r.ev(A[0],env),r.ev(A[1],env)
            if isinstance(x,Obj) and isinstance(y,Sym): x,y=y,x
            if isinstance(x,Sym) and isinstance(y,Obj) and x.k=='DocElementID':
                w=[r.lit3(y.fs.get(f,b'')) for f in ('DocumentRefID','ElementRefID','SpecialID')]
                return Sym('bool',b'(option_map (fun x => String.eqb (de_DocumentRefID x) %s && String.eqb (de_ElementRefID x) %s && String.eqb (de_SpecialID x) %s) %s)'%(*w,x.e))
            raise Unsupported('DeepEqual')
        if n in ('getConjunctiveLicenseSetFromNode','getDisjunctiveLicenseSetFromNode'): n='getAnyLicenseFromNode'
        if n=='isUriValid': return Sym('bool',b'(Some (test_uri %s))'%r.arg(r.ev(A[0],env)))
        if n=='getPrimaryPackagePurpose': return Sym('string',b'(Some (primary_purpose %s))'%r.arg(r.ev(A[0],env)))
        if n=='getNodeTypeFromTriples':
            m=r.ev(A[1],env)
            if m is None: raise Unsupported('nil')
            q=r.let(b'node_type_of %s %s'%(r.arg(r.ev(A[0],env) or []),r.arg(m)),b'r'); return ('multi',[Sym('string',b'(value %s)'%q),Sym('err',b'(failed %s)'%q)])
        if n=='ExtractSubs':
            q=r.let(b'extract_subs_sep %s %s'%(r.arg(r.ev(A[0],env)),r.arg(r.ev(A[1],env))),b'r')
            return ('multi',[Sym('string',b'(option_map fst (value %s))'%q),Sym('string',b'(option_map snd (value %s))'%q),Sym('err',b'(failed %s)'%q)])
        if n in F:
            i,term,res,state=F[n]
            p=None
            if n=='LoadFromGoRDFParser': p=r.ev(A[0],env)[1]
            elif fn[0]=='sel': p=r.ev(fn[1],env)
            elif 'G' in term:
                ps=[v for v in env.values() if isinstance(v,Parser)]; p=ps[-1] if ps else None
                if p is None: raise Unsupported('no parser')
            ar=r.arg(r.ev(A[i],env)) if i is not None else b''
            e=b' '.join(ar if w==b'A' else r.V if w==b'V' else w for w in term.encode().replace(b'(',b'( ').replace(b')',b' )').split())
            if p is not None:
                if not isinstance(p,Parser): raise Unsupported('parser')
                e=re.sub(rb'\bG\b(?=[^"]*(?:"[^"]*"[^"]*)*$)',p.g,e); e=re.sub(rb'\bS\b(?=[^"]*(?:"[^"]*"[^"]*)*$)',p.s,e)
            q=r.let(e,b'r'); out=[]
            if n in SETS:
                o=r.ev(A[SETS[n][0]],env)
                if isinstance(o,Obj):
                    for fl,kd,pr in SETS[n][1]: o.fs[fl]=Sym(kd,b'(option_map (fun x => %s) (value %s))'%(pr,q))
            if state: p.s=r.let(b'match %s with Ok x => %s | _ => %s end'%(q,{'snd':b'snd x','id':b'x'}[state],p.s),b's')
            for x in res:
                if x=='?': out.append(Unknown())
                elif x in('ck_Algorithm','ck_Value'): out.append(Sym('string',b'(option_map %s (value %s))'%(x.encode(),q)))
                elif x=='file': out.append(Sym('file',b'(obind (value %s) (fun x => nth_error (rs_files %s) (fst x)))'%(q,p.s)))
                elif x=='pkg': out.append(Sym('pkg',b'(obind (value %s) (fun x => nth_error (rs_pkgs %s) (fst x)))'%(q,p.s)))
                elif x=='license': out.append(Sym('license',b'(option_map fst (value %s))'%q))
                elif x=='Z': out.append(Sym('Z',b'(option_map (fun x => snd (fst x)) (value %s))'%q))
                else: out.append(Sym(x,b'(value %s)'%q))
            out.append(Sym('err',b'(failed %s)'%q))
            return ('multi',out) if len(out)>1 else out[0]
        raise Unsupported(n)
    def lit3(r,x): return st(x)
    def simple(r,x): return b'(MkSimple %s %s %s [%s] %s)'%(st(x.fs.get('comment',b'')),st(x.fs.get('licenseID',b'')),st(x.fs.get('name',b'')),b'; '.join(map(st,x.fs.get('seeAlso',[]))),st(x.fs.get('example',b'')))
    def lic(r,x):
        if x.ty=='SpecialLicense': return b'(LSpecial %s)'%st(x.fs['value'])
        if x.ty=='SimpleLicensingInfo': return b'(LSimple %s)'%r.simple(x)
        if x.ty=='ExtractedLicensingInfo': return b'(LExtracted %s "")'%r.simple(x.fs['SimpleLicensingInfo'])
        if x.ty=='License': return b'(LLicense %s zero_license_info)'%r.simple(x.fs['SimpleLicensingInfo'])
        if x.ty=='OrLaterOperator': return b'(LOrLater %s)'%r.simple(x.fs['member'])
        if x.ty in('ConjunctiveLicenseSet','DisjunctiveLicenseSet'): return b'(L%s [%s])'%(x.ty[:-10].encode(),b'; '.join(map(r.lic,x.fs['members'] or [])))
        raise Unsupported(x.ty)
    def fails(r,bl): return any(s[0]=='do' and s[1][0]=='call' and grp.name_of(s[1][1]) in (b'Errorf',b'Fatalf',b'Error') for s in bl)
    def block(r,bl,env):
        for s in bl: r.stmt(s,env)
    def stmt(r,s,env):
        global dropped
        k=s[0]
        if k=='do':
            try: v=r.ev(s[1],env)
            except Unsupported: return
            if v=='fail': raise Exception('the test fails')
        elif k=='set':
            names=[l[1] if l[0]=='id' else None for l in s[1]]
            if s[2]==('list',[]) and len(s[1])>=1 and s[-1]=='var':
                for x in names: env.pop(x,None); env[x]=Unknown()
                return
            try: v=r.ev(s[2],env)
            except Unsupported as e: WHY.append(('set',str(e),s[2])); v=None; vs=[Unknown() for _ in names]
            else: vs=v[1] if isinstance(v,tuple) and v[0]=='multi' else [v]
            if None in names: raise Stop('assignment')
            if len(vs)!=len(names): raise Exception((names,vs))
            for x,w in zip(names,vs): env.pop(x,None); env[x]=w
        elif k=='if':
            if s[1]: r.stmt(s[1],env)
            try: c=r.ev(s[2],env)
            except Unsupported as e:
                WHY.append(('if',str(e),s[2])); dropped+=1; return
            if isinstance(c,Unknown): dropped+=1; return
            if isinstance(c,bool): r.block(s[3] if c else s[4],env); return
            if not r.fails(s[3]): raise Stop('if')
            r.checks.append(c.e)
        elif k=='tswitch':
            x=env.get(s[1])
            if isinstance(x,Sym) and x.k=='license': r.checks.append(b'(option_map (fun x => match x with %s => false | _ => true end) %s)'%(LIC[s[2].decode()].encode(),x.e))
            else: dropped+=1
        else: raise Stop(k)
# the parser of the tests, with '!', '<' left out, type switches and var lists
class P2(P):
    def block(s):
        s.eat(b'{'); r=[]
        while s.peek()!=b'}':
            i=s.i
            try: r.append(s.stmt())
            except AssertionError:
                s.i=i; r.append(('unparsed',)); d=0; s.nolit=0
                while not (d==0 and s.peek()==b'}'):
                    d+=(s.peek()==b'{')-(s.peek()==b'}'); s.i+=1
        s.eat(b'}'); return r
    def stmt(s):
        if s.peek()==b'switch' and s.peek(2)==b'.' and s.peek(4)==b'type':
            v=s.peek(1); s.i+=6; s.eat(b'{'); s.eat(b'case'); ty=s.next(); s.eat(b':'); s.eat(b'default'); s.eat(b':'); s.stmt(); s.eat(b'}'); return ('tswitch',v,ty)
        if s.peek()==b'var':
            s.next(); l=[('id',s.next())]
            while s.peek()==b',': s.next(); l.append(('id',s.next()))
            if s.peek()!=b'=': s.type()
            if s.peek()==b'=': s.next(); return ('set',l,s.expr())
            return ('set',l,('list',[]),'var')
        return P.stmt(s)
    def unary(s):
        if s.peek()==b'!': s.next(); return ('not',s.unary())
        return P.unary(s)
out=[b'''(** * Tests of the RDF readers (generated by tools/gen_rdf_tests.py).

    Each example is one test of /repo/spdx/v2/v2_{2,3}/rdf/reader: the graphs it reads,
    the calls it makes, and the conditions under which it fails, each of which must be
    [Some false].  The examples check that the model does what the tests of the code say
    the code does; they are not among the claims.  The triples are made from the RDF/XML
    of the test, in the order of the document; gordf, which the tests use for it, is no
    part of /repo. *)
From Verif Require Import GoStr Types TvUtil Rdf RdfConst RdfReader.
From Coq Require Import ZArith.
Local Open Scope string_scope.
Definition obind {A B} (o : option A) (f : A -> option B) : option B := match o with Some x => f x | None => None end.
Definition olift {A B C} (f : A -> B -> C) (a : option A) (b : option B) : option C := obind a (fun x => option_map (f x) b).
Definition failed {A} (r : res A) : option bool := match r with Ok _ => Some false | Err _ => Some true | Panic => None end.
Definition value {A} (r : res A) : option A := match r with Ok x => Some x | _ => None end.
Definition is_false (o : option bool) : bool := match o with Some b => negb b | None => false end.
(** setReviewFromNode, as [document_step] uses it *)
Definition set_review (g : graph) (n : node) (s : rstate) : res rstate :=
  let* r := review_from_node g n in Ok (on_doc (fun d => set_d_Reviews (d_Reviews d ++ [r])%list d) s).
(** of url.ParseRequestURI: what the tests need *)
Definition test_uri (u : string) : bool := contains "://" u.
''']
def consts(d):
    c={b'NONE':b'NONE',b'NOASSERTION':b'NOASSERTION',b'RDF_TYPE':(RDF+'type').encode()}
    for f in glob.glob(d+"*.go"):
        for m in re.finditer(rb'^\s*(?:var |const )?([A-Z_]{3,}\w*)\s*(?:string)?\s*=\s*(.*)$',open(f,"rb").read(),re.M):
            try:
                e=P2(m[2]).expr(); v=Run(b'',c,{}).ev(e,{})
                if isinstance(v,bytes): c[m[1]]=v
            except Exception: pass
    return c
n=nc=stopped=0; skipped=[]
for v,V in (("v2_2",b"V22"),("v2_3",b"V23")):
    d=REPO+"spdx/v2/%s/rdf/reader/"%v; C=consts(d)
    for f in sorted(glob.glob(d+"*_test.go")):
        t=open(f,"rb").read(); fn=f[len(REPO):].encode()
        for m in re.finditer(rb'^func (Test\w+)\(t \*testing.T\) \{\n(.*?)^\}\n',t,re.M|re.S):
            line=t[:m.start()].count(b"\n")+1; r=Run(V,C,{}); d0=dropped
            try: r.block(P2(b'{'+m[2]+b'}').block(),{})
            except Stop as e: stopped+=1; WHY.append(('stop',str(e),m[1]))
            except Exception as e:
                skipped.append((fn,m[1],repr(e)[:150])); dropped=d0; continue
            if not r.checks: skipped.append((fn,m[1],'nothing left')); continue
            e=b''.join(b'  let %s := %s in\n'%x for x in r.lets)+b'  ['+b';\n   '.join(r.checks)+b']'
            out.append(b"(** /repo/%s %d *)\nExample %s_%s : forallb is_false (\n%s) = true.\nProof. vm_compute. reflexivity. Qed."%(fn,line,V.lower(),m[1],e)); n+=1; nc+=len(r.checks)
# the sample document
x=open(REPO+"examples/sample-docs/rdf/SPDXRdfExample-v2.2.spdx.rdf").read()
i=x.index('<rdf:RDF'); j=x.index('>',i); HEAD=x[i:j+1]
out.append(b"(** /repo/examples/sample-docs/rdf/SPDXRdfExample-v2.2.spdx.rdf *)\nDefinition sample : graph := "+graph(triples(x[j+1:x.rindex('</rdf:RDF>')]))+b""".
(** /repo/rdf/reader_test.go 15-30: the sample document is read; and what of it is found
    at the document. *)
Example sample_is_read :
  match rdf_read sample (fun l => l) with
  | Ok (v, d) =>
      Some (v, d_DocumentName d, d_SPDXVersion d, map p_PackageName (d_Packages d), map f_FileName (d_Files d),
        map (fun p => List.length (p_Files p)) (d_Packages d),
        (List.length (d_Annotations d), List.length (d_OtherLicenses d), List.length (d_Reviews d),
         List.length (d_ExternalDocumentReferences d)),
        map (fun r => (de_ElementRefID (r_RefA r), r_Relationship r, de_ElementRefID (r_RefB r))) (d_Relationships d))
  | _ => None
  end
  = Some (V22, "SPDX-Tools-v2.0", "SPDX-2.2", ["Saxon"; "glibc"], ["./package/foo.c"], [0; 3],
      (3, 5, 2, 1),
      [("DOCUMENT", "describes", "File"); ("DOCUMENT", "contains", "Package"); ("DOCUMENT", "describes", "Package");
       ("DOCUMENT", "copyOf", "ToolsElement"); ("Package", "contains", "JenaLib"); ("Package", "dynamicLink", "Saxon");
       ("JenaLib", "dynamicLink", "Package")]).
Proof. lazy. reflexivity. Qed.""")
open(OUT+"RdfTests.v","wb").write(b"\n".join(out)+b"\n")
print(n,"tests",nc,"checks",dropped,"left out",stopped,"cut short")
if len(sys.argv)>1:
    for s in skipped: print(s)
    from collections import Counter
    if sys.argv[1]=="why":
      for w,c in Counter((a,b2,repr(c2)[:160]) for a,b2,c2 in WHY).most_common(70): print(c,w)
