"""A parser for the Go of the tests in /repo, used by gen_reader_tests.py and gen_rdf_tests.py."""
import re
from gen_samples import gostr
tok=re.compile(rb'\s+|//[^\n]*|"(?:[^"\\]|\\.)*"|`[^`]*`|[A-Za-z_]\w*|\d+|:=|!=|==|\|\||&&|.',re.S)

class P:
    def __init__(s,b): s.t=[m for m in tok.findall(b) if not m.isspace() and not m.startswith(b'//')]; s.i=0; s.nolit=0
    def peek(s,k=0): return s.t[s.i+k] if s.i+k<len(s.t) else b''
    def next(s): s.i+=1; return s.t[s.i-1]
    def eat(s,x):
        y=s.next(); assert y==x,(y,x,s.t[max(0,s.i-12):s.i+8])
    def block(s):
        s.eat(b'{'); r=[]
        while s.peek()!=b'}': r.append(s.stmt())
        s.eat(b'}'); return r
    def simple(s):
        l=[s.expr()]
        while s.peek()==b',': s.next(); l.append(s.expr())
        if s.peek() in (b':=',b'='): s.next(); return ('set',l,s.expr())
        assert len(l)==1; return ('do',l[0])
    def stmt(s):
        x=s.peek()
        if x==b'var': s.next(); n=s.next(); s.type(); return ('set',[('id',n)],('list',[]))
        if x==b'if':
            s.next(); s.nolit+=1; pre=None
            k=s.i; d=0
            while not (s.t[k]==b'{' and d==0):
                if s.t[k] in b'([': d+=1
                if s.t[k] in b')]': d-=1
                if s.t[k]==b';' and d==0: break
                k+=1
            if s.t[k]==b';': pre=s.simple(); s.eat(b';')
            c=s.expr(); s.nolit-=1; b=s.block(); e=[]
            if s.peek()==b'else': s.next(); e=[s.stmt()] if s.peek()==b'if' else s.block()
            return ('if',pre,c,b,e)
        if x==b'for':
            s.next(); k=s.next(); s.eat(b','); v=s.next(); s.eat(b':='); s.eat(b'range'); s.nolit+=1; e=s.expr(); s.nolit-=1
            return ('for',k,v,e,s.block())
        if x==b'switch':
            s.next(); s.nolit+=1; e=s.expr(); s.nolit-=1; s.eat(b'{'); r=[]
            while s.peek()!=b'}':
                s.eat(b'case'); c=s.expr(); s.eat(b':'); b=[]
                while s.peek() not in (b'case',b'}'): b.append(s.stmt())
                r.append((c,b))
            s.eat(b'}'); return ('switch',e,r)
        return s.simple()
    def type(s):
        while s.peek() in (b'*',b'['):
            if s.next()==b'[': s.eat(b']')
        if s.peek()==b'map': s.next(); s.eat(b'['); s.type(); s.eat(b']'); return s.type()
        n=s.next()
        if s.peek()==b'.': s.next(); n=s.next()
        return n
    def expr(s,lvl=0):
        ops=[[b'||'],[b'&&'],[b'==',b'!='],[b'+']]
        if lvl==len(ops): return s.unary()
        a=s.expr(lvl+1)
        while s.peek() in ops[lvl]: o=s.next(); a=(o.decode(),a,s.expr(lvl+1))
        return a
    def unary(s):
        if s.peek()==b'&': s.next(); return ('new',s.unary())
        if s.peek()==b'*': s.next(); return s.unary()
        return s.postfix()
    def lits(s):
        s.eat(b'{'); r=[]; n=s.nolit; s.nolit=0
        while s.peek()!=b'}':
            a=('lit',s.lits()) if s.peek()==b'{' else s.expr()
            if s.peek()==b':': s.next(); a=('kv',a,('lit',s.lits()) if s.peek()==b'{' else s.expr())
            r.append(a)
            if s.peek()==b',': s.next()
        s.eat(b'}'); s.nolit=n; return r
    def postfix(s):
        x=s.peek()
        if x==b'(': s.next(); a=s.expr(); s.eat(b')')
        elif x==b'[' : s.type(); return ('list',s.lits())
        elif x==b'map': s.type(); return ('map',s.lits())
        elif x[:1] in b'"`': s.next(); a=('str',gostr(x))
        elif x.isdigit(): s.next(); a=('int',int(x))
        else: s.next(); a=('id',x)
        while True:
            x=s.peek()
            if x==b'.': s.next(); a=('sel',a,s.next())
            elif x==b'[': s.next(); a=('idx',a,s.expr()); s.eat(b']')
            elif x==b'(':
                s.next(); r=[]; n=s.nolit; s.nolit=0
                while s.peek()!=b')':
                    r.append(s.expr())
                    if s.peek()==b',': s.next()
                s.eat(b')'); s.nolit=n; a=('call',a,r)
            elif x==b'{' and not s.nolit: a=('struct',a,s.lits())
            else: return a

def name_of(a): return a[1] if a[0]=='id' else a[2]
