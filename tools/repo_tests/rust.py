# tiny Rust expression/statement parser
import re
TOK=re.compile(r'''\s+|//[^\n]*|(?P<num>0x[0-9A-Fa-f_]+?(?=_?u\d|[^0-9A-Fa-f_]|$)(?:_?(?:u8|u16|u32|usize))?|0b[01_]+(?:_?(?:u8|u16|u32|usize))?|\d[\d_]*?(?=_?u\d|_?us|[^\d_]|$)(?:_?(?:u8|u16|u32|usize))?)|(?P<id>[A-Za-z_][A-Za-z_0-9]*)|(?P<str>"(?:\\.|[^"\\])*")|(?P<p>::|->|=>|\.\.=|\.\.|==|!=|<=|>=|&&|\|\||[()\[\]{}<>,;:.&*!#?=+\-/|'%])''')
def tokenize(s):
    out=[];i=0
    while i<len(s):
        m=TOK.match(s,i)
        if not m: raise Exception('tok '+s[i:i+30])
        i=m.end()
        k=m.lastgroup
        if k: out.append((k,m.group(k)))
    return out
class P:
    def __init__(s,t): s.t=t;s.i=0
    def pk(s,k=0): return s.t[s.i+k] if s.i+k<len(s.t) else ('eof','')
    def at(s,v): return s.pk()[1]==v and s.pk()[0] in('p','id')
    def eat(s,v):
        if s.at(v): s.i+=1; return True
        return False
    def need(s,v):
        if not s.eat(v): raise Exception('need %s got %s'%(v,s.pk()))
    def ident(s):
        k,v=s.pk()
        if k!='id': raise Exception('ident got %s'%(s.pk(),))
        s.i+=1; return v
    # types
    def ty(s):
        if s.eat('&'):
            if s.eat("'"): s.ident()
            s.eat('mut'); return ('ref',s.ty())
        if s.eat('['):
            t=s.ty()
            if s.eat(';'):
                n=s.expr(); s.need(']'); return ('arr',t,n)
            s.need(']'); return ('slice',t)
        if s.eat('('):
            ts=[]
            while not s.at(')'):
                ts.append(s.ty()); s.eat(',')
            s.need(')'); return ('tuple',ts)
        if s.pk()[0]=='num': e=s.expr(); return ('const',e)
        p=[s.ident()];g=[]
        while True:
            if s.at('<'): g=s.generics()
            if s.eat('::'):
                if s.at('<'): g=s.generics()
                else: p.append(s.ident())
            else: break
        return ('path',p,g)
    def generics(s):
        s.need('<');g=[]
        while not s.at('>'):
            g.append(s.ty()); s.eat(',')
        s.need('>'); return g
    # expr
    def expr(s):
        if s.at('..'):
            s.i+=1
            if s.at(']') or s.at(')') or s.at(','): return ('range',None,None)
            return ('range',None,s.add())
        if s.at('|') or s.at('||'):
            args=[]
            if not s.eat('||'):
                s.need('|')
                while not s.at('|'):
                    args.append(s.ident()); s.eat(',')
                s.need('|')
            return ('closure',args,s.expr())
        a=s.cmp()
        if s.at('..') or s.at('..='):
            inc=s.pk()[1]=='..='; s.i+=1
            if s.at(']') or s.at(')') or s.at(','): return ('range',a,None)
            b=s.add()
            return ('range',a,b) if not inc else ('rangei',a,b)
        if s.at('=') :
            s.i+=1; return ('assign',a,s.expr())
        return a
    def cmp(s):
        a=s.add()
        while s.at('==') or s.at('!='):
            o=s.pk()[1]; s.i+=1; a=('bin',o,a,s.add())
        return a
    def add(s):
        a=s.mul()
        while s.at('+') or s.at('-'):
            o=s.pk()[1]; s.i+=1; a=('bin',o,a,s.mul())
        return a
    def mul(s):
        a=s.unary()
        while s.at('*') or s.at('/') or s.at('%'):
            o=s.pk()[1]; s.i+=1; a=('bin',o,a,s.unary())
        return a
    def unary(s):
        if s.eat('&'): s.eat('mut'); return ('ref',s.unary())
        if s.eat('*'): return ('deref',s.unary())
        if s.eat('!'): return ('not',s.unary())
        e=s.post(s.prim())
        while s.eat('as'): e=('as',e,s.ty())
        return e
    def args(s,close=')'):
        a=[]
        while not s.at(close):
            a.append(s.expr()); s.eat(',')
        s.need(close); return a
    def prim(s):
        k,v=s.pk()
        if k=='num':
            s.i+=1
            m=re.match(r'^(.*?)_?(u8|u16|u32|usize)?$',v)
            return ('num',int(m.group(1).replace('_',''),0),m.group(2))
        if k=='str': s.i+=1; return ('str',v)
        if s.eat('('):
            if s.eat(')'): return ('unit',)
            e=s.expr()
            if s.at(','):
                l=[e]
                while s.eat(','):
                    if s.at(')'): break
                    l.append(s.expr())
                s.need(')'); return ('tup',l)
            s.need(')'); return ('paren',e)
        if s.eat('['):
            if s.eat(']'): return ('array',[])
            e=s.expr()
            if s.eat(';'):
                n=s.expr(); s.need(']'); return ('repeat',e,n)
            l=[e]
            while s.eat(','):
                if s.at(']'): break
                l.append(s.expr())
            s.need(']'); return ('array',l)
        if s.eat('<'):
            t=s.ty(); s.need('as'); t2=s.ty(); s.need('>')
            s.need('::'); n=s.ident()
            return ('qpath',t,t2,n)
        if k=='id':
            segs=[];
            while True:
                segs.append([s.ident(),[]])
                if s.at('::'):
                    s.i+=1
                    if s.at('<'):
                        segs[-1][1]=s.generics()
                        if s.eat('::'): continue
                        break
                    continue
                break
            if s.at('!') and s.pk(1)[1] in('(','['):
                s.i+=1
                o=s.pk()[1]; s.i+=1
                if o=='[' :
                    # vec![a; n]?
                    if s.eat(']'): return ('macro',segs[-1][0],[])
                    e=s.expr()
                    if s.eat(';'):
                        n=s.expr(); s.need(']'); return ('repeat',e,n)
                    l=[e]
                    while s.eat(','):
                        if s.at(']'): break
                        l.append(s.expr())
                    s.need(']'); return ('macro',segs[-1][0],l)
                return ('macro',segs[-1][0],s.args(')'))
            return ('path',[x[0] for x in segs],[x[1] for x in segs])
        raise Exception('prim %s'%(s.pk(),))
    def post(s,e):
        while True:
            if s.eat('.'):
                if s.pk()[0]=='num': s.i+=1; e=('tupfield',e); continue
                n=s.ident();g=[]
                if s.at('::'): s.i+=1; g=s.generics()
                if s.eat('('): e=('method',e,n,g,s.args())
                else: e=('fieldacc',e,n)
            elif s.at('(') : s.i+=1; e=('call',e,s.args())
            elif s.at('['): s.i+=1; x=s.expr(); s.need(']'); e=('index',e,x)
            elif s.eat('?'): pass
            else: return e
    def pat(s):
        # returns text-ish pattern
        s.eat('mut')
        n=[s.ident()]
        while s.eat('::'): n.append(s.ident())
        if s.eat('('):
            a=[]
            while not s.at(')'):
                if s.pk()[1]=='_': s.i+=1; a.append('_')
                else: a.append(s.pat())
                s.eat(',')
            s.need(')'); return ('ctor',n,a)
        return ('var',n[0]) if len(n)==1 else ('ctor',n,[])
    def stmts(s,end=None):
        out=[]
        while s.pk()[0]!='eof' and not (end and s.at(end)):
            if s.eat(';'): continue
            if s.at('use'):
                s.i+=1; toks=[]
                while not s.at(';'): toks.append(s.pk()[1]); s.i+=1
                s.need(';'); out.append(('use',toks)); continue
            if s.eat('let'):
                p=s.pat() if not s.at('_') else (s.ident() and ('var','_'))
                t=None
                if s.eat(':'): t=s.ty()
                s.need('=')
                e=s.expr()
                els=None
                if s.eat('else'):
                    s.need('{'); d=1
                    while d:
                        if s.at('{'): d+=1
                        if s.at('}'): d-=1
                        s.i+=1
                    els=True
                s.need(';'); out.append(('let',p,t,e,els)); continue
            if s.eat('for'):
                v=s.ident(); s.need('in'); e=s.expr(); s.need('{'); b=s.stmts('}'); s.need('}')
                out.append(('for',v,e,b)); continue
            if s.eat('{'):
                b=s.stmts('}'); s.need('}'); out.append(('block',b)); continue
            out.append(('expr',s.expr())); s.eat(';')
        return out
