import sys,re,glob,os
sys.path.insert(0,os.path.dirname(os.path.abspath(__file__)))
import rust,tests
class No(Exception): pass
SRC='/repo/midi2/src/'
T='/verif/rocq/theories/'
# --- tables
mt=open(T+'MessageTable.v').read()
FIX={}   # rust name -> coq name
for m in re.finditer(r'Definition (\w+) : message := \{\|\s*m_name := "([^"]+)"; m_min_ump := (\d+)%nat; m_min_bytes :=\s+(\w+)',mt): FIX[m.group(2)]=(m.group(1),m.group(4)!='None')
FIELDS={}
ft=re.sub(r'\s+',' ',open(os.path.join(os.path.dirname(os.path.abspath(__file__)),'fields.txt')).read())
for m in re.finditer(r'\("([\w:]+)"%string, \[(.*?)\]\)',ft):
    FIELDS[m.group(1)]={a:b for a,b in re.findall(r'\(\s*"(\w+)"%string, (\w+(?: \d+)?)\)',m.group(2))}
tx=open(T+'Text.v').read()
FLEX={m.group(1):m.group(0) for m in re.finditer(r'\{\| fk_name := "(\w+)"; fk_bank := \S+ fk_status := [^|]*\|\}',tx)}
STREAM={m.group(1):m.group(0) for m in re.finditer(r'\{\| sk_name := "(\w+)"; sk_status := \S+ sk_off := \d+ \|\}',tx)}
FLEXC={n:'(k_%s)'%n for n in FLEX}
ERR={}
for p in glob.glob(SRC+'**/*.rs',recursive=True):
    for m in re.finditer(r'const (ERR_\w+): &str\s*=\s*"([^"]*)"',open(p).read()): ERR[m.group(1)]=m.group(2)
FAM={'ChannelVoice1':'cv1','ChannelVoice2':'cv2','SystemCommon':'sys','Utility':'util','FlexData':'flexdata','UmpStream':'umpstream','UmpMessage':'ump','BytesMessage':'bytes'}
KIND={'utility':'PUtility','system_common':'PSystem','channel_voice1':'PVoice1','sysex7':'PSysex7','channel_voice2':'PVoice2','sysex8':'PSysex8','flex_data':'PFlex','ump_stream':'PStream'}
MODS=['utility','system_common','channel_voice1','channel_voice2','flex_data','ump_stream']
def nlist(l): return '['+'; '.join(l)+']%N'
def num(n): return hex(n) if n>255 else str(n)
class V:
    def __init__(s,ty,tm): s.ty=ty; s.tm=tm
    def __repr__(s): return 'V(%s,%s)'%(s.ty,s.tm)
class E:
    def __init__(s,path,filetext):
        s.path=path; s.text=filetext
        rel=os.path.relpath(path,SRC)[:-3]
        s.mod=rel.split('/')[0]; s.rel=rel
        s.uses={}
        s.env={}; s.lets=[]; s.n=0; s.gen={}
        s.checks=[]
        for m in re.finditer(r'\buse ([^;]+);',filetext): s.use(rust_toks(m.group(1)))
    def use(s,toks):
        t=''.join(toks)
        def go(pre,t):
            t=t.strip()
            i=t.find('{')
            if i>=0:
                pre=pre+[x for x in t[:i].split('::') if x]
                d=0;cur='';body=t[i+1:t.rfind('}')]
                for c in body+',':
                    if c=='{':d+=1
                    if c=='}':d-=1
                    if c==',' and d==0:
                        if cur.strip(): go(pre,cur)
                        cur=''
                    else: cur+=c
                return
            p=pre+[x for x in t.split('::') if x]
            if p and p[-1]!='*': s.uses[p[-1]]=p
        go([],t)
    def fresh(s,p='x'):
        s.n+=1; return '%s%d'%(p,s.n)
    def bind(s,tm,p='x'):
        v=s.fresh(p); s.lets.append('%s <- %s ;;'%(v,tm)); return v
    # ---- class resolution
    def cls(s,path):
        n=path[-1]
        full=path
        if len(path)==1 and n in s.uses and len(s.uses[n])>1: full=s.uses[n]
        full=[x for x in full if x not in('crate','super','self','midi2')]
        mods=[x for x in full[:-1]]
        if n=='Sysex7' and 'sysex8' not in mods and s.mod!='x': return ('sysex7',)
        if n=='Sysex8': return ('sysex8',)
        if n in FAM and (len(mods)==0 or True) and not (n in()): return ('agg',FAM[n])
        if n=='Packet':
            if mods and mods[0] in KIND: return ('packet',KIND[mods[0]])
            if s.rel=='packet': return ('packet',None)
            if s.mod in KIND: return ('packet',KIND[s.mod])
        if n=='DiscoveryQuery': return ('ci',)
        cand=[m for m in mods if m in MODS] or ([s.mod] if s.mod in MODS else [])
        for m in cand:
            if m+'::'+n in FIX: return ('fixed',FIX[m+'::'+n][0],m+'::'+n)
        if n in FLEX and ('flex_data' in cand or not cand): return ('flex',n)
        if n in STREAM and ('ump_stream' in cand or not cand): return ('stream',n)
        c=[k for k in FIX if k.endswith('::'+n)]
        if len(c)==1: return ('fixed',FIX[c[0]][0],c[0])
        return None
    def typ(s,t):
        # returns (kind..) for buffers or classes
        if t is None: return None
        if t[0]=='ref': return s.typ(t[1])
        if t[0]=='arr':
            return ('buf',('arr',s.const(t[2])),s.unit(t[1]))
        if t[0]=='slice': return ('buf',('slice',),s.unit(t[1]))
        if t[0]=='path':
            n=t[1][-1]
            if n in s.gen and len(t[1])==1: return s.typ(s.gen[n])
            if n=='Vec': return ('buf',('vec',),s.unit(t[2][0]) if t[2] else None)
            if n=='_': return None
            if n=='Result': return ('res',s.typ(t[2][0]))
            c=s.cls(t[1])
            if c:
                if c==('ci',): return ('msg',('ci',s.const(t[2][0][1])),'U8',(s.typ(t[2][1]) or (None,None))[1])
                b=s.typ(t[2][0]) if t[2] else None
                u=b[2] if b else None
                k='agg' if c[0]=='agg' else 'packet' if c[0]=='packet' else 'msg'
                return (k,c,u,b[1] if b else None)
        raise No('type %s'%(t,))
    def const(s,e):
        if e[0]=='num': return e[1]
        if e[0]=='path' and e[1][0] in s.gen: 
            g=s.gen[e[1][0]]; return s.const(g[1] if g[0]=='const' else g)
        if e[0]=='paren': return s.const(e[1])
        if e[0]=='bin':
            a,b=s.const(e[2]),s.const(e[3])
            return {'+':a+b,'-':a-b,'*':a*b}[e[1]]
        if e[0]=='path' and e[1][0] in s.env and s.env[e[1][0]].ty[0]=='const': return s.env[e[1][0]].tm
        if e[0]=='as': return s.const(e[1])
        if e[0]=='path' and e[1][0] in s.env and s.env[e[1][0]].ty[0]=='expr': return s.const(s.env[e[1][0]].tm)
        if e[0]=='call' and e[1][0]=='path' and e[1][1][-1] in('new','from','from_bits'): return s.const(e[2][0])
        if e[0]=='path' and e[1][-1]=='MAX': return 2**int(e[1][-2][1:])-1
        raise No('const %s'%(e,))
    def unit(s,t):
        if t[0]=='path':
            n=t[1][-1]
            if n in s.gen: return s.unit(s.gen[n])
            if n=='u8': return 'U8'
            if n=='u32': return 'U32'
            if n=='u7': return 'U7'
        return None
    # ---- arrays
    def arr(s,e):
        "list of (value, suffix) or None"
        if e[0]=='array' or (e[0]=='macro' and e[1]=='vec'):
            l=e[1] if e[0]=='array' else e[2]
            return [s.numlit(x) for x in l]
        if e[0]=='repeat': return [s.numlit(e[1])]*s.const(e[2])
        return None
    def numlit(s,e):
        if e[0]=='num': return (e[1],e[2])
        if e[0]=='call' and e[1][0]=='path' and e[1][1][-1] in('new','from_bits','from') : return (s.const(e[2][0]),None)
        if e[0]=='paren': return s.numlit(e[1])
        try: return (s.const(e),None)
        except No: raise No('numlit %s'%(e,))
    def units(s,e,u=None):
        while e[0] in('ref','deref','paren'): e=e[1]
        if e[0]=='index' and e[2][0]=='range' and e[2][1] is None and e[2][2] is None: return s.units(e[1],u)
        a=s.arr(e)
        if a is not None:
            su={'u8':'U8','u32':'U32'}.get(next((x[1] for x in a if x[1]),None))
            return V(('units',su),nlist([num(x[0]) for x in a]))
        if e[0]=='call' and e[1][0]=='qpath': return V(('units',s.unit(e[1][1][1])),'[]')
        v=s.ex(e)
        if v.ty[0]=='units': return v
        raise No('units %s'%(v.ty,))
    # ---- literal values for a field type
    def value(s,e,ty):
        while e[0] in('paren','ref'): e=e[1]
        if e[0]=='path' and len(e[1])==1 and e[1][0] in s.env and s.env[e[1][0]].ty[0]=='expr': return s.value(s.env[e[1][0]].tm,ty)
        k=ty.split()[0]
        if k=='TyU': return 'VNum %s'%num(s.numlit(e)[0])
        if k=='TyBool': return 'VBool %s'%e[1][0]
        if k=='TyU7s': return 'VNums %s'%nlist([num(s.numlit(x)[0]) for x in e[1]])
        def opt(f):
            if e==('path',['None'],[[]]): return 'None'
            if e[0]=='call' and e[1][1]==['Some']: return '(Some %s)'%f(e[2][0])
            raise No('opt %s'%(e,))
        def ctor(x):
            while x[0]=='paren': x=x[1]
            if x[0]=='path' and len(x[1])==1 and x[1][0] in s.env and s.env[x[1][0]].ty[0]=='expr': return ctor(s.env[x[1][0]].tm)
            if x[0]=='path': return x[1][-1]
            if x[0]=='call': return '(%s %s)'%(x[1][1][-1],' '.join(num(s.numlit(y)[0]) for y in x[2]))
            raise No('ctor %s'%(x,))
        if k=='TyOptU': return 'VOptNum %s'%opt(lambda x:num(s.numlit(x)[0])+'%N')
        if k=='TyAttr': return 'VAttr %s'%opt(ctor)
        if k=='TyAlt': return 'VAlt %s'%opt(ctor)
        if k=='TyPort': return 'VPort %s'%opt(ctor)
        names={'TyCtl':'VCtl','TyTonic':'VTonic','TyKeySF':'VKeySF','TyChordSF':'VChordSF','TyChordType':'VChordType','TyUiHint':'VUiHint','TyDir':'VDir'}
        c=ctor(e)
        pre={'TyCtl':'','TyTonic':'T','TyKeySF':'','TyChordSF':'','TyChordType':''}
        return '%s %s'%(names[k],s.cname(k,c))
    def cname(s,k,c): return CN.get((k,c.strip('()').split()[0]),None) and c.replace(c.strip('()').split()[0],CN[(k,c.strip('()').split()[0])],1) or c
    # ---- sources (payload iterators)
    def source(s,e):
        while e[0] in('paren',): e=e[1]
        if e[0]=='range':
            lo,hi=s.const(e[1]),s.const(e[2]); return '(listed (ints %d %d))'%(lo,hi)
        if e[0]=='method' and e[2]=='map': return s.source(e[1])
        if e[0]=='method' and e[2] in('iter','cloned','copied','into_iter'): return s.source(e[1])
        if e[0]=='call' and e[1][0]=='path' and e[1][1][:2]==['RubbishPayloadIterator','new']: return 'rubbish'
        if e[0]=='call' and e[1][0]=='path' and e[1][1][:2]==['RubbishPayloadIterator','from']: return '(unhinted %s)'%s.source(e[2][0])
        a=s.arr(e)
        if a is not None: return '(listed %s)'%nlist([num(x[0]) for x in a])
        if e[0]=='call' and e[1][1][-1]=='repeat_n': return '(listed (repeat %s %d))'%(num(s.const(e[2][0]))+'%N',s.const(e[2][1]))
        if e[0]=='call' and e[1][1][-1]=='empty': return '(listed [])'
        if e[0]=='method' and e[2]=='chain': return '(chained %s %s)'%(s.source(e[1]),s.source(e[4][0]))
        if e[0]=='method' and e[2]=='take': raise No('take')
        if e[0]=='path' and e[1][0] in s.env: 
            v=s.env[e[1][0]]
            if v.ty[0]=='units': return '(listed %s)'%v.tm
        raise No('source %s'%(e,))
    def bounds(s,e):
        while e[0]=='paren': e=e[1]
        if e[0]=='range':
            lo='Unbounded' if e[1] is None else '(Included %d)'%s.const(e[1])
            hi='Unbounded' if e[2] is None else '(Excluded %d)'%s.const(e[2])
            return lo+' '+hi
        if e[0]=='rangei': return '(Included %d) (Included %d)'%(s.const(e[1]),s.const(e[2]))
        raise No('bounds %s'%(e,))
    # ---- class ops
    def concrete(s,c):
        return {'fixed':lambda:'(CFixed %s)'%c[1],'sysex7':lambda:'CSysex7','sysex8':lambda:'CSysex8','flex':lambda:'(CFlexText k_%s)'%c[1],'stream':lambda:'(CStreamText k_%s)'%c[1]}[c[0]]()
    def new(s,c,u,b):
        arr=b[0]=='arr'
        n=b[1] if arr else None
        if c[0]=='fixed': return 'array_new %s %s %d'%(u,c[1],n) if arr else 'new %s %s'%(u,c[1])
        if c[0] in('sysex7','sysex8'):
            f='fmt7' if c[0]=='sysex7' else 'fmt8'
            if u=='U8': return 'unwrapped (try_new_b %d)'%n if arr else 'new_b'
            return 'unwrapped (sx_try_new %s %d)'%(f,n) if arr else 'sx_new %s'%f
        if c[0] in('flex','stream'):
            return 'unwrapped (%s_try_new k_%s %d)'%(c[0],c[1],n) if arr else '%s_new k_%s'%(c[0],c[1])
        if c[0]=='ci': return 'unwrapped (ci_try_new %d %d)'%(c[1],n) if arr else 'ci_new %d'%c[1]
        raise No('new')
    def trynew(s,c,u,b):
        n=b[1]
        if c[0]=='fixed': return 'try_new %s %s %d'%(u,c[1],n)
        if c[0] in('sysex7','sysex8'): return 'try_new_b %d'%n if u=='U8' else 'sx_try_new %s %d'%('fmt7' if c[0]=='sysex7' else 'fmt8',n)
        if c[0] in('flex','stream'): return '%s_try_new k_%s %d'%(c[0],c[1],n)
        if c[0]=='ci': return 'ci_try_new %d %d'%(c[1],n)
    def trybuf(s,c,u,tm):
        if c[0]=='fixed': return 'try_new_with_buffer %s %s %s'%(u,c[1],tm)
        if c[0] in('sysex7','sysex8'): return 'try_new_with_buffer_b %s'%tm if u=='U8' else 'sx_try_new_with_buffer %s %s'%('fmt7' if c[0]=='sysex7' else 'fmt8',tm)
        if c[0] in('flex','stream'): return '%s_try_new_with_buffer k_%s %s'%(c[0],c[1],tm)
        if c[0]=='ci': return 'ci_try_new_with_buffer %d %s'%(c[1],tm)
    def newbuf(s,c,u,tm):
        if c[0]=='fixed': return 'new_with_buffer %s %s %s'%(u,c[1],tm)
        if c[0] in('sysex7','sysex8'): return 'new_with_buffer_b %s'%tm if u=='U8' else 'sx_new_with_buffer %s %s'%('fmt7' if c[0]=='sysex7' else 'fmt8',tm)
        if c[0] in('flex','stream'): return '%s_new_with_buffer k_%s %s'%(c[0],c[1],tm)
        if c[0]=='ci': return 'ci_new_with_buffer %d %s'%(c[1],tm)
    def parse(s,c,u,tm):
        if c[0]=='agg':
            f=c[1]
            if f in('cv1','sys'): return '%s_try_from %s %s'%(f,u,tm)
            return '%s_try_from %s'%(f,tm)
        if c[0]=='packet': return 'packet_try_from %s'%tm if c[1] is None else 'kind_try_from %s %s'%(c[1],tm)
        if c[0]=='ci': return 'ci_try_from %d %s'%(c[1],tm)
        return 'concrete_try_from %s %s %s'%(u,s.concrete(c),tm)
    def data(s,v):
        k,c,u,b=v.ty
        if k=='agg': return 'agg_data %s %s'%(u,v.tm)
        if c[0]=='ci': return 'ci_data %s'%v.tm
        return 'concrete_data %s %s %s'%(u,s.concrete(c),v.tm)
    def aggr(s,v):
        if v.ty[0]=='agg': return v.tm
        return '(%s, %s)'%(s.concrete(v.ty[1]),v.tm)
    # ---- expressions
    def ex(s,e,want=None):
        k=e[0]
        if k in('paren','ref'): return s.ex(e[1],want)
        if k=='deref':
            v=s.ex(e[1],want)
            if v.ty[0]=='packet': return V(('units','U32'),'(packet_data %s)'%v.tm)
            return v
        if k=='unit': return V(('unit',),'tt')
        if k=='not':
            v=s.ex(e[1]); 
            if v.ty[0]=='bool': return V(('bool',),'(negb %s)'%v.tm)
            if v.ty[0]=='val': return V(('bool',),'(negb (truth %s))'%v.tm)
            if v.ty[0]=='civ': return V(('bool',),'(negb (flag %s))'%v.tm)
            raise No('not')
        if k=='num': return V(('num',e[2]),num(e[1])+'%N')
        if k=='path':
            p=e[1]
            if len(p)==1 and p[0] in s.env:
                v=s.env[p[0]]
                if v.ty[0]=='expr': return s.ex(v.tm,want)
                if v.ty[0]=='const': return V(('num',None),num(v.tm)+'%N')
                return v
            if p==['None']: return V(('opt',None),'None')
            m=re.search(r'const %s: u\d+ = (\w+);'%p[-1],s.text)
            if m: return V(('num',None),num(int(m.group(1).replace('_',''),0))+'%N')
            if p[-1]=='MAX': return V(('num',None),num(s.const(e))+'%N')
            if p[-1] in('true','false'): return V(('bool',),p[-1])
            if p[-1] in('Complete','Start','Continue','End','Begin'): return V(('format',),{'Begin':'Start'}.get(p[-1],p[-1]))
            raise No('path %s'%p)
        if k in('array','repeat') or (k=='macro' and e[1]=='vec'): return s.units(e)
        if k=='as': return s.ex(e[1],want)
        if k=='index':
            if e[2][0]=='range':
                if e[2][1] is None and e[2][2] is None: return s.ex(e[1],want)
                v=s.ex(e[1])
                if v.ty[0]!='units': raise No('index')
                lo=0 if e[2][1] is None else s.const(e[2][1])
                t='(skipn %d %s)'%(lo,v.tm)
                if e[2][2] is not None: t='(firstn %d %s)'%(s.const(e[2][2])-lo,t)
                return V(v.ty,t)
            v=s.ex(e[1]); i=s.const(e[2])
            return V(('num',None),s.bind('idx %s %d'%(v.tm,i)))
        if k=='call': return s.call(e,want)
        if k=='method': return s.method(e,want)
        if k=='bin' and e[1]=='==': 
            a=s.ex(e[2]); b=s.ex(e[3]); return V(('bool',),'(%s =? %s)%%N'%(a.tm,b.tm))
        if k=='qpath': raise No('qpath')
        raise No('ex %s'%k)
    def str_bytes(s,e):
        t=eval(e[1]); return nlist([str(b) for b in t.encode()])
    def call(s,e,want):
        f=e[1];a=e[2]
        if f[0]!='path': 
            if f[0]=='qpath': return V(('units',s.unit(f[1][1])),'[]')
            raise No('call %s'%(f,))
        p=f[1];g=f[2];n=p[-1]
        if n=='Ok':
            w=want[1] if want and want[0]=='res' else None
            v=s.ex(a[0],w); return V(('res',v.ty),'(Ok %s)'%v.tm)
        if n=='Err':
            x=a[0]
            nm=x[1][1][-1] if x[0]=='call' else x[1][-1]
            if nm=='BufferOverflow': return V(('res',None),'(Err "BufferOverflow")')
            if nm=='InvalidData' and x[2][0][0]=='str': return V(('res',None),'(Err %s)'%x[2][0][1])
            if nm=='InvalidData': return V(('res',None),'(Err "%s")'%ERR[x[2][0][1][-1]])
            raise No('Err %s'%nm)
        if n=='try_from_ump' and s.rel=='channel_voice2/attribute':
            b=s.units(a[0]); return V(('attr',),s.bind('read_attribute %s'%b.tm))
        if n=='write_attribute': return V(('units','U32'),s.bind('prop_write U32 PAttribute %s (%s)'%(s.units(a[0]).tm,s.value(a[1],'TyAttr'))))
        if n=='Some':
            v=s.ex(a[0]); return V(('opt',v.ty),'(Some %s)'%v.tm)
        if n=='new' and p[-2] in('u2','u3','u4','u7','u14','u20','u28'): return V(('num',p[-2] if p[-2]=='u7' else None),num(s.const(a[0]))+'%N')
        if n=='from' and p[-2] in('u8','u32'): return V(('num',None),num(s.const(a[0]))+'%N')
        if n=='from_bits': return V(('num',None),num(s.const(a[0]))+'%N')
        if n=='new' and p[-2]=='Vec': return V(('units',None),'[]')
        if n in('is_compact','compact'):
            m=s.ex(a[0]); c=m.ty[1]; f='fmt7' if c[0]=='sysex7' else 'fmt8'
            if n=='is_compact': return V(('bool',),'(is_compact %s %s)'%(f,m.tm))
            r=s.bind('compact %s %s'%(f,m.tm)); s.setvar(a[0],V(m.ty,r)); return V(('unit',),'tt')
        c=s.cls(p) if len(p)==1 else None
        if c and c[0]!='agg':
            u=s.units(a[0]) 
            w=want if want and want[0]=='msg' else None
            un=u.ty[1] or (w[2] if w else None)
            if c[0]=='packet': raise No('packetctor')
            return V(('msg',c,un or s.defunit(c),('vec',)),u.tm)
        # Class::func
        c=s.cls(p[:-1])
        if c is None: raise No('call %s'%p)
        gg=g[-2]
        bt=None
        if c==('ci',):
            c=('ci',s.const(gg[0][1]) if gg else 1); bt=s.typ(gg[1]) if len(gg)>1 else None
        elif gg: bt=s.typ(gg[0])
        kind='agg' if c[0]=='agg' else 'packet' if c[0]=='packet' else 'msg'
        if bt is None and want and want[0]==kind and want[3]: bt=('buf',want[3],want[2])
        if n=='new': return V((kind,c,bt[2],bt[1]),s.bind(s.new(c,bt[2],bt[1]),'m'))
        if n=='try_new': return V(('res',(kind,c,bt[2],bt[1])),s.bind(s.trynew(c,bt[2],bt[1]),'r'))
        if n=='try_from':
            u=s.units(a[0]); un=u.ty[1] or s.defunit(c)
            if c==('agg','bytes') : un='U8'
            return V(('res',(kind,c,un,('slice',))),s.bind(s.parse(c,un,u.tm),'r'))
        if n=='try_new_with_buffer':
            u=s.units(a[0]); un=u.ty[1] or s.defunit(c)
            return V(('res',(kind,c,un,('slice',))),s.bind(s.trybuf(c,un,u.tm),'r'))
        if n=='new_with_buffer':
            u=s.units(a[0]); un=u.ty[1] or s.defunit(c)
            m=s.bind(s.newbuf(c,un,u.tm),'m')
            if a[0][0]=='ref': s.setvar(a[0] if a[0][1][0]!='index' else a[0][1][1],V(('units',un),m))
            return V((kind,c,un,('vec',)),m)
        if n in('from_bytes','from_ump','try_from_bytes','try_from_ump','array_from_bytes','array_from_ump'):
            m=s.ex(a[0]); return s.convert(n,c,kind,m,bt)
        if n in('rebuffer_from','try_rebuffer_from','array_rebuffer_from'):
            m=s.ex(a[0]); return s.rebuf(n.replace('_from',''),m,bt)
        if c[0]=='agg' and len(a)==1 and n[0].isupper():
            w=None
            m=s.ex(a[0]); return V((kind,c,m.ty[2],m.ty[3]),s.aggr(m))
        if n=='from':
            m=s.ex(a[0]); return V((kind,c,m.ty[2],m.ty[3]),s.aggr(m))
        raise No('fn %s'%n)
    def defunit(s,c):
        return 'U8' if c[0]=='ci' else 'U32'
    def convert(s,n,c,kind,m,bt):
        tb=bt[1]
        dst='U32' if 'bytes' in n else 'U8'
        base='from_bytes' if 'bytes' in n else 'from_ump'
        if kind=='agg':
            if n.startswith('try'): return V(('res',(kind,c,dst,tb)),s.bind('agg_try_%s %s %d'%(base,m.tm,tb[1]),'r'))
            if tb[0]=='vec': return V((kind,c,dst,tb),s.bind('agg_%s %s'%(base,m.tm)))
            raise No('conv agg arr')
        if c[0]=='fixed':
            if n.startswith('try'): return V(('res',(kind,c,dst,tb)),s.bind('try_%s %s %s %d'%(base,c[1],m.tm,tb[1]),'r'))
            if tb[0]=='vec': return V((kind,c,dst,tb),s.bind('%s %s %s'%(base,c[1],m.tm)))
            return V((kind,c,dst,tb),s.bind('%s_array %s %s %d'%(base,c[1],m.tm,tb[1])))
        if c[0]=='sysex7':
            if n.startswith('try'): return V(('res',(kind,c,dst,tb)),s.bind('sysex7_try_%s %s %d'%(base,m.tm,tb[1]),'r'))
            return V((kind,c,dst,tb),s.bind('sysex7_%s %s'%(base,m.tm)))
        raise No('conv')
    def rebuf(s,n,m,bt):
        tb=bt[1]; t=m.ty[:3]+(tb,)
        if n.startswith('rebuffer'):
            if tb[0]=='vec':
                if m.ty[0]=='agg': return V(t,'(agg_rebuffer_vec %s)'%m.tm)
                return V(t,'(rebuffer_vec %s)'%m.tm)
            return V(t,m.tm)
        if n.startswith('try_'):
            if m.ty[0]=='agg': return V(('res',t),'(agg_try_rebuffer_array %s %d)'%(m.tm,tb[1]))
            return V(('res',t),'(try_rebuffer_array %s %d)'%(m.tm,tb[1]))
        if n.startswith('array_'):
            if m.ty[0]=='agg': return V(t,s.bind('agg_array_rebuffer %s %s %d'%(m.ty[2],m.tm,tb[1])))
            if m.ty[1][0]=='fixed': return V(t,s.bind('array_rebuffer %s %s %s %d'%(m.ty[2],m.ty[1][1],m.tm,tb[1])))
        raise No('rebuf %s'%n)
    def setvar(s,e,v):
        while e[0] in('ref','paren','deref'): e=e[1]
        if e[0]=='path' and e[1][0] in s.env: s.env[e[1][0]]=v
        else: raise No('setvar %s'%(e,))
    def method(s,e,want):
        _,r,n,g,a=e
        # payload-like chains
        if n in('map','iter','cloned','copied','by_ref'):
            if n=='map':
                x=a[0]
                try: v=s.ex(r)
                except No:
                    try: return V(('units',None),'(s_items %s)'%s.source(e))
                    except No: raise No('map')
                if v.ty[0] in('units','iter','opt','res'):
                    if v.ty[0] in('opt',): return v
                    if v.ty[0]=='res': 
                        if x[0]=='closure' and x[2][0]=='method' and x[2][2]=='into': 
                            m=v.ty[1]
                            return V(('res',('agg',('agg','?'),m[2],m[3])),'(map_res (fun b => (%s, b)) %s)'%(s.concrete(m[1]),v.tm))
                        raise No('map res')
                    return v
                raise No('map %s'%(v.ty,))
            try: return s.ex(r)
            except No: return V(('units',None),'(s_items %s)'%s.source(r))
        if n=='collect':
            try: v=s.ex(r)
            except No: return V(('units',None),'(s_items %s)'%s.source(r))
            if v.ty[0]=='units': return v
            if v.ty[0]=='iter': return V(('units',None),s.bind(v.ty[1]['collect'](v.tm),'l'))
            raise No('collect %s'%(v.ty,))
        w=None
        if n in('unwrap','expect') and want: w=('res',want)
        if n=='clone': w=want
        if n in('rebuffer_into','try_rebuffer_into','array_rebuffer_into'):
            m=s.ex(r)
            t=want[1] if want and want[0]=='res' else want
            if not t: raise No('rebuf want')
            return s.rebuf(n.replace('_into',''),m,('buf',t[3],t[2]))
        if n in('try_into_bytes','into_bytes','into_ump','try_into_ump'):
            m=s.ex(r); t=want[1] if want and want[0]=='res' else want
            if not t: raise No('conv want')
            nn={'try_into_bytes':'try_from_ump','into_bytes':'from_ump','into_ump':'from_bytes','try_into_ump':'try_from_bytes'}[n]
            return s.convert(nn,m.ty[1],m.ty[0],m,('buf',t[3],t[2]))
        v=s.ex(r,w)
        t=v.ty
        if n in('unwrap','expect'):
            if t[0]=='res': return V(t[1],s.bind('unwrapped (Val %s)'%v.tm))
            if t[0]=='opt': return V(t[1],s.bind('some_of %s'%v.tm))
            if t[0]=='tried': 
                s.lets.append('_ <- check %s ;;'%v.tm); return V(('unit',),'tt')
            raise No('unwrap %s'%(t,))
        if n=='expect_err':
            s.checks.append(('(is_okay %s)'%v.tm,'false')); return V(('unit',),'tt')
        if n in('is_ok','is_err') and t[0]=='tried': return V(('bool',),v.tm if n=='is_ok' else '(negb %s)'%v.tm)
        if n=='is_ok':
            return V(('bool',),'(is_okay %s)'%v.tm)
        if n=='is_err': return V(('bool',),'(negb (is_okay %s))'%v.tm)
        if n=='clone': return v
        if n=='into':
            if want and want[0]=='agg': return V(want[:2]+t[2:],s.aggr(v))
            raise No('into')
        if t[0]=='num':
            w={'u8':'8','u32':'32','u7':'7'}[t[1]]
            base=n[4:] if n.startswith('set_') else n
            if base not in('bit','nibble','crumb','octet','septet','word'): raise No('num.%s'%n)
            i=s.const(a[0])
            if w=='8' and base=='octet':
                return V(('num',None),v.tm if base==n else num(s.const(a[1]))+'%N')
            fn=n+w
            ix='' if (w=='8' and base=='septet') else ' %d'%i
            if base==n: return V(('bool',) if n=='bit' else ('num',None),'(%s %s%s)'%(fn,v.tm,ix))
            arg=a[1][1][-1] if a[1][0]=='path' else num(s.const(a[1]))
            return V(('num',None),'(%s %s%s %s)'%(fn,v.tm,ix,arg))
        if t[0]=='units':
            if n=='len': return V(('nat',),'(List.length %s)'%v.tm)
        if t[0]=='iter':
            d=t[1]
            if n=='next':
                x=s.fresh(); s.lets.append('%s <- %s ;;'%(x,d['next'](v.tm)))
                s.setvar(r,V(t,'(snd %s)'%x)); return V(('opt',d['item']),'(fst %s)'%x)
            if n=='nth':
                x=s.fresh(); s.lets.append('%s <- %s ;;'%(x,d['nth'](v.tm,s.const(a[0]))))
                try: s.setvar(r,V(t,'(snd %s)'%x))
                except No: pass
                return V(('opt',d['item']),'(fst %s)'%x)
            if n=='len':
                return V(('nat',),d['len'](v.tm,s))
            if n=='size_hint': raise No('hint')
            raise No('iter.%s'%n)
        if t[0]=='packet':
            if n=='deref': return V(('units','U32'),'(packet_data %s)'%v.tm)
            if n=='group': return V(('num',None),s.bind('packet_group %s'%v.tm))
            if n=='channel': return V(('num',None),s.bind('packet_channel %s'%v.tm))
            if n in('set_group','set_channel'):
                s.setvar(r,V(t,s.bind('packet_%s %s %s'%(n,v.tm,num(s.const(a[0])))))); return V(('unit',),'tt')
            if n=='format': return V(('format',),s.bind('%s_packet_format %s'%('flex' if t[1][1]=='PFlex' else 'stream',v.tm)))
            if n=='status': return V(('format',),s.bind('%s %s'%('status7' if t[1][1]=='PSysex7' else 'status8',v.tm)))
            if n=='stream_id': return V(('num',None),s.bind('packet_stream_id %s'%v.tm))
            if n=='payload':
                k='7' if t[1][1]=='PSysex7' else '8'
                return V(('iter',dict(next=lambda x:'pi_next%s %s'%(k,x),nth=lambda x,i:'pi_nth%s %s %d'%(k,x,i),len=lambda x,s:s.bind('pi_len%s %s'%(k,x)),collect=lambda x:'drain %s 14 %s'%('SevenBit' if k=='7' else 'EightBit',x),item=('num',None))),'(packet_payload %s)'%v.tm)
            raise No('packet.%s'%n)
        if t[0] not in('msg','agg'): raise No('method %s on %s'%(n,t))
        c,u,b=t[1],t[2],t[3]
        if n=='data': return V(('units',u),s.bind(s.data(v),'d'))
        if n=='packets':
            return V(('iter',dict(next=lambda x:'packets_next %s'%x,nth=lambda x,i:'packets_nth %s %d'%(x,i),len=lambda x,s:'(packets_len %s)'%x,item=('packet',('packet',None),'U32',None))),s.bind('agg_packets %s'%s.aggr(v)))
        if t[0]=='agg':
            if n=='group': return V(('num',None),s.bind('agg_group %s'%v.tm))
            if n=='channel': return V(('num',None),s.bind('agg_channel %s %s'%(u,v.tm)))
            if n=='set_group': s.setvar(r,V(t,s.bind('agg_set_group %s %s'%(v.tm,num(s.const(a[0])))))); return V(('unit',),'tt')
            if n=='set_channel': s.setvar(r,V(t,s.bind('agg_set_channel %s %s %s'%(u,v.tm,num(s.const(a[0])))))); return V(('unit',),'tt')
            if n=='bank': return V(('bank',),s.bind('agg_bank %s'%v.tm))
            if n=='status': return V(('num',None),s.bind('agg_status %s'%v.tm))
            raise No('agg.%s'%n)
        if c[0]=='fixed':
            F=FIELDS[c[2]]
            if F.get(n)=='TyUnit' and n=='bank': return V(('bank',),s.bind('agg_bank %s'%s.aggr(v)))
            if F.get(n)=='TyUnit' and n=='status': return V(('num',None),s.bind('agg_status %s'%s.aggr(v)))
            if n in F: return V(('val',F[n]),s.bind('get %s %s %s "%s"'%(u,c[1],v.tm,n)))
            if n.startswith('set_') and n[4:] in F:
                s.setvar(r,V(t,s.bind('set %s %s %s "%s" (%s)'%(u,c[1],v.tm,n[4:],s.value(a[0],F[n[4:]])),'m'))); return V(('unit',),'tt')
            if n=='bank' : return V(('bank',),s.bind('agg_bank %s'%s.aggr(v)))
            if n=='status': return V(('num',None),s.bind('agg_status %s'%s.aggr(v)))
            raise No('fixed.%s'%n)
        if c[0] in('sysex7','sysex8'):
            f='fmt7' if c[0]=='sysex7' else 'fmt8'; fm='SevenBit' if c[0]=='sysex7' else 'EightBit'
            if n=='payload':
                if u=='U8': return V(('iter',dict(next=lambda x:'ib_next %s'%x,nth=lambda x,i:'ib_nth %s %d'%(x,i),len=lambda x,s:s.bind('ib_len %s'%x),collect=lambda x:'ib_collect 200 %s'%x,item=('num',None))),s.bind('payload_b %s'%v.tm))
                return V(('iter',dict(next=lambda x:'it_next %s %s'%(f,x),nth=lambda x,i:'it_nth %s %s %d'%(f,x,i),len=lambda x,s:'(it_len %s)'%x,collect=lambda x:'it_collect 200 %s %s'%(f,x),item=('num',None))),s.bind('payload %s %s'%(f,v.tm)))
            if n=='payload_size': return V(('nat',),s.bind('payload_size_b %s'%v.tm if u=='U8' else 'payload_size %s %s'%(f,v.tm)))
            if n=='group': return V(('num',None),s.bind('Sysex.group %s'%v.tm))
            if n=='stream_id': return V(('num',None),s.bind('stream_id %s'%v.tm))
            if n=='set_stream_id': s.setvar(r,V(t,s.bind('set_stream_id %s %s'%(v.tm,num(s.const(a[0])))))); return V(('unit',),'tt')
            if n=='move_payload_tail':
                fn='move_tail_b %s'%v.tm if u=='U8' else 'move_tail %s %s'%(f,v.tm)
                s.setvar(r,V(t,s.bind('%s %d %d'%(fn,s.const(a[0]),s.const(a[1]))))); return V(('unit',),'tt')
            tr=n.startswith('try_'); bn=n[4:] if tr else n
            ed={'set_payload':lambda:'SetPayload %s'%s.source(a[0]),
                'splice_payload':lambda:'SplicePayload %s %s'%(s.source(a[0]),s.bounds(a[1])),
                'insert_payload':lambda:'InsertPayload %s %d'%(s.source(a[0]),s.const(a[1])),
                'append_payload':lambda:'AppendPayload %s'%s.source(a[0]),
                'append_byte':lambda:'AppendByte %d'%s.const(a[0]),
                'set_byte':lambda:'SetByte %d %d'%(s.const(a[0]),s.const(a[1])),
                'set_group':lambda:'SetGroup %d'%s.const(a[0])}
            if bn in ed:
                x=ed[bn]()
                if tr:
                    fn='try_edit_b (%s)'%x if u=='U8' else 'try_edit %s (%s)'%(fm,x)
                    q=s.bind('%s %s'%(fn,v.tm)); s.setvar(r,V(t,'(fst %s)'%q)); return V(('tried',),'(snd %s)'%q)
                fn='apply_edit_b (%s)'%x if u=='U8' else 'apply_edit %s (%s)'%(fm,x)
                s.setvar(r,V(t,s.bind('%s %s'%(fn,v.tm),'m'))); return V(('unit',),'tt')
            raise No('sysex.%s'%n)
        if c[0]=='flex':
            if n in('text','metadata','name'): 
                return V(('units','U8'),s.bind('flex_text %s'%v.tm))
            if n in('text_bytes','metadata_bytes'):
                return V(('iter',dict(next=lambda x:'ti_next flex_form %s'%x,collect=lambda x:'ti_collect flex_form %s'%x,item=('num',None))),'(text_bytes %s)'%v.tm)
            if n=='group': return V(('num',None),s.bind('flex_group %s'%v.tm))
            if n=='optional_channel': return V(('opt',('num',None)),s.bind('flex_channel %s'%v.tm))
            if n=='bank' : return V(('bank',),s.bind('agg_bank %s'%s.aggr(v)))
            if n=='status': return V(('num',None),s.bind('agg_status %s'%s.aggr(v)))
            if n=='set_group': s.setvar(r,V(t,s.bind('flex_set_group %s %d'%(v.tm,s.const(a[0]))))); return V(('unit',),'tt')
            if n=='set_optional_channel':
                x=s.ex(a[0]); s.setvar(r,V(t,s.bind('flex_set_channel %s %s'%(v.tm,x.tm)))); return V(('unit',),'tt')
            if n in('set_text','set_metadata','set_name'): s.setvar(r,V(t,s.bind('flex_set_text %s %s'%(v.tm,s.str_bytes(a[0]))))); return V(('unit',),'tt')
            if n in('try_set_text','try_set_metadata'):
                q=s.bind('flex_try_set_text %s %s'%(v.tm,s.str_bytes(a[0]))); s.setvar(r,V(t,'(fst %s)'%q)); return V(('tried',),'(snd %s)'%q)
            raise No('flex.%s'%n)
        if c[0]=='stream':
            k='k_'+c[1]
            if n in('name','id'): return V(('units','U8'),s.bind('stream_text %s %s'%(k,v.tm)))
            if n in('name_bytes','id_bytes'):
                return V(('iter',dict(collect=lambda x:'ti_collect (stream_form (sk_off %s)) %s'%(k,x),next=lambda x:'ti_next (stream_form (sk_off %s)) %s'%(k,x),item=('num',None))),'(text_bytes %s)'%v.tm)
            if n=='function_block': return V(('num',None),s.bind('block_read %s'%v.tm))
            if n=='set_function_block': s.setvar(r,V(t,s.bind('block_write %s %d'%(v.tm,s.const(a[0]))))); return V(('unit',),'tt')
            if n in('set_name','set_id'): s.setvar(r,V(t,s.bind('stream_set_text (sk_off %s) %s %s'%(k,v.tm,s.str_bytes(a[0]))))); return V(('unit',),'tt')
            if n in('try_set_name','try_set_id'):
                q=s.bind('stream_try_set_text (sk_off %s) %s %s'%(k,v.tm,s.str_bytes(a[0]))); s.setvar(r,V(t,'(fst %s)'%q)); return V(('tried',),'(snd %s)'%q)
            raise No('stream.%s'%n)
        if c[0]=='ci':
            return s.ci(v,n,a,r)
        raise No('method %s'%n)
    CI={'source':'FSource','destination':None,'device_manufacturer':'FManufacturer','device_family':'FFamily','model_number':'FModel','software_version':'FSoftware','max_sysex_size':'FMaxSysexSize','output_path_id':'FOutputPathId','process_inquiry_supported':'FProcessInquiry','property_exchange_supported':'FPropertyExchange','profile_configuration_supported':'FProfileConfiguration','protocol_negotiation_supported':'FProtocolNegotiation'}
    def ci(s,v,n,a,r):
        t=v.ty
        if n in('payload',): return V(('iter',dict(collect=lambda x:'ib_collect 200 %s'%x,item=('num',None))),s.bind('payload_b %s'%v.tm))
        f=s.CI.get(n[4:] if n.startswith('set_') else n)
        if n=='destination': return V(('num',None),s.bind('ci_destination %s'%v.tm))
        if n=='device_id': return V(('devid',),s.bind('ci_device_id %s'%v.tm))
        if f is None: raise No('ci.%s'%n)
        if n.startswith('set_'):
            e=a[0]
            while e[0]=='path' and e[1][0] in s.env and s.env[e[1][0]].ty[0]=='expr': e=s.env[e[1][0]].tm
            s.setvar(r,V(t,s.bind('ci_write (field_prop %s) (%s) %s'%(f,s.civ(e,f),v.tm)))); return V(('unit',),'tt')
        return V(('civ',f),s.bind('ci_read (field_prop %s) %s'%(f,v.tm)))
    def civ(s,e,f):
        if f in('FManufacturer','FSoftware'):
            while e[0]=='path' and e[1][0] in s.env and s.env[e[1][0]].ty[0]=='expr': e=s.env[e[1][0]].tm
            return 'CiBytes %s'%nlist([num(s.numlit(x)[0]) for x in e[1]])
        if e[0]=='path' and e[1][-1] in('true','false'): return 'CiFlag %s'%e[1][-1]
        while e[0]=='path' and e[1][0] in s.env and s.env[e[1][0]].ty[0]=='expr': e=s.env[e[1][0]].tm
        return 'CiNum %s'%num(s.const(e))
    # ---- asserts
    def eq(s,a,b):
        # elaborate the left, then the right against its type
        try: va=s.ex(a)
        except No:
            # maybe the left is a literal: swap
            vb=s.ex(b); va=vb; a,b=b,a
        t=va.ty
        if t[0]=='val': s.checks.append((va.tm,s.value(b,t[1]))); return
        if t[0]=='attr':
            if b[1][1]==['Ok']: s.checks.append((va.tm,'Ok (%s)'%s.value(b[2][0],'TyAttr'))); return
            s.checks.append((va.tm,s.ex(b).tm)); return
        if t[0]=='civ': s.checks.append((va.tm,s.civ(b,t[1]))); return
        if t[0]=='bank':
            s.checks.append((va.tm,{'SetupAndPerformance':'0','MetadataText':'1','PerformanceText':'2'}[b[1][-1]]+'%N')); return
        if t[0]=='devid':
            x=b
            s.checks.append((va.tm,x[1][-1] if x[0]=='path' else '(Ci.Channel %d)'%s.const(x[2][0]))); return
        if t[0]=='tried':
            x=b[1][1][-1] if b[0]=='call' else ''
            s.checks.append((va.tm,{'Ok':'true','Err':'false'}[x])); return
        if t[0]=='units' and b[0]=='str': s.checks.append((va.tm,s.str_bytes(b))); return
        if t[0]=='units' and t[1]=='U8' and b[0]=='method' and b[1][0]=='str': s.checks.append((va.tm,s.str_bytes(b[1]))); return
        if t[0]=='units':
            # strings pushed to
            vb=s.units2(b,t); s.checks.append((va.tm,vb)); return
        if t[0]=='nat': s.checks.append((va.tm,str(s.const(b)))); return
        if t[0]=='format':
            x=b
            while x[0]=='paren': x=x[1]
            s.checks.append((va.tm,s.fmtval(x,va))); return
        if t[0]=='opt' and t[1] and t[1][0]=='packet' and b==('path',['None'],[[]]): s.checks.append((va.tm,'None')); return
        vb=s.ex(b,t)
        s.checks.append((va.tm,vb.tm))
    def fmtval(s,x,va):
        if x[0]=='path':
            n={'Begin':'Start'}.get(x[1][-1],x[1][-1])
            return n if 'status8' not in s.lets[-1] else ('(Status %s)'%n)
        if x[0]=='call': 
            return '(UnexpectedEnd %s)'%{'Valid':'true','Invalid':'false'}[x[2][0][1][-1]]
        raise No('fmtval')
    def units2(s,b,t):
        if b[0]=='path' and len(b[1])==1 and b[1][0] in s.env and s.env[b[1][0]].ty[0]=='expr': return s.units2(s.env[b[1][0]].tm,t)
        v=s.ex(b) 
        if v.ty[0]!='units': raise No('units2')
        return v.tm
    def run(s,st):
        for x in st:
            if x[0]=='use': s.use(x[1]); continue
            if x[0]=='block': s.run(x[1]); continue
            if x[0]=='let':
                _,p,t,e,els=x
                w=s.typ(t) if t is not None else None
                if els:
                    v=s.ex(e)
                    s.letelse(p,v); continue
                if p[0]!='var': raise No('let pat')
                try: v=s.ex(e,w)
                except No as ee:
                    if e[0] in('array','call','num') : s.env[p[1]]=V(('expr',),e); continue
                    raise
                if v.ty[0]=='num' or (e[0]=='array' and s.isu7(e)): s.env[p[1]]=V(('expr',),e)
                else: s.env[p[1]]=v
                continue
            if x[0]=='for':
                _,v,e,b=x
                while e[0]=='paren': e=e[1]
                if e[0]!='range': raise No('for')
                for i in range(s.const(e[1]),s.const(e[2])):
                    s.env[v]=V(('expr',),('num',i,None)); s.env[v]=V(('const',),i)
                    s.run(b)
                continue
            e=x[1]
            if e[0]=='macro':
                if e[1]=='assert_eq': s.eq(e[2][0],e[2][1]); continue
                if e[1]=='assert':
                    v=s.ex(e[2][0])
                    if v.ty[0]=='val': s.checks.append((v.tm,'VBool true'))
                    elif v.ty[0]=='civ': s.checks.append((v.tm,'CiFlag true'))
                    else: s.checks.append((v.tm,'true'))
                    continue
                raise No('macro %s'%e[1])
            if e[0]=='call' and e[1][0]=='path' and len(e[1][1])==1:
                fn=e[1][1][0]
                m=re.search(r'fn %s(<[^(]*>)?\(\) \{'%fn,s.text)
                if m:
                    i=m.end();d=1;j=i
                    while d:
                        if s.text[j]=='{':d+=1
                        if s.text[j]=='}':d-=1
                        j+=1
                    names=re.findall(r'(?:const )?(\w+)\s*:',m.group(1) or '')
                    names=[q for q in re.findall(r'(?:<|, )(?:const )?(\w+)\s*:',m.group(1) or '')]
                    for q,gg in zip(names,e[1][2][0]): s.gen[q]=gg
                    s.run(rust.P(rust.tokenize(re.sub(r'//[^\n]*','',s.text[i:j-1]))).stmts())
                    continue
            s.ex(e)
    def isu7(s,e): return e[1] and all(y[0]=='call' for y in e[1])
    def letelse(s,p,v):
        # Ok(UmpMessage::X(X::Y(_)))
        def inner(p):
            if p=='_' : return None
            if p[0]=='var': return None
            if p[1][-1] in('Ok','Some'): return inner(p[2][0])
            return inner(p[2][0]) if p[2] and inner(p[2][0]) else p
        q=inner(p)
        n=q[1]
        c=None
        for path in (n, ): c=s.cls(path)
        if n[0] in FAM:
            md={'UmpStream':'ump_stream','FlexData':'flex_data','ChannelVoice1':'channel_voice1','ChannelVoice2':'channel_voice2','SystemCommon':'system_common','Utility':'utility'}.get(n[0])
            if md: c=s.cls([md,n[-1]])
        if c is None or c[0] in('agg',): raise No('letelse %s %s'%(n,c))
        if v.ty[0]=='res': 
            x=s.bind('unwrapped (Val %s)'%v.tm)
        else: x=v.tm
        s.checks.append(('(fst %s)'%x,s.concrete(c)))
CN={('TyTonic',x):'T'+x for x in 'ABCDEFG'}
CN[('TyTonic','NonStandard')]='TNonStandard'; CN[('TyKeySF','NonStandard')]='KNonStandard'
def rust_toks(t):
    return [x[1] for x in rust.tokenize(t)]
