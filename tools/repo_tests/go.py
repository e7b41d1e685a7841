import sys,os; sys.path.insert(0,os.path.dirname(os.path.abspath(__file__)))
import rust,tests,glob,re,os,collections
from elab import *
SKIP=['ump_stream/ump_stream_group.rs','detail/test_support']
out=collections.OrderedDict(); bad=[]; n=0
for p in sorted(glob.glob(SRC+'**/*.rs',recursive=True)):
    rel=os.path.relpath(p,SRC)
    if any(rel.startswith(x) for x in SKIP): continue
    text=open(p).read()
    for name,line,b,a in tests.tests(p):
        n+=1
        e=E(p,text)
        try:
            e.run(rust.P(rust.tokenize(b)).stmts())
            out.setdefault(rel,[]).append((name,line,e.lets,e.checks))
        except No as x: bad.append((rel,line,name,str(x)[:150]))
        except Exception as x: bad.append((rel,line,name,'EXC '+repr(x)[:150]))
import docs
for p in [SRC+'traits.rs',SRC+'packets.rs',SRC+'buffer.rs','/repo/README.md']:
    rel=('doc '+os.path.relpath(p,'/repo'))
    for line,tag,b in docs.docs(p):
        n+=1
        e=E(SRC+'doc.rs','')
        try:
            b=re.sub(r'//[^\n]*','',b)
            b=b.replace('let mut owned: NoteOn::<[u32; 4]> = {','').replace('borrowed.array_rebuffer_into()\n};','let mut owned: NoteOn<[u32; 4]> = borrowed.array_rebuffer_into();')
            e.run(rust.P(rust.tokenize(b)).stmts())
            out.setdefault(rel,[]).append(('line%d'%line,line,e.lets,e.checks))
        except No as x: bad.append((rel,line,'',str(x)[:150]))
        except Exception as x: bad.append((rel,line,'','EXC '+repr(x)[:150]))
print(n,sum(len(v) for v in out.values()),len(bad))
for b in bad: print(b)
import pickle; pickle.dump(out,open('/tmp/repo_tests.pkl','wb'))
