import os,pickle,re,collections,sys
sys.path.insert(0,os.path.dirname(os.path.abspath(__file__)))
from elab import FLEX,STREAM
out=pickle.load(open('/tmp/repo_tests.pkl','rb'))
OUT=sys.argv[1]
groups=collections.OrderedDict()
for rel,ts in out.items():
    if rel.startswith('doc '): groups.setdefault('Docs',[]).append((rel,ts)); continue
    top=rel.split('/')[0].replace('.rs','')
    g={'channel_voice1':'Voice1','channel_voice2':'Voice2','ci':'Ci','flex_data':'Flex','ump_stream':'Stream','sysex7':'Sysex7','sysex8':'Sysex8','system_common':'System','utility':'System','packet':'Messages','message':'Messages','packets':'Messages','detail':'Messages'}.get(top,'Messages')
    groups.setdefault(g,[]).append((rel,ts))
names=set(); tot=0
for g,fs in groups.items():
    w=['(** Generated: the %s of /repo, %s, read as statements about the'%('documentation examples' if g=='Docs' else 'unit tests',', '.join(sorted({f.replace('doc ','') if g=='Docs' else f.split('/')[0] for f,_ in fs}))),
       '    model.  They check that the model computes what the project\'s own tests',
       '    expect of the code; they are tests, not proofs of a property. *)',
       'From Coq Require Import NArith List String Bool.',
       'From Verif Require Import Base BitOps Values Props Message MessageTable Text Sysex Splice SpecSysex SpecEdits SpecPacket SysexClient Aggregate Packet Receiver Ci RepoTests.',
       'Import ListNotations.','Local Open Scope string_scope.','']
    for rel,ts in fs:
        w.append('(** *** %s *)\n'%(rel[4:] if rel[:4]=='doc ' else 'midi2/src/'+rel))
        for n,l,lets,ch in ts:
            if not ch and not lets: continue
            nm='t_'+re.sub(r'\W','_',rel[:-3])+'_'+n
            while nm in names: nm+='_'
            names.add(nm); tot+=1
            prop=' /\\\n    '.join('%s = %s'%(a,b) for a,b in ch) or 'True'
            w.append('(* %s %d *)'%(rel,l))
            w.append('Example %s : passes (\n%s  Val (\n    %s)).\nProof. run_test. Qed.\n'%(nm,''.join('  %s\n'%x for x in lets),prop))
    open(OUT+'/RepoTests%s.v'%g,'w').write('\n'.join(w))
    print(g,sum(len(t) for _,t in fs))
print(tot)
