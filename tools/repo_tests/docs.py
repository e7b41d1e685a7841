import os,re,sys
sys.path.insert(0,os.path.dirname(os.path.abspath(__file__)))
def docs(path):
    out=[];lines=open(path).read().split('\n');i=0
    md=path.endswith('.md')
    while i<len(lines):
        l=lines[i].strip()
        pre='' if md else '///' if l.startswith('///') else '//!' if l.startswith('//!') else None
        if pre is not None and l[len(pre):].strip().startswith('```') :
            tag=l[len(pre):].strip()[3:]
            j=i+1;b=[]
            while not lines[j].strip()[len(pre):].strip().startswith('```'):
                b.append(lines[j].strip()[len(pre):] if pre else lines[j]); j+=1
            if 'rust' in tag or tag=='' : out.append((i+1,tag,'\n'.join(re.sub(r'^\s*# ?','',x) if not x.strip().startswith('#[') else '' for x in b)))
            i=j+1
        else: i+=1
    return out
if __name__=='__main__':
    for p in ['/repo/midi2/src/traits.rs','/repo/midi2/src/packets.rs','/repo/midi2/src/buffer.rs','/repo/README.md','/repo/midi2/README.md']:
        try:
            for l,t,b in docs(p): print('=====',p,l,t); print(b)
        except FileNotFoundError: print('nf',p)
