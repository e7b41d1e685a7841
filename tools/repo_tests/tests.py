import re,glob,os
def tests(path):
    s=open(path).read()
    out=[]
    for m in re.finditer(r'#\[test\](\s*#\[[^\]]*\])*\s*fn (\w+)\(\) \{',s):
        i=m.end();d=1;j=i
        while d:
            c=s[j]
            if c=='{':d+=1
            elif c=='}':d-=1
            j+=1
        body=s[i:j-1]
        body=re.sub(r'//[^\n]*','',body)
        out.append((m.group(2),s[:m.start()].count('\n')+1,re.sub(r'\s+',' ',body).strip(),m.group(1)))
    return out
if __name__=='__main__':
    import sys
    for p in sorted(glob.glob('/repo/midi2/**/*.rs',recursive=True)):
        for n,l,b,a in tests(p):
            print(os.path.relpath(p,'/repo/midi2/src'),l,n,a or '','|',b)
