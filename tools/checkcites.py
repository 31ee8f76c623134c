"""Checks that each definition of the model files has a comment with a citation of /repo, and
that the cited lines exist."""
import re, os, sys
MODEL="Gen Executer OsCommon OsLinux OsSolaris OsAix OsWin32 UnixIo Contexts Instruct Command CdbBlock CdbPrimary Sense AscTable Pages Ses Base Reactor".split()
files={}
for d,_,fs in os.walk('/repo/src/infi/asi'):
    for f in fs:
        if f.endswith('.py'):
            p=os.path.relpath(os.path.join(d,f),'/repo/src/infi/asi')
            files[p]=sum(1 for _ in open(os.path.join(d,f)))
def candidates(name):
    return [p for p in files if p==name or p.endswith('/'+name)]
bad=0
for m in MODEL:
    path='/verif/rocq/theories/%s.v'%m
    if not os.path.exists(path): continue
    text=open(path).read()
    last=''
    pos=0
    toks=re.finditer(r'\(\*\*?(.*?)\*\)|^(Definition|Fixpoint|Inductive|Record|CoInductive|CoFixpoint|with)\s+([A-Za-z0-9_\']+)',text,re.S|re.M)
    since=None
    for t in toks:
        if t.group(2) is None:
            last=t.group(1); since=0
            for c in re.finditer(r'([A-Za-z0-9_/]+\.py):(\d+)(?:-(\d+))?',last):
                cs=candidates(c.group(1).replace('src/infi/asi/',''))
                hi=int(c.group(3) or c.group(2))
                if not cs: print(m,'unknown file',c.group(0)); bad+=1
                elif all(files[x]<hi for x in cs): print(m,'line beyond end',c.group(0)); bad+=1
        else:
            since=(since if since is not None else 9)+1
            if '.py' not in last:
                print(m,t.group(3),'no citation'); bad+=1
print(bad)
