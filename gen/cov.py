import re,glob,collections,os
cov=collections.defaultdict(set)
for f in glob.glob('/verif/rocq/theories/*.v'):
    t=open(f).read()
    for m in re.finditer(r'src/(\w+)\.rs:([\d][\d, \-]*)',t):
        fn=m.group(1)
        for part in re.split(r'[, ]+',m.group(2).strip(' ,-')):
            a=re.match(r'(\d+)(?:-(\d+))?$',part)
            if a:
                lo=int(a.group(1)); hi=int(a.group(2) or lo)
                cov[fn].update(range(lo,hi+1))
R=re.compile(r'\bfn (\w+)')
for f in sorted(glob.glob('/repo/src/*.rs')):
    n=os.path.basename(f)[:-3]; L=open(f).read().split('\n'); out=[]
    for i,l in enumerate(L,1):
        if 'cfg(test)' in l: break
        if R.search(l) and '//' not in l.split('fn')[0]:
            if i not in cov[n]: out.append('%d:%s'%(i,R.search(l).group(1)))
    print(n,len(out),' '.join(out))
