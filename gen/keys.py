import re,glob,collections
W={}
for f in sorted(glob.glob('ModelTw*.v')):
    s=open(f).read()
    for m in re.finditer(r'Definition (\w+)_entries \(c : (\w+)\) : ([^:]*?) :=\n  match c with\n(.*?)\n  end\.',s,re.S):
        n,ty,rt,body=m.groups()
        cl=[]
        for l in re.split(r'\n  \| ','\n'+body)[1:]:
            pat,rhs=l.split('=>',1)
            ctor=pat.split()[0]; nargs=len(pat.split())-1
            rhs=re.sub(r'\(\*.*?\*\)','',rhs,flags=re.S).strip()
            keys=re.findall(r'\(lit "([^"]+)",',rhs)+re.findall(r'sub_entry \(lit "([^"]+)"\)',rhs)
            cl.append((ctor,nargs,keys,rhs))
        W[n]=(f,rt,cl)
if __name__=='__main__':
    print(len(W),sum(len(v[2]) for v in W.values()))
    for n,(f,rt,cl) in W.items():
        d=collections.defaultdict(list)
        for c,a,k,r in cl:
            for x in set(k): d[x].append(c)
            if len(k)!=1: print('  MULTI',n,c,k,r[:150])
        for x,l in d.items():
            if len(l)>1: print(n,x,l)
