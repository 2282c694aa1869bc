import re,os,collections
R='/repo/src/'
files=['actions','annotations','attributes','color','files','font','forms','functions','renditions','structure','transitions','xobject','object','content']
cnt=collections.Counter(); rows=[]
for f in files:
    src=open(R+f+'.rs').read().split('\n')
    ty=None; doc=[]; i=0
    while i<len(src):
        l=src[i]
        g=re.match(r"impl(?:<[^>]*>)? (?:(\w+)(?:<[^>]*>)? for )?(\w+)(<.*>)? \{",l)
        if g: ty=(g.group(1)+' for ' if g.group(1) else '')+g.group(2)
        if re.match(r'\s*///',l): doc.append(l.strip()[3:].strip())
        elif re.match(r'\s*#\[',l): pass
        elif re.match(r'\s*pub fn ',l):
            j=i; sig=''
            while '{' not in src[j]: sig+=src[j].strip()+' '; j+=1
            sig+=src[j].strip()
            k=j+1; ind=len(l)-len(l.lstrip())
            body=[]
            while not re.match(r' {%d}\}'%ind,src[k]): body.append(src[k].strip()); k+=1
            rows.append((f,i+1,k+1,ty,re.search(r'fn (\w+)',l).group(1),sig,' '.join(body),' '.join(doc)))
            doc=[]; i=k
        elif l.strip()=='' : pass
        else: doc=[]
        i+=1
def classify(b):
    pats=[('pair',r'^self(?:\.dict|\.stream)?\.pair\(Name\(b"(\w+)"\), (.*)\); self$'),
     ('start',r'^self(?:\.dict|\.stream)?\.insert\(Name\(b"(\w+)"\)\)\.start\(\)$'),
     ('startwith',r'^self(?:\.dict|\.stream)?\.insert\(Name\(b"(\w+)"\)\)\.(start_with_\w+|\w+)\((.*)\)$'),
     ('items',r'^self(?:\.dict|\.stream)?\.insert\(Name\(b"(\w+)"\)\)\.array\(\)\.items\((.*)\); self$'),
     ('typed',r'^self(?:\.dict|\.stream)?\.insert\(Name\(b"(\w+)"\)\)\.array\(\)\.typed\(\)\.items\((.*)\); self$'),
     ('primitive',r'^self(?:\.dict|\.stream)?\.insert\(Name\(b"(\w+)"\)\)\.primitive\((.*)\); self$'),
     ]
    for n,p in pats:
        g=re.match(p,b)
        if g: return n,g.groups()
    return 'other',(b,)
if __name__=='__main__':
    bk=collections.Counter()
    for r in rows:
        c=classify(r[6]); bk[(r[0],c[0])]+=1
    for f in files: print(f,{k[1]:v for k,v in bk.items() if k[0]==f})
    for r in rows:
        c=classify(r[6])
        if c[0]=='other' and r[0] not in('object','content'): print(f'{r[0]}:{r[1]} {r[3]}::{r[4]} | {r[5][:110]} | {r[6][:300]}')
