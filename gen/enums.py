import re
R='/repo/src/'
files=['actions','annotations','attributes','color','files','font','forms','functions','renditions','structure','transitions','xobject','object','content','chunk','lib']
enums={}
for f in files:
    t=open(R+f+'.rs').read()
    for g in re.finditer(r"^pub enum (\w+)(<.*?>)? \{\n(.*?)^\}",t,re.M|re.S):
        body=re.sub(r'///.*|//.*|#\[.*?\]','',g.group(3))
        vs=[v.strip() for v in re.split(r',\s*\n',body) if v.strip()]
        enums[g.group(1)]=dict(file=f,line=t[:g.start()].count('\n')+1,vars=vs,fns={})
    for g in re.finditer(r"^impl(?:<.*?>)? (\w+)(<.*?>)? \{\n(.*?)^\}",t,re.M|re.S):
        if g.group(1) in enums:
            b=g.group(3); off=t[:g.start(3)].count('\n')+1
            for h in re.finditer(r"^    (pub(?:\(crate\))? )?fn (\w+)\((.*?)\)(.*?)\{\n(.*?)^    \}",b,re.M|re.S):
                l0=off+b[:h.start()].count('\n'); l1=off+b[:h.end()].count('\n')
                enums[g.group(1)]['fns'][h.group(2)]=(l0,l1,h.group(4).strip(),re.sub(r'\s+',' ',h.group(5)))
if __name__=='__main__':
    for n,e in enums.items(): print(n,e['file'],e['line'],e['vars'],{k:(v[0],v[1],v[2]) for k,v in e['fns'].items()})
    print(len(enums))
