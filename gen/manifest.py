import json,re,glob,os
names=[]
for f in sorted(glob.glob('/verif/rocq/theories/Prop*.v')):
    for m in re.finditer(r'^(?:Theorem|Corollary) (C\d+_\w+)',open(f).read(),re.M):
        names.append(m.group(1))
props=[json.loads(l)['id'] for l in open('/verif/properties.jsonl')]
notes=json.load(open('/verif/notes.json')) if os.path.exists('/verif/notes.json') else {}
claims=[]
for p in props:
    th=[n for n in names if n.startswith(p+'_')]
    if not th:
        st='partial'; th=[]; note='not proved yet'
        print('missing',p)
        continue
    st='partial' if any(n.endswith('_partial') for n in th) else 'proved'
    note=notes.get(p,'')
    if p in notes and notes[p].startswith('PARTIAL'): st='partial'
    claims.append({"property":p,"status":st,"theorems":th,"note":note})
json.dump({"claims":claims},open('/verif/MANIFEST.json','w'),indent=1)
