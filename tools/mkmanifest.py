#!/usr/bin/env python3
# Writes MANIFEST.json from the theorem names in rocq/theories/Properties_*.v and tools/notes.json.
import json,re,glob,os
root=os.path.join(os.path.dirname(os.path.abspath(__file__)),'..')
thms={}
for f in sorted(glob.glob(root+'/rocq/theories/Properties_*.v')):
    for m in re.finditer(r'^Theorem (C\d+)((?:_\w+)?)\b',open(f).read(),re.M):
        thms.setdefault(m.group(1),[]).append(m.group(1)+m.group(2))
notes=json.load(open(root+'/tools/notes.json'))
ids=[json.loads(l)['id'] for l in open(root+'/properties.jsonl')]
claims=[]
for i in ids:
    t=thms.pop(i,[])
    if not t: print('no theorems for',i); continue
    st='partial' if any(x.endswith(('_partial','_refuted')) for x in t) else 'proved'
    claims.append({'property':i,'status':st,'theorems':t,'note':notes.get(i,'')})
    if st=='partial' and not notes.get(i): print('no note for',i)
if thms: print('unknown properties',thms)
json.dump({'claims':claims},open(root+'/MANIFEST.json','w'),indent=1)
print(len(claims),'claims',sum(c['status']=='proved' for c in claims),'proved')
