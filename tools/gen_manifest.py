#!/usr/bin/env python3
"""Build MANIFEST.json from the theorem names Cxx_* in rocq/theories/P_*.v and the notes below."""
import re,glob,json,os
root=os.path.dirname(os.path.dirname(os.path.abspath(__file__)))
notes=json.load(open(os.path.join(root,'tools','notes.json')))
th={}
for f in sorted(glob.glob(root+'/rocq/theories/P_*.v')):
    for m in re.finditer(r'^\s*Theorem\s+(C\d\d\w*)',open(f).read(),re.M):
        th.setdefault(m.group(1).split('_')[0],[]).append(m.group(1))
props=[json.loads(l)['id'] for l in open(root+'/properties.jsonl')]
claims=[]
for p in props:
    names=th.get(p,[])
    n=notes.get(p,{})
    if names:
        part=any(x.endswith('_partial') for x in names) or any(x.endswith('_refuted') for x in names)
        st=n.get('status') or ('partial' if part else 'proved')
        claims.append({'property':p,'status':st,'theorems':names,'note':n.get('note','')})
json.dump({'claims':claims},open(root+'/MANIFEST.json','w'),indent=1)
print(len(claims),'of',len(props),'missing:',[p for p in props if p not in th])
