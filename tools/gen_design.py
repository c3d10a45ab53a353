"""Regenerates DESIGN.md from design_head.md, design_how.json, MANIFEST.json and design_tail.md."""
import json,os
t=os.path.dirname(os.path.abspath(__file__)); v=os.path.dirname(t)
how=json.load(open(t+'/design_how.json'))
props=[json.loads(l) for l in open(v+'/properties.jsonl')]
man={c['property']:c for c in json.load(open(v+'/MANIFEST.json'))['claims']}
out=[open(t+'/design_head.md').read()]
out.append('## 4. Plan and result per property\n\nGenerated from the manifest; the statements are in properties.jsonl.\n\n| id | property | modelled | how proved | status, theorems |\n|---|---|---|---|---|\n')
for p in props:
    h=how.get(p['id'],['',''])
    c=man[p['id']]
    out.append('| %s | %s | %s | %s | %s: %s |\n'%(p['id'],p['title'],h[0],h[1],c['status'],', '.join('`%s`'%x for x in c['theorems'])))
out.append('\n'+open(t+'/design_tail.md').read())
open(v+'/DESIGN.md','w').write(''.join(out))
missing=[p['id'] for p in props if p['id'] not in how]
if missing: print('design: no how for',missing)
