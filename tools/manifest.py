#!/usr/bin/env python3
"""Regenerate MANIFEST.json from the theorem names in rocq/theories/*Props.v and notes below."""
import json,re,glob,collections,os
root=os.path.dirname(os.path.dirname(os.path.abspath(__file__)))
th=collections.defaultdict(list)
for f in sorted(glob.glob(root+'/rocq/theories/*Props*.v')):
    for m in re.finditer(r'^Theorem (C(\d\d+)_\w+)',open(f).read(),re.M):
        th['C'+m.group(2)].append(m.group(1))
notes=json.load(open(root+'/tools/notes.json'))
props=[json.loads(l) for l in open(root+'/properties.jsonl')]
claims=[]
for p in props:
    i=p['id']; n=notes.get(i,{})
    if not th[i] and 'status' not in n: continue
    status=n.get('status') or ('partial' if any(t.endswith(('_partial','_refuted')) for t in th[i]) else 'proved')
    claims.append({'property':i,'status':status,'theorems':th[i],'note':n.get('note','')})
json.dump({'claims':claims},open(root+'/MANIFEST.json','w'),indent=1)
print(len(claims),'claims',sum(len(c['theorems']) for c in claims),'theorems')
