#!/usr/bin/env python3
"""Regenerate MANIFEST.json from the theorem names in rocq/theories/Props_*.v and tools/notes.json."""
import re,glob,json,collections,os
root=os.path.dirname(os.path.dirname(os.path.abspath(__file__)))
ths=collections.defaultdict(list)
for f in sorted(glob.glob(root+'/rocq/theories/Props_*.v')):
    for m in re.finditer(r'^(?:Theorem|Corollary) (C\d\d)_(\w+)',open(f).read(),re.M):
        ths[m.group(1)].append(m.group(1)+'_'+m.group(2))
notes=json.load(open(root+'/tools/notes.json'))
props=[json.loads(l)['id'] for l in open(root+'/properties.jsonl') if l.strip()]
claims=[]
for p in props:
    n=notes.get(p,{})
    t=ths.get(p,[])
    if not t and n.get('status')!='not_applicable':
        continue
    st=n.get('status') or ('partial' if all(x.endswith('_partial') for x in t) else 'proved')
    claims.append({"property":p,"status":st,"theorems":t,"note":n.get('note','')})
json.dump({"claims":claims},open(root+'/MANIFEST.json','w'),indent=1)
print(len(claims),'claims; missing:',[p for p in props if p not in {c['property'] for c in claims}])
