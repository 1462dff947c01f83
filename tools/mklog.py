#!/usr/bin/env python3
"""Turn the raw results of the mutation runs (scratch copies outside /verif) into seeded/LOG.jsonl.
usage: mklog.py out1.jsonl out2.jsonl ...   (tightened.json: {mutant id: {"tightened": [...], "note": "..."}})"""
import json,os,sys
here=os.path.dirname(os.path.abspath(__file__)); base=os.path.join(here,'..','seeded')
extra=json.load(open(os.path.join(base,'tightened.json'))) if os.path.exists(os.path.join(base,'tightened.json')) else {}
out=[]
for f in sys.argv[1:]:
    for l in open(f):
        r=json.loads(l)
        if 'error' in r: continue
        x=extra.get(r['id'],{})
        out.append(dict(id=r['id'],definition=r['file']+'.v: '+r['definition'],edit=r['edit'],claim_broken=r['claim'],
          result='survived' if r['survived'] else 'killed',
          theorems_failed=r['failed_at'],
          properties_no_longer_proved=r['props_lost'],
          theorems_tightened=x.get('tightened',[]),note=x.get('note','')))
with open(os.path.join(base,'LOG.jsonl'),'w') as g:
    for o in out: g.write(json.dumps(o)+'\n')
print(len(out), 'survived:', [o['id'] for o in out if o['result']=='survived'])
