"""Turn /tmp/mut/results.jsonl into seeded/LOG.jsonl (keeps hand-written lines that have no "id" in the results)."""
import json,os
import sys; sys.path.insert(0,'seeded')
from mutations import TIGHTENED
last={}
for l in open('/tmp/mut/results.jsonl'):
    r=json.loads(l); last[r['id']]=r
res=list(last.values())
ids={r['id'] for r in res}
old=[json.loads(l) for l in open('seeded/LOG.jsonl')] if os.path.exists('seeded/LOG.jsonl') else []
notes={o['id']:o for o in old if o.get('id') in ids}
out=[o for o in old if o.get('id') not in ids]
for r in res:
    n=notes.get(r['id'],{})
    out.append({"id":r['id'],"definition":r['definition'],"file":r['file'],"edit":r['edit'],"breaks":r['claim'],
      "detected":r['rc']!=0,"theorems_failed":r['failed'],"theorems_tightened":n.get('theorems_tightened') or TIGHTENED.get(r['id'],[]),"note":n.get('note','')})
with open('seeded/LOG.jsonl','w') as f:
    for o in out: f.write(json.dumps(o)+"\n")
