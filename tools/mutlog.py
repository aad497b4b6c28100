"""Convert the raw results of the mutation harness (one JSON per attempt) into seeded/LOG.jsonl.
The harness edits one operator, constant, name or branch of one definition of the model in a scratch copy and rebuilds."""
import json,sys,os,re
sys.path.insert(0,os.path.dirname(__file__)); sys.dont_write_bytecode=True
import props_a,props_b
title={d['id']:d['title'] for d in props_a.P+props_b.P}
from mutnotes import NOTES
out=[]
seen=set()
for l in open('/tmp/mut/out.jsonl'):
    d=json.loads(l)
    if d['res'] in('invalid','timeout'): continue
    key=(d['file'],d['def'],d['old'],d['new'])
    if key in seen: continue
    seen.add(key)
    th=d.get('theorems',[])
    e={'definition':'Model/%s.v: %s'%(d['file'],d['def']),'edit':d['old']+'   ==>   '+d['new']}
    if d['res']=='killed':
        ids=sorted({t.split('_')[0] for t in th})
        e['claim_broken']='; '.join('%s %s'%(i,title[i]) for i in ids if i in title)
        e['theorems_failed']=th; e['first_failures']=[f[1] for f in d['fails']]; e['theorems_tightened']=[]
    else:
        n=next((v for (f,df,frag),v in NOTES.items() if f==d['file'] and df==d['def'] and frag in d['new']),None)
        if n is None: print('no note:',d['file'],d['def'],'|',d['old'],'|',d['new']); n=('not yet analysed',[])
        e['claim_broken']=n[0]; e['theorems_failed']=[]; e['theorems_tightened']=n[1]
    out.append(e)
with open('/verif/seeded/LOG.jsonl','w') as f:
    for e in out: f.write(json.dumps(e,ensure_ascii=False)+'\n')
print(len(out),'attempts;',sum(1 for e in out if e['theorems_failed']),'killed')
