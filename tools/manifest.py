"""Regenerate properties.jsonl and MANIFEST.json.  Statuses/notes overrides are in STATUS below."""
import re,glob,json,sys,os
sys.dont_write_bytecode=True
sys.path.insert(0,os.path.dirname(__file__))
import props_a
from props_a import P
try:
    import props_b
    P=P+props_b.P
except ImportError: pass
from status import STATUS
for i,d in enumerate(P): assert d['id']=='C%02d'%(i+1),d['id']
with open('/verif/properties.jsonl','w') as f:
    for d in P: f.write(json.dumps(d,ensure_ascii=False)+'\n')
th={}
for fn in sorted(glob.glob('/verif/rocq/theories/Props/*.v')):
    for m in re.finditer(r'^Theorem\s+(C(\d+)_\w+)',open(fn).read(),re.M):
        th.setdefault('C'+m.group(2),[]).append(m.group(1))
claims=[]
for d in P:
    i=d['id']
    if i in STATUS:
        st,note=STATUS[i]
    else:
        st,note='proved',''
    t=th.pop(i,[])
    if not t:
        if st!='not_applicable': st='partial'; note=note or 'not yet proved'
    claims.append({"property":i,"status":st,"theorems":t,"note":note})
assert not th,th
json.dump({"claims":claims},open('/verif/MANIFEST.json','w'),indent=1)
print(sum(len(c['theorems']) for c in claims),'theorems;',[c['property'] for c in claims if not c['theorems']])
