#!/usr/bin/env python3
"""Generate MANIFEST.json from the Theorem names (Cnn_...) of the *Props.v files
and the notes below (tools/notes.json: id -> {status?, note})."""
import re,glob,json
th={}
for f in sorted(glob.glob('/verif/rocq/theories/*Props*.v')):
    for m in re.finditer(r'^Theorem (C(\d+)_\w+)',open(f).read(),re.M):
        th.setdefault('C'+m.group(2),[]).append(m.group(1))
notes=json.load(open('/verif/tools/notes.json'))
claims=[]
for l in open('/verif/properties.jsonl'):
    d=json.loads(l); i=d['id']; t=th.get(i,[]); n=notes.get(i,{})
    st=n.get('status')
    if not st:
        if not t: continue
        st='partial' if any(x.endswith(('_partial','_refuted')) for x in t) else 'proved'
    claims.append(dict(property=i,status=st,theorems=t,note=n.get('note','')))
json.dump({'claims':claims},open('/verif/MANIFEST.json','w'),indent=1)
print(len(claims),'claims',sum(len(c['theorems']) for c in claims),'theorems',[k for k in th if not any(c['property']==k for c in claims)])
