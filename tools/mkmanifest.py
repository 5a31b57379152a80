#!/usr/bin/env python3
"""Regenerates MANIFEST.json: theorem names are read from rocq/theories/Prop*.v, status and notes from tools/status.json."""
import json,re,glob,os
root=os.path.dirname(os.path.dirname(os.path.abspath(__file__)))
props=[json.loads(l) for l in open(root+'/properties.jsonl') if l.strip()]
st=json.load(open(root+'/tools/status.json'))
th={}
for f in sorted(glob.glob(root+'/rocq/theories/Prop*.v')):
    for m in re.finditer(r'^Theorem\s+(C\d\d\w*)',open(f).read(),re.M):
        th.setdefault(m.group(1)[:3],[]).append(m.group(1))
claims=[]
for p in props:
    i=p['id']; s=st.get(i,["partial","not yet modelled"])
    claims.append({"property":i,"status":s[0],"theorems":th.get(i,[]),"note":s[1]})
json.dump({"claims":claims},open(root+'/MANIFEST.json','w'),indent=1)
for c in claims:
    if not c['theorems']: print('no theorems:',c['property'],c['status'])
