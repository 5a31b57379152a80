#!/usr/bin/env python3
"""upd.py: read JSON from stdin: {"status": {id:[s,note]}, "props": {id:{field:value}}} and update files."""
import json,sys
u=json.load(sys.stdin)
p='/verif/tools/status.json'; d=json.load(open(p)); d.update(u.get("status",{})); json.dump(d,open(p,'w'),indent=1)
p='/verif/properties.jsonl'; L=[json.loads(l) for l in open(p) if l.strip()]
ids={x["id"]:x for x in L}
for k,v in u.get("props",{}).items():
    if k in ids: ids[k].update(v)
    else:
        x={"id":k}; x.update(v); L.append(x)
open(p,'w').write("".join(json.dumps(x,ensure_ascii=False)+"\n" for x in L))
