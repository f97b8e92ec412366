#!/usr/bin/env python3
# Regenerates MANIFEST.json: every property of properties.jsonl, status from the table below.
import json,os
root=os.path.dirname(os.path.dirname(os.path.abspath(__file__)))
C={}
exec(open(os.path.join(root,'tools','claims.py')).read())
out=[]
for l in open(os.path.join(root,'properties.jsonl')):
    p=json.loads(l)['id']
    if p in C:
        st,th,note=C[p]
        out.append({"property":p,"status":st,"theorems":th,"note":note})
    else:
        out.append({"property":p,"status":"partial","theorems":[],"note":"not yet modelled"})
json.dump({"claims":out},open(os.path.join(root,'MANIFEST.json'),'w'),indent=1)
