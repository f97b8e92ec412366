#!/usr/bin/env python3
# Regenerates rocq/theories/Assumptions.v: Print Assumptions of every theorem of MANIFEST.json.
import json,os,re,glob
root=os.path.dirname(os.path.dirname(os.path.abspath(__file__)))
th=[t for c in json.load(open(root+'/MANIFEST.json'))['claims'] for t in c['theorems']]
seen=[]
for t in th:
    if t not in seen: seen.append(t)
where={}
for f in sorted(glob.glob(root+'/rocq/theories/*.v')):
    for m in re.finditer(r'^\s*(?:Local |Global )?(?:Theorem|Lemma|Corollary|Example)\s+(\w+)',open(f).read(),re.M):
        where.setdefault(m.group(1),os.path.basename(f)[:-2])
mods=[]
for t in seen:
    if where[t] not in mods: mods.append(where[t])
o='(* Assumptions.v -- generated by tools/assumptions.py: what every theorem of MANIFEST.json rests on *)\n'
o+=''.join('From Verif Require %s.\n'%m for m in sorted(mods))
o+=''.join('Print Assumptions Verif.%s.%s.\n'%(where[t],t) for t in seen)
open(root+'/rocq/theories/Assumptions.v','w').write(o)
