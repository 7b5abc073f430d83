#!/usr/bin/env python3
"""Regenerate MANIFEST.json from tools/claims.txt (property|status|note) and theorem names C.._ in Prop*.v"""
import re,json,glob,os
root=os.path.join(os.path.dirname(__file__),'..')
names={}
for f in sorted(glob.glob(root+'/rocq/theories/Prop*.v')):
    for m in re.finditer(r'^Theorem (C\d\d)(\w*)',open(f).read(),re.M):
        names.setdefault(m.group(1),[]).append(m.group(0).split()[1])
claims=[]
for l in open(root+'/tools/claims.txt'):
    l=l.strip()
    if not l: continue
    p,s,n=l.split('|',2)
    claims.append({"property":p,"status":s,"theorems":names.get(p,[]),"note":n})
have={c["property"] for c in claims}
miss=[k for k in names if k not in have]
if miss: print("WARNING no claim line for",miss)
for c in claims:
    if not c["theorems"]: print("WARNING no theorem for",c["property"])
json.dump({"claims":claims},open(root+'/MANIFEST.json','w'),indent=1)
