#!/usr/bin/env python3
"""Regenerate MANIFEST.json from the theorems in rocq/theories/*_props.v and tools/status.json
(status.json: {"C05": ["partial", "note"], ...}; default is proved with no note)."""
import re,json,glob,os
root=os.path.dirname(os.path.dirname(os.path.abspath(__file__)))
thms={}
for f in sorted(glob.glob(root+"/rocq/theories/*_props.v")):
    for m in re.finditer(r"^Theorem ((C\d\d+)_\w+)",open(f).read(),re.M):
        thms.setdefault(m.group(2),[]).append(m.group(1))
st=json.load(open(root+"/tools/status.json"))
ids=[json.loads(l)["id"] for l in open(root+"/properties.jsonl")]
claims=[]
for i in ids:
    if i in thms:
        s,n=st.get(i,["proved",""])
        claims.append(dict(property=i,status=s,theorems=thms[i],note=n))
    elif i in st:
        s,n=st[i]; claims.append(dict(property=i,status=s,theorems=[],note=n))
    else: print("no theorem yet:",i)
json.dump({"claims":claims},open(root+"/MANIFEST.json","w"),indent=1)
