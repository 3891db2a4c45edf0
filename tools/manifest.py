#!/usr/bin/env python3
"""Writes /verif/MANIFEST.json.  Theorems are found by their Cnn_ prefix in rocq/theories/Props*.v."""
import json, re, glob
ids=[json.loads(l)["id"] for l in open("/verif/properties.jsonl")]
th={i:[] for i in ids}
for f in sorted(glob.glob("/verif/rocq/theories/*.v")):
    for m in re.finditer(r"^\s*Theorem\s+(C\d\d+)_(\w+)", open(f).read(), re.M):
        th[m.group(1)].append(m.group(1)+"_"+m.group(2))
notes=json.load(open("/verif/tools/notes.json"))
claims=[]
for i in ids:
    t=th[i]
    if not t: st="partial"; note=notes.get(i,"Not yet proved.")
    else:
        st="partial" if any(x.endswith("_partial") or x.endswith("_refuted") for x in t) else "proved"
        note=notes.get(i,"")
    if i+":status" in notes: st=notes[i+":status"]
    claims.append(dict(property=i,status=st,theorems=t,note=note))
json.dump({"claims":claims},open("/verif/MANIFEST.json","w"),indent=1)
from collections import Counter
print(Counter(c["status"] for c in claims), [i for i in ids if not th[i]])
