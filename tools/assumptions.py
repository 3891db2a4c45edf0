#!/usr/bin/env python3
"""Writes /verif/ASSUMPTIONS.md: what Print Assumptions lists for each theorem of MANIFEST.json.
Needs the compiled theories."""
import json, re, subprocess, glob, os, collections
d="/verif/rocq"
mods={}
for f in sorted(glob.glob(d+"/theories/*.v")):
    for m in re.finditer(r"^\s*Theorem\s+(C\d\d+_\w+)", open(f).read(), re.M):
        mods[m.group(1)]=os.path.basename(f)[:-2]
names=[t for c in json.load(open("/verif/MANIFEST.json"))["claims"] for t in c["theorems"]]
src="From Verif Require "+" ".join(sorted(set(mods[n] for n in names)))+".\n"
for n in names: src+='Check Verif.%s.%s.\nPrint Assumptions Verif.%s.%s.\n'%(mods[n],n,mods[n],n)
open("/tmp/pa.v","w").write(src)
out=subprocess.run(["coqc","-Q",d+"/theories","Verif","/tmp/pa.v"],capture_output=True,text=True).stdout
res={}
cur=None; ax=None
for line in out.split("\n"):
    m=re.match(r"^(?:\w+\.)*(C\d\d+_\w+)\s*$",line) or re.match(r"^(?:\w+\.)*(C\d\d+_\w+)\s*:",line)
    if m and m.group(1) in names: cur=m.group(1); ax=None; continue
    if line.startswith("Closed under the global context"): res[cur]=[]; continue
    if line.startswith("Axioms:"): ax=res.setdefault(cur,[]); continue
    if ax is not None:
        m=re.match(r"^([A-Za-z_][\w.']*)\s*(:|$)",line)
        if m: ax.append(m.group(1))
groups=collections.OrderedDict()
for n in names: groups.setdefault(tuple(sorted(res[n])),[]).append(n)
with open("/verif/ASSUMPTIONS.md","w") as f:
    f.write("# Print Assumptions, per theorem\n\nWritten by `tools/assumptions.py`. Theorems are grouped by the list printed.\n")
    for g,ns in sorted(groups.items()):
        f.write("\n## "+("Closed under the global context" if not g else ", ".join("`%s`"%a for a in g))+"\n\n")
        f.write(", ".join(ns)+"\n")
print({g:len(n) for g,n in groups.items()})
