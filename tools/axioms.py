#!/usr/bin/env python3
"""Print Assumptions of every theorem of MANIFEST.json -> tools/axioms.json"""
import json, os, re, subprocess
V = os.path.join(os.path.dirname(os.path.abspath(__file__)), "..")
T = V + "/rocq/theories"
where = {}
for f in sorted(os.listdir(T)):
    if re.match(r"P_\w+\.v$", f):
        for t in re.findall(r"^\s*Theorem\s+(\w+)", open(f"{T}/{f}").read(), re.M): where[t] = f[:-2]
names = []
for c in json.load(open(V + "/MANIFEST.json"))["claims"]:
    for t in c["theorems"]:
        if t not in names: names.append(t)
import sys
old = {}
if len(sys.argv) > 1:                       # --new: only the theorems not listed yet
    old = json.load(open(V + "/tools/axioms.json"))
    old = {t: a for t, a in old.items() if t in names}
    names = [t for t in names if t not in old]
q = "".join(f"From Verif Require {m}.\n" for m in sorted(set(where[t] for t in names)))
for t in names: q += f'Goal True. idtac "THM {t}". Abort.\nPrint Assumptions {where[t]}.{t}.\n'
open("/tmp/ax.v", "w").write(q)
r = subprocess.run(f"cd {V}/rocq && coqc -Q theories Verif /tmp/ax.v", shell=True, stdout=subprocess.PIPE, stderr=subprocess.STDOUT, text=True)
if r.returncode: print(r.stdout[-2000:])
res, cur = dict(old), None
for l in r.stdout.split("\n"):
    if l.startswith("THM "): cur = l[4:].strip(); res[cur] = []
    else:
        m = re.match(r"([A-Za-z_][\w.]*) :|([A-Za-z_][\w.]*)$", l)
        if m and cur and not l.startswith("Axioms") and not l.startswith("Closed"): res[cur].append(m.group(1) or m.group(2))
json.dump(res, open(V + "/tools/axioms.json", "w"), indent=0)
sets = {}
for t, a in res.items(): sets.setdefault(tuple(sorted(set(a))), []).append(t)
for a, ts in sets.items(): print(len(ts), a)
