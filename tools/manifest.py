#!/usr/bin/env python3
"""Generate MANIFEST.json from the claim table below and check that every theorem exists."""
import json, re, glob, os
ROOT = os.path.dirname(os.path.dirname(os.path.abspath(__file__)))
CLAIMS = []
def claim(prop, status, theorems, note):
    CLAIMS.append({"property": prop, "status": status, "theorems": theorems.split(), "note": note})

exec(open(os.path.join(ROOT, "tools", "claims.py")).read())

names = set()
for f in glob.glob(os.path.join(ROOT, "rocq/theories/*.v")):
    names |= set(re.findall(r"^\s*(?:Theorem|Lemma|Corollary)\s+(\w+)", open(f).read(), re.M))
missing = [(c["property"], t) for c in CLAIMS for t in c["theorems"] if t not in names]
props = [json.loads(l)["id"] for l in open(os.path.join(ROOT, "properties.jsonl"))]
have = {c["property"] for c in CLAIMS}
print("missing theorems:", missing)
print("properties without claim:", [p for p in props if p not in have])
print("unknown properties:", [p for p in have if p not in props])
json.dump({"claims": CLAIMS}, open(os.path.join(ROOT, "MANIFEST.json"), "w"), indent=1, ensure_ascii=False)
