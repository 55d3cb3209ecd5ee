#!/usr/bin/env python3
"""Writes MANIFEST.json and checks that every theorem it names exists in rocq/theories."""
import json, re, glob, os
root = os.path.dirname(os.path.dirname(os.path.abspath(__file__)))
C = []
def claim(p, status, theorems, note=""):
    C.append(dict(property=p, status=status, theorems=theorems.split(), note=note))
exec(open(os.path.join(root, "tools", "claims.py")).read())
names = set()
for f in glob.glob(os.path.join(root, "rocq/theories/*.v")):
    names |= set(re.findall(r"^(?:Theorem|Lemma|Corollary)\s+([\w']+)", open(f).read(), re.M))
for c in C:
    for t in c["theorems"]:
        assert t in names, (c["property"], t)
props = [json.loads(l)["id"] for l in open(os.path.join(root, "properties.jsonl"))]
print("missing:", [p for p in props if p not in {c["property"] for c in C}])
json.dump({"claims": C}, open(os.path.join(root, "MANIFEST.json"), "w"), indent=1)
