#!/usr/bin/env python3
"""Single source for properties.jsonl and MANIFEST.json.  Run: python3 tools/gen.py
Property texts are in props.py, statuses and notes in status.py; the theorems of a property are the
Theorems in rocq/theories/P_*.v whose name starts with its id."""
import json, os, re, sys
ROOT = os.path.dirname(os.path.dirname(os.path.abspath(__file__)))
P = []
def prop(id, title, statement, quantifier, why, anchors, *_):
    P.append(dict(id=id, title=title, statement=statement, quantifier=quantifier,
                  why_tests_cant=why, anchors=anchors))
exec(open(os.path.join(ROOT, "tools", "props.py")).read())
ST = {}
exec(open(os.path.join(ROOT, "tools", "status.py")).read())
ids = [p["id"] for p in P]
assert len(ids) == len(set(ids)), "duplicate ids"
names = []
td = os.path.join(ROOT, "rocq", "theories")
for fn in sorted(os.listdir(td)):
    if fn.startswith("P_") and fn.endswith(".v"):
        names += re.findall(r"^\s*Theorem\s+([A-Za-z0-9_']+)", open(os.path.join(td, fn)).read(), re.M)
assert len(names) == len(set(names))
claims = []
for p in P:
    th = [n for n in names if n.startswith(p["id"] + "_")]
    st, note = ST.get(p["id"], ("partial", "no theorem yet"))
    if st == "proved" and not th: print("PROVED WITHOUT THEOREM", p["id"])
    if not th: print("no theorem:", p["id"])
    claims.append(dict(property=p["id"], status=st, theorems=th, note=note))
with open(os.path.join(ROOT, "properties.jsonl"), "w") as f:
    for p in P: f.write(json.dumps(p) + "\n")
with open(os.path.join(ROOT, "MANIFEST.json"), "w") as f:
    json.dump({"claims": claims}, f, indent=1); f.write("\n")
listed = {t for c in claims for t in c["theorems"]}
print("theorems not in manifest:", sorted(set(names) - listed))
from collections import Counter
print(len(P), "properties,", len(names), "theorems", Counter(c["status"] for c in claims))
