#!/usr/bin/env python3
"""Rebuild MANIFEST.json from the theorem names in rocq/theories/*_Props.v."""
import glob, json, os, re
root = os.path.dirname(os.path.dirname(os.path.abspath(__file__)))
props = [json.loads(l) for l in open(root + "/properties.jsonl") if l.strip()]
notes = json.load(open(root + "/tools/notes.json"))
thms = {}
for f in sorted(glob.glob(root + "/rocq/theories/*_Props.v")):
    for m in re.finditer(r"^(?:Theorem|Lemma|Corollary)\s+((C\d+)_\w+)", open(f).read(), re.M):
        thms.setdefault(m.group(2), []).append(m.group(1))
claims = []
for p in props:
    i = p["id"]
    ts = thms.get(i, [])
    if not ts:
        continue
    part = any(t.endswith(("_partial", "_refuted")) for t in ts)
    claims.append({"property": i, "status": "partial" if part else "proved",
                   "theorems": ts, "note": notes.get(i, "")})
json.dump({"claims": claims}, open(root + "/MANIFEST.json", "w"), indent=1)
missing = [p["id"] for p in props if p["id"] not in thms]
print(len(claims), "claims; without theorems:", " ".join(missing))
