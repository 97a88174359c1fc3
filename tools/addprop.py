#!/usr/bin/env python3
"""Append properties (JSON list on stdin: property objects with extra keys
"plan" and "note") to properties.jsonl, the DESIGN plan and the notes."""
import json, os, sys
root = os.path.dirname(os.path.dirname(os.path.abspath(__file__)))
notes = json.load(open(root + "/tools/notes.json"))
have = {json.loads(l)["id"] for l in open(root + "/properties.jsonl") if l.strip()}
design = open(root + "/DESIGN.md").read()
for p in json.load(sys.stdin):
    plan, note = p.pop("plan", None), p.pop("note", None)
    if note is not None:
        notes[p["id"]] = note
    if "title" in p and p["id"] not in have:
        with open(root + "/properties.jsonl", "a") as f:
            f.write(json.dumps(p) + "\n")
        line = "* **%s %s.** %s\n" % (p["id"], p["title"], plan)
        marker = "\n## Trusted base"
        i = design.find(marker)
        design = (design.rstrip("\n") + "\n" + line) if i < 0 else design[:i].rstrip("\n") + "\n" + line + design[i:]
open(root + "/DESIGN.md", "w").write(design)
json.dump(dict(sorted(notes.items())), open(root + "/tools/notes.json", "w"), indent=0)
