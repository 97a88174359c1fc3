#!/usr/bin/env python3
"""List the definitions of the model files whose comment cites no line of /repo."""
import re, glob, sys
bad = 0
for p in sorted(glob.glob(sys.path[0] + '/../rocq/theories/*_Model.v')):
    s = open(p).read()
    for m in re.finditer(r'^(?:Definition|Fixpoint|Inductive|Record|Variant|with)\s+(\w+)', s, re.M):
        before = s[:m.start()].rstrip()
        ok = False
        if before.endswith('*)'):
            c = before[before.rindex('(*'):]
            ok = re.search(r'\.[ch]:\d+', c) is not None
        if not ok:
            bad += 1
            print(p.split('/')[-1], m.group(1))
print(bad)
