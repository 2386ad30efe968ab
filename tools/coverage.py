#!/usr/bin/env python3
"""Lists the functions of /repo that no comment of the model cites."""
import re, glob, os
cited = {}
for f in glob.glob(os.path.join(os.path.dirname(__file__), "../rocq/theories/*.v")):
    for name, rest in re.findall(r"(\w+\.go):((?:\d+(?:-\d+)?)(?:,\s*\d+(?:-\d+)?)*)", open(f).read()):
        for a in re.split(r",\s*", rest):
            x = a.split("-"); cited.setdefault(name, []).append((int(x[0]), int(x[-1])))
for g in sorted(glob.glob("/repo/*.go")):
    if g.endswith("_test.go"): continue
    name, ls = os.path.basename(g), open(g).read().split("\n")
    for i, l in enumerate(ls, 1):
        if l.startswith("func "):
            e = i
            while e <= len(ls) and not ls[e-1].startswith("}") and not (e == i and l.rstrip().endswith("}")): e += 1
            if not any(a <= e and b >= i for a, b in cited.get(name, [])): print(f"{name}:{i}-{e}  {l}")
