#!/usr/bin/env python3
"""Write DESIGN.md: tools/design_text.md with the marker line @@TABLE@@ replaced
by one row per property, taken from MANIFEST.json and tools/plan.json."""
import json, os
d = os.path.dirname(os.path.abspath(__file__))
j = lambda *p: os.path.join(d, "..", *p)
man = {c["property"]: c for c in json.load(open(j("MANIFEST.json")))["claims"]}
plan = json.load(open(os.path.join(d, "plan.json")))
props = [json.loads(l) for l in open(j("properties.jsonl")) if l.strip()]
rows = []
for p in props:
    i = p["id"]
    c = man[i]
    th = " ".join("`%s`" % t for t in c["theorems"])
    rows.append("### %s %s\n\n*Modelled and proved by:* %s\n\n*Status:* %s. %s\n\n*Theorems:* %s\n" %
                (i, p["title"], plan[i], c["status"], c["note"], th))
t = open(os.path.join(d, "design_text.md")).read()
open(j("DESIGN.md"), "w").write(t.replace("@@TABLE@@", "\n".join(rows)))
