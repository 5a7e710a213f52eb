#!/usr/bin/env python3
"""Set one or more claims in MANIFEST.json: manifest.py ID STATUS NOTE THEOREM..."""
import json, os, sys
p = os.path.join(os.path.dirname(os.path.abspath(__file__)), "..", "MANIFEST.json")
m = json.load(open(p)) if os.path.exists(p) else {"claims": []}
def put(pid, status, note, thms):
    m["claims"] = [c for c in m["claims"] if c["property"] != pid]
    m["claims"].append({"property": pid, "status": status, "theorems": thms, "note": note})
    m["claims"].sort(key=lambda c: int(c["property"][1:]))
if len(sys.argv) > 1:
    put(sys.argv[1], sys.argv[2], sys.argv[3], sys.argv[4:])
else:
    for line in sys.stdin:
        line = line.rstrip("\n")
        if line:
            a = line.split("|")
            put(a[0].strip(), a[1].strip(), a[2].strip(), a[3].split())
json.dump(m, open(p, "w"), indent=1)
