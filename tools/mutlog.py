#!/usr/bin/env python3
"""Append the results of mutate.py to seeded/LOG.jsonl.

usage: mutlog.py EDITS.json RESULTS.jsonl [TIGHTENED.json]
TIGHTENED.json: {"M31": ["theorem", ...]}; ids already in the log are skipped.
"""
import json, os, sys
log = os.path.join(os.path.dirname(os.path.abspath(__file__)), "..", "seeded", "LOG.jsonl")
edits = {e["id"]: e for e in json.load(open(sys.argv[1]))}
tight = json.load(open(sys.argv[3])) if len(sys.argv) > 3 else {}
old = {json.loads(l)["id"] for l in open(log)} if os.path.exists(log) else set()
for l in open(sys.argv[2]):
    r = json.loads(l)
    if r["id"] in old or "failed" not in r: continue
    e = edits[r["id"]]
    claims = e["claim"].split()
    own = [t for t in r["theorems"] if t.split("_")[0] in claims]
    rest = [t for t in r["theorems"] if t not in own]
    open(log, "a").write(json.dumps({
        "id": r["id"], "definition": f"{e['file'][:-2]}.{e['definition'].split('.')[-1]}", "edit": e["edit"],
        "from": e["old"], "to": e["new"], "claim": claims, "first_failing_lemmas": r["failed"],
        "theorems_failed": own, "other_theorems_failed": rest, "survived": r["survived"],
        "theorems_tightened": tight.get(r["id"], [])}) + "\n")
