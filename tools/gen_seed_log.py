#!/usr/bin/env python3
"""Write seeded/LOG.jsonl from the mutation list and the results of a run.

usage: gen_seed_log.py MUTATIONS.jsonl RESULTS.jsonl TIGHTENED.json
"""
import json, os, sys

HERE = os.path.dirname(os.path.abspath(__file__))
muts = [json.loads(l) for l in open(sys.argv[1])]
res = {}
for l in open(sys.argv[2]):
    r = json.loads(l)
    if not r.get("error") and not r.get("err"):
        res[r["id"]] = r
tight = json.load(open(sys.argv[3])) if len(sys.argv) > 3 else {}
with open(os.path.join(HERE, "..", "seeded", "LOG.jsonl"), "w") as f:
    for m in muts:
        r = res.get(m["id"])
        if r is None:
            continue
        f.write(json.dumps({
            "id": m["id"],
            "definition": m["file"] + ": " + m["definition"],
            "edit": m["edit"],
            "claim": m["claim"],
            "properties": m["props"],
            "failed": sorted(r["failed"]),
            "tightened": tight.get(m["id"], []),
        }) + "\n")
