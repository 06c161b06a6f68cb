#!/usr/bin/env python3
"""Append results of the mutation harness (JSON lines) to seeded/LOG.jsonl."""
import json, sys, os
log = os.path.join(os.path.dirname(__file__), "..", "seeded", "LOG.jsonl")
tight = json.load(open(sys.argv[2])) if len(sys.argv) > 2 else {}
with open(log, "a") as f:
    for l in open(sys.argv[1]):
        o = json.loads(l)
        t = tight.get(o["id"], {})
        r = {"definition": o["definition"], "edit": o["edit"][:300], "claim": o["claim"],
             "theorems_failed": o["first_failures"], "manifest_theorems_not_rebuilt": len(o.get("lost", [])),
             "result": "caught" if o["first_failures"] else t.get("result", "survived"),
             "theorems_tightened": t.get("tightened", [])}
        if "note" in t: r["note"] = t["note"]
        f.write(json.dumps(r) + "\n")
