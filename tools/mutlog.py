#!/usr/bin/env python3
"""Append the results of mutate.py to seeded/LOG.jsonl.

usage: mutlog.py OUT.jsonl ...      (a mutant already in the log with the same theorems is skipped)
"""
import json, sys
LOG = "/verif/seeded/LOG.jsonl"
M = {m["name"]: m for m in json.load(open("/verif/seeded/mutants.json"))}
have = {}
for l in open(LOG):
    x = json.loads(l); have[x.get("mutant")] = x["theorems_failed"]
n = 0
with open(LOG, "a") as f:
    for o in sys.argv[1:]:
        for l in open(o):
            r = json.loads(l)
            if "error" in r or have.get(r["name"]) == r["theorems"]: continue
            m = M[r["name"]]; have[r["name"]] = r["theorems"]; n += 1
            f.write(json.dumps({"mutant": m["name"], "definition": m["file"] + ": " + m["definition"],
                                "edit": m["old"] + "  ==>  " + m["new"], "claim": m["claim"],
                                "theorems_failed": r["theorems"], "lemmas_failed": r["failed"],
                                "theorems_tightened": m.get("tightened", [])}) + "\n")
print(n, "lines added")
