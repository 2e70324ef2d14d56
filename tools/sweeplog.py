#!/usr/bin/env python3
"""Turns the results of sweep.py into lines of seeded/LOG.jsonl.

Usage: sweeplog.py SWEEP.jsonl PREFIX [VERDICTS.json]

VERDICTS maps "File.def:line:old:new" of a survivor to {"verdict": text, "tightened": [theorems]}."""
import json, os, sys

ROOT = os.path.dirname(os.path.dirname(os.path.abspath(__file__)))
log = os.path.join(ROOT, "seeded", "LOG.jsonl")
verdicts = json.load(open(sys.argv[3])) if len(sys.argv) > 3 else {}
have = {json.loads(x)["id"] for x in open(log)}
n = 0
with open(log, "a") as f:
    for k, x in enumerate(open(sys.argv[1])):
        r = json.loads(x)
        ident = "%s%04d" % (sys.argv[2], k)
        if "invalid" in r or ident in have:
            continue
        v = verdicts.get("%s.%s:%d:%s:%s" % (r["file"], r["def"], r["line"], r["old"].strip(), r["new"].strip()), {})
        claims = sorted({p.split("_")[0] for p in r.get("properties", [])})
        f.write(json.dumps({
            "id": ident, "definition": r["file"] + "." + r["def"], "edit": "line %d: `%s` becomes `%s`" % (r["line"], r["old"].strip("\n"), r["new"].strip("\n")),
            "claim": claims, "failed": r.get("properties", []), "first_lemma": r.get("by"),
            "result": v.get("verdict") or ("survived" if "survives" in r else "caught" if claims else "does not build: " + r.get("killed", "")),
            "tightened": v.get("tightened", [])}, ensure_ascii=False) + "\n")
        n += 1
print(n, "lines added")
