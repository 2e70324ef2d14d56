#!/usr/bin/env python3
"""Writes MANIFEST.json: the theorems of Properties*.v by the number in their name, with the notes below.

A property is partial if one of its theorems is named _partial or _refuted."""
import glob, json, os, re

ROOT = os.path.dirname(os.path.dirname(os.path.abspath(__file__)))
NOTES = json.load(open(os.path.join(ROOT, "tools", "notes.json")))
claims = {}
for path in sorted(glob.glob(os.path.join(ROOT, "rocq", "theories", "Properties*.v"))):
    for name in re.findall(r"^Theorem (\w+)", open(path).read(), re.M):
        claims.setdefault(re.match(r"C\d+", name).group(), []).append(name)
ids = [json.loads(line)["id"] for line in open(os.path.join(ROOT, "properties.jsonl"))]
out = []
for i in ids:
    names = claims.pop(i, [])
    if names:
        status = "partial" if any(n.endswith(("_partial", "_refuted")) for n in names) else "proved"
    elif i in NOTES.get("not_applicable", []):
        status = "not_applicable"
    else:
        print("no theorem for", i)
        continue
    out.append({"property": i, "status": status, "theorems": names, "note": NOTES.get(i, "")})
assert not claims, claims
json.dump({"claims": out}, open(os.path.join(ROOT, "MANIFEST.json"), "w"), indent=1, ensure_ascii=False)
print(len(out), "claims;", sum(c["status"] == "proved" for c in out), "proved;", [c["property"] for c in out if not c["note"]], "without note")
