#!/usr/bin/env python3
"""Regenerate MANIFEST.json from the theorem names in rocq/theories/*_props.v.

Theorem names start with the property id. notes.json supplies the status
and note of each property; a property with a _partial theorem defaults to partial.
"""
import glob, json, os, re
root = os.path.dirname(os.path.dirname(os.path.abspath(__file__)))
thms = {}
for p in sorted(glob.glob(os.path.join(root, "rocq/theories/*_props.v"))):
    for m in re.finditer(r"^Theorem (C\d+)_(\w+)", open(p).read(), re.M):
        thms.setdefault(m.group(1), []).append(m.group(1) + "_" + m.group(2))
notes = json.load(open(os.path.join(root, "tools/notes.json")))
ids = [json.loads(l)["id"] for l in open(os.path.join(root, "properties.jsonl"))]
claims = []
for i in ids:
    if i not in thms and i not in notes:
        continue
    n = notes.get(i, {})
    t = thms.get(i, [])
    status = n.get("status") or ("partial" if any(x.endswith(("_partial", "_refuted")) for x in t) else "proved")
    claims.append({"property": i, "status": status, "theorems": t, "note": n.get("note", "")})
json.dump({"claims": claims}, open(os.path.join(root, "MANIFEST.json"), "w"), indent=1)
print({c["property"]: (c["status"], len(c["theorems"])) for c in claims})
