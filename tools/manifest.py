#!/usr/bin/env python3
"""Regenerate MANIFEST.json from the theorem names in rocq/theories/*Props.v.

A theorem belongs to property CNN when its name starts with cNN_.  A property
is "partial" when one of its theorems carries the suffix _partial or _refuted.
"""
import glob, json, os, re
root = os.path.dirname(os.path.dirname(os.path.abspath(__file__)))
notes = json.load(open(os.path.join(root, "tools", "notes.json")))
thms = {}
for f in sorted(glob.glob(os.path.join(root, "rocq/theories/*Props.v"))):
    for m in re.finditer(r"^\s*Theorem\s+(c(\d+)_\w+)", open(f).read(), re.M):
        thms.setdefault("C" + m.group(2), []).append(m.group(1))
claims = []
for line in open(os.path.join(root, "properties.jsonl")):
    p = json.loads(line)["id"]
    if p in thms:
        ts = thms[p]
        part = any(t.endswith(("_partial", "_refuted")) for t in ts)
        claims.append({"property": p, "status": "partial" if part else "proved",
                       "theorems": ts, "note": notes.get(p, "")})
json.dump({"claims": claims}, open(os.path.join(root, "MANIFEST.json"), "w"), indent=1)
print(len(claims), "claims", sum(len(c["theorems"]) for c in claims), "theorems")
