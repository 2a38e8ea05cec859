#!/usr/bin/env python3
"""Regenerate MANIFEST.json from the theorem names in rocq/theories/Props_*.v.

A theorem called Cxx_name belongs to property Cxx.  A property is "partial" when
one of its theorems ends in _partial or when PARTIAL lists it.
"""
import glob, json, os, re
root = os.path.dirname(os.path.dirname(os.path.abspath(__file__)))
notes = json.load(open(os.path.join(root, "tools", "notes.json")))
thms = {}
for f in sorted(glob.glob(os.path.join(root, "rocq/theories/Props_*.v"))):
    for m in re.finditer(r"^Theorem (C\d\d)(_\w+)", open(f).read(), re.M):
        thms.setdefault(m.group(1), []).append(m.group(1) + m.group(2))
claims = []
for line in open(os.path.join(root, "properties.jsonl")):
    c = json.loads(line)["id"]
    n = notes.get(c, {})
    ts = thms.get(c, [])
    if n.get("status") == "not_applicable":
        claims.append({"property": c, "status": "not_applicable", "theorems": ts, "note": n["note"]})
        continue
    if not ts:
        print("no theorem yet:", c)
        continue
    part = any(t.endswith("_partial") for t in ts) or n.get("status") == "partial"
    claims.append({"property": c, "status": "partial" if part else "proved",
                   "theorems": ts, "note": n.get("note", "")})
json.dump({"claims": claims}, open(os.path.join(root, "MANIFEST.json"), "w"), indent=1)
print(len(claims), "claims,", sum(len(c["theorems"]) for c in claims), "theorems")
