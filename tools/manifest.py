#!/usr/bin/env python3
"""Regenerate MANIFEST.json: theorem names are collected from theories/Prop_*.v by
their Cnn_ prefix; STATUS holds the status and note of each property."""
import json, re, glob, os
root = os.path.dirname(os.path.dirname(os.path.abspath(__file__)))
props = [json.loads(l)["id"] for l in open(root + "/properties.jsonl")]
status = json.load(open(root + "/tools/status.json"))
thms = {}
for f in sorted(glob.glob(root + "/rocq/theories/Prop_*.v")):
    for m in re.finditer(r"^Theorem (C\d\d+)_(\w+)", open(f).read(), re.M):
        thms.setdefault(m.group(1), []).append(m.group(1) + "_" + m.group(2))
claims = []
for p in props:
    s = status.get(p, {})
    t = thms.get(p, []) + s.get("also", [])
    if not t and "status" not in s:
        continue
    claims.append({"property": p, "status": s.get("status", "partial" if not t or any(x.endswith("_partial") for x in t) else "proved"),
                   "theorems": t, "note": s.get("note", "")})
json.dump({"claims": claims}, open(root + "/MANIFEST.json", "w"), indent=1)
print(len(claims), "claims", sum(len(c["theorems"]) for c in claims), "theorems; missing:",
      [p for p in props if p not in [c["property"] for c in claims]])
