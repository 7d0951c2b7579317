#!/usr/bin/env python3
"""Writes seeded/LOG.jsonl from tools/mutants/results*.jsonl (output of tools/mut.py) and tools/mutants/tightened.json."""
import json, re, glob, os
root = os.path.dirname(os.path.dirname(os.path.abspath(__file__)))
tight = json.load(open(root + "/tools/mutants/tightened.json"))
rows = []
for f in sorted(glob.glob(root + "/tools/mutants/results*.jsonl")):
    rnd = re.search(r"results(\w*)\.jsonl", f).group(1)
    for line in open(f):
        r = json.loads(line)
        m = r["m"]
        if r.get("error"):
            continue
        t = tight.get(r["mid"] + "@" + rnd, {})
        rows.append({
            "id": r["mid"], "round": rnd or "1",
            "definition": m["definition"],
            "edit": {"what": m["desc"], "changes": [{"file": "rocq/theories/" + e[0], "old": e[1], "new": e[2]} for e in m["edits"]]},
            "claim_broken": t.get("claim") or m["breaks"] or sorted({c for n in r.get("failed", []) for c in re.findall(r"\bC\d{2,3}", n.replace("_", " "))}),
            "proofs_failed": r.get("lemmas", []) + ["file " + h for h in r.get("hard", [])],
            "theorems_failed": sorted(set(r.get("failed", []))),
            "theorems_tightened": t.get("tightened", []),
            **({"note": t["note"]} if "note" in t else {})})
with open(root + "/seeded/LOG.jsonl", "w") as o:
    for x in rows:
        o.write(json.dumps(x) + "\n")
miss = [(x["id"], x["round"]) for x in rows if not x["theorems_failed"]]
print(len(rows), "rows; nothing failed for:", miss)
