#!/usr/bin/env python3
"""Regenerate MANIFEST.json from the theorem names in rocq/theories/Props_*.v and notes.json."""
import json, re, glob, os
root = os.path.dirname(os.path.dirname(os.path.abspath(__file__)))
notes = json.load(open(os.path.join(root, "tools", "notes.json")))
th = {}
for f in sorted(glob.glob(os.path.join(root, "rocq/theories/Props_*.v"))):
    for n in re.findall(r"^(?:Theorem|Corollary) (C(\d+)_\w+)", open(f).read(), flags=re.M):
        th.setdefault("C" + n[1], []).append(n[0])
props = [json.loads(l)["id"] for l in open(os.path.join(root, "properties.jsonl"))]
claims = []
for p in props:
    nt = notes.get(p, {})
    if p not in th:
        if "status" in nt:
            claims.append({"property": p, "status": nt["status"], "theorems": [], "note": nt.get("note", "")})
        else:
            print("no theorem for", p)
        continue
    st = nt.get("status") or ("partial" if any(t.endswith("_partial") for t in th[p]) else "proved")
    claims.append({"property": p, "status": st, "theorems": th[p], "note": nt.get("note", "")})
json.dump({"claims": claims}, open(os.path.join(root, "MANIFEST.json"), "w"), indent=1)
