#!/usr/bin/env python3
"""Regenerates MANIFEST.json from the theorem names C<nn>_* in rocq/theories/T_*.v and tools/notes.json."""
import re, glob, json, os
root = os.path.dirname(os.path.dirname(os.path.abspath(__file__)))
notes = json.load(open(os.path.join(root, "tools/notes.json")))
props = [json.loads(l) for l in open(os.path.join(root, "properties.jsonl")) if l.strip()]
thms = {}
for f in sorted(glob.glob(os.path.join(root, "rocq/theories/T_*.v"))):
    for m in re.finditer(r"^Theorem (C\d+)_(\w+)", open(f).read(), re.M):
        thms.setdefault(m.group(1), []).append(m.group(1) + "_" + m.group(2))
claims = []
for p in props:
    i = p["id"]
    n = notes.get(i, {})
    t = thms.get(i, [])
    if not t and n.get("status") != "not_applicable":
        continue
    status = n.get("status") or ("partial" if any("_partial" in x for x in t) else "proved")
    claims.append({"property": i, "status": status, "theorems": t, "note": n.get("note", "")})
json.dump({"claims": claims}, open(os.path.join(root, "MANIFEST.json"), "w"), indent=1, ensure_ascii=False)
print(len(claims), "claims;", "missing:", [p["id"] for p in props if p["id"] not in {c["property"] for c in claims}])
