#!/usr/bin/env python3
"""Regenerate MANIFEST.json from the theorem names in rocq/theories/Properties."""
import glob, json, os, re
root = os.path.dirname(os.path.dirname(os.path.abspath(__file__)))
props = [json.loads(l) for l in open(os.path.join(root, "properties.jsonl"))]
ths = {}
for f in sorted(glob.glob(os.path.join(root, "rocq/theories/Properties/*.v"))):
    for n in re.findall(r"^Theorem (C\d\d+_\w+)", open(f).read(), re.M):
        ths.setdefault(n.split("_")[0], []).append((n, os.path.relpath(f, root)))
notes = {}
np = os.path.join(root, "tools/notes.json")
if os.path.exists(np):
    notes = json.load(open(np))
claims = []
for p in props:
    t = ths.get(p["id"], [])
    if not t:
        continue
    status = "partial" if any(n.endswith("_partial") for n, _ in t) else "proved"
    note = "in " + ", ".join(sorted({f for _, f in t})) + "."
    if "[refuted]" in p["title"]:
        note += " The code violates the expectation; the theorem proves the violation (witness and mechanism)."
    if p["id"] in notes:
        note += " " + notes[p["id"]]
    claims.append({"property": p["id"], "status": status, "theorems": [n for n, _ in t], "note": note})
json.dump({"claims": claims}, open(os.path.join(root, "MANIFEST.json"), "w"), indent=1)
print(len(claims), "claims;", "missing:", [p["id"] for p in props if p["id"] not in ths])
