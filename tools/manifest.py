#!/usr/bin/env python3
"""Writes /verif/MANIFEST.json: every Theorem named Cnn_... in rocq/theories/P_*.v, with notes from
tools/notes.json ({"Cnn": {"status": ..., "note": ...}})."""
import glob, json, os, re
root = os.path.join(os.path.dirname(os.path.abspath(__file__)), "..")
ids = [json.loads(l)["id"] for l in open(os.path.join(root, "properties.jsonl"))]
notes = json.load(open(os.path.join(root, "tools", "notes.json")))
thms = {}
for f in sorted(glob.glob(os.path.join(root, "rocq", "theories", "P_*.v"))):
    for m in re.finditer(r"^\s*Theorem\s+((C\d\d+)_\w+)", open(f).read(), re.M):
        thms.setdefault(m.group(2), []).append(m.group(1))
claims = []
for i in ids:
    t = thms.get(i, [])
    n = notes.get(i, {})
    if not t and "status" not in n:
        continue
    st = n.get("status", "proved")
    if any(x.endswith("_partial") for x in t):
        st = "partial"
    claims.append(dict(property=i, status=st, theorems=t, note=n.get("note", "")))
json.dump(dict(claims=claims), open(os.path.join(root, "MANIFEST.json"), "w"), indent=1)
print(len(claims), "claims", sum(len(c["theorems"]) for c in claims), "theorems", [i for i in ids if i not in [c["property"] for c in claims]])
