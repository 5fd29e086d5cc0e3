#!/usr/bin/env python3
"""Append the findings and the property table to DESIGN.md, from Prop*.v, properties.jsonl and MANIFEST.json."""
import json, os, re
root = os.path.join(os.path.dirname(os.path.abspath(__file__)), "..")
path = os.path.join(root, "DESIGN.md")
s = open(path).read()
s = s[:s.index("Each is proved by a witness in the theorem named.")] + "Each is proved by a witness in the theorem named.\n\n"
d = os.path.join(root, "rocq", "theories")
for f in sorted(os.listdir(d)):
    if not (f.startswith("Prop") and f.endswith(".v")): continue
    for m in re.finditer(r"(?:\(\*\*((?:(?!\*\)).)*)\*\)\n)?Theorem (\w+)\b", open(os.path.join(d, f)).read(), re.S):
        doc = m.group(1) or ""
        if m.group(2).endswith("_refuted") or "finding:" in doc: s += "* `%s`: %s\n" % (m.group(2), " ".join(doc.split()))
s += "\n## 6. Properties\n\n| id | title | status | theorems |\n|---|---|---|---|\n"
claims = {c["property"]: c for c in json.load(open(os.path.join(root, "MANIFEST.json")))["claims"]}
for l in open(os.path.join(root, "properties.jsonl")):
    p = json.loads(l); c = claims.get(p["id"])
    s += "| %s | %s | %s | %s |\n" % (p["id"], p["title"], c["status"] if c else "open", ", ".join("`%s`" % t for t in c["theorems"]) if c else "")
open(path, "w").write(s)
