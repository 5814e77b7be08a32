"""Writes MANIFEST.json from the theorem names found in rocq/theories/Prop*.v.

Status and notes per property are kept in the table below.
"""
import json, re, glob, os
root = os.path.dirname(os.path.dirname(os.path.abspath(__file__)))
status = {}
notes = {}
exec(open(os.path.join(root, "tools", "manifest_notes.py")).read())
theorems = {}
for f in sorted(glob.glob(os.path.join(root, "rocq/theories/Prop*.v"))):
    for m in re.finditer(r"^Theorem (C\d\d)(\w*)", open(f).read(), re.M):
        theorems.setdefault(m.group(1), []).append(m.group(1) + m.group(2))
props = [json.loads(l)["id"] for l in open(os.path.join(root, "properties.jsonl"))]
claims = []
for p in props:
    if p in theorems:
        claims.append({"property": p, "status": status.get(p, "proved"),
                       "theorems": theorems[p], "note": notes.get(p, "")})
json.dump({"claims": claims}, open(os.path.join(root, "MANIFEST.json"), "w"), indent=1)
print(len(claims), "claims;", sum(len(c["theorems"]) for c in claims), "theorems; missing:",
      [p for p in props if p not in theorems])
