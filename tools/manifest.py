#!/usr/bin/env python3
"""Regenerate MANIFEST.json from the theorem names in rocq/theories/Prop*.v and tools/notes.json."""
import glob, json, os, re
root = os.path.dirname(os.path.dirname(os.path.abspath(__file__)))
ids = [json.loads(l)["id"] for l in open(f"{root}/properties.jsonl") if l.strip()]
notes = json.load(open(f"{root}/tools/notes.json"))
thms = {i: [] for i in ids}
for f in sorted(glob.glob(f"{root}/rocq/theories/Prop*.v")):
    if os.path.basename(f) == "Props.v":
        continue
    for m in re.finditer(r"^Theorem (C\d\d)(_\w+)", open(f).read(), re.M):
        thms[m.group(1)].append(m.group(1) + m.group(2))
claims = []
for i in ids:
    n = notes.get(i, {})
    status = n.get("status", "proved" if thms[i] else "partial")
    claims.append({"property": i, "status": status, "theorems": thms[i], "note": n.get("note", "")})
json.dump({"claims": claims}, open(f"{root}/MANIFEST.json", "w"), indent=1)
for c in claims:
    print(c["property"], c["status"], len(c["theorems"]))
