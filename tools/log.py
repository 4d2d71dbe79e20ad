#!/usr/bin/env python3
"""Writes seeded/LOG.jsonl.  usage: log.py MUTANTS.json RESULTS.jsonl...
One line per wrong program tried: the definition edited, the edit, the claim it should break,
the theorems that failed, and the theorems written or tightened because of it.  A later result
for the same program replaces an earlier one, except that a program which survived once keeps
a line saying so.  Lines already in the log for programs without a result are kept."""
import json, os, re, sys
root = os.path.dirname(os.path.dirname(os.path.abspath(__file__)))
DEF = re.compile(r"^\s*(?:Definition|Fixpoint|with|Inductive|CoFixpoint|Record)\s+([\w']+)", re.M)
log = f"{root}/seeded/LOG.jsonl"
muts = {m["name"]: m for m in json.load(open(sys.argv[1]))}
tight = json.load(open(f"{root}/tools/tightened.json"))
def where(f, old):
    s = open(f"{root}/rocq/theories/{f}").read()
    k = s.find(old)
    if k < 0:
        return None
    inside = DEF.search(old)
    before = [m for m in DEF.finditer(s) if m.start() <= k]
    return inside.group(1) if inside else before[-1].group(1) if before else None
lines = {}
if os.path.exists(log):
    for l in open(log):
        if l.strip():
            r = json.loads(l)
            lines[(r["name"], bool(r["failed"]))] = r
for f in sys.argv[2:]:
    if not os.path.exists(f):
        continue
    for l in open(f):
        r = json.loads(l)
        m = muts.get(r["name"])
        if not m or "failed" not in r:
            continue
        ed = m["edits"]
        lines[(r["name"], bool(r["failed"]))] = {
            "name": r["name"],
            "definition": ", ".join(dict.fromkeys(f"{e[0]}:{where(e[0], e[1])}" for e in ed)),
            "edit": [{"file": e[0], "old": e[1], "new": e[2]} for e in ed],
            "what": m["what"], "claim": m["claim"],
            "failed": r["failed"], "broken_lemmas": len(r["broken"]),
            "tightened": tight.get(r["name"], [])}
with open(log, "w") as o:
    for n in muts:
        for k in (False, True):
            if (n, k) in lines:
                o.write(json.dumps(lines[n, k]) + "\n")
    for (n, k), r in lines.items():
        if n not in muts:
            o.write(json.dumps(r) + "\n")
print(len(lines), "lines")
for (n, k), r in lines.items():
    if k and not any(t.startswith(r["claim"] + "_") for t in r["failed"]):
        print("claim not among failed:", n, r["claim"])
    if not k and (n, True) not in lines:
        print("survives:", n)
