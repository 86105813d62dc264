#!/usr/bin/env python3
"""Writes MANIFEST.json. Theorem names are collected from rocq/theories/Props*.v
by their property prefix; status and note come from the tables below."""
import json, re, glob, os
here = os.path.dirname(os.path.abspath(__file__))
root = os.path.dirname(here)
props = [json.loads(l)["id"] for l in open(os.path.join(root, "properties.jsonl")) if l.strip()]
thms = {}
for f in sorted(glob.glob(os.path.join(root, "rocq/theories/Props*.v"))):
    for m in re.finditer(r"^\s*Theorem\s+((C\d\d)_\w+)", open(f).read(), re.M):
        thms.setdefault(m.group(2), []).append(m.group(1))
notes = {}
exec(open(os.path.join(here, "notes.py")).read(), {"notes": notes})
claims = []
for p in props:
    ts = thms.get(p, [])
    if not ts:
        continue
    part = any(t.endswith("_partial") or t.endswith("_refuted") for t in ts)
    st, note = notes.get(p, (None, ""))
    claims.append({"property": p, "status": st or ("partial" if part else "proved"), "theorems": ts, "note": note})
json.dump({"claims": claims}, open(os.path.join(root, "MANIFEST.json"), "w"), indent=1)
print(len(claims), "claims;", "missing:", [p for p in props if p not in thms])
