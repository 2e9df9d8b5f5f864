#!/usr/bin/env python3
"""Regenerates /verif/MANIFEST.json from the theorem names in rocq/theories/Props_*.v.

A theorem named Cnn_... belongs to property Cnn.  Status is "proved" unless a
theorem of the property ends in _partial or tools/status.json overrides it;
notes come from tools/status.json."""
import glob, json, re
byprop = {}
for fn in sorted(glob.glob("/verif/rocq/theories/Props_*.v")):
    for m in re.finditer(r"^(?:Theorem|Corollary) ((C\d+)_\w+)", open(fn).read(), re.M):
        byprop.setdefault(m.group(2), []).append(m.group(1))
ids = [json.loads(l)["id"] for l in open("/verif/properties.jsonl")]
over = json.load(open("/verif/tools/status.json"))
claims = []
for i in ids:
    o = over.get(i, {})
    th = byprop.get(i, [])
    if not th and not o:
        continue
    st = o.get("status") or ("partial" if any(t.endswith("_partial") for t in th) else "proved")
    claims.append({"property": i, "status": st, "theorems": th, "note": o.get("note", "")})
for i in byprop:
    assert i in ids, i
json.dump({"claims": claims}, open("/verif/MANIFEST.json", "w"), indent=1)
print(len(claims), "claims,", sum(len(c["theorems"]) for c in claims), "theorems; missing:", [i for i in ids if i not in [c["property"] for c in claims]])
