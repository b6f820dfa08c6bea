#!/usr/bin/env python3
"""Write MANIFEST.json from the theorem names in rocq/theories/Prop*.v.

A theorem Cnn_... belongs to property Cnn.  A property is "partial" when one of
its theorems ends in _partial or _refuted, "proved" otherwise.  Notes are read
from tools/notes.json."""
import glob, json, os, re
root = os.path.dirname(os.path.dirname(os.path.abspath(__file__)))
props = [json.loads(l) for l in open(f"{root}/properties.jsonl") if l.strip()]
notes = json.load(open(f"{root}/tools/notes.json"))
thms = {}
for f in sorted(glob.glob(f"{root}/rocq/theories/Prop*.v")):
    for m in re.finditer(r"^Theorem ((C\d+)_\w+)", open(f).read(), re.M):
        thms.setdefault(m.group(2), []).append(m.group(1))
claims = []
for p in props:
    i = p["id"]
    t = thms.get(i, [])
    if not t and i not in notes:
        print("no theorem for", i)
        continue
    if not t:
        status = "not_applicable"
    elif any(x.endswith(("_partial", "_refuted")) for x in t):
        status = "partial"
    else:
        status = "proved"
    claims.append({"property": i, "status": status, "theorems": t, "note": notes.get(i, "")})
for i in thms:
    if i not in [p["id"] for p in props]:
        print("unknown property", i)
with open(f"{root}/MANIFEST.json", "w") as f:
    f.write('{"claims": [\n' + ",\n".join(json.dumps(c) for c in claims) + "\n]}\n")
print(len(claims), "claims", sum(len(c["theorems"]) for c in claims), "theorems")
