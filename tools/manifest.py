#!/usr/bin/env python3
"""Write MANIFEST.json from the theorem names in rocq/theories/P_*.v.

A property is "proved" when it has theorems and none of them carries the suffix
_partial or _refuted; otherwise it is "partial".  NOTES adds a remark."""
import glob, json, os, re
here = os.path.dirname(os.path.abspath(__file__))
root = os.path.dirname(here)
notes = json.load(open(os.path.join(here, "notes.json")))
thms = {}
for f in sorted(glob.glob(os.path.join(root, "rocq/theories/P_*.v"))):
    for m in re.finditer(r"^Theorem (C\d\d)(\w*)", open(f).read(), re.M):
        thms.setdefault(m.group(1), []).append(m.group(1) + m.group(2))
claims = []
for line in open(os.path.join(root, "properties.jsonl")):
    p = json.loads(line)["id"]
    names = thms.get(p, [])
    if not names:
        status, note = "partial", "not proved yet"
    else:
        weak = any(n.endswith(("_partial", "_refuted")) for n in names)
        status, note = ("partial" if weak else "proved"), notes.get(p, "")
    claims.append({"property": p, "status": status, "theorems": names, "note": note})
json.dump({"claims": claims}, open(os.path.join(root, "MANIFEST.json"), "w"), indent=1)
print(sum(c["status"] == "proved" for c in claims), "proved of", len(claims))
