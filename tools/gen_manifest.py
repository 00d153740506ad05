#!/usr/bin/env python3
"""Regenerates MANIFEST.json from the theorem names in rocq/theories/Prop*.v and tools/status.json.
status.json: {"C01": ["proved"|"partial"|"not_applicable", "note"], ...}"""
import glob, json, os, re
root = os.path.dirname(os.path.dirname(os.path.abspath(__file__)))
status = json.load(open(os.path.join(root, "tools/status.json")))
thms = {}
for f in sorted(glob.glob(os.path.join(root, "rocq/theories/Prop*.v"))):
    for m in re.finditer(r"^Theorem (C\d\d)(_\w+)", open(f).read(), re.M):
        thms.setdefault(m.group(1), []).append(m.group(1) + m.group(2))
claims = []
for cid, (st, note) in sorted(status.items()):
    claims.append({"property": cid, "status": st, "theorems": thms.get(cid, []), "note": note})
missing = sorted(set(thms) - set(status))
if missing: print("no status for", missing)
json.dump({"claims": claims}, open(os.path.join(root, "MANIFEST.json"), "w"), indent=1)
