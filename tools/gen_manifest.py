#!/usr/bin/env python3
"""Regenerate MANIFEST.json from tools/claims.json and the theorem names found in the
Properties*.v files (a theorem named Cnn_... belongs to property Cnn)."""
import glob, json, os, re
root = os.path.dirname(os.path.dirname(os.path.abspath(__file__)))
thms = {}
for f in sorted(glob.glob(root + "/rocq/theories/Properties*.v")):
    for m in re.finditer(r"^Theorem ((C\d+)_\w*)", open(f).read(), re.M):
        thms.setdefault(m.group(2), []).append(m.group(1))
notes = json.load(open(root + "/tools/claims.json"))
claims = []
for line in open(root + "/properties.jsonl"):
    pid = json.loads(line)["id"]
    if pid not in thms:
        continue
    n = notes.get(pid, {})
    claims.append({"property": pid, "status": n.get("status", "proved"),
                   "theorems": thms[pid], "note": n.get("note", "")})
json.dump({"claims": claims}, open(root + "/MANIFEST.json", "w"), indent=1)
print(len(claims), "claims,", sum(len(c["theorems"]) for c in claims), "theorems")
