#!/usr/bin/env python3
"""Write MANIFEST.json: the theorems CNN_* of rocq/theories/Prop_*.v per property,
with the status and note given here."""
import glob, json, os, re

root = os.path.join(os.path.dirname(os.path.abspath(__file__)), "..")
found = {}
for path in sorted(glob.glob(os.path.join(root, "rocq", "theories", "Prop_*.v"))):
    for m in re.finditer(r"^\s*Theorem ((C\d+)_\w+)", open(path).read(), re.M):
        found.setdefault(m.group(2), []).append(m.group(1))

notes = {}
for line in open(os.path.join(root, "tools", "notes.txt")):
    line = line.strip()
    if line and not line.startswith("#"):
        pid, status, note = line.split("|", 2)
        notes[pid] = (status, note)

claims = []
for line in open(os.path.join(root, "properties.jsonl")):
    pid = json.loads(line)["id"]
    status, note = notes.get(pid, ("proved", ""))
    thms = found.get(pid, [])
    if not thms:
        continue
    claims.append({"property": pid, "status": status, "theorems": thms, "note": note})
json.dump({"claims": claims}, open(os.path.join(root, "MANIFEST.json"), "w"), indent=1)
print(len(claims), "claims;", sum(len(c["theorems"]) for c in claims), "theorems")
