#!/usr/bin/env python3
"""Write MANIFEST.json: for each property the theorems C<nn>_* of the Props files.

Status and note come from NOTES; a property without theorems is listed as partial."""
import json, glob, re, os

ROOT = os.path.join(os.path.dirname(os.path.abspath(__file__)), "..")
NOTES = json.load(open(os.path.join(ROOT, "tools", "notes.json")))

theorems = {}
for path in sorted(glob.glob(os.path.join(ROOT, "rocq", "theories", "Props*.v"))):
    for name in re.findall(r"^Theorem (C\d+_\w+)", open(path).read(), re.M):
        theorems.setdefault(name.split("_")[0], []).append(name)

claims = []
for line in open(os.path.join(ROOT, "properties.jsonl")):
    pid = json.loads(line)["id"]
    ths = theorems.pop(pid, [])
    note = NOTES.get(pid, {})
    status = note.get("status", "proved") if ths else "partial"
    claims.append({"property": pid, "status": status, "theorems": ths,
                   "note": note.get("note", "") if ths else "no theorem yet"})
assert not theorems, theorems
json.dump({"claims": claims}, open(os.path.join(ROOT, "MANIFEST.json"), "w"), indent=1)
