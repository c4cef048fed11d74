#!/usr/bin/env python3
"""Writes MANIFEST.json: for each property, its status and theorems.
Theorem names are collected from the *Props.v files by their C<nn>_ prefix;
status and notes are given in NOTES below (default: proved)."""
import json, os, re, glob
root = os.path.join(os.path.dirname(os.path.abspath(__file__)), '..')
NOTES = json.load(open(os.path.join(root, 'tools', 'notes.json')))
thms = {}
for f in sorted(glob.glob(os.path.join(root, 'rocq', 'theories', '*Props.v'))):
    for m in re.finditer(r'^Theorem\s+(C\d\d)(\w*)', open(f).read(), re.M):
        thms.setdefault(m.group(1), []).append(m.group(1) + m.group(2))
claims = []
for line in open(os.path.join(root, 'properties.jsonl')):
    pid = json.loads(line)['id']
    note = NOTES.get(pid, {})
    names = thms.get(pid, [])
    if not names and not note:
        continue
    claims.append({"property": pid, "status": note.get("status", "proved"),
                   "theorems": names, "note": note.get("note", "")})
with open(os.path.join(root, 'MANIFEST.json'), 'w') as out:
    out.write(json.dumps({"claims": claims}, indent=1) + "\n")
print(len(claims), "claims")
