#!/usr/bin/env python3
"""Writes MANIFEST.json from the theorem names in rocq/theories/Properties_*.v and the notes below."""
import glob, json, os, re
root = os.path.dirname(os.path.dirname(os.path.abspath(__file__)))
thms = {}
for f in sorted(glob.glob(root + '/rocq/theories/Properties_*.v')):
    for n in re.findall(r'^Theorem (C\d\d_\w+)', open(f).read(), re.M):
        thms.setdefault(n[:3], []).append(n)
notes = json.load(open(root + '/tools/notes.json'))
claims = []
for l in open(root + '/properties.jsonl'):
    pid = json.loads(l)['id']
    st, note = notes.get(pid, ["proved", ""])
    if pid not in thms:
        st, note = "partial", "No theorem yet. " + note
    claims.append({"property": pid, "status": st, "theorems": thms.get(pid, []), "note": note})
json.dump({"claims": claims}, open(root + '/MANIFEST.json', 'w'), indent=1)
for c in claims: print(c['property'], c['status'], len(c['theorems']))
