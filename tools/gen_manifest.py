#!/usr/bin/env python3
"""Collect the theorems Cxx_* of rocq/theories/Prop*.v into MANIFEST.json."""
import glob, json, os, re
ROOT = os.path.dirname(os.path.dirname(os.path.abspath(__file__)))
NOTES = json.load(open(os.path.join(ROOT, 'tools', 'manifest_notes.json')))
thms = {}
for f in sorted(glob.glob(os.path.join(ROOT, 'rocq', 'theories', 'Prop*.v'))):
    for m in re.finditer(r'^(?:Theorem|Corollary)\s+((C\d\d)_\w+)', open(f).read(), re.M):
        thms.setdefault(m.group(2), []).append(m.group(1))
claims = []
for line in open(os.path.join(ROOT, 'properties.jsonl')):
    pid = json.loads(line)['id']
    note = NOTES.get(pid, {})
    names = thms.get(pid, [])
    status = note.get('status', 'proved' if names else 'partial')
    claims.append({'property': pid, 'status': status, 'theorems': names,
                   'note': note.get('note', '' if names else 'not proved yet')})
json.dump({'claims': claims}, open(os.path.join(ROOT, 'MANIFEST.json'), 'w'), indent=1)
print({s: sum(c['status'] == s for c in claims) for s in ('proved', 'partial', 'not_applicable')})
