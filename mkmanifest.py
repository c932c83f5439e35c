#!/usr/bin/env python3
"""Writes MANIFEST.json from the theorem names in rocq/theories (prefix Cnn_)
and the status table below.  Run from /verif."""
import glob, json, re
STATUS = {}
for line in open('manifest_status.txt'):
    line = line.rstrip('\n')
    if not line or line.startswith('#'):
        continue
    pid, st, note = line.split('|', 2)
    STATUS[pid.strip()] = (st.strip(), note.strip())
thms = {}
for f in sorted(glob.glob('rocq/theories/*.v')):
    for m in re.finditer(r'^(?:Theorem|Lemma|Corollary)\s+((C\d\d)_\w+)', open(f).read(), re.M):
        thms.setdefault(m.group(2), []).append(m.group(1))
claims = []
for line in open('properties.jsonl'):
    pid = json.loads(line)['id']
    st, note = STATUS.get(pid, ('partial', 'no theorem yet'))
    claims.append({'property': pid, 'status': st, 'theorems': thms.get(pid, []), 'note': note})
json.dump({'claims': claims}, open('MANIFEST.json', 'w'), indent=1)
