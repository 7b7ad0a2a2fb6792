#!/usr/bin/env python3
"""Write MANIFEST.json from the theorems of the Prop*.v files, properties.jsonl
and tools/status.json ({id: {"status": .., "note": ..}}; default "proved")."""
import glob, json, os, re
root = os.path.dirname(os.path.dirname(os.path.abspath(__file__)))
ids = [json.loads(l)['id'] for l in open(os.path.join(root, 'properties.jsonl'))]
thms = {}
for f in sorted(glob.glob(os.path.join(root, 'rocq/theories/Prop*.v'))):
    for m in re.finditer(r'^Theorem ((C\d+)\w*)', open(f).read(), re.M):
        thms.setdefault(m.group(2), []).append(m.group(1))
st = json.load(open(os.path.join(root, 'tools/status.json')))
claims = []
for i in ids:
    if i not in thms: continue
    s = st.get(i, {})
    claims.append({'property': i, 'status': s.get('status', 'proved'), 'theorems': thms[i], 'note': s.get('note', '')})
json.dump({'claims': claims}, open(os.path.join(root, 'MANIFEST.json'), 'w'), indent=1)
print(len(claims), 'claims', sum(len(c['theorems']) for c in claims), 'theorems; missing', [i for i in ids if i not in thms])
