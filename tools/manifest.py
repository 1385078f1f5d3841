"""Regenerate MANIFEST.json from the theorem names in rocq/theories/Props_*.v and notes.json."""
import glob, json, os, re
root = os.path.dirname(os.path.dirname(os.path.abspath(__file__)))
notes = {}
npath = os.path.join(root, 'tools', 'notes.json')
if os.path.exists(npath):
    notes = json.load(open(npath))
thms = {}
for f in sorted(glob.glob(os.path.join(root, 'rocq/theories/Props_*.v'))):
    for m in re.finditer(r'^(?:Theorem|Corollary)\s+((C\d+)_\w+)', open(f).read(), re.M):
        thms.setdefault(m.group(2), []).append(m.group(1))
claims = []
for line in open(os.path.join(root, 'properties.jsonl')):
    if not line.strip():
        continue
    pid = json.loads(line)['id']
    ts = thms.get(pid, [])
    n = notes.get(pid, {})
    if not ts:
        if n.get('status') == 'not_applicable':
            claims.append({'property': pid, 'status': 'not_applicable', 'theorems': [], 'note': n.get('note', '')})
        continue
    status = n.get('status') or ('partial' if any(t.endswith(('_partial', '_refuted')) for t in ts) else 'proved')
    claims.append({'property': pid, 'status': status, 'theorems': ts, 'note': n.get('note', '')})
json.dump({'claims': claims}, open(os.path.join(root, 'MANIFEST.json'), 'w'), indent=1)
print(len(claims), 'claims;', [c['property'] for c in claims if not c['note']], 'without note')
