"""Regenerate DESIGN.md: hand-written text (design_text.md) with the per-property table and the list of
assumptions filled in from MANIFEST.json, design_rows.json and assumptions.txt (see assumptions.py)."""
import json, os, re
here = os.path.dirname(os.path.abspath(__file__))
root = os.path.dirname(here)
claims = {c['property']: c for c in json.load(open(os.path.join(root, 'MANIFEST.json')))['claims']}
rows = json.load(open(os.path.join(here, 'design_rows.json')))
table = ['| | property | modelled by | proved by | status |', '|---|---|---|---|---|']
missing = []
for line in open(os.path.join(root, 'properties.jsonl')):
    d = json.loads(line)
    i = d['id']
    if i not in rows:
        missing.append(i)
        continue
    m, p = rows[i]
    st = claims[i]['status'] if i in claims else 'not stated yet'
    if i in claims and any(t.endswith('_refuted') for t in claims[i]['theorems']):
        st += ', refuted as stated'
    table.append('| %s | %s | %s | %s | %s |' % (i, d['title'], m, p, st))
ass = open(os.path.join(here, 'assumptions.txt')).read()
closed, axioms = [], []
for blk in ass.split('@@ ')[1:]:
    name, _, rest = blk.partition('\n')
    if 'Closed under the global context' in rest:
        closed.append(name.strip())
    else:
        axioms.append((name.strip(), re.findall(r'^(\S+)\s*(?::|$)', rest, re.M)))
alist = ['`Print Assumptions` says "Closed under the global context" (no axiom at all) for these %d theorems:' % len(closed), '',
         ', '.join('`%s`' % n for n in closed) + '.', '', 'It lists axioms for these %d:' % len(axioms), '']
for n, a in axioms:
    a = [x for x in a if x != 'Axioms:' and '.' in x]
    alist.append('* `%s`: %s' % (n, ', '.join('`%s`' % x for x in a)))
t = open(os.path.join(here, 'design_text.md')).read()
t = t.replace('@TABLE@', '\n'.join(table)).replace('@ASSUMPTIONS@', '\n'.join(alist))
open(os.path.join(root, 'DESIGN.md'), 'w').write(t)
print('rows missing:', missing, '; theorems listed:', len(closed) + len(axioms),
      'of', sum(len(c['theorems']) for c in claims.values()))
