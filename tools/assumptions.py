"""Write assumptions.txt: the output of Print Assumptions for every theorem of MANIFEST.json (needs a built tree)."""
import glob, json, os, re, subprocess, tempfile
here = os.path.dirname(os.path.abspath(__file__))
root = os.path.dirname(here)
own = {}
for f in sorted(glob.glob(os.path.join(root, 'rocq/theories/Props_*.v'))):
    for n in re.findall(r'^Theorem (\w+)', open(f).read(), re.M):
        own[n] = os.path.basename(f)[:-2]
out = 'From Verif Require %s.\n' % ' '.join(sorted(set(own.values())))
for c in json.load(open(os.path.join(root, 'MANIFEST.json')))['claims']:
    for t in c['theorems']:
        out += 'Goal True. idtac "@@ %s". Abort.\nPrint Assumptions %s.%s.\n' % (t, own[t], t)
with tempfile.TemporaryDirectory() as d:
    open(os.path.join(d, 'Assum.v'), 'w').write(out)
    r = subprocess.run(['coqc', '-Q', os.path.join(root, 'rocq/theories'), 'Verif', 'Assum.v'], cwd=d,
                       stdout=subprocess.PIPE, stderr=subprocess.STDOUT, text=True)
open(os.path.join(here, 'assumptions.txt'), 'w').write(r.stdout)
print('exit', r.returncode)
own_axioms = sorted(set(re.findall(r'^(?:Verif\.)?((?:%s)\.\w+)' % '|'.join(
    os.path.basename(f)[:-2] for f in glob.glob(os.path.join(root, 'rocq/theories/*.v'))), r.stdout, re.M)))
left = [(os.path.basename(f), x) for f in sorted(glob.glob(os.path.join(root, 'rocq/theories/*.v')))
        for x in re.findall(r'\b(?:Admitted|admit|Axiom|Conjecture)\b', open(f).read())]
if own_axioms or left or r.returncode:
    raise SystemExit('NOT PROVED: %s %s' % (own_axioms, left))
