"""Writes the generated part of DESIGN.md: python3 design_tables.py (needs a finished build in rocq/)."""
import json, re, subprocess, glob, os
root = '/verif'
claims = json.load(open(root + '/MANIFEST.json'))['claims']
titles = {}
for line in open(root + '/properties.jsonl'):
    if line.strip():
        o = json.loads(line)
        titles[o['id']] = o['title']
where = {}
for f in sorted(glob.glob(root + '/rocq/theories/*.v')):
    for m in re.finditer(r'^(?:Theorem|Lemma|Corollary)\s+(\S+)', open(f).read(), re.M):
        where.setdefault(m.group(1), os.path.basename(f)[:-2])
names = [t for c in claims for t in c['theorems']]
uniq = list(dict.fromkeys(names))
mods = sorted({where[t] for t in uniq})
src = ''.join('From Verif Require %s.\n' % m for m in mods)
src += ''.join('Print Assumptions %s.%s.\n' % (where[t], t) for t in uniq)
open('/tmp/Assum.v', 'w').write(src)
out = subprocess.run(['coqc', '-Q', root + '/rocq/theories', 'Verif', '/tmp/Assum.v'], capture_output=True, text=True)
assert out.returncode == 0, out.stderr
res = re.findall(r'Closed under the global context|Axioms:\n(?:.+\n)*', out.stdout)
assert len(res) == len(uniq), (len(res), len(uniq))
ass = dict(zip(uniq, res))
lines = ['| property | status | theorem | file | Print Assumptions |', '|---|---|---|---|---|']
for c in claims:
    for k, t in enumerate(c['theorems']):
        lines.append('| %s | %s | `%s` | %s.v | %s |' % (
            (c['property'] + ' ' + titles[c['property']]) if k == 0 else '', c['status'] if k == 0 else '', t, where[t],
            'closed' if ass[t].startswith('Closed') else ass[t].replace('\n', ' ')))
d = open(root + '/DESIGN.md').read()
mark = '<!-- generated by design_tables.py -->\n'
d = d[:d.index(mark) + len(mark)] + '\n' + '\n'.join(lines) + '\n'
open(root + '/DESIGN.md', 'w').write(d)
print(len(uniq), 'theorems,', sum(1 for t in uniq if ass[t].startswith('Closed')), 'closed')
