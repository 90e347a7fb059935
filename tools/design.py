#!/usr/bin/env python3
"""Assemble DESIGN.md from tools/design_parts/*.md and from what Print Assumptions
says about every theorem in MANIFEST.json (run after building rocq/)."""
import glob, json, os, re, subprocess, tempfile

root = os.path.dirname(os.path.dirname(os.path.abspath(__file__)))
rocq = os.path.join(root, 'rocq')
manifest = json.load(open(os.path.join(root, 'MANIFEST.json')))

# which file defines which theorem
where = {}
for line in open(os.path.join(rocq, '_CoqProject')):
    line = line.strip()
    if line.startswith('theories/'):
        name = os.path.basename(line)[:-2]
        text = open(os.path.join(rocq, line)).read()
        for m in re.finditer(r'^\s*(?:Theorem|Lemma|Corollary)\s+([\w\']+)', text, re.M):
            if m.group(1).startswith('C') or name.startswith('Prop'):
                where.setdefault(m.group(1), name)

thms = []
for c in manifest['claims']:
    for t in c['theorems']:
        thms.append((c['property'], t, where[t]))

body = []
for mod in sorted({m for _, _, m in thms}):
    body.append('From Verif Require %s.' % mod)
for i, (_, t, m) in enumerate(thms):
    body.append('Definition mark%d := tt. Print mark%d.' % (i, i))
    body.append('Print Assumptions Verif.%s.%s.' % (m, t))
with tempfile.TemporaryDirectory() as d:
    f = os.path.join(d, 'assum.v')
    open(f, 'w').write('\n'.join(body) + '\n')
    out = subprocess.run(['coqc', '-Q', os.path.join(rocq, 'theories'), 'Verif', f],
                         capture_output=True, text=True)
assert out.returncode == 0, out.stderr
chunks = re.split(r'^mark(\d+) = tt\n\s*: unit\n', out.stdout, flags=re.M)
axioms = {}
for i in range(1, len(chunks), 2):
    txt = chunks[i + 1]
    if 'Closed under the global context' in txt:
        ax = ()
    else:
        ax = tuple(sorted(re.findall(r'^([A-Za-z_][\w.\']*)\s*(?::|$)', txt.replace('Axioms:', ''), re.M)))
    axioms[int(chunks[i])] = ax
assert len(axioms) == len(thms)

groups = {}
for i, (p, t, m) in enumerate(thms):
    groups.setdefault(axioms[i], []).append((p, t, m))

gen = []
for ax in sorted(groups, key=len):
    gen.append('### ' + ('Closed under the global context (no axioms)' if not ax else
                         'Axioms: ' + ', '.join('`%s`' % a for a in ax)) + '\n')
    byp = {}
    for p, t, m in groups[ax]:
        byp.setdefault(p, []).append('`%s`' % t)
    for p in sorted(byp):
        gen.append('* %s: %s' % (p, ', '.join(byp[p])))
    gen.append('')

parts = {os.path.basename(p)[:-3]: open(p).read() for p in glob.glob(os.path.join(root, 'tools/design_parts/*.md'))}
text = ''
for name in sorted(parts):
    text += parts[name].rstrip('\n') + '\n\n'
    if name.startswith('4'):
        text += '\n'.join(gen) + '\n'
open(os.path.join(root, 'DESIGN.md'), 'w').write(text.rstrip('\n') + '\n')
print(len(thms), 'theorems', {len(k): len(v) for k, v in groups.items()})
