#!/usr/bin/env python3
"""Run Print Assumptions on every theorem of the manifest (needs a built rocq/) and rewrite the
"Assumptions" section of DESIGN.md."""
import json, os, re, subprocess, tempfile
R = os.path.join(os.path.dirname(os.path.abspath(__file__)), '..')
T = R + '/rocq/theories'
man = json.load(open(R + '/MANIFEST.json'))
names = []
for c in man['claims']:
    for t in c['theorems']:
        if t not in names: names.append(t)
where = {}
for f in sorted(os.listdir(T)):
    if f.endswith('.v'):
        for m in re.finditer(r"^\s*(?:Theorem|Lemma|Corollary)\s+([A-Za-z0-9_']+)", open(f'{T}/{f}').read(), re.M):
            where.setdefault(m.group(1), f[:-2])
mods = sorted(set(where[n] for n in names))
with tempfile.TemporaryDirectory() as d:
    src = 'From Verif Require %s.\n' % ' '.join(mods)
    for n in names:
        src += 'Goal True. idtac "@@%s". exact I. Qed.\nPrint Assumptions Verif.%s.%s.\n' % (n, where[n], n)
    open(d + '/a.v', 'w').write(src)
    out = subprocess.run(['coqc', '-Q', T, 'Verif', d + '/a.v'], capture_output=True, text=True)
    assert out.returncode == 0, out.stderr
groups = {}
for blk in out.stdout.split('@@')[1:]:
    n, rest = blk.split('\n', 1)
    ax = tuple(sorted(set(re.findall(r"^([A-Za-z0-9_.']+)\s*(?::|$)", rest, re.M)) - {'Axioms', 'Closed'}))
    if 'Closed under the global context' in rest: ax = ()
    groups.setdefault(ax, []).append(n)
s = '## Assumptions\n\nWritten by `tools/assumptions.py`, which runs `Print Assumptions` on every theorem of the manifest.\n\n'
for ax in sorted(groups, key=len):
    ths = ', '.join('`%s`' % t for t in groups[ax])
    if not ax: s += '- Closed under the global context (no axioms), %d theorems: %s.\n' % (len(groups[ax]), ths)
    else: s += '- %s (standard library), %d theorems: %s.\n' % (', '.join('`%s`' % a for a in ax), len(groups[ax]), ths)
p = R + '/DESIGN.md'
d = open(p).read()
i = d.index('## Assumptions')
j = d.find('\n## ', i + 5)
open(p, 'w').write(d[:i] + s + (d[j:] if j >= 0 else ''))
print({ax: len(v) for ax, v in groups.items()})
