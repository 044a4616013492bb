#!/usr/bin/env python3
"""Assemble DESIGN.md; runs Print Assumptions on every theorem of MANIFEST.json."""
import json, os, subprocess, sys, tempfile
V = os.path.dirname(os.path.dirname(os.path.abspath(__file__)))
T = os.path.join(V, 'rocq', 'theories')
man = json.load(open(os.path.join(V, 'MANIFEST.json')))['claims']
props = [json.loads(l) for l in open(os.path.join(V, 'properties.jsonl'))]
mods = sorted(f[:-2] for f in os.listdir(T) if f.startswith('Prop') and f.endswith('.v'))
where = {}
for m in mods:
    for line in open(os.path.join(T, m + '.v')):
        if line.startswith('Theorem '):
            where[line.split()[1].rstrip(':')] = m
ths = [t for c in man for t in c['theorems']]
ass = {}
with tempfile.TemporaryDirectory() as d:
    p = os.path.join(d, 'A.v')
    with open(p, 'w') as f:
        for m in mods:
            f.write('From Verif Require %s.\n' % m)
        for t in ths:
            f.write('Print Assumptions %s.%s.\n' % (where[t], t))
    out = subprocess.run(['coqc', '-Q', T, 'Verif', p], capture_output=True, text=True)
    if out.returncode:
        sys.exit(out.stderr)
    lines = out.stdout.strip().split('\n')
    assert len(lines) == len(ths) and set(lines) == {'Closed under the global context'}, set(lines)
head = open(os.path.join(V, 'tools', 'design_head.md')).read()
extra = {}
ep = os.path.join(V, 'tools', 'design_extra.json')
if os.path.exists(ep):
    extra = json.load(open(ep))
for k in ['PLAN_EXTRA', 'TB_EXTRA', 'SCALAR_EXTRA', 'X86_EXTRA', 'NOT_EXTRA']:
    head = head.replace('@%s@\n' % k if not extra.get(k) else '@%s@' % k, extra.get(k, ''))
    head = head.replace('@%s@' % k, extra.get(k, ''))
head = head.replace('@FINDINGS@\n', open(os.path.join(V, 'tools', 'findings.md')).read())
o = [head.rstrip('\n'), '', '## 6. Properties and theorems', '',
     'For each theorem listed here `Print Assumptions` answers "Closed under the global context" '
     '(%d theorems, checked when this file was generated).' % len(ths), '']
by = {c['property']: c for c in man}
for p in props:
    c = by.get(p['id'])
    o.append('### %s %s (%s)' % (p['id'], p['title'], c['status'] if c else 'open'))
    o.append('')
    o.append(p['statement'])
    o.append('')
    if c:
        files = sorted({where[t] for t in c['theorems']})
        o.append('Theorems (%s): %s.' % (', '.join('`%s.v`' % f for f in files),
                                       ', '.join('`%s`' % t for t in c['theorems'])))
        if c.get('note'):
            o.append('Note: ' + c['note'])
    o.append('')
open(os.path.join(V, 'DESIGN.md'), 'w').write('\n'.join(o))
print(len(ths), 'theorems')
