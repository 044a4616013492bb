"""Run one mutation of the model in a scratch copy and report which Prop theorems
no longer go through.

A mutation is (file, old text, new text).  The files depending on the edited one
are recompiled in order; a proof that fails (or exceeds the time limit) is replaced
by Admitted, so that the theorems that do not depend on it are still checked.  At
the end a theorem has survived iff Print Assumptions lists nothing.

usage: mutate.py BASE WORK MUTATIONS.json OUT.jsonl
"""
import sys, os, re, json, subprocess, shutil

TMO = int(os.environ.get('MUT_TIMEOUT', '150'))

def order(base):
    return [l.strip()[len('theories/'):-2] for l in open(base + '/_CoqProject') if l.startswith('theories/')]

def deps(base, mods):
    d = {}
    for m in mods:
        src = open(f'{base}/theories/{m}.v').read()
        r = set()
        for g in re.findall(r'From Verif Require (?:Import |Export )?([^.]*)\.', src):
            r |= set(g.split())
        r |= set(re.findall(r'\bVerif\.([A-Za-z0-9_]+)', src))
        d[m] = r & set(mods)
    return d

def dependents(mods, d, root):
    bad = {root}
    for m in mods:
        if d[m] & bad:
            bad.add(m)
    return [m for m in mods if m in bad]

def run(work, m):
    try:
        p = subprocess.run(['coqc', '-time', '-Q', '.', 'Verif', m + '.v'], cwd=work + '/theories',
                           stdout=subprocess.PIPE, stderr=subprocess.PIPE, timeout=TMO)
        out, err, rc = p.stdout, p.stderr, p.returncode
    except subprocess.TimeoutExpired as e:
        out, err, rc = e.stdout or b'', b'timeout', 124
    return rc, out.decode('utf8', 'replace'), err.decode('utf8', 'replace')

STMT = re.compile(rb'(?m)^(?:Local |Global )?(Lemma|Theorem|Example|Corollary|Fact|Remark|Instance)\s+([A-Za-z0-9_\']+)')

def admit_at(path, pos):
    """Replace the proof enclosing byte offset [pos] by Admitted; return its name."""
    b = open(path, 'rb').read()
    last = None
    for mm in STMT.finditer(b):
        if mm.start() <= pos:
            last = mm
        else:
            break
    if last is None:
        return None
    # end of the proof
    e = re.compile(rb'\b(Qed|Defined|Admitted)\.').search(b, last.end())
    p = re.compile(rb'(?<![A-Za-z])Proof( using [^.]*)?\.').search(b, last.end())
    if e is None or p is None or p.start() > e.start() or e.end() < pos - 1:
        return None
    nb = b[:p.start()] + b'Admitted.' + b[e.end():]
    open(path, 'wb').write(nb)
    return last.group(2).decode()

def one(base, work, mut):
    mods = order(base)
    d = deps(base, mods)
    if os.path.exists(work):
        shutil.rmtree(work)
    shutil.copytree(base, work)
    f = mut['file']
    path = f'{work}/theories/{f}.v'
    s = open(path).read()
    if s.count(mut['old']) < 1:
        return {'error': 'old text not found'}
    if s.count(mut['old']) > 1 and not mut.get('all'):
        return {'error': 'old text not unique (%d)' % s.count(mut['old'])}
    open(path, 'w').write(s.replace(mut['old'], mut['new']))
    todo = dependents(mods, d, f)
    if mut.get('only'):
        pre = mut['only'].split()
        todo = [m for m in todo if m == f or any(m.startswith(x) or m.startswith('Prop' + x) for x in pre)]
    admitted = []
    for m in todo:
        for _ in range(200):
            rc, out, err = run(work, m)
            if rc == 0:
                break
            offs = re.findall(r'(?m)^Chars (\d+) - (\d+) ', out)
            if 'timeout' == err or not re.search(r'line (\d+), characters (\d+)-', err):
                pos = int(offs[-1][1]) + 2 if offs else 0
            else:
                ln, ch = map(int, re.search(r'line (\d+), characters (\d+)-', err).groups())
                b = open(f'{work}/theories/{m}.v', 'rb').read().split(b'\n')
                pos = sum(len(x) + 1 for x in b[:ln - 1]) + ch
            nm = admit_at(f'{work}/theories/{m}.v', pos)
            if nm is None:
                return {'error': f'{m}: cannot isolate failure: {err[-400:]}', 'admitted': admitted}
            admitted.append(nm)
        else:
            return {'error': 'too many failures', 'admitted': admitted}
    props = [m for m in todo if m.startswith('Prop')]
    failed, ok = [], []
    for m in props:
        thms = re.findall(r'(?m)^(?:Theorem|Example)\s+(C\d\d[A-Za-z0-9_\']*)', open(f'{base}/theories/{m}.v').read())
        q = f'From Verif Require Import {m}.\n' + ''.join(f'Print Assumptions {t}.\n' for t in thms)
        open(f'{work}/theories/Q.v', 'w').write(q)
        rc, out, err = run(work, 'Q')
        parts = re.split(r'(?m)^Chars \d+ - \d+ \[Print', out)
        txt = re.sub(r'(?m)^Chars .*$', '@@', out)
        # one block per Print, in order
        blocks = [b for b in re.findall(r'(Closed under the global context|Axioms:\n(?:(?!Closed|Axioms:|@@).*\n?)*)', txt)]
        if len(blocks) != len(thms):
            return {'error': f'cannot read assumptions of {m}: {len(blocks)} {len(thms)}', 'admitted': admitted}
        for t, b in zip(thms, blocks):
            (ok if b.startswith('Closed') else failed).append(t)
    return {'admitted': admitted, 'failed': failed, 'survived': ok}

if __name__ == '__main__':
    base, work, muts, outp = sys.argv[1:5]
    for mut in json.load(open(muts)):
        r = one(base, work, mut)
        r['mutation'] = mut
        with open(outp, 'a') as o:
            o.write(json.dumps(r) + '\n')
        print(mut['file'], '|', mut.get('edit', mut['new'][:60]), '=>', r.get('error') or r['failed'], flush=True)
