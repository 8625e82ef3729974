#!/usr/bin/env python3
"""Mutation testing of the theorems.

usage: mutate.py MUTANTS.json [--log]

Each mutant edits one definition of the model in a scratch copy.  Every proof
that breaks is replaced there by Admitted, so that the rest can be rebuilt; the
property theorems that then rest on an admitted proof are the ones that failed.
Only the property files that state the claim the edit should break are rebuilt.
"""
import json, os, re, shutil, subprocess, sys
ROOT = os.path.dirname(os.path.dirname(os.path.abspath(__file__)))
W = os.environ.get('MUTWORK', '/tmp/mut/w')
HEAD = re.compile(r'^[ \t]*(?:Local |Global |#\[[^\]]*\]\s*)?(?:Lemma|Theorem|Example|Corollary|Fact|Remark|Instance)\s+(\w+)', re.M)
ENDS = re.compile(r'\b(?:Qed|Defined)\.')

def props():
    out = []
    import glob
    for f in sorted(glob.glob(os.path.join(W, 'theories', 'Properties*.v'))):
        for m in re.finditer(r'^Theorem (C\d\d+_\w+)', open(f).read(), re.M):
            out.append((os.path.basename(f)[:-2], m.group(1)))
    return out

def admit(path, line):
    """Replace the proof around the line by Admitted; return the lemma's name."""
    s = open(path).read()
    pos = sum(len(l) + 1 for l in s.split('\n')[:line - 1])
    heads = [m for m in HEAD.finditer(s) if m.start() <= pos + 1]
    if not heads:
        return None
    h = heads[-1]
    e = ENDS.search(s, h.start())
    adm = s.find('Admitted.', h.start())
    if e is None or (adm != -1 and adm < e.start()):
        return None
    if e.end() < pos:
        return None
    p = re.compile(r'\bProof\b').search(s, h.start())
    if not p or p.start() > e.start():
        return None
    if pos + 1 < p.start() and s[h.start():p.start()].count('\n') and line < s[:p.start()].count('\n') + 1:
        return None          # the statement itself no longer typechecks
    body = s[p.start():e.end()]
    repl = 'Proof. Admitted.' + '\n' * body.count('\n')
    open(path, 'w').write(s[:p.start()] + repl + s[e.end():])
    return h.group(1)

def drop_tail(path, line):
    """The statement no longer typechecks: comment out that statement."""
    s = open(path).read()
    pos = sum(len(l) + 1 for l in s.split('\n')[:line - 1])
    heads = [m for m in HEAD.finditer(s) if m.start() <= pos + 1]
    if not heads:
        return None
    h = heads[-1]
    e = ENDS.search(s, h.start())
    if e is None or e.end() < pos:
        return None
    body = s[h.start():e.end()]
    open(path, 'w').write(s[:h.start()] + '\n' * body.count('\n') + s[e.end():])
    return h.group(1)

STMT = re.compile(r'\b(Qed|Defined)\.')

def failing(path):
    """Feed the file to coqtop, admitting what does not prove; names of those."""
    s = open(path).read()
    src = 'Set Default Timeout 60.\n' + STMT.sub(lambda m: m.group(0) + '\nAdmitted.\n', s)
    p = subprocess.run(['coqtop', '-q', '-Q', os.path.join(W, 'theories'), 'Verif'], input=src,
                       capture_output=True, text=True, timeout=900)
    names = []
    heads = [m.group(1) for m in HEAD.finditer(s)]
    out = p.stdout + p.stderr
    # a successful Admitted reports "name is declared"
    for m in re.finditer(r'(\w+) is declared', out):
        if m.group(1) in heads and m.group(1) not in names:
            names.append(m.group(1))
    return names

def rewrite(path, names):
    s = open(path).read()
    for h in reversed(list(HEAD.finditer(s))):
        if h.group(1) not in names:
            continue
        e = ENDS.search(s, h.start())
        p = re.compile(r'\bProof\b').search(s, h.start())
        if not e or not p or p.start() > e.start():
            continue
        body = s[p.start():e.end()]
        s = s[:p.start()] + 'Proof. Admitted.' + '\n' * body.count('\n') + s[e.end():]
    open(path, 'w').write(s)

def affected(order, start):
    dep = {start}
    for f in order:
        src = open(os.path.join(W, 'theories', f)).read()
        req = set()
        for m in re.finditer(r'From Verif Require (?:Import|Export)?\s*([\w\s]+)\.', src):
            req |= set(x + '.v' for x in m.group(1).split())
        if req & dep:
            dep.add(f)
    return [f for f in order if f in dep]

def cone(order, claim):
    """the property files that state the claim, and everything they require"""
    need = [f for f in order if f.startswith('Properties') and
            re.search(r'^Theorem %s_' % claim, open(os.path.join(W, 'theories', f)).read(), re.M)]
    seen = set()
    while need:
        f = need.pop()
        if f in seen:
            continue
        seen.add(f)
        for m in re.finditer(r'From Verif Require (?:Import|Export)?\s*([\w\s]+)\.', open(os.path.join(W, 'theories', f)).read()):
            need += [x + '.v' for x in m.group(1).split()]
    return seen

def coqc(f):
    return subprocess.run(['coqc', '-Q', 'theories', 'Verif', 'theories/' + f], cwd=W, capture_output=True, text=True, timeout=900)

def run(mut):
    if os.path.exists(W):
        shutil.rmtree(W)
    shutil.copytree(os.environ.get('MUTBASE', os.path.join(ROOT, 'rocq')), W, copy_function=shutil.copy2)
    order = re.findall(r'theories/(\w+\.v)', open(os.path.join(W, '_CoqProject')).read())
    f = os.path.join(W, 'theories', mut['file'])
    s = open(f).read()
    n = s.count(mut['old'])
    if n != mut.get('count', 1):
        return {'error': 'old text occurs %d times' % n}
    open(f, 'w').write(s.replace(mut['old'], mut['new']))
    broken, dropped = [], []
    wanted = cone(order, mut['claim'])
    for g in affected(order, mut['file']):
        if g not in wanted:
            continue
        p = coqc(g)
        if p.returncode == 0:
            continue
        if g == mut['file'] and not HEAD.search(s):
            return {'error': 'model does not compile', 'detail': p.stderr[-600:]}
        path = os.path.join(W, 'theories', g)
        names = failing(path)
        broken += names
        rewrite(path, names)
        for it in range(40):
            p = coqc(g)
            if p.returncode == 0:
                break
            m = re.search(r'File "\./(theories/\w+\.v)", line (\d+)', p.stderr)
            nm = admit(path, int(m.group(2)))
            if nm:
                broken.append(nm)
            else:
                nm = drop_tail(path, int(m.group(2)))
                if not nm:
                    return {'error': 'cannot repair %s' % g, 'detail': p.stderr[-600:], 'broken': broken}
                dropped.append(nm)
        else:
            return {'error': 'cannot repair %s' % g, 'broken': broken}
    ps = props()
    ps = [q for q in ps if q[1] not in dropped and q[0] + '.v' in wanted]
    mods = sorted(set(m for m, _ in ps))
    chk = 'From Coq Require Import String.\nFrom Verif Require %s.\n' % ' '.join(mods)
    for m, t in ps:
        chk += 'Eval compute in "@@%s"%%string.\nPrint Assumptions Verif.%s.%s.\n' % (t, m, t)
    open(W + 'Chk.v', 'w').write(chk)
    p = subprocess.run(['coqc', '-Q', os.path.join(W, 'theories'), 'Verif', W + 'Chk.v'], capture_output=True, text=True)
    if p.returncode:
        return {'error': 'check', 'detail': p.stderr[-800:]}
    failed = []
    for part in p.stdout.split('"@@')[1:]:
        name = part.split('"')[0]
        if any(re.search(r'^(?:\w+\.)*%s\b' % re.escape(b), part, re.M) for b in broken):
            failed.append(name)
    failed += [d for d in dropped if re.match(r'C\d\d+_', d)]
    return {'broken': broken, 'dropped': dropped, 'failed': failed}

def main():
    muts = json.load(open(sys.argv[1]))
    log = '--log' in sys.argv
    for m in muts:
        try:
            r = run(m)
        except subprocess.TimeoutExpired as e:
            r = {'error': 'timeout', 'detail': str(e.cmd)}
        if 'error' in r:
            print('!!', m['definition'], '|', m['edit'], '|', r, flush=True)
            continue
        ok = [t for t in r['failed'] if t.startswith(m['claim'] + '_')]
        print('KILLED ' if ok else ('OTHER  ' if r['failed'] else 'SURVIVED'), m['definition'], '|', m['edit'], '|', m['claim'], '|', r['failed'][:8], flush=True)
        if log:
            with open(os.path.join(ROOT, 'seeded', 'LOG.jsonl'), 'a') as o:
                o.write(json.dumps({'definition': m['file'] + ':' + m['definition'], 'edit': m['edit'],
                    'claim': m['claim'], 'failed': r['failed'], 'tightened': m.get('tightened', [])}) + '\n')
main()
