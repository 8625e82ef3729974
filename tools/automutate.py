#!/usr/bin/env python3
"""Generate small edits of every definition of the model files and rebuild.

usage: automutate.py gen Model.v OUT.json     list the mutants of a model file
       automutate.py run IN.json OUT.jsonl    rebuild each of them, stopping at the first failure

An edit that no proof notices is reported as a survivor, to be judged by hand:
either it does not change the meaning of the program, or a theorem is too weak.
The mutants of interest are then given to mutate.py.
"""
import json, os, re, shutil, subprocess, sys
BASE = os.environ.get('MUTBASE', '/tmp/mut/base')
W = os.environ.get('MUTWORK', '/tmp/mut/auto/w')

def blank_comments(s):
    """comments replaced by blanks of the same length; string literals kept"""
    out, i, d, instr = [], 0, 0, False
    while i < len(s):
        if d == 0 and s[i] == '"':
            instr = not instr
        if not instr and s.startswith('(*', i):
            d += 1; out.append('  '); i += 2; continue
        if not instr and d and s.startswith('*)', i):
            d -= 1; out.append('  '); i += 2; continue
        out.append(s[i] if d == 0 or s[i] == '\n' else ' '); i += 1
    return ''.join(out)

DEF = re.compile(r'^\s*(?:Definition|Fixpoint|Let|with)\s+(\w+)', re.M)
PAIRS = [(r'<\?', '<=?'), (r'<=\?', '<?'), (r'(?<= )\+(?= )', '-'), (r'(?<= )-(?= )', '+'), (r'(?<= )\*(?= )', '/'),
         (r'(?<= )/(?= )', '*'), (r'&&', '||'), (r'\|\|', '&&'), (r'\btrue\b', 'false'), (r'\bfalse\b', 'true'),
         (r'\bfst\b', 'snd'), (r'\bsnd\b', 'fst'), (r'\bncos\b', 'nsin'), (r'\bnsin\b', 'ncos'), (r'\bcos\b', 'sin'),
         (r'\bsin\b', 'cos'), (r'\bnegb ', ''), (r'\bnsqrt\b', 'nabs'), (r'\bnmaxm\b', 'nminm'), (r'\bNat\.ltb\b', 'Nat.leb'),
         (r'\bNat\.leb\b', 'Nat.ltb'), (r'Rmin\b', 'Rmax'), (r'Rmax\b', 'Rmin'), (r'\bexistsb\b', 'forallb'), (r'\bforallb\b', 'existsb'),
         (r'Err ValueError', 'Err IOError'), (r'Err TypeError', 'Err ValueError'), (r'\bRltb\b', 'Rleb'), (r'\bRleb\b', 'Rltb')]
NUM = re.compile(r'(?<![\w.])(#?)(\d+(?:\.\d+)?(?:e-?\d+)?)(?![\w.])(?!\.\d)')
STR = re.compile(r'"([^"\n]+)"')

def gen(path):
    s = open(path).read()
    b = blank_comments(s)
    heads = list(DEF.finditer(b))
    out = []
    for k, h in enumerate(heads):
        end = heads[k + 1].start() if k + 1 < len(heads) else len(b)
        body0 = b.find(':=', h.end(), end)
        if body0 < 0:
            continue
        m = re.compile(r'\.(?=\s|$)').search(b, body0)
        # the definition ends at a full stop followed by white space
        stop = m.start() if m and m.start() < end else end
        def add(pos, old, new, what):
            out.append({'file': os.path.basename(path), 'definition': h.group(1), 'pos': pos, 'old': old, 'new': new,
                        'line': b[:pos].count('\n') + 1, 'edit': what})
        seg = b[body0 + 2:stop]
        off = body0 + 2
        strs = [(m.start(), m.end()) for m in STR.finditer(seg)]
        instr = lambda p: any(a <= p < e for a, e in strs)
        for pat, new in PAIRS:
            for m in re.finditer(pat, seg):
                if not instr(m.start()):
                    add(off + m.start(), m.group(0), new, '%s -> %s' % (m.group(0), new))
        for m in NUM.finditer(seg):
            if instr(m.start()):
                continue
            v = m.group(2)
            if '.' in v or 'e' in v:
                new = repr(round(float(v) * 1.1, 6)) if float(v) > 0.01 else v.replace('1', '2', 1) if '1' in v else v + '1'
            else:
                new = str(int(v) + 1)
            if new == v:
                continue
            add(off + m.start(2), v, new, 'constant %s -> %s' % (v, new))
        for m in STR.finditer(seg):
            add(off + m.start(1), m.group(1), m.group(1) + 'x', 'string %s' % m.group(1))
        # if / then / else: swap the branches is hard textually; drop to one condition
        for m in re.finditer(r'\bif\b', seg):
            t = seg.find(' then', m.end())
            if t > 0 and '\n\n' not in seg[m.end():t]:
                cond = seg[m.end():t].strip()
                if cond in ('true', 'false'):
                    continue
                add(off + m.end(), s[off + m.end():off + t], ' negb (' + cond + ')%bool' if False else ' negb (%s)' % cond, 'condition negated: ' + cond)
        # arguments swapped: f a b -> f b a for simple identifiers
        for m in re.finditer(r'\b([a-z]\w*) ([a-z]\w*) ([a-z]\w*)\b', seg):
            if instr(m.start()):
                continue
            f, x, y = m.groups()
            kw = {'if', 'then', 'else', 'let', 'in', 'match', 'with', 'end', 'fun', 'do', 'as', 'return', 'forall', 'exists'}
            if {f, x, y} & kw or x == y:
                continue
            add(off + m.start(2), '%s %s' % (x, y), '%s %s' % (y, x), 'arguments of %s swapped' % f)
    return out

def order():
    return re.findall(r'theories/(\w+\.v)', open(os.path.join(BASE, '_CoqProject')).read())

def requires():
    req = {}
    for f in order():
        src = open(os.path.join(BASE, 'theories', f)).read()
        r = set()
        for m in re.finditer(r'From Verif Require (?:Import|Export)?\s*([\w\s]+)\.', src):
            r |= set(x + '.v' for x in m.group(1).split())
        req[f] = r
    return req

def affected(start, req):
    dep, out = {start}, [start]
    for f in order():
        if f != start and req[f] & dep:
            dep.add(f); out.append(f)
    return out

def run(mut, req, cost):
    s = open(os.path.join(BASE, 'theories', mut['file'])).read()
    assert s[mut['pos']:mut['pos'] + len(mut['old'])] == mut['old'], mut
    t = s[:mut['pos']] + mut['new'] + s[mut['pos'] + len(mut['old']):]
    aff = affected(mut['file'], req)
    for f in aff:
        for e in ('vo', 'vos', 'vok', 'glob'):
            p = os.path.join(W, 'theories', f[:-1] + e)
            if os.path.exists(p):
                os.remove(p)
    src = os.path.join(W, 'theories', mut['file'])
    open(src, 'w').write(t)
    try:
        for g in aff:
            try:
                p = subprocess.run(['coqc', '-q', '-Q', 'theories', 'Verif', 'theories/' + g], cwd=W, capture_output=True, text=True, timeout=600)
            except subprocess.TimeoutExpired:
                return {'verdict': 'killed', 'where': g + ' (timeout)'}
            if p.returncode:
                if g == mut['file']:
                    return {'verdict': 'invalid', 'where': p.stderr[-200:]}
                m = re.search(r'line (\d+)', p.stderr)
                line = int(m.group(1)) if m else 0
                names = re.findall(r'^(?:Lemma|Theorem|Example)\s+(\w+)', '\n'.join(open(os.path.join(W, 'theories', g)).read().split('\n')[:line]), re.M)
                return {'verdict': 'killed', 'where': '%s:%s' % (g, names[-1] if names else '?')}
        return {'verdict': 'survived'}
    finally:
        # restore
        open(src, 'w').write(s)
        for f in aff:
            for e in ('vo',):
                q = os.path.join(BASE, 'theories', f[:-1] + e)
                if os.path.exists(q):
                    shutil.copy2(q, os.path.join(W, 'theories', f[:-1] + e))

def main():
    if sys.argv[1] == 'gen':
        out = gen(sys.argv[2])
        json.dump(out, open(sys.argv[3], 'w'), indent=0)
        print(len(out))
        return
    muts = json.load(open(sys.argv[2]))
    done = set()
    if os.path.exists(sys.argv[3]):
        for l in open(sys.argv[3]):
            r = json.loads(l); done.add((r['file'], r['pos'], r['new']))
    if os.path.exists(W):
        shutil.rmtree(W)
    shutil.copytree(BASE, W, copy_function=shutil.copy2)
    req = requires()
    for m in muts:
        if (m['file'], m['pos'], m['new']) in done:
            continue
        r = run(m, req, None)
        with open(sys.argv[3], 'a') as o:
            o.write(json.dumps({**m, **r}) + '\n')
main()
