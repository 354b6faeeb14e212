#!/usr/bin/env python3
"""Seed wrong programs into a scratch copy of the model and see which theorems fall.

usage: mutate.py SCRATCH MUTATIONS.json [LOG.jsonl] [id ...]

A mutation is {"id", "file", "definition", "old", "new", "edit", "claim", "expect": [...]}.
The scratch copy is rebuilt; a proof that fails is replaced by Admitted there, and
the build goes on, so that in the end Print Assumptions tells exactly which property
theorems depend on a proof that no longer goes through.
"""
import glob
import json
import os
import re
import shutil
import subprocess
import sys
import time

ROOT = os.path.dirname(os.path.dirname(os.path.abspath(__file__)))
SRC = os.path.join(ROOT, 'rocq')
START = re.compile(r'^\s*(?:#\[[^\]]*\]\s*)?(?:Local |Global )?(Lemma|Theorem|Example|Corollary|Fact|Instance|Definition|Fixpoint|Program Definition)\s+(\w+)', re.M)
END = re.compile(r'\b(Qed|Defined|Abort|Admitted)\.')


def sync(scratch):
    """bring the scratch sources back to those of the repository, keeping .vo files that still fit"""
    os.makedirs(os.path.join(scratch, 'theories'), exist_ok=True)
    names = set()
    for path in glob.glob(os.path.join(SRC, 'theories', '*.v')):
        name = os.path.basename(path)
        names.add(name)
        dst = os.path.join(scratch, 'theories', name)
        text = re.sub(r'^Print Assumptions.*\n', '', open(path).read(), flags=re.M)
        if not os.path.exists(dst) or open(dst).read() != text:
            open(dst, 'w').write(text)
    for path in glob.glob(os.path.join(scratch, 'theories', '*.v')):
        if os.path.basename(path) not in names:
            os.remove(path)
    shutil.copy(os.path.join(SRC, '_CoqProject'), scratch)
    subprocess.run(['coq_makefile', '-f', '_CoqProject', '-o', 'Makefile'], cwd=scratch, check=True,
                   stdout=subprocess.DEVNULL, stderr=subprocess.DEVNULL)


def make(scratch, limit):
    r = subprocess.run(['make', '-k', '-j4', 'COQC=timeout %d coqc' % limit], cwd=scratch,
                       stdout=subprocess.PIPE, stderr=subprocess.STDOUT, text=True)
    return r.returncode, r.stdout


def enclosing(text, offset):
    """name and span of the proof around an offset: (kind, name, start of proof body, end)"""
    best = None
    for m in START.finditer(text):
        if m.start() > offset:
            break
        best = m
    if best is None:
        return None
    e = END.search(text, best.end())
    if e is None or e.end() < offset - 2:
        return None
    p = text.find('Proof', best.end(), e.end())
    if p < 0:
        return None
    return best.group(1), best.group(2), p, e.end()


def offset_of(text, line, char):
    data = text.split('\n')
    return len('\n'.join(data[:line - 1]).encode()) + (1 if line > 1 else 0) + char


def run(scratch, mut, limit=400):
    """the property theorems that fail: those whose own proof fails, those of the claims
    expected to break, and all the others only if none of these is hit"""
    path = os.path.join(scratch, 'theories', mut['file'])
    text = open(path).read()
    if text.count(mut['old']) != 1:
        return {'error': 'old text occurs %d times' % text.count(mut['old'])}
    open(path, 'w').write(text.replace(mut['old'], mut['new']))
    admitted = []
    dead = set()
    for _ in range(60):
        code, out = make(scratch, limit)
        if code == 0:
            break
        progress = False
        for f, line, a in re.findall(r'^File "\./theories/(\w+)\.v", line (\d+), characters (\d+)-\d+:\nError', out, re.M):
            p = os.path.join(scratch, 'theories', f + '.v')
            t = open(p).read()
            b = t.encode()
            off = offset_of(t, int(line), int(a))
            off = len(b[:off].decode())
            enc = enclosing(t, off)
            if enc is None:
                return {'error': 'does not compile: %s line %s' % (f, line), 'admitted': admitted}
            kind, name, s, e = enc
            admitted.append(f + '.' + name)
            open(p, 'w').write(t[:s] + 'Admitted.' + t[e:])
            progress = True
        if not progress:
            hang = re.findall(r'theories/(\w+)\.vo\] Error 124', out)
            if not hang:
                return {'error': 'build stopped: ' + out[-400:], 'admitted': admitted}
            for f in hang:
                r = subprocess.run(['timeout', str(limit), 'coqc', '-time', '-Q', 'theories', 'Verif', 'theories/%s.v' % f],
                                   cwd=scratch, stdout=subprocess.PIPE, stderr=subprocess.STDOUT, text=True)
                spans = re.findall(r'^Chars (\d+) - (\d+)', r.stdout, re.M)
                p = os.path.join(scratch, 'theories', f + '.v')
                t = open(p).read()
                off = len(t.encode()[:int(spans[-1][1]) + 2].decode(errors='ignore'))
                enc = enclosing(t, off)
                if enc is None:
                    return {'error': 'hangs outside a proof: ' + f, 'admitted': admitted}
                admitted.append(f + '.' + enc[1])
                open(p, 'w').write(t[:enc[2]] + 'Admitted.' + t[enc[3]:])
    else:
        return {'error': 'too many rounds', 'admitted': admitted}
    direct = [a.split('.')[1] for a in admitted if re.match(r'Properties\d+\.C\d\d', a)]
    if not admitted:
        return {'admitted': [], 'failed': []}
    failed = failing(scratch, mut.get('expect', [])) or failing(scratch, None)
    return {'admitted': admitted, 'failed': failed + [n for n in direct if n not in failed]}


def failing(scratch, claims):
    thms = []
    mods = []
    for p in sorted(glob.glob(os.path.join(scratch, 'theories', 'Properties*.v'))):
        mod = os.path.basename(p)[:-2]
        mods.append(mod)
        thms += [(mod, n) for n in re.findall(r'^Theorem (C\d\d\w*)', open(p).read(), re.M)
                 if claims is None or n[:3] in claims]
    if not thms:
        return []
    with open(os.path.join(scratch, 'Chk.v'), 'w') as f:
        f.write('From Verif Require %s.\n' % ' '.join(mods))
        for mod, n in thms:
            f.write('Print Assumptions Verif.%s.%s.\n' % (mod, n))
    r = subprocess.run(['coqc', '-Q', 'theories', 'Verif', 'Chk.v'], cwd=scratch, stdout=subprocess.PIPE,
                       stderr=subprocess.STDOUT, text=True)
    heads = re.findall(r'^(Closed under the global context|Axioms:)', r.stdout, re.M)
    if len(heads) != len(thms):
        raise SystemExit('cannot read the assumptions: %d of %d\n%s' % (len(heads), len(thms), r.stdout[-500:]))
    return [n for (mod, n), h in zip(thms, heads) if h == 'Axioms:']


def main():
    scratch, muts = sys.argv[1], json.load(open(sys.argv[2]))
    log = sys.argv[3] if len(sys.argv) > 3 else None
    only = set(sys.argv[4:])
    for mut in muts:
        if only and mut['id'] not in only:
            continue
        t0 = time.time()
        sync(scratch)
        res = run(scratch, mut)
        hit = [n for n in res.get('failed', []) if n[:3] in mut.get('expect', [])]
        verdict = 'ERROR ' + res['error'] if 'error' in res else ('killed' if hit else 'SURVIVED' if not res['failed'] else 'OTHER')
        print(mut['id'], verdict, 'hit', hit, 'all', len(res.get('failed', [])), 'proofs', res.get('admitted'),
              '%ds' % (time.time() - t0), flush=True)
        if log:
            with open(log, 'a') as f:
                f.write(json.dumps({'id': mut['id'], 'result': res, 'verdict': verdict}) + '\n')


if __name__ == '__main__':
    main()
