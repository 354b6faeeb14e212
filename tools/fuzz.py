#!/usr/bin/env python3
"""Small random edits of the model, to find edits that no proof notices.

usage: fuzz.py PRISTINE SCRATCH OUT.jsonl SEED COUNT [FILE.v ...]

PRISTINE is a built copy of rocq/. For each edit it is copied to SCRATCH, one token
of one definition is changed, and everything that depends on it is rebuilt until the
first failure. An edit is "invalid" when the edited file itself does not compile,
"killed" with the first proof that fails, and "survived" when all goes through.
"""
import json
import os
import random
import re
import shutil
import subprocess
import sys

FILES = '''Words Encryption Pbs Addition Signum Maximum Naf Asc ScalarMul Multiplication Squaring Rounding
Arith NeuralNetwork Params Keys Misc Demos TestSuite KeysConcurrent LogConcurrent ParallelOps Messages
KtScript ChainScript CostScript'''.split()
DEF = re.compile(r'^\s*(?:Definition|Fixpoint|Function|with|Inductive)\s+(\w+)', re.M)
OPS = [(r'(?<![\w.^%])(\d+)(?![\w.])', lambda m: [str(int(m.group(1)) + 1)] + ([str(int(m.group(1)) - 1)] if int(m.group(1)) > 0 else [])),
       (r'<\?', lambda m: ['<=?']), (r'<=\?', lambda m: ['<?']), (r'(?<!<)=\?', lambda m: ['<=?']),
       (r'\btrue\b', lambda m: ['false']), (r'\bfalse\b', lambda m: ['true']),
       (r' \+ ', lambda m: [' - ']), (r' - ', lambda m: [' + ']), (r' \* ', lambda m: [' + ']),
       (r'&&', lambda m: ['||']), (r'\|\|', lambda m: ['&&']),
       (r'\bfirstn\b', lambda m: ['skipn']), (r'\bskipn\b', lambda m: ['firstn']),
       (r'\bw_add\b', lambda m: ['w_sub']), (r'\bw_sub\b', lambda m: ['w_add']),
       (r'\bZ\.min\b', lambda m: ['Z.max']), (r'\bNat\.max\b', lambda m: ['Nat.min']), (r'\bZ\.max\b', lambda m: ['Z.min']),
       (r'\bnegb ', lambda m: ['']), (r'\brev ', lambda m: ['']), (r'\bS ', lambda m: ['']),
       (r'\bif ((?:(?!\b(?:if|then|else)\b)[^\n])+?) then\b', lambda m: ['if negb (%s) then' % m.group(1)]),
       (r'\bx\b', lambda m: ['y']), (r'\by\b', lambda m: ['x']),
       (r'\bmeasure \(', lambda m: ['(']), (r'\banalysed \(', lambda m: ['('])]


def blank_comments(s):
    out, depth, i = [], 0, 0
    while i < len(s):
        if s.startswith('(*', i):
            depth += 1
            out.append('  ')
            i += 2
        elif s.startswith('*)', i) and depth:
            depth -= 1
            out.append('  ')
            i += 2
        else:
            out.append(s[i] if depth == 0 or s[i] == '\n' else ' ')
            i += 1
    return ''.join(out)


def candidates(src, name):
    path = os.path.join(src, 'theories', name + '.v')
    if not os.path.exists(path):
        return
    text = open(path).read()
    code = blank_comments(text)
    starts = [(m.start(), m.group(1)) for m in DEF.finditer(code)]
    for (a, d), (b, _) in zip(starts, starts[1:] + [(len(code), '')]):
        stop = re.search(r'\.\s*\n\s*\n|\.\s*\n(?=\s*(?:End|Definition|Fixpoint|Section|Record|Inductive|Lemma|Notation))', code[a:b])
        end = a + stop.end() if stop else b
        head = code.find(':=', a, end)
        if head < 0:
            continue
        for pat, repl in OPS:
            for m in re.finditer(pat, code[head:end]):
                for r in repl(m):
                    yield name, d, head + m.start(), head + m.end(), r


def main():
    src, scratch, out, seed, count = sys.argv[1:6]
    files = [f[:-2] if f.endswith('.v') else f for f in sys.argv[6:]] or FILES
    by_def = {}
    for f in files:
        for c in candidates(src, f):
            by_def.setdefault((c[0], c[1]), []).append(c)
    rng = random.Random(int(seed))
    keys = sorted(by_def)
    todo = []
    while len(todo) < int(count) and keys:
        for k in sorted(keys, key=lambda _: rng.random()):
            todo.append(by_def[k].pop(rng.randrange(len(by_def[k]))))
            if not by_def[k]:
                keys.remove(k)
    todo = todo[:int(count)]
    seen = set()
    if os.path.exists(out):
        seen = {(r['file'], r['at'], r['new']) for r in map(json.loads, open(out))}
    for name, d, a, b, r in todo:
        if (name, a, r) in seen:
            continue
        shutil.rmtree(scratch, ignore_errors=True)
        subprocess.run(['cp', '-a', src, scratch], check=True)
        path = os.path.join(scratch, 'theories', name + '.v')
        text = open(path).read()
        open(path, 'w').write(text[:a] + r + text[b:])
        p = subprocess.run(['make', '-j2', 'COQC=timeout 1200 coqc'], cwd=scratch, stdout=subprocess.PIPE, stderr=subprocess.STDOUT, text=True)
        log = p.stdout
        m = re.search(r'File "\./theories/(\w+)\.v", line (\d+)', log)
        if p.returncode == 0:
            verdict, where = 'survived', ''
        elif m and m.group(1) == name:
            verdict, where = 'invalid', ''
        elif m:
            ls = open(os.path.join(scratch, 'theories', m.group(1) + '.v')).read().split('\n')[:int(m.group(2))]
            names = re.findall(r'^\s*(?:Lemma|Theorem|Example|Corollary|Definition|Fixpoint|Instance|Record)\s+(\w+)', '\n'.join(ls), re.M)
            verdict, where = 'killed', m.group(1) + '.' + (names[-1] if names else '?')
        else:
            verdict, where = 'other', log[-300:]
        line = text.count('\n', 0, a) + 1
        rec = dict(file=name, definition=d, line=line, at=a, old=text[a:b], new=r,
                   context=text[max(0, a - 30):b + 30].replace('\n', ' '), verdict=verdict, where=where)
        open(out, 'a').write(json.dumps(rec) + '\n')


main()
