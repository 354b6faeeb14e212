#!/usr/bin/env python3
"""Chains for the odd numbers between 2^12 and 2^13, as Asc13.v.

Shortest chains with up to three additions are searched for; the others are read
from the log of the target, except 5517, which the log lacks.

usage: gen_asc13.py /repo/scripts/add-sub-special-chains/limit-14_v2.log > rocq/theories/Asc13.v
"""
import re
import sys

best = {1: []}


def nexts(vals):
    for yi, y in enumerate(vals):
        for s in range(14):
            for xi, x in enumerate(vals):
                t = y << s
                yield x + t, (True, xi, True, yi, s)
                if x >= t:
                    yield x - t, (True, xi, False, yi, s)
                else:
                    yield t - x, (False, xi, True, yi, s)


def note(v, chain):
    if v % 2 and v < 8192 and (v not in best or len(chain) < len(best[v])):
        best[v] = chain


for a, ca in nexts([1]):
    note(a, [ca])
    for b, cb in nexts([1, a]):
        note(b, [ca, cb])
        for c, cc in nexts([1, a, b]):
            note(c, [ca, cb, cc])

for line in open(sys.argv[1], encoding="utf-8"):
    m = re.match(r"\s*(\d+) /(\d+)/ \[(.*)\]", line)
    if not m or int(m[1]) in best:
        continue
    vals, chain = [1], []
    for v, p, sg, q, r in re.findall(r"◖ (\d+) = +(-?\d+) ([+-]) (\d+)·2\^(\d+) ◗", m[3]):
        p, q = int(p), int(q)
        chain.append((p > 0, vals.index(abs(p)), sg == "+", vals.index(q), int(r)))
        vals.append(int(v))
    assert vals[-1] == int(m[1]) and len(chain) == 4
    best[int(m[1])] = chain
# 129 = 1 + 1*2^7, 385 = 129 + 1*2^8, 5775 = -385 + 385*2^4, 5517 = 5775 - 129*2
best.setdefault(5517, [(True, 0, True, 0, 7), (True, 1, True, 0, 8), (False, 2, True, 2, 4), (True, 3, False, 1, 1)])

print("(** Generated by tools/gen_asc13.py. Do not edit. Not part of the target: chains")
print("    for the odd numbers between 2^12 and 2^13, checked in Opt13.v. *)")
print("From Verif Require Import Base Params.\n")
print("Local Notation S_ a b c d e := (mkAddShift a b%nat c d%nat e%nat) (only parsing).\n")
names = []
keys = list(range(4097, 8192, 2))
for i in range(0, len(keys), 256):
    names.append("asc13_chunk_%d" % (i // 256))
    rows = []
    for k in keys[i:i + 256]:
        vals = [1]
        for lp, li, rp, ri, s in best[k]:
            vals.append((1 if lp else -1) * vals[li] + (1 if rp else -1) * (vals[ri] << s))
        assert vals[-1] == k
        rows.append("(%d, [%s])" % (k, "; ".join("S_ %s %d %s %d %d" % (str(lp).lower(), li, str(rp).lower(), ri, s)
                                               for lp, li, rp, ri, s in best[k])))
    print("Definition %s : asc_map := [\n  %s].\n" % (names[-1], ";\n  ".join(rows)))
print("Definition asc13 : asc_map :=\n  %s." % " ++ ".join(names))
