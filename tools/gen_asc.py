#!/usr/bin/env python3
"""Translate assets/asc-12.yaml of the target into AscTable.v (purely syntactic).

usage: gen_asc.py /repo/assets/asc-12.yaml > rocq/theories/AscTable.v
"""
import re
import sys

CHUNK = 256
FIELDS = ["l_pos", "l_idx", "r_pos", "r_idx", "r_shift"]

table = []
for no, line in enumerate(open(sys.argv[1]), 1):
    line = line.rstrip("\n")
    if line == "---":
        continue
    m = re.fullmatch(r"(\d+):( \[\])?", line)
    if m:
        table.append((int(m.group(1)), []))
        continue
    m = re.fullmatch(r"([- ]) (\w+): (\w+)", line)
    assert m, (no, line)
    if m.group(1) == "-":
        table[-1][1].append([])
    step = table[-1][1][-1]
    assert FIELDS[len(step)] == m.group(2), (no, line)
    step.append(m.group(3))

print("(** Generated by tools/gen_asc.py from assets/asc-12.yaml. Do not edit. *)")
print("From Verif Require Import Base Params.\n")
print("Local Notation S_ a b c d e := (mkAddShift a b%nat c d%nat e%nat) (only parsing).\n")
names = []
for i in range(0, len(table), CHUNK):
    name = "asc_chunk_%d" % (i // CHUNK)
    names.append(name)
    rows = []
    for key, steps in table[i:i + CHUNK]:
        assert all(len(s) == 5 for s in steps)
        rows.append("(%d, [%s])" % (key, "; ".join("S_ " + " ".join(s) for s in steps)))
    print("Definition %s : asc_map := [\n  %s]." % (name, ";\n  ".join(rows)))
    print()
print("(** assets/asc-12.yaml *)")
print("Definition shipped_asc : asc_map :=\n  %s." % " ++ ".join(names))
