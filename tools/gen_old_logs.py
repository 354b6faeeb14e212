#!/usr/bin/env python3
"""Copy two older logs of the chain search into OldLogs.v, as string literals.

usage: gen_old_logs.py /repo/scripts/add-sub-special-chains > rocq/theories/OldLogs.v

The literals of a log, one after the other, are its lines (up to "no guarantee", if that occurs), byte for byte.
"""
import sys

CHUNK = 32
LOGS = [('g11', 'guarantee_11-bit.log'), ('v2', 'limit-13_v2.log')]

print('(** Generated by tools/gen_old_logs.py from guarantee_11-bit.log and limit-13_v2.log in')
print('    scripts/add-sub-special-chains. Do not edit. The lines up to "no guarantee", 32 in a literal. *)')
print('From Coq Require Import String List.\nLocal Open Scope string_scope.\n')
for name, file in LOGS:
    text = open(sys.argv[1] + '/' + file, newline='', encoding='utf-8').read()
    text = text.split('====    no guarantee')[0]
    assert '"' not in text and '\r' not in text and text.endswith('\n')
    lines = text.split('\n')[:-1]
    parts = [''.join(l + '\n' for l in lines[i:i + CHUNK]) for i in range(0, len(lines), CHUNK)]
    assert ''.join(parts) == text
    for i, p in enumerate(parts):
        print('Definition %s_%d : string := "%s".' % (name, i, p))
    print('(** %s *)' % file)
    print('Definition %s_literals : list string := (%s)%%list.\n' %
          (name, ' :: '.join('%s_%d' % (name, i) for i in range(len(parts))) + ' :: nil'))
