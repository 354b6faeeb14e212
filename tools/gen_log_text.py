#!/usr/bin/env python3
"""Copy the guaranteed part of the log of the chain search into LogText.v, as string literals.

usage: gen_log_text.py /repo/scripts/add-sub-special-chains/limit-13_v4.log > rocq/theories/LogText.v

The literals, one after the other, are the lines of the log up to "no guarantee", byte for byte.
"""
import sys

CHUNK = 32

text = open(sys.argv[1], newline='', encoding='utf-8').read()
text = text[:text.index('====    no guarantee')]
assert '"' not in text and '\r' not in text and text.endswith('\n')
lines = text.split('\n')[:-1]
parts = [''.join(l + '\n' for l in lines[i:i + CHUNK]) for i in range(0, len(lines), CHUNK)]
assert ''.join(parts) == text and len(parts) % 8 == 0
print('(** Generated by tools/gen_log_text.py from scripts/add-sub-special-chains/limit-13_v4.log. Do not')
print('    edit. The lines of the log up to "no guarantee", 32 in a literal. *)')
print('From Coq Require Import String List.\nLocal Open Scope string_scope.\n')
for i, p in enumerate(parts):
    print('Definition log_%d : string := "%s".' % (i, p))
print('\nImport ListNotations.')
print('(** the literals one after the other, eight in a group *)')
groups = range(len(parts) // 8)
for g in groups:
    print('Definition logs_%d : list string := [%s].' % (g, '; '.join('log_%d' % (8 * g + i) for i in range(8))))
print('Definition log_literals : list (list string) := [%s].' % '; '.join('logs_%d' % g for g in groups))
