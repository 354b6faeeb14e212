#!/usr/bin/env python3
"""Copy the text of assets/asc-12.yaml of the target into AscText.v, as string literals.

usage: gen_asc_text.py /repo/assets/asc-12.yaml > rocq/theories/AscText.v

The literals, one after the other, are the file, byte for byte.
"""
import re
import sys

CHUNK = 32

text = open(sys.argv[1], newline='').read()
assert text.isascii() and '"' not in text and '\r' not in text
starts = [m.start() for m in re.finditer(r'(?m)^(?=\d)', text)]
cuts = [0] + starts[0::CHUNK] + [len(text)]
parts = [text[a:b] for a, b in zip(cuts, cuts[1:])]
assert ''.join(parts) == text
print('(** Generated by tools/gen_asc_text.py from assets/asc-12.yaml. Do not edit. The text of the')
print('    file, cut in front of every 32nd entry. *)')
print('From Coq Require Import String List.\nLocal Open Scope string_scope.\n')
for i, p in enumerate(parts):
    print('Definition text_%d : string := "%s".' % (i, p))
print('\nImport ListNotations.')
print('(** assets/asc-12.yaml: the literals one after the other, eight in a group *)')
groups = range((len(parts) - 1) // 8)
for g in groups:
    print('Definition texts_%d : list string := [%s].' % (g, '; '.join('text_%d' % (8 * g + i + 1) for i in range(8))))
print('Definition asc_12_yaml : string := String.concat "" (text_0 :: List.concat [%s])%%list.' % '; '.join('texts_%d' % g for g in groups))
