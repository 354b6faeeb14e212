#!/usr/bin/env python3
"""Copy the text of the functions demo_nn and arrhythmia_nn of the target into NetsText.v.

usage: gen_nets_text.py /repo/src/demos.rs > rocq/theories/NetsText.v
"""
import sys

lines = open(sys.argv[1], newline='').read().split('\n')
print('(** Generated by tools/gen_nets_text.py from src/demos.rs. Do not edit. The text of two functions. *)')
print('From Coq Require Import String.\nLocal Open Scope string_scope.')
for name in ('demo_nn', 'arrhythmia_nn'):
    start = next(i for i, l in enumerate(lines) if l.startswith('pub fn %s()' % name))
    end = next(i for i in range(start, len(lines)) if lines[i] == '}')
    text = '\n'.join(lines[start:end + 1]) + '\n'
    assert text.isascii() and '"' not in text and '\r' not in text and '//' not in text and '/*' not in text
    print('\n(** demos.rs:%d-%d *)' % (start + 1, end + 1))
    print('Definition %s_text : string := "%s".' % (name, text))
