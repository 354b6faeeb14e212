#!/usr/bin/env python3
"""Write rocq/theories/DemoNets.v: the two networks of /repo/src/demos.rs, taken from its text."""
import os
import re

ROOT = os.path.dirname(os.path.dirname(os.path.abspath(__file__)))
SRC = '/repo/src/demos.rs'
lines = open(SRC).read().split('\n')


def network(name):
    start = next(i for i, l in enumerate(lines) if l.startswith('pub fn %s()' % name))
    end = next(i for i in range(start, len(lines)) if lines[i] == '}')
    body = '\n'.join(lines[start:end + 1])
    inputs = int(re.search(r'n_inputs: (\d+)', body).group(1))
    layers = []
    for part in re.split(r'^            vec!\[', body, flags=re.M)[1:]:
        layer = re.findall(r't: PercType::(\w+),\s*w: vec!\[([^\]]*)\],\s*b: (-?\d+)', part)
        layers.append([(t, [w.strip() for w in ws.split(',') if w.strip()], b) for t, ws, b in layer])
    return start + 1, end + 1, inputs, layers


def z(s):
    return '(%s)' % s if s.startswith('-') else s


out = ['(** The networks of src/demos.rs. Written by tools/gen_demo_nets.py from the source text. *)',
       'From Verif Require Import Base NeuralNetwork.']
for name in ('demo_nn', 'arrhythmia_nn'):
    a, b, inputs, layers = network(name)
    out += ['', '(** demos.rs:%d-%d *)' % (a, b)]
    names = []
    for i, layer in enumerate(layers):
        names.append('%s_layer%d' % (name, i + 1))
        out.append('Definition %s : layer := [' % names[-1])
        out.append(';\n'.join('  mkPerceptron %s [%s] %s' % (t, '; '.join(z(w) for w in ws), z(bb)) for t, ws, bb in layer))
        out.append('].')
    out.append('Definition %s : neural_network := mkNN [%s] %d.' % (name, '; '.join(names), inputs))
open(os.path.join(ROOT, 'rocq', 'theories', 'DemoNets.v'), 'w').write('\n'.join(out) + '\n')
