#!/usr/bin/env python3
"""Rebuild seeded/LOG.jsonl from the batches and the recorded runs.

seeded/results/BATCH.jsonl holds what tools/mutate.py reported; a later line for the same
mutation is a later attempt and gets a line of its own in the log.
seeded/tightened.json says, per mutation, what was changed in the theorems because of it.
"""
import glob
import json
import os

ROOT = os.path.dirname(os.path.dirname(os.path.abspath(__file__)))
SEED = os.path.join(ROOT, 'seeded')


def main():
    notes = {}
    path = os.path.join(SEED, 'tightened.json')
    if os.path.exists(path):
        notes = json.load(open(path))
    out = []
    for batch in sorted(glob.glob(os.path.join(SEED, 'batch*.json'))):
        muts = {m['id']: m for m in json.load(open(batch))}
        res = os.path.join(SEED, 'results', os.path.basename(batch) + 'l')
        if not os.path.exists(res):
            continue
        seen = {}
        for line in open(res):
            r = json.loads(line)
            m = muts[r['id']]
            seen[r['id']] = seen.get(r['id'], 0) + 1
            n = notes.get(r['id'], {})
            witnesses = [a for a in r['result'].get('admitted', []) if '_example' in a or 'refuted' in a]
            entry = {
                'id': r['id'], 'attempt': seen[r['id']],
                'definition': m['file'][:-2] + '.' + m['definition'], 'edit': m['edit'],
                'old': m['old'], 'new': m['new'], 'claim': m['claim'],
                'verdict': r['verdict'],
                'theorems_failed': r['result'].get('failed', []),
                'proofs_broken': r['result'].get('admitted', []),
                'concrete_witnesses_broken': witnesses,
                'theorems_tightened': n.get('tightened', []) if r['verdict'] != 'killed' or n.get('earlier') else [],
            }
            if n.get('note'):
                entry['note'] = n['note']
            out.append(json.dumps(entry))
    path = os.path.join(SEED, 'results', 'fuzz.jsonl')
    if os.path.exists(path):
        for i, line in enumerate(open(path)):
            r = json.loads(line)
            n = notes.get('F-' + r['definition'], {})
            entry = {
                'id': 'F-%d' % (i + 1), 'definition': r['file'] + '.' + r['definition'],
                'edit': 'random edit of one token', 'old': r['old'], 'new': r['new'], 'context': r['context'],
                'claim': 'whatever is claimed of this definition', 'verdict': r['verdict'],
                'theorems_failed': [r['where']] if r['where'] else [],
                'theorems_tightened': n.get('tightened', []) if r['verdict'] == 'survived' else [],
            }
            if r['verdict'] == 'survived' and n.get('note'):
                entry['note'] = n['note']
            out.append(json.dumps(entry))
    with open(os.path.join(SEED, 'LOG.jsonl'), 'w') as f:
        f.write(''.join(l + '\n' for l in out))
    print(len(out), 'log lines')


if __name__ == '__main__':
    main()
