"""logmut.py MUTATIONS.json OUTPUT [TIGHTENED.json]: append the results of mutate.py to seeded/LOG.jsonl.

TIGHTENED.json maps a mutation index to the theorems added or strengthened because of it.
"""
import json, sys
M = json.load(open(sys.argv[1]))
T = json.load(open(sys.argv[3])) if len(sys.argv) > 3 else {}
R = {}
for line in open(sys.argv[2]):
    if line.startswith('{'):
        r = json.loads(line)
        R[r['index']] = r
with open('/verif/seeded/LOG.jsonl', 'a') as f:
    for i in sorted(R):
        m, r = M[i], R[i]
        if 'error' in r:
            continue
        f.write(json.dumps({
            'definition': m['file'] + ':' + m['definition'],
            'edit': m['old'] + '  ==>  ' + m['new'],
            'claim': m['claim'],
            'failed': r['broken'],
            'first_failing_lemmas': r['failed'][:6],
            'tightened': T.get(str(i), []),
        }) + '\n')
