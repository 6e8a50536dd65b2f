"""Prints the documents in tools/docs as Coq terms: rocq/theories/CodecDocs.v."""
import json, os
from fractions import Fraction
here = os.path.dirname(os.path.abspath(__file__))

def s(x): return '"' + x.replace('"', '""') + '"'

def c(v, ind):
    if v is None: return 'JNull'
    if v is True: return 'JBool true'
    if v is False: return 'JBool false'
    if isinstance(v, (int, float)):
        f = Fraction(v)
        return 'JNum (Qmake (%d) %d)' % (f.numerator, f.denominator)
    if isinstance(v, str): return 'JStr ' + s(v)
    p = '\n' + ' ' * (ind + 2)
    if isinstance(v, list): items = [c(x, ind + 2) for x in v]; h = 'JArr'
    else: items = ['(%s, %s)' % (s(k), c(x, ind + 2)) for k, x in v.items()]; h = 'JObj'
    one = '%s [%s]' % (h, '; '.join(items))
    if len(one) < 100 and '\n' not in one: return one
    return '%s [%s%s]' % (h, p, (';' + p).join(items))

with open(os.path.join(here, '../rocq/theories/CodecDocs.v'), 'w') as f:
    f.write('(* Documents for the examples, printed by tools/gen_docs.py from tools/docs. *)\n')
    f.write('From Verif Require Import Str Json.\n')
    for n in ('doc30', 'doc31'):
        d = json.load(open(os.path.join(here, 'docs', n + '.json')))
        f.write('\nDefinition %s : json :=\n  %s.\n' % (n, c(d, 2)))
