#!/usr/bin/env python3
"""Reads the builder methods of the generated entity code (openapi3/entities.go,
openapi31/entities.go) as text and writes rocq/theories/BuildTables.v: the
statements of every method.  Every method other than UnmarshalJSON and
MarshalJSON must consist of the known statements, otherwise the script stops."""
import re
import sys

REPO = sys.argv[1] if len(sys.argv) > 1 else '/repo'
OUT = sys.argv[2] if len(sys.argv) > 2 else '/verif/rocq/theories/BuildTables.v'
BASE = {'string': 'TStr', 'bool': 'TBool', 'int64': 'TInt', 'float64': 'TFloat',
        'interface{}': 'TAny', 'reflect.Type': 'TSkip'}


def q(s):
    return '"%s"' % s


def ty(t, par=True):
    if t in BASE:
        return BASE[t]
    if t.startswith('*'):
        r = 'TPtr ' + ty(t[1:])
    elif t.startswith('[]') or t.startswith('...'):
        r = 'TArr ' + ty(t[2:] if t[0] == '[' else t[3:])
    elif t.startswith('map[string]'):
        r = 'TMap ' + ty(t[11:])
    else:
        assert re.fullmatch(r'\w+', t), t
        r = 'TNamed ' + q(t)
    return '(%s)' % r if par else r


def parse(path, label):
    src = open('%s/%s' % (REPO, path)).read()
    line = lambda pos: src.count('\n', 0, pos) + 1
    types = {}
    for m in re.finditer(r'^func \((\w+) (\*?)(\w+)\) (\w+)\(([^\n]*?)\) ?(\S*) \{\n(.*?)^\}', src, re.M | re.S):
        rcv, star, tn, name, args, ret, body = m.groups()
        if name in ('UnmarshalJSON', 'MarshalJSON'):
            continue
        assert star == '*', (tn, name)
        params = [a.split(' ', 1) for a in args.split(', ') if a]
        assert [p[0] for p in params] in ([], ['val'], ['key', 'val']), (tn, name, args)
        if len(params) == 2:
            assert params[0][1] == 'string'
        val = 'Some %s' % ty(params[-1][1]) if params else 'None'
        F = rcv + r'\.(\w+)'

        def exp(e):
            if e == 'val':
                return 'EVal'
            if e == '&val':
                return 'EAddr'
            x = re.fullmatch(r'make\((map\[string\]\S+), 1\)', e)
            if x:
                return 'EMake %s' % ty(x.group(1))
            x = re.fullmatch(r'new\((\w+)\)', e)
            assert x, (tn, name, e)
            return 'ENew %s' % q(x.group(1))

        b = re.sub(r'\s+', ' ', body).strip()
        st, out = [], None
        while b:
            assert out is None, (tn, name)
            x = re.match(r'if %s == nil \{ %s = (\S+(?: 1\))?) \} ?' % (F, F), b)
            if x:
                st.append('SIfNil %s %s (%s)' % (q(x.group(1)), q(x.group(2)), exp(x.group(3))))
                b = b[x.end():]
                continue
            x = re.match(r'%s\[key\] = val ?' % F, b)
            if x:
                st.append('SItem %s' % q(x.group(1)))
                b = b[x.end():]
                continue
            x = re.match(r'%s = (\S+) ?' % F, b)
            if x:
                st.append('SAssign %s (%s)' % (q(x.group(1)), exp(x.group(2))))
                b = b[x.end():]
                continue
            x = re.match(r'return %s$' % F, b)
            if x:
                out, b = 'RField %s' % q(x.group(1)), ''
                assert ret.startswith('*')
                continue
            assert b == 'return ' + rcv and ret == '*' + tn, (tn, name, b)
            out, b = 'RSelf', ''
        t = types.setdefault(tn, [])
        t.append((name, val, st, out, line(m.start()), line(m.end() - 1)))
    out = []
    for tn, ms in types.items():
        out.append('(* %s: methods between %d and %d *)' % (path, ms[0][4], ms[-1][5]))
        out.append('Definition b%s_%s : list (string * meth) :=' % (label, tn))
        out.append('  [%s].\n' % ';\n   '.join(
            '(%s, mkMeth (%s) [%s] %s)' % (q(n), v, '; '.join(st), o if o == 'RSelf' else '(%s)' % o) for n, v, st, o, _, _ in ms))
    out.append('Definition M%s : list (string * list (string * meth)) :=' % label)
    out.append('  [%s].\n' % ';\n   '.join('(%s, b%s_%s)' % (q(t), label, t) for t in types))
    print(path, len(types), sum(len(x) for x in types.values()))
    return '\n'.join(out)


text = '''(* The builder methods of the generated entity types of both packages: what
   they take and their statements.  Written by tools/gen_build.py from the text of
   openapi3/entities.go and openapi31/entities.go; the comments cite the lines. *)
From Verif Require Import Str Json CodecModel BuildModel.

'''
text += parse('openapi3/entities.go', '30') + '\n' + parse('openapi31/entities.go', '31')
open(OUT, 'w').write(text)
