#!/usr/bin/env python3
"""Reads the generated entity code (openapi3/entities.go, openapi31/entities.go)
as text and writes rocq/theories/CodecTables.v: one descriptor per struct and
enumeration.  Every statement of every UnmarshalJSON and MarshalJSON must be one
of the known shapes and stand in the known order, otherwise the script stops."""
import json
import re
import sys

REPO = sys.argv[1] if len(sys.argv) > 1 else '/repo'
OUT = sys.argv[2] if len(sys.argv) > 2 else '/verif/rocq/theories/CodecTables.v'

PATS = {
    '^x-': 'PatX',
    '^(get|put|post|delete|options|head|patch|trace)$': 'PatMethod',
    r'^[1-5](?:\d{2}|XX)$': 'PatStatus',
    '^[1-5](?:[0-9]{2}|XX)$': 'PatStatus',
    r'^\/': 'PatSlash',
    '^/': 'PatSlash',
    r'^[a-zA-Z0-9\.\-_]+$': 'PatName',
}
BASE = {'string': 'TStr', 'bool': 'TBool', 'int64': 'TInt', 'float64': 'TFloat',
        'interface{}': 'TAny', 'reflect.Type': 'TSkip'}


def q(s):
    assert '"' not in s
    return '"%s"' % s


def ty(t, par=False):
    if t in BASE:
        return BASE[t]
    if t.startswith('*'):
        r = 'TPtr ' + ty(t[1:], True)
    elif t.startswith('[]'):
        r = 'TArr ' + ty(t[2:], True)
    elif t.startswith('map[string]'):
        r = 'TMap ' + ty(t[11:], True)
    else:
        assert re.fullmatch(r'\w+', t), t
        r = 'TNamed ' + q(t)
    return '(%s)' % r if par else r


def jlit(v):
    if v is True:
        return 'JBool true'
    assert isinstance(v, str)
    return 'JStr ' + q(v)


def lst(xs):
    return '[' + '; '.join(xs) + ']'


def blocks(body):
    out, cur = [], []
    for l in body.split('\n'):
        if not l.strip():
            continue
        if re.match(r'^\t[^\t})]', l) and cur:
            out.append('\n'.join(cur))
            cur = [l]
        else:
            cur.append(l)
    if cur:
        out.append('\n'.join(cur))
    return [re.sub(r'\s+', ' ', b).strip() for b in out]


# The order in which the statements may stand.
STAGES = ['not', 'ms', 'struct', 'embed', 'oneof', 'raw', 'require', 'xor', 'const', 'notconst',
          'absent', 'lower', 'fix', 'known', 'pats', 'addl', 'closed', 'end']


class Ent:
    pass


def parse(path, label):
    src = open('%s/%s' % (REPO, path)).read()
    line = lambda pos: src.count('\n', 0, pos) + 1
    rng = lambda m: '%d-%d' % (line(m.start()), line(m.end() - 1))
    regex = {}
    for n, a, b in re.findall(r'^\t(regex\w*)\s+= regexp\.MustCompile\((?:"([^"]*)"|`([^`]*)`)\)', src, re.M):
        regex[n] = PATS[a or b]
    keys = {m[0]: re.findall(r'"(.*?)"', m[1])
            for m in re.findall(r'^var ((?:known|require)Keys\w+) = \[\]string\{\n(.*?)^\}', src, re.M | re.S)}
    consts = {n: json.loads(v) for n, v in re.findall(r'^var (const\w+) = json\.RawMessage\(`(.*)`\)', src, re.M)}
    U, M = {}, {}
    for m in re.finditer(r'^func \((\w+) (\*?)(\w+)\) (UnmarshalJSON|MarshalJSON)\([^)]*\)[^{]*\{\n(.*?)^\}', src, re.M | re.S):
        (U if m.group(4) == 'UnmarshalJSON' else M)[m.group(3)] = m
    ents = []
    for m in re.finditer(r'^type (\w+) struct(?: \{\n(.*?)^\}|\{\})', src, re.M | re.S):
        e = Ent()
        e.name, e.label, e.kind = m.group(1), label, 'struct'
        e.cite = 'type %s' % rng(m)
        e.fields = []
        for l in (m.group(2) or '').split('\n'):
            if not l.strip() or l.strip().startswith('//'):
                continue
            f = re.match(r'\s+(\w+)\s+(\S+)\s+`json:"([^"]*)"`(.*)', l)
            assert f, l
            name, t, tag, _ = f.groups()
            tag = tag.split(',')
            e.fields.append((name, t, None if tag[0] == '-' else tag[0], 'omitempty' in tag[1:]))
        idx = {f[0]: i for i, f in enumerate(e.fields)}
        d = dict(notty=[], struct=False, embed=[], oneof=[], require=[], xor=[], const=[], notconst=[], absent=[],
                 lower=[], fix=[], known=[], pats=[], addl=[], closed=False)
        if e.name in U:
            u = U[e.name]
            e.cite += ', UnmarshalJSON %s' % rng(u)
            rcv = u.group(1)
            bl = blocks(u.group(5))
            stage, i, ms, raw, pend = 0, 0, rcv, False, None

            def at(s):
                nonlocal stage
                k = STAGES.index(s)
                assert k >= stage, (e.name, s, STAGES[stage])
                stage = k

            def nxt(pat):
                nonlocal i
                r = re.fullmatch(pat, bl[i])
                if r:
                    i += 1
                return r

            def need(pat):
                r = nxt(pat)
                assert r, (e.name, bl[i], pat)
                return r

            while i < len(bl):
                if nxt('var err error'):
                    continue
                r = nxt(r'var not (\S+)')
                if r:
                    at('not')
                    d['notty'].append(r.group(1))
                    need(r'if json\.Unmarshal\(data, &not\) == nil \{ return errors\.New\("not constraint failed for %s"\) \}' % e.name)
                    continue
                r = nxt(r'(\w+) := marshal%s\(\*%s\)' % (e.name, rcv))
                if r:
                    at('ms')
                    ms = r.group(1)
                    assert re.search(r'^type marshal%s %s$' % (e.name, e.name), src, re.M)
                    continue
                if ms != rcv and nxt(r'err = json\.Unmarshal\(data, &%s\)' % ms):
                    at('struct')
                    need(r'if err != nil \{ return err \}')
                    d['struct'] = True
                    continue
                r = nxt(r'oneOfErrors := make\(map\[string\]error, (\d+)\)')
                if r:
                    at('oneof')
                    need('oneOfValid := 0')
                    for _ in range(int(r.group(1))):
                        f = need(r'err = json\.Unmarshal\(data, &%s\.(\w+)\)' % ms).group(1)
                        need(r'if err != nil \{ oneOfErrors\["%s"\] = err %s\.%s = nil \} else \{ oneOfValid\+\+ \}' % (f, ms, f))
                        d['oneof'].append(idx[f])
                    need(r'if oneOfValid != 1 \{ return fmt\.Errorf\(.*\) \}')
                    continue
                r = nxt(r'err = json\.Unmarshal\(data, &%s\.(\w+)\)' % ms)
                if r:
                    at('embed')
                    need(r'if err != nil \{ return err \}')
                    d['embed'].append(idx[r.group(1)])
                    continue
                if nxt(r'var rawMap map\[string\]json\.RawMessage'):
                    at('raw')
                    need(r'err = json\.Unmarshal\(data, &rawMap\)')
                    need(r'if err != nil \{ rawMap = nil \}')
                    raw = True
                    continue
                if nxt(r'for _, key := range requireKeys%s \{ if _, found := rawMap\[key\]; !found \{ return errors\.New\("required key missing: " \+ key\) \} \}' % e.name):
                    at('require')
                    assert raw
                    d['require'] = keys['requireKeys' + e.name]
                    continue
                r = nxt(r'_, (\w+)Exists := rawMap\["\1"\]')
                if r:
                    at('xor')
                    r2 = need(r'_, (\w+)Exists := rawMap\["\1"\]')
                    a, b = r.group(1), r2.group(1)
                    need(r'if %sExists && %sExists \{ return fmt\.Errorf\(.*?\) \} else if !%sExists && !%sExists \{ return fmt\.Errorf\(.*?\) \}' % (a, b, a, b))
                    d['xor'].append((a, b))
                    continue
                r = nxt(r'if v, exists := rawMap\["(\w+)"\]; exists && string\(v\) != (?:`"(\w+)"`|"(true)") \{ return fmt\.Errorf\(.*\) \}')
                if r:
                    at('const')
                    assert raw
                    d['const'].append((r.group(1), True if r.group(3) else r.group(2)))
                    pend = r.group(1)
                    if bl[i].startswith('if strings.ToLower'):
                        # the bearer check stands before the deletion of the key
                        continue
                    need(r'delete\(rawMap, "%s"\)' % pend)
                    pend = None
                    continue
                r = nxt(r'if strings\.ToLower\(%s\.(\w+)\) (==|!=) "(\w+)" \{ return errors\.New\(".*"\) \}' % ms)
                if r:
                    at('lower')
                    d['lower'].append((idx[r.group(1)], r.group(3), r.group(2) == '!='))
                    if pend:
                        need(r'delete\(rawMap, "%s"\)' % pend)
                        pend = None
                    continue
                r = nxt(r'if v, exists := rawMap\["(\w+)"\]; exists && string\(v\) == `"(\w+)"` \{ return fmt\.Errorf\(.*\) \}')
                if r:
                    at('notconst')
                    d['notconst'].append((r.group(1), r.group(2)))
                    pend = r.group(1)
                    continue
                r = nxt(r'if _, exists := rawMap\["(\w+)"\]; exists \{ return errors\.New\(.*\) \}')
                if r:
                    at('absent')
                    d['absent'].append(r.group(1))
                    if pend:
                        need(r'delete\(rawMap, "%s"\)' % pend)
                        pend = None
                    continue
                r = nxt(r'if %s\.(\w+) == nil \{ if _, ok := rawMap\["(\w+)"\]; ok \{ var v interface\{\} %s\.\1 = &v \} \}' % (ms, ms))
                if r:
                    at('fix')
                    d['fix'].append((idx[r.group(1)], r.group(2)))
                    continue
                if nxt(r'for _, key := range knownKeys%s \{ delete\(rawMap, key\) \}' % e.name):
                    at('known')
                    d['known'] = keys['knownKeys' + e.name]
                    continue
                if bl[i].startswith('for key, rawValue := range rawMap { matched := false'):
                    at('pats')
                    x = bl[i][len('for key, rawValue := range rawMap { matched := false'):]
                    one = (r' if (regex\w*)\.MatchString\(key\) \{ matched = true if %s\.(\w+) == nil \{ %s\.\2 = make\(map\[string\](\S+), 1\) \}'
                           r' var val (\S+) err = json\.Unmarshal\(rawValue, &val\) if err != nil \{ return err \} %s\.\2\[key\] = val \}' % (ms, ms, ms))
                    while True:
                        r = re.match(one, x)
                        if not r:
                            break
                        assert r.group(3) == r.group(4) and e.fields[idx[r.group(2)]][1] == 'map[string]' + r.group(3)
                        d['pats'].append((regex[r.group(1)], idx[r.group(2)]))
                        x = x[r.end():]
                    assert x == ' if matched { delete(rawMap, key) } }', (e.name, x)
                    i += 1
                    continue
                r = nxt(r'for key, rawValue := range rawMap \{ if %s\.(\w+) == nil \{ %s\.\1 = make\(map\[string\](\w+), 1\) \} var val (\w+) err = json\.Unmarshal\(rawValue, &val\) if err != nil \{ return err \} %s\.\1\[key\] = val \}' % (ms, ms, ms))
                if r:
                    at('addl')
                    assert r.group(2) == r.group(3)
                    d['addl'].append(idx[r.group(1)])
                    continue
                if nxt(r'if len\(rawMap\) != 0 \{ offendingKeys := .* return fmt\.Errorf\("additional properties not allowed in %s: %%v", offendingKeys\) \}' % e.name):
                    at('closed')
                    d['closed'] = True
                    continue
                if ms != rcv and nxt(r'\*%s = %s\(%s\)' % (rcv, e.name, ms)):
                    at('end')
                    continue
                if nxt('return nil'):
                    at('end')
                    continue
                raise Exception((e.name, bl[i]))
            assert pend is None
        else:
            d['struct'] = True
        e.dec = d
        if e.name in M:
            mm = M[e.name]
            e.cite += ', MarshalJSON %s' % rng(mm)
            rcv = mm.group(1)
            r = re.fullmatch(r'return marshalUnion\((.*)\)', re.sub(r'\s+', ' ', mm.group(5)).strip())
            assert r, mm.group(5)
            e.parts = []
            for a in r.group(1).split(', '):
                if a in consts:
                    e.parts.append('PConst ' + lst(['(%s, %s)' % (q(k), jlit(v)) for k, v in consts[a].items()]))
                elif a == 'marshal%s(%s)' % (e.name, rcv):
                    e.parts.append('PStruct')
                else:
                    assert a.startswith(rcv + '.'), a
                    e.parts.append('PField %d' % idx[a[len(rcv) + 1:]])
        else:
            e.parts = ['PStruct']
        ents.append(e)
    for m in re.finditer(r'^type (\w+) string$', src, re.M):
        e = Ent()
        e.name, e.label, e.kind = m.group(1), label, 'enum'
        pairs = dict(re.findall(r'^\t(\w+)\s+= %s\("(\w+)"\)' % e.name, src, re.M))
        for f in (U, M):
            cs = re.findall(r'case (\w+):', f[e.name].group(5))
            assert sorted(cs) == sorted(pairs), e.name
            body = re.sub(r'\s+', ' ', f[e.name].group(5))
            assert 'default: return' in body
        e.vals = list(pairs.values())
        e.cite = 'type %d, UnmarshalJSON %s, MarshalJSON %s' % (line(m.start()), rng(U[e.name]), rng(M[e.name]))
        ents.append(e)
    return ents


def render(e, path):
    n = 'e%s_%s' % (e.label, e.name)
    out = ['(* %s: %s *)' % (path, e.cite)]
    if e.kind == 'enum':
        out.append('Definition %s : ent := EEnum %s.' % (n, lst([q(v) for v in e.vals])))
        return n, out
    out.append('Definition %s : ent := EStruct' % n)
    fs = ['mkField %s %s %s %s' % (q(a), ty(t, True), '(Some %s)' % q(k) if k else 'None', 'true' if o else 'false')
          for a, t, k, o in e.fields]
    if fs:
        out.append('  [' + ';\n   '.join(fs) + ']')
    else:
        out.append('  []')
    out.append('  ' + lst(e.parts))
    d = e.dec
    s = lambda xs: lst([q(x) for x in xs])
    nn = lambda xs: lst([str(x) for x in xs])
    out.append('  {| d_not := %s; d_struct := %s; d_embed := %s; d_oneof := %s;' % (
        lst([ty(t) for t in d['notty']]), 'true' if d['struct'] else 'false', nn(d['embed']), nn(d['oneof'])))
    out.append('     d_require := %s;' % s(d['require']))
    out.append('     d_xor := %s; d_const := %s; d_notconst := %s; d_absent := %s;' % (
        lst(['(%s, %s)' % (q(a), q(b)) for a, b in d['xor']]),
        lst(['(%s, %s)' % (q(a), jlit(b)) for a, b in d['const']]),
        lst(['(%s, %s)' % (q(a), jlit(b)) for a, b in d['notconst']]), s(d['absent'])))
    out.append('     d_lower := %s; d_fix := %s;' % (
        lst(['(%d, %s, %s)' % (a, q(b), 'true' if c else 'false') for a, b, c in d['lower']]),
        lst(['(%d, %s)' % (a, q(b)) for a, b in d['fix']])))
    out.append('     d_known := %s;' % s(d['known']))
    out.append('     d_pats := %s; d_addl := %s; d_closed := %s |}.' % (
        lst(['(%s, %d)' % (a, b) for a, b in d['pats']]), nn(d['addl']), 'true' if d['closed'] else 'false'))
    return n, out


out = ['(* The generated entity types of both packages: their fields with JSON keys, what',
       '   UnmarshalJSON checks and where it puts things, what MarshalJSON joins.',
       '   Written by tools/gen_codec.py from the text of openapi3/entities.go and',
       '   openapi31/entities.go; the comments cite the lines. *)',
       'From Verif Require Import Str Json CodecModel.', '']
for path, label in (('openapi3/entities.go', '30'), ('openapi31/entities.go', '31')):
    names = []
    for e in parse(path, label):
        n, o = render(e, path)
        names.append((e.name, n))
        out += o + ['']
    out.append('(* All of %s. *)' % path)
    out.append('Definition T%s : list (string * ent) :=' % label)
    out.append('  [' + ';\n   '.join('(%s, %s)' % (q(a), b) for a, b in names) + '].')
    out.append('')
open(OUT, 'w').write('\n'.join(out))
print(len(out), 'lines')
