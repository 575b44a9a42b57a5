#!/usr/bin/env python3
"""Reads the methods and interface types of the files of packages sha1cd and cgo (as text) and writes rocq/theories/Gen_Methods.v.
usage: gen_methods.py [repo [out]]"""
import os, re, sys
repo = sys.argv[1] if len(sys.argv) > 1 else '/repo'
out = sys.argv[2] if len(sys.argv) > 2 else '/verif/rocq/theories/Gen_Methods.v'

def q(s):
    assert '"' not in s and all(ord(c) < 128 for c in s), s
    return '"%s"' % s

def types(l):
    """parameter list -> types; either all parameters are named or none is"""
    ps = [p.strip() for p in l.split(',')] if l.strip() else []
    if ps and all(re.match(r'[A-Za-z_]\w*\s+\S', p) for p in ps): ps = [re.sub(r'^\w+\s+', '', p) for p in ps]
    assert all(re.match(r'^[\w\[\].*]+$', p) for p in ps), l
    return '[%s]' % '; '.join(q(p) for p in ps)

def sig(s):
    m = re.match(r'\(([^()]*)\)\s*(?:\(([^()]*)\)|([^\s{(]*))\s*(?:\{.*)?$', s)
    assert m, s
    return types(m.group(1)), types(m.group(2) if m.group(2) is not None else m.group(3))

def read(d):
    r, ifs = [], []
    for f in sorted(os.listdir(os.path.join(repo, d))):
        if not f.endswith('.go') or f.endswith('_test.go'): continue
        ms, cur = [], None
        for n, l in enumerate(open(os.path.join(repo, d, f)).read().split('\n')):
            m = re.match(r'func \(\w* ?(\*?)(\w+)\) (\w+)(\(.*)$', l)
            if m: ms.append('mkmeth %s %s %s %s %s (* line %d *)' % ((q(m.group(2)), 'true' if m.group(1) else 'false', q(m.group(3))) + sig(m.group(4)) + (n + 1,)))
            elif l.startswith('func ('): raise SystemExit('method not understood: ' + l)
            m = re.match(r'type (\w+) interface \{$', l)
            if m: cur = (f, n + 1, m.group(1), [], [])
            elif cur and l == '}': ifs.append(cur); cur = None
            elif cur and l.strip() and not l.strip().startswith('//'):
                m = re.match(r'\t(\w+)(\(.*)$', l)
                if m: cur[3].append('(%s, %s, %s)' % ((q(m.group(1)),) + sig(m.group(2))))
                else: cur[4].append(q(l.strip()))
        r.append((f, ms))
    return r, ifs

with open(out, 'w') as o:
    o.write('''(** GENERATED by tools/gen_methods.py from the text of /repo; do not edit. *)
From Coq Require Import String List.
From Verif Require Import Model_Iface.
Import ListNotations.
Local Open Scope string_scope.

''')
    for name, d in (('meths_sha1cd', ''), ('meths_cgo', 'cgo')):
        ms, ifs = read(d)
        o.write('(** The methods of the files of /repo/%s. *)\nDefinition %s : list (string * list meth) := [\n' % (d, name))
        o.write(';\n'.join('  (%s, [%s])' % (q(f), ';\n    '.join(m)) for f, m in ms) + '].\n')
        for f, n, t, m, e in ifs:
            o.write('(** /repo/%s line %d: methods and embedded interfaces. *)\nDefinition %s : list (string * list string * list string) * list string := ([%s], [%s]).\n' % (os.path.join(d, f), n, t, '; '.join(m), '; '.join(e)))
        o.write('\n')
