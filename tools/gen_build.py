#!/usr/bin/env python3
"""Reads build constraints, top-level functions, TEXT symbols and the CPU feature tests of the files of packages sha1cd and cgo
(as text) and writes rocq/theories/Gen_Build.v.   usage: gen_build.py [repo [out]]"""
import os, re, sys
repo = sys.argv[1] if len(sys.argv) > 1 else '/repo'
out = sys.argv[2] if len(sys.argv) > 2 else '/verif/rocq/theories/Gen_Build.v'

def q(s):
    assert '"' not in s and all(ord(c) < 128 for c in s), s
    return '"%s"' % s

def parse(s):
    """go:build expression -> Coq term"""
    toks = re.findall(r'\|\||&&|!|\(|\)|[\w.]+', s)
    assert ''.join(toks) == s.replace(' ', ''), s
    pos = [0]
    def peek(): return toks[pos[0]] if pos[0] < len(toks) else None
    def nxt(): pos[0] += 1; return toks[pos[0] - 1]
    def por():
        x = pand()
        while peek() == '||': nxt(); x = '(BOr %s %s)' % (x, pand())
        return x
    def pand():
        x = pnot()
        while peek() == '&&': nxt(); x = '(BAnd %s %s)' % (x, pnot())
        return x
    def pnot():
        if peek() == '!': nxt(); return '(BNot %s)' % pnot()
        if peek() == '(':
            nxt(); x = por(); assert nxt() == ')'; return x
        return '(BTag %s)' % q(nxt())
    r = por()
    assert peek() is None
    return r

def plus(s):
    """one +build line: spaces are or, commas are and"""
    def term(t): return '(BNot (BTag %s))' % q(t[1:]) if t.startswith('!') else '(BTag %s)' % q(t)
    def conj(o):
        ts = [term(t) for t in o.split(',')]
        x = ts[0]
        for t in ts[1:]: x = '(BAnd %s %s)' % (x, t)
        return x
    os_ = [conj(o) for o in s.split()]
    x = os_[0]
    for o in os_[1:]: x = '(BOr %s %s)' % (x, o)
    return x

def files(d):
    r = []
    for f in sorted(os.listdir(os.path.join(repo, d))):
        if not re.search(r'\.(go|s)$', f) or f.endswith('_test.go'): continue
        lines = open(os.path.join(repo, d, f)).read().split('\n')
        gb, pb, funcs, texts, impc, consts, inconst = None, [], [], [], False, [], False
        inheader = True
        for n, l in enumerate(lines):
            if inheader and l.strip() and not l.startswith('//'): inheader = False
            if inheader:
                m = re.match(r'//go:build (.*)$', l)
                if m: assert gb is None; gb = parse(m.group(1))
                m = re.match(r'// \+build (.*)$', l)
                if m: pb.append(plus(m.group(1)))
            if l.strip() == 'import "C"': impc = True
            m = re.match(r'const (\w+)', l)
            if m: consts.append(m.group(1))
            if l == 'const (': inconst = True
            elif l == ')': inconst = False
            elif inconst:
                m = re.match(r'\t(\w+)\s', l)
                if m: consts.append(m.group(1))
            m = re.match(r'func (\w+)(.*)$', l)
            if m:
                sig = m.group(2)
                k = n
                while sig.count('(') > sig.count(')'):
                    k += 1; sig += ' ' + lines[k].strip()
                body = sig.rstrip().endswith('{')
                sig = re.sub(r'\s*\{$', '', sig).strip()
                funcs.append('mkfn %s %s %s (* line %d *)' % (q(m.group(1)), q(re.sub(r'\s+', ' ', sig)), 'true' if body else 'false', n + 1))
            m = re.match(r'TEXT\s+·(\w+)\(SB\)', l)
            if m: texts.append(q(m.group(1)))
        r.append((f, gb, pb, impc, funcs, texts, [q(c) for c in consts]))
    return r

def emit(name, d, o):
    o.write('(** The files of /repo/%s, without tests; C files carry no constraints and are not listed. *)\nDefinition %s : list gofile := [\n' % (d, name))
    rows = []
    for f, gb, pb, impc, funcs, texts, consts in files(d):
        rows.append('  mkgf %s %s [%s] %s\n    [%s]\n    [%s] [%s]' % (q(f), '(Some %s)' % gb if gb else 'None', '; '.join(pb), 'true' if impc else 'false', ';\n     '.join(funcs), '; '.join(texts), '; '.join(consts)))
    o.write(';\n'.join(rows) + '].\n\n')

def feats(f, var):
    s = open(os.path.join(repo, f)).read()
    m = re.search(r'var %s = \((runtime.GOARCH == "\w+"(?: &&\s*cpuid\.CPU\.Supports\(cpuid\.\w+\))*)\)' % var, s)
    assert m, f
    ln = s[:m.start()].count('\n') + 1
    return ln, re.findall(r'cpuid\.CPU\.Supports\(cpuid\.(\w+)\)', m.group(1))

with open(out, 'w') as o:
    o.write('''(** GENERATED by tools/gen_build.py from the text of /repo; do not edit. *)
From Coq Require Import String List.
From Verif Require Import Model_Build.
Import ListNotations.
Local Open Scope string_scope.

''')
    emit('pkg_sha1cd', '', o)
    emit('pkg_cgo', 'cgo', o)
    for f, v, n in (('sha1cdblock_amd64.go', 'hasSHANI', 'amd64_features'), ('sha1cdblock_arm64.go', 'hasSHA1', 'arm64_features')):
        ln, fs = feats(f, v)
        o.write('(** /repo/%s line %d: the features that %s tests. *)\nDefinition %s : list string := [%s].\n' % (f, ln, v, n, '; '.join(q(x) for x in fs)))
