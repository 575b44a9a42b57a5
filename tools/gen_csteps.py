#!/usr/bin/env python3
"""Translates the step lists of /repo/cgo/sha1.c (as text) into rocq/theories/Gen_CSteps.v.
Only calls of the step macros, their order, guards and the switch are taken from the text; every other line
of the functions concerned must be exactly the one expected here."""
import re, sys
src = open(sys.argv[1] if len(sys.argv) > 1 else '/repo/cgo/sha1.c').read().split('\n')
hdr = open(sys.argv[2] if len(sys.argv) > 2 else '/repo/cgo/ubc_check.h').read().split('\n')
out = sys.argv[3] if len(sys.argv) > 3 else '/verif/rocq/theories/Gen_CSteps.v'
def find(line, a=0):
    i = next(i for i in range(a, len(src)) if src[i].startswith(line))
    return i
V = lambda x: 'V' + x
def args(s): return [x.strip() for x in s.split(',')]
def perm(a):
    assert all(x in 'abcde' and len(x) == 1 for x in a) and len(a) == 5, a
    return ' '.join(V(x) for x in a)
def hstep(s, arr, suffix=''):
    m = re.match(r'HASHCLASH_SHA1COMPRESS_ROUND([1-4])_STEP%s\((.*)\);$' % suffix, s)
    assert m, s
    a = args(m.group(2))
    assert a[5] == arr and len(a) == 7, s
    return 'mkcstep %s %s %s' % (m.group(1), perm(a[:5]), a[6])
ADD = ['ihv[%d] += %s;' % (i, c) for i, c in enumerate('abcde')]

# sha1_compression_W
i0 = find('static void sha1_compression_W(uint32_t ihv[5], const uint32_t W[80])')
j = i0 + 1; W = []; rest = []
while src[j] != '}':
    l = src[j].strip()
    if l.startswith('HASHCLASH'):
        assert rest == ['{', 'uint32_t a = ihv[0], b = ihv[1], c = ihv[2], d = ihv[3], e = ihv[4];'], rest
        W.append((j + 1, hstep(l, 'W')))
    elif l: rest.append(l)
    j += 1
assert rest[2:] == ADD, rest
rW = (i0 + 1, j + 1)

# sha1_compression
i0 = find('void sha1_compression(uint32_t ihv[5], const uint32_t m[16])')
assert src[i0 - 1] == '#ifdef BUILDNOCOLLDETECTSHA1COMPRESSION'
j = i0 + 1; P = []; rest = []
while src[j] != '}':
    l = src[j].strip()
    if l.startswith('HASHCLASH'):
        assert rest == ['{', 'uint32_t W[80];', 'uint32_t a, b, c, d, e;', 'unsigned i;', 'memcpy(W, m, 16 * 4);', 'for (i = 16; i < 80; ++i)',
                        'W[i] = sha1_mix(W, i);'] + ['%s = ihv[%d];' % (c, i) for i, c in enumerate('abcde')], rest
        P.append((j + 1, hstep(l, 'W')))
    elif l: rest.append(l)
    j += 1
assert rest[12:] == ADD, rest
rP = (i0 + 1, j + 1)

# sha1_compression_states
i0 = find('void sha1_compression_states(')
assert src[i0] == 'void sha1_compression_states(uint32_t ihv[5], const uint32_t m[16], uint32_t W[80], uint32_t states[80][5])'
j = i0 + 1; S = []; rest = []; guard = None
while src[j] != '}':
    l = src[j].strip()
    m = re.match(r'#ifdef (\w+)$', l)
    if m:
        assert guard is None; guard = m.group(1)
    elif l == '#endif': assert guard; guard = None
    elif l.startswith('SHA1_STORE_STATE'):
        assert guard
        m = re.match(r'SHA1_STORE_STATE\((\d+)\)$', l)
        S.append((j + 1, 'CStore "%s" %s' % (guard, m.group(1))))
    elif l.startswith('SHA1COMPRESS_FULL'):
        assert guard is None and len(rest) == 3
        m = re.match(r'SHA1COMPRESS_FULL_ROUND([1-4])_STEP(_LOAD|_EXPAND|)\((.*)\);$', l)
        a = args(m.group(3)); r, k = m.group(1), m.group(2)
        if k == '_LOAD':
            assert r == '1' and a[5:7] == ['m', 'W'] and a[8] == 'temp' and len(a) == 9
            S.append((j + 1, 'CFull FLoad %s %s' % (perm(a[:5]), a[7])))
        else:
            assert (k == '_EXPAND') == (r == '1') and a[5] == 'W' and a[7] == 'temp' and len(a) == 8
            S.append((j + 1, 'CFull %s %s %s' % ('FExpand' if r == '1' else '(FRound %s)' % r, perm(a[:5]), a[6])))
    elif l: rest.append(l)
    j += 1
assert rest == ['{', 'uint32_t a = ihv[0], b = ihv[1], c = ihv[2], d = ihv[3], e = ihv[4];', 'uint32_t temp;'] + ADD, rest
rS = (i0 + 1, j + 1)

# SHA1_RECOMPRESS
i0 = find('#define SHA1_RECOMPRESS(t)')
j = i0 + 1; L = []
while True:
    cont = src[j].rstrip().endswith('\\')
    l = src[j].rstrip().rstrip('\\').strip()
    if l: L.append((j + 1, l))
    if not cont: break
    j += 1
rR = (i0 + 1, j + 1)
txt = [l for _, l in L]
assert txt[0] == 'static void sha1recompress_fast_##t(uint32_t ihvin[5], uint32_t ihvout[5], const uint32_t me2[80], const uint32_t state[5])'
assert txt[1:3] == ['{', 'uint32_t a = state[0], b = state[1], c = state[2], d = state[3], e = state[4];'], txt[1:3]
p = 3; B = []; F = []
while txt[p].startswith('if'):
    m = re.match(r'if \(t > (\d+)\)$', txt[p])
    B.append((L[p][0], '(%s, %s)' % (m.group(1), hstep(txt[p + 1], 'me2', '_BW')))); p += 2
assert txt[p:p + 5] == ['ihvin[%d] = %s;' % (i, c) for i, c in enumerate('abcde')], txt[p:p+5]
assert txt[p + 5:p + 10] == ['%s = state[%d];' % (c, i) for i, c in enumerate('abcde')]
p += 10
while txt[p].startswith('if'):
    m = re.match(r'if \(t <= (\d+)\)$', txt[p])
    F.append((L[p][0], '(%s, %s)' % (m.group(1), hstep(txt[p + 1], 'me2')))); p += 2
assert txt[p:] == ['ihvout[%d] = ihvin[%d] + %s;' % (i, i, c) for i, c in enumerate('abcde')] + ['}'], txt[p:]

# instances
D = []; a = j + 1
i1 = find('static void sha1_recompression_step(')
guard = None
for k in range(a, i1):
    l = src[k].strip()
    m = re.match(r'#ifdef (\w+)$', l)
    if m: assert guard is None; guard = m.group(1)
    elif l == '#endif': assert guard; guard = None
    elif l.startswith('SHA1_RECOMPRESS'):
        assert guard
        D.append((k + 1, '("%s", %s)' % (guard, re.match(r'SHA1_RECOMPRESS\((\d+)\)$', l).group(1))))
    else: assert l == '' or (guard == '_MSC_VER' and l.startswith('#pragma warning')), l
# switch
assert src[i1] == 'static void sha1_recompression_step(uint32_t step, uint32_t ihvin[5], uint32_t ihvout[5], const uint32_t me2[80], const uint32_t state[5])'
j = i1 + 1; C = []; rest = []; guard = None
while src[j] != '}':
    l = src[j].strip()
    m = re.match(r'#ifdef (\w+)$', l)
    if m: assert guard is None; guard = m.group(1)
    elif l == '#endif': assert guard; guard = None
    elif l.startswith('case'):
        assert guard
        c = re.match(r'case (\d+):$', l).group(1)
        f = re.match(r'sha1recompress_fast_(\d+)\(ihvin, ihvout, me2, state\);$', src[j + 1].strip()).group(1)
        assert src[j + 2].strip() == 'break;'
        C.append((j + 1, '("%s", %s, %s)' % (guard, c, f))); j += 2
    elif l: rest.append(l)
    j += 1
assert rest == ['{', 'switch (step)', '{', 'default:', 'abort();', '}'], rest
rC = (i1 + 1, j + 1)
# padding table
k = find('static const unsigned char sha1_padding[64] =')
t = ' '.join(x.strip() for x in src[k + 1:k + 6])
m = re.match(r'\{([^}]*)\};', t)
pad = [int(x, 0) for x in m.group(1).split(',')]
pad += [0] * (64 - len(pad))
macros = [re.match(r'#define (DOSTORESTATE\w+)$', l.strip()).group(1) for l in hdr if l.strip().startswith('#define DOSTORESTATE')]
def lst(xs): return ';\n'.join('  (* %d *) %s' % x for x in xs)
with open(out, 'w') as f:
    f.write('''(** Generated by tools/gen_csteps.py from the text of /repo/cgo/sha1.c and /repo/cgo/ubc_check.h; do not edit.
    The number in the comment of an entry is the line of sha1.c.  See Model_C.v for the meaning of the entries. *)
From Coq Require Import NArith String List Strings.Byte.
From Verif Require Import Model_CSteps.
Import ListNotations.
Local Open Scope string_scope.

(** /repo/cgo/ubc_check.h: the macros DOSTORESTATE that are defined. *)
Definition dostore : list string := [%s].

(** /repo/cgo/sha1.c lines %d-%d: the steps of sha1_compression_W. *)
Definition comp_W_steps : list cstep := [
%s
].

(** /repo/cgo/sha1.c lines %d-%d: the steps of sha1_compression (compiled only under BUILDNOCOLLDETECTSHA1COMPRESSION). *)
Definition comp_plain_steps : list cstep := [
%s
].

(** /repo/cgo/sha1.c lines %d-%d: sha1_compression_states. *)
Definition comp_states_items : list citem := [
%s
].

(** /repo/cgo/sha1.c lines %d-%d: SHA1_RECOMPRESS, backward half: (k, step) is "if (t > k) step". *)
Definition recomp_back : list (nat * cstep) := [
%s
].

(** Forward half: (k, step) is "if (t <= k) step". *)
Definition recomp_fwd : list (nat * cstep) := [
%s
].

(** The instances SHA1_RECOMPRESS(t), with the macro that guards each. *)
Definition recomp_defs : list (string * nat) := [
%s
].

(** /repo/cgo/sha1.c lines %d-%d: the switch of sha1_recompression_step: guard, case label, suffix of the function called. *)
Definition recomp_cases : list (string * nat * nat) := [
%s
].

(** /repo/cgo/sha1.c lines %d-%d: sha1_padding. *)
Definition sha1_padding : list byte := [%s].
''' % ('; '.join('"%s"' % m for m in macros), rW[0], rW[1], lst(W), rP[0], rP[1], lst(P), rS[0], rS[1], lst(S), rR[0], rR[1], lst(B), lst(F), lst(D),
       rC[0], rC[1], lst(C), k + 1, k + 6, '; '.join('x%02x' % b for b in pad)))
print(len(W), len(S), len(B), len(F), len(D), len(C), macros, len(pad))
