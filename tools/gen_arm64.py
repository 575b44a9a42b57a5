#!/usr/bin/env python3
"""Translates /repo/sha1cdblock_arm64.s (as text) into rocq/theories/Gen_Arm64.v: macros expanded, labels resolved."""
import re, sys
src = open(sys.argv[1] if len(sys.argv) > 1 else '/repo/sha1cdblock_arm64.s').read().split('\n')
out = sys.argv[2] if len(sys.argv) > 2 else '/verif/rocq/theories/Gen_Arm64.v'
macros, body, i, start, data = {}, [], 0, None, []
while i < len(src):
    l = src[i]
    m = re.match(r'#define (\w+)(.*)', l)
    if m:
        txt = m.group(2)
        while txt.rstrip().endswith('\\'):
            i += 1
            txt = txt.rstrip()[:-1] + '\n' + src[i]
        macros[m.group(1)] = [x.strip() for x in txt.split('\n') if x.strip()]
    elif l.startswith('TEXT'):
        assert l == 'TEXT ·blockARM64(SB), NOSPLIT, $80-96', l
        start = i
    elif l.startswith('DATA'):
        m = re.match(r'DATA ·sha1Ks\+(\d+)\(SB\)/4,\s+\$(0x[0-9A-F]+)', l)
        data.append((int(m.group(1)), m.group(2)))
    elif l.startswith('GLOBL'):
        assert l == 'GLOBL ·sha1Ks(SB), RODATA, $16'
    elif start is not None:
        c = l.split('//')[0].strip()
        if c: body.append((i + 1, c))
    i += 1
exp = []
for n, c in body:
    for x in macros.get(c, [c]): exp.append((n, x))
labels, prog = {}, []
for n, c in exp:
    m = re.match(r'(\w+):$', c)
    if m: labels[m.group(1)] = len(prog)
    else: prog.append((n, c))
V = r'V(\d+)'
R = r'R(\d+)'
rules = [
    (r'MOVD \w+\+(\d+)\(FP\), ' + R, 'MOVD_arg {} {}'),
    (r'MOVD \$·sha1Ks\(SB\), ' + R, 'MOVD_ks {}'),
    (r'LSR \$(\d+), %s, %s' % (R, R), 'LSR {} {} {}'),
    (r'LSL \$(\d+), %s, %s' % (R, R), 'LSL {} {} {}'),
    (r'ADD %s, %s, %s' % (R, R, R), 'ADD {} {} {}'),
    (r'SUB \$(\d+), %s, %s' % (R, R), 'SUB_imm {} {} {}'),
    (r'CMP %s, %s' % (R, R), 'CMP {} {}'),
    (r'VLD1\.P 16\(%s\), \[%s\.(?:S4|B16)\]' % (R, V), 'VLD1P {} {}'),
    (r'VLD1 \(%s\), \[%s\.S4\]' % (R, V), 'VLD1 {} {}'),
    (r'FMOVS \(%s\), F(\d+)' % R, 'FMOVS_load {} {}'),
    (r'FMOVS F(\d+), \(%s\)' % R, 'FMOVS_store {} {}'),
    (r'VST1\.P \[%s\.S4\], \(%s\)' % (V, R), 'VST1P {} {}'),
    (r'VST1\.P %s\.S\[(\d)\], 4\(%s\)' % (V, R), 'VST1P_lane {} {} {}'),
    (r'VMOV %s\.B16, %s\.B16' % (V, V), 'VMOV {} {}'),
    (r'VMOV %s\.S\[(\d)\], %s' % (V, V), 'VMOV_lane {} {} {}'),
    (r'VDUP %s\.S\[(\d)\], %s\.S4' % (V, V), 'VDUP {} {} {}'),
    (r'VREV32 %s\.B16, %s\.B16' % (V, V), 'VREV32 {} {}'),
    (r'VADD %s\.S4, %s\.S4, %s\.S4' % (V, V, V), 'VADD {} {} {}'),
    (r'SHA1SU0 %s\.S4, %s\.S4, %s\.S4' % (V, V, V), 'SHA1SU0 {} {} {}'),
    (r'SHA1SU1 %s\.S4, %s\.S4' % (V, V), 'SHA1SU1 {} {}'),
    (r'SHA1C %s\.S4, %s, %s' % (V, V, V), 'SHA1C {} {} {}'),
    (r'SHA1P %s\.S4, %s, %s' % (V, V, V), 'SHA1P {} {} {}'),
    (r'SHA1M %s\.S4, %s, %s' % (V, V, V), 'SHA1M {} {} {}'),
    (r'SHA1H %s, %s' % (V, V), 'SHA1H {} {}'),
    (r'RET', 'ARET'),
]
def tr(c):
    c = re.sub(r'\s+', ' ', c)
    m = re.fullmatch(r'BLS (\w+)', c)
    if m: return 'BLS %d' % labels[m.group(1)]
    for pat, t in rules:
        m = re.fullmatch(pat, c)
        if m: return t.format(*m.groups())
    raise Exception('unknown: ' + c)
lines = [(n, tr(c)) for n, c in prog]
d = sorted(data)
assert [o for o, _ in d] == [0, 4, 8, 12]
with open(out, 'w') as f:
    f.write("""(** Generated by tools/gen_arm64.py from the text of /repo/sha1cdblock_arm64.s; do not edit. *)
From Coq Require Import NArith String List Strings.Byte.
From Verif Require Import Model_Asm Model_Arm64.
Import ListNotations.

(** /repo/sha1cdblock_arm64.s lines 31-243: blockARM64, macros HASHUPDATE* (lines 15-28) expanded, labels replaced by
    instruction indices (loop = %d, end = %d).  The number in the comment is the source line. *)
Definition arm64_prog : list ainstr := [
""" % (labels['loop'], labels['end']))
    f.write(';\n'.join('  (* %d *) %s' % x for x in lines) + '\n].\n')
    f.write("\n(** /repo/sha1cdblock_arm64.s lines 245-249: DATA sha1Ks. *)\nDefinition sha1Ks : list byte := %s.\n"
            % ' ++ '.join('le32 %s' % x for _, x in d))
with open(out, 'a') as f:
    ms = [c.split()[0] for _, c in prog]
    f.write("\n(** The mnemonics of the same instructions. *)\nDefinition arm64_mnem : list string := [\n" )
    f.write(';\n'.join('  ' + '; '.join('"%s"' % m for m in ms[i:i+10]) for i in range(0, len(ms), 10)) + ']%string.\n')
print(len(lines), 'instructions')
