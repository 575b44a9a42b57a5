#!/usr/bin/env python3
"""Translates /repo/sha1cdblock_amd64.s (as text) into rocq/theories/Gen_Amd64.v: macros expanded, labels resolved."""
import re, sys
src = open(sys.argv[1] if len(sys.argv) > 1 else '/repo/sha1cdblock_amd64.s').read().split('\n')
out = sys.argv[2] if len(sys.argv) > 2 else '/verif/rocq/theories/Gen_Amd64.v'
macros, body, i = {}, [], 0
start = None
data = {}
while i < len(src):
    l = src[i]
    m = re.match(r'#define (\w+)\(([^)]*)\)(.*)', l)
    if m:
        txt = m.group(3)
        while txt.rstrip().endswith('\\'):
            i += 1
            txt = txt.rstrip()[:-1] + '\n' + src[i]
        macros[m.group(1)] = ([a.strip() for a in m.group(2).split(',')], [x.strip().rstrip(';').strip() for x in txt.split('\n') if x.strip()])
    elif l.startswith('TEXT'):
        assert l == 'TEXT ·blockAMD64(SB), NOSPLIT, $80-96', l
        start = i
    elif l.startswith('DATA'):
        m = re.match(r'DATA (\w+)<>\+(\d+)\(SB\)/8, \$(0x[0-9a-f]+)$', l)
        data.setdefault(m.group(1), []).append((int(m.group(2)), m.group(3)))
    elif l.startswith('GLOBL'):
        assert re.match(r'GLOBL \w+<>\(SB\), RODATA, \$16$', l)
    elif start is not None:
        c = l.split('//')[0].strip()
        if c: body.append((i + 1, c))
    i += 1
# expand macros
exp = []
for n, c in body:
    m = re.match(r'(LOAD\w+)\((.*)\)$', c)
    if m:
        args = [a.strip() for a in m.group(2).split(',')]
        ps, ls = macros[m.group(1)]
        assert len(ps) == len(args)
        for x in ls:
            for p, a in zip(ps, args): x = re.sub(r'\b%s\b' % p, a, x)
            exp.append((n, x))
    else: exp.append((n, c))
labels, prog = {}, []
for n, c in exp:
    m = re.match(r'(\w+):$', c)
    if m: labels[m.group(1)] = len(prog)
    else: prog.append((n, c))
def num(x): return str(int(x.lstrip('$'), 0))
def split(s):
    r, d, cur = [], 0, ''
    for ch in s:
        if ch == '(': d += 1
        if ch == ')': d -= 1
        if ch == ',' and d == 0: r.append(cur.strip()); cur = ''
        else: cur += ch
    return r + [cur.strip()] if cur.strip() else r
GR = ['AX', 'CX', 'DX', 'SI', 'DI', 'R12', 'R13', 'R15', 'SP']
def isx(a): return re.match(r'X\d+$', a)
def isg(a): return a in GR
def isi(a): return a.startswith('$')
def xn(a): return a[1:]
def mem(a):
    m = re.match(r'(\w+)\+(\d+)\(FP\)$', a)
    if m: return '(mka BFP %s)' % m.group(2)
    m = re.match(r'(\w+)<>\+(\d+)\(SB\)$', a)
    if m: return '(mka %s %s)' % ({'upper_mask': 'BUpper', 'shuffle_mask': 'BShuffle'}[m.group(1)], m.group(2))
    m = re.match(r'(.*)\((\w+)\)$', a)
    if m and isg(m.group(2)):
        e = m.group(1).strip()
        assert re.match(r'[-+*()\d\s]*$', e), e
        v = eval(e) if e else 0
        assert v >= 0
        return '(mka (BReg %s) %d)' % (m.group(2), v)
    return None
def vs(a):
    return '(VX %s)' % xn(a) if isx(a) else '(VM %s)' % mem(a)
def tr(c):
    op, _, rest = c.partition(' ')
    if '\t' in op: op, _, rest = c.partition('\t')
    a = split(rest.strip())
    if op == 'RET': return 'RET'
    if op in ('JEQ', 'JNE'): return '%s %d' % (op, labels[a[0]])
    if op == 'MOVQ':
        if isi(a[0]) and isg(a[1]): return 'MOVQ_imm %s %s' % (num(a[0]), a[1])
        if mem(a[0]) and isg(a[1]): return 'MOVQ_load %s %s' % (mem(a[0]), a[1])
    if op == 'CMPQ' and isg(a[0]): return ('CMPQ_imm %s %s' % (a[0], num(a[1]))) if isi(a[1]) else 'CMPQ %s %s' % (a[0], a[1])
    if op == 'ADDQ' and isg(a[1]): return ('ADDQ_imm %s %s' % (num(a[0]), a[1])) if isi(a[0]) else 'ADDQ %s %s' % (a[0], a[1])
    if op == 'LEAQ': return 'LEAQ %s %s' % (mem(a[0]), a[1])
    if op == 'NOTQ': return 'NOTQ %s' % a[0]
    if op == 'ANDQ' and isg(a[0]) and isg(a[1]): return 'ANDQ %s %s' % tuple(a)
    if op == 'ROLL': return 'ROLL %s %s' % (num(a[0]), a[1])
    if op == 'MOVL' and isg(a[0]): return 'MOVL_store %s %s' % (a[0], mem(a[1]))
    if op == 'PINSRD': return 'PINSRD %s %s %s' % (num(a[0]), mem(a[1]), xn(a[2]))
    if op == 'PEXTRD' and mem(a[2]): return 'PEXTRD_store %s %s %s' % (num(a[0]), xn(a[1]), mem(a[2]))
    if op == 'VPEXTRD' and isg(a[2]): return 'VPEXTRD %s %s %s' % (num(a[0]), xn(a[1]), a[2])
    if op == 'VMOVDQU':
        if isx(a[1]) and mem(a[0]): return 'VMOVDQU_load %s %s' % (mem(a[0]), xn(a[1]))
        if isx(a[0]) and mem(a[1]): return 'VMOVDQU_store %s %s' % (xn(a[0]), mem(a[1]))
    if op == 'VMOVDQA':
        if isx(a[1]): return 'VMOVDQA %s %s' % (vs(a[0]), xn(a[1]))
        return 'VMOVDQA_store %s %s' % (xn(a[0]), mem(a[1]))
    if op in ('PAND', 'PXOR', 'PADDD', 'PSHUFB', 'SHA1NEXTE', 'SHA1MSG1', 'SHA1MSG2') and isx(a[1]):
        return '%s %s %s' % (op, vs(a[0]), xn(a[1]))
    if op in ('PSHUFD', 'VPSHUFD'): return 'PSHUFD %s %s %s' % (num(a[0]), xn(a[1]), xn(a[2]))
    if op == 'SHA1RNDS4': return 'SHA1RNDS4 %s %s %s' % (num(a[0]), xn(a[1]), xn(a[2]))
    raise Exception('unknown: ' + c)
lines = [(n, tr(c)) for n, c in prog]
with open(out, 'w') as f:
    f.write("""(** Generated by tools/gen_amd64.py from the text of /repo/sha1cdblock_amd64.s; do not edit. *)
From Coq Require Import NArith String List Strings.Byte.
From Verif Require Import Model_Asm Model_Amd64.
Import ListNotations.
Local Open Scope N_scope.

(** /repo/sha1cdblock_amd64.s lines 27-266: blockAMD64, macros LOADCS and LOADM1 (lines 16-23) expanded, labels replaced by
    instruction indices (loop = %d, done = %d).  The number in the comment is the source line. *)
Definition amd64_prog : list instr := [
""" % (labels['loop'], labels['done']))
    f.write(';\n'.join('  (* %d *) %s' % x for x in lines) + '\n].\n')
    for n in ('upper_mask', 'shuffle_mask'):
        d = sorted(data[n])
        assert [o for o, _ in d] == [0, 8]
        f.write("\n(** /repo/sha1cdblock_amd64.s: DATA %s. *)\nDefinition %s : list byte := le64 %s ++ le64 %s.\n" % (n, n, d[0][1], d[1][1]))
with open(out, 'a') as f:
    ms = [c.split()[0] for _, c in prog]
    f.write("\n(** The mnemonics of the same instructions. *)\nDefinition amd64_mnem : list string := [\n" )
    f.write(';\n'.join('  ' + '; '.join('"%s"' % m for m in ms[i:i+10]) for i in range(0, len(ms), 10)) + ']%string.\n')
print(len(lines), 'instructions')
