#!/usr/bin/env python3
"""Translate the test vectors of /repo/sha1cd_test.go and the start of the SHAttered files into
rocq/theories/Data_Vectors.v.  Run by hand; the output is committed."""
import re, sys

src = open('/repo/sha1cd_test.go', encoding='utf-8').read()

def lit(s):
    """Bytes of an interpreted Go string literal (without the quotes)."""
    out = bytearray(); i = 0
    esc = {'a': 7, 'b': 8, 'f': 12, 'n': 10, 'r': 13, 't': 9, 'v': 11, '\\': 92, '"': 34}
    while i < len(s):
        if s[i] != '\\':
            out += s[i].encode('utf-8'); i += 1
        elif s[i+1] == 'x':
            out.append(int(s[i+2:i+4], 16)); i += 4
        elif s[i+1] == 'u':
            out += chr(int(s[i+2:i+6], 16)).encode('utf-8'); i += 6
        elif s[i+1] in esc:
            out.append(esc[s[i+1]]); i += 2
        else:
            sys.exit('unknown escape ' + s[i:i+2])
    return bytes(out)

STR = r'"((?:[^"\\]|\\.)*)"'
i = src.index('var golden = '); j = src.index('\n}\n', i)
golden = [tuple(map(lit, m)) for m in re.findall(r'\{' + STR + ', ' + STR + ', ' + STR + r'\},', src[i:j])]
assert len(golden) == src[i:j].count('\n\t{')
i = src.index('var largeUnmarshalTests = '); j = src.index('\n}\n', i)
large = [tuple(map(lit, m)) for m in re.findall(r'state: ' + STR + r',\s*sum:\s*' + STR, src[i:j])]
assert len(large) == src[i:j].count('state:')
nat = open('/repo/test/native_test.go', encoding='utf-8').read()
files = dict((f, h) for f, h in re.findall(r'inputFile:\s*"testdata/files/([^"]*)",\s*(?:wantCollision: true,\s*)?wantHash:\s*"([^"]*)"', nat))
assert len(files) == nat.count('inputFile:')
def head(f, n): return open('/repo/test/testdata/files/' + f, 'rb').read()[:n]

o = ['(** Test vectors of the repository: /repo/sha1cd_test.go lines 25-58 and 161-172, the files of',
     '    /repo/test/testdata/files (of the SHAttered files the first 448 bytes, the part that differs included) and the',
     '    expected hashes of /repo/test/native_test.go lines 126-161.  Written by tools/gen_vectors.py; hexadecimal. *)',
     'From Coq Require Import String List.', 'Import ListNotations.', 'Local Open Scope string_scope.', '']
def tab(name, rows):
    ty = ' * '.join(['string'] * len(rows[0]))
    o.append('Definition %s : list (%s) :=' % (name, ty))
    o.append('  [' + ';\n   '.join('(' + ', '.join('"%s"' % x for x in r) + ')' for r in rows) + '].')
    o.append('')
o.append('(** Digest, input, state after the first half of the input. *)')
tab('golden', [(a.decode(), b.hex(), c.hex()) for a, b, c in golden])
o.append('(** State, digest. *)')
tab('large_unmarshal', [(a.hex(), b.decode()) for a, b in large])
for name, f, n in [('shattered1_head', 'shattered-1.pdf', 448), ('shattered2_head', 'shattered-2.pdf', 448), ('valid_file', 'valid-file.txt', 10**9)]:
    o.append('Definition %s : string :=\n  "%s".' % (name, head(f, n).hex()))
o.append('')
for name, f in [('want_shambles1', 'sha-mbles-1.bin'), ('want_shambles2', 'sha-mbles-2.bin'), ('want_valid', 'valid-file.txt')]:
    o.append('Definition %s : string := "%s".' % (name, files[f]))
open('rocq/theories/Data_Vectors.v', 'w').write('\n'.join(o) + '\n')
print(len(golden), len(large))
