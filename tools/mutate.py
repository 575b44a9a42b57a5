#!/usr/bin/env python3
"""Runs the mutations of tools/mutants.py in a scratch copy and appends the outcome to a log.

usage: mutate.py BASE WORK LOG [ids...]
BASE is a built checkout, WORK a scratch directory.  For each mutation the copy is edited (for generated files a copy of the source
text is edited and the generator is run on it), rebuilt with make -k, and the sentence each failing file stops at is recorded,
together with the property theorems that depend on it according to the .glob files of BASE."""
import glob, json, os, re, shutil, subprocess, sys, time
sys.path.insert(0, os.path.dirname(os.path.abspath(__file__)))
from mutants import MUTANTS
base, work, log = sys.argv[1:4]
only = set(sys.argv[4:])
TH = 'rocq/theories/'
KW = r'^\s*(?:Local |Global |Program )*(Lemma|Theorem|Example|Definition|Fixpoint|Corollary|Fact|Record|Inductive|Ltac|Instance)\s+(\w+)'

def decls(v):
    out, off = [], 0
    for l in open(v, 'rb').read().split(b'\n'):
        m = re.match(KW, l.decode('utf8', 'replace'))
        if m: out.append((off, m.group(2), m.group(1)))
        off += len(l) + 1
    return out

def graph():
    refs, props = {}, []
    for g in glob.glob(base + '/' + TH + '*.glob'):
        lib = os.path.basename(g)[:-5]
        ds = decls(g[:-5] + '.v')
        i = -1
        ents = []
        for l in open(g):
            m = re.match(r'R(\d+):\d+ Verif\.(\w+) \S+ (\S+) (\w+)$', l)
            if m: ents.append((int(m.group(1)), m.group(2), m.group(3).split('.')[-1]))
        ents.sort()
        for off, l2, n in ents:
            while i + 1 < len(ds) and ds[i + 1][0] <= off: i += 1
            if i >= 0: refs.setdefault((lib, ds[i][1]), set()).add((l2, n))
        if lib.startswith('Properties_') or lib.startswith('Examples_'):
            props += [(lib, n) for _, n, k in ds if k in ('Theorem', 'Example')]
    return refs, props

def closure(refs, start):
    seen, todo = set(), [start]
    while todo:
        x = todo.pop()
        if x in seen: continue
        seen.add(x)
        todo += refs.get(x, ())
    return seen

GO = ['go_suite blockGeneric', 'c08', 'c34', 'c22', 'c24', 'c40', 'c26', 'asm', 'asm_touch', 'asm_block_suite', 'slices', 'c07', 'fallback']
CL = ['c22', 'c24', 'c_suite', 'c41', 'c37', 'c37b', 'c44', 'fallback']
ASM = ['asm', 'asm_touch', 'asm_block_suite']
NOWIT = {'Model_LeakAsm.v', 'Model_Rectify.v', 'Model_Leak.v', 'Model_CInit.v', 'Model_Tests.v', 'Model_Bench.v', 'Model_CEff.v', 'Model_CRace.v', 'Model_Build.v', 'Model_Iface.v', 'Model_Hasher.v', 'Model_Cpu.v', 'Model_Trace.v', 'Model_Work.v', 'Model_Table.v', 'Model_CDead.v',
         'Model_CBuild.v', 'Model_Conc.v', 'Model_Program.v', 'Model_Fetch.v', 'Model_Buffer.v', 'Model_CTypes.v', 'Model_CTyped.v', 'Model_CMem.v', 'Model_Race.v', 'Gen_Build.v', 'Gen_Methods.v'}
def witness(m):
    f = m.get('out') or m['file']
    if f in NOWIT: return []
    gs = {'Model_Block.v': ASM, 'Gen_Amd64.v': ASM, 'Gen_Arm64.v': ASM, 'Model_Slice.v': ['slices', 'c07'], 'Model_Asm.v': ASM, 'Model_Amd64.v': ASM, 'Model_Arm64.v': ASM, 'Model_Api.v': GO, 'Model_Go.v': GO, 'Model_Ubc.v': GO + CL,
          'Gen_UbcGo.v': GO, 'Gen_DvsGo.v': GO}.get(f, CL)
    w = work + '/rocq/Witness.v'
    open(w, 'w').write(open(os.path.dirname(os.path.abspath(__file__)) + '/../seeded/Witness.v.txt').read() +
                       ''.join('Eval vm_compute in ("GROUP"%%string :: uniq (%s)).\n' % g for g in gs))
    r = subprocess.run('timeout 900 coqc -Q theories Verif Witness.v 2>&1', shell=True, cwd=work + '/rocq', capture_output=True, text=True)
    if r.returncode: return ['witness file failed: ' + r.stdout[-200:]]
    return sorted(set(re.findall(r'"([^"]+)"', r.stdout)) - {'GROUP'})

refs, props = graph()
deps = {p: closure(refs, p) for p in props}

for m in MUTANTS:
    if only and m['id'] not in only: continue
    if not only and os.path.exists(log) and any(json.loads(l)['id'] == m['id'] for l in open(log)): continue
    t0 = time.time()
    shutil.rmtree(work, ignore_errors=True)
    subprocess.run(['cp', '-a', base, work], check=True)
    if 'gen' in m:
        src = open(m['src']).read()
        assert src.count(m['old']) >= 1, (m['id'], src.count(m['old']))
        n = m.get('nth', 0)
        parts = src.split(m['old'])
        src = m['old'].join(parts[:n + 1]) + m['new'] + m['old'].join(parts[n + 1:])
        f = '/tmp/w/mut_src' + os.path.splitext(m['src'])[1]
        open(f, 'w').write(src)
        out = work + '/' + TH + m['out']
        if m['gen'] in ('gen_build.py', 'gen_methods.py'):
            shutil.rmtree('/tmp/w/mut_repo', ignore_errors=True)
            shutil.copytree('/repo', '/tmp/w/mut_repo', ignore=shutil.ignore_patterns('.git'))
            open(m['src'].replace('/repo', '/tmp/w/mut_repo', 1), 'w').write(src)
            f = '/tmp/w/mut_repo'
        args = {'gen_csteps.py': [f, '/repo/cgo/ubc_check.h', out]}.get(m['gen'], [f, out])
        r = subprocess.run(['python3', base + '/tools/' + m['gen']] + args, capture_output=True, text=True)
        genfail = r.returncode != 0
        if genfail: print(m['id'], 'GENERATOR REJECTED', r.stderr[-300:]); continue
    else:
        f = work + '/' + TH + m['file']
        s = open(f).read()
        assert s.count(m['old']) >= 1, (m['id'], s.count(m['old']))
        n = m.get('nth', 0)
        parts = s.split(m['old'])
        open(f, 'w').write(m['old'].join(parts[:n + 1]) + m['new'] + m['old'].join(parts[n + 1:]))
    try:
        r = subprocess.run('timeout 3000 make -k -j2 COQC="timeout 700 coqc" 2>&1', shell=True, cwd=work + '/rocq', capture_output=True, text=True)
        o = r.stdout
    finally:
        pass
    errs = re.findall(r'File "\./theories/(\w+)\.v", line (\d+), characters [^\n]*\n(Error[^\n]*(?:\n[^\n]+)?)', o)
    failed = []
    for lib, ln, msg in errs:
        text = open(work + '/' + TH + lib + '.v').read().split('\n')[:int(ln)]
        name = None
        for l in reversed(text):
            mm = re.match(KW, l)
            if mm: name = mm.group(2); break
        failed.append((lib, name, msg.replace('\n', ' ')[:160]))
    # a proof that no longer ends: find the sentence
    for lib in re.findall(r'theories/(\w+)\.vo\] Error 124', o):
        t = subprocess.run('timeout 700 coqc -time -q -Q theories Verif theories/%s.v 2>&1' % lib, shell=True, cwd=work + '/rocq', capture_output=True, text=True).stdout
        at = [int(x) for x in re.findall(r'^Chars (\d+) - \d+', t, re.M)]
        name = None
        for off, n, _ in decls(work + '/' + TH + lib + '.v'):
            if at and off <= at[-1]: name = n
        failed.append((lib, name, 'does not end'))
    hit = sorted({n for (l, n) in props if l.startswith('Properties_') and any((lib, nm) in deps[(l, n)] for lib, nm, _ in failed)})
    ex = sorted({n for (l, n) in props if l.startswith('Examples_') and any((lib, nm) in deps[(l, n)] for lib, nm, _ in failed)})
    rec = {'id': m['id'], 'definition': m['def'], 'edit': '%s -> %s' % (m['old'], m['new']) if 'edit' not in m else m['edit'], 'in': m.get('file') or m['src'] + ' via ' + m['gen'],
           'breaks': m['breaks'], 'killed': bool(failed) or r.returncode != 0, 'stopped_at': ['%s.%s' % (l, n) + (' (does not end)' if x == 'does not end' else '') for l, n, x in failed],
           'instances_falsified': witness(m), 'theorems_failed': hit, 'examples_failed': len(ex), 'tightened': [], 'seconds': int(time.time() - t0)}
    if r.returncode == 124: rec['timeout'] = True
    with open(log, 'a') as fh: fh.write(json.dumps(rec) + '\n')
    print(m['id'], 'killed' if rec['killed'] else 'SURVIVED', rec['stopped_at'], len(hit), [x for x in m['breaks'] if not any(h.startswith(x) for h in hit)], rec['instances_falsified'], rec['seconds'], flush=True)
