#!/usr/bin/env python3
"""Seeded mutation runner. usage: seed_run.py mutations.json [start]

Each entry: {"def","file","old","new","claim"}. The built tree is first copied by hand to /tmp/seed/base. For each edit it is copied to /tmp/seed/rocq, `old` is
replaced by `new` in theories/<file> (it must occur exactly once) and the tree is rebuilt. A lemma whose proof no longer goes
through is turned into an axiom in the scratch copy and the build is repeated, so that in the end `Print Assumptions` in the
Properties files tells exactly which of the final theorems rest on a broken lemma ("theorems_failed") and which do not.
With SEED_FOCUS=1 only the Properties files holding theorems of the claims named in "claim" (C01, ...) are rebuilt.
Results are appended to /tmp/seed/results.jsonl."""
import json, sys, os, re, subprocess
muts = json.load(open(sys.argv[1]))
start = int(sys.argv[2]) if len(sys.argv) > 2 else 0
ROOT = os.environ.get('SEED_DIR', '/tmp/seed')
D = ROOT + '/rocq'
J = os.environ.get('SEED_J', '2')
HEAD = re.compile(r'\s*(?:Local |Global )?(?:Theorem|Lemma|Example|Corollary|Remark|Fact|Instance)\s+(\w+)')
def sh(c): return subprocess.run(c, shell=True, capture_output=True, text=True).stdout
def admit(f, ln):
    """make the lemma around line ln of file f an axiom; returns its name or None"""
    src = open(f).read().split('\n')
    i = ln - 1
    while i >= 0 and not HEAD.match(src[i]): i -= 1
    if i < 0: return None
    name = HEAD.match(src[i]).group(1)
    j = i
    while j < len(src) and not re.search(r'\b(Qed|Defined|Admitted)\.\s*$', src[j]): j += 1
    if j < ln - 1 or j >= len(src): return None
    body = '\n'.join(src[i:j + 1])
    m = re.search(r'\bProof\b[^.]*\.', body)
    if not m: return None
    new = body[:m.start()] + 'Proof. Admitted.'
    pad = body.count('\n') - new.count('\n')
    src[i:j + 1] = (new + '\n' * pad).split('\n')
    open(f, 'w').write('\n'.join(src))
    return name
for i, m in enumerate(muts):
    if i < start: continue
    subprocess.run(f'rm -rf {D} && cp -a {ROOT}/base {D}', shell=True, check=True)
    p = f'{D}/theories/{m["file"]}'
    s = open(p).read()
    if s.count(m['old']) != 1:
        print(i, 'BAD PATTERN', s.count(m['old']), m['def'], flush=True); continue
    open(p, 'w').write(s.replace(m['old'], m['new']))
    t0 = os.path.getmtime(p)
    broken, stuck = [], []
    targets = ''
    if os.environ.get('SEED_FOCUS'):
        ids = re.findall(r'C\d\d', m['claim'])
        fs = [f for f in sorted(os.listdir(D + '/theories')) if f.startswith('Properties') and f.endswith('.v') and re.search(r'^Print Assumptions (%s)_' % '|'.join(ids), open(D + '/theories/' + f).read(), re.M)]
        targets = ' '.join('theories/' + f + 'o' for f in fs)
    for it in range(40):
        r = sh(f'cd {D} && timeout 3000 make -j{J} -k {targets} 2>&1')
        errs = re.findall(r'File "\./theories/(\w+)\.v", line (\d+), characters [\d-]+:\n(?=Error)', r)
        if not errs: break
        progress = False
        for f, ln in errs:
            n = admit(f'{D}/theories/{f}.v', int(ln))
            if n: broken.append(f'{f}.{n}'); progress = True
            else: stuck.append(f'{f}:{ln}')
        if not progress: break
    bn = {b.split('.')[1] for b in broken}
    failed, kept, unbuilt = [], [], []
    for f in sorted(os.listdir(D + '/theories')):
        if not (f.startswith('Properties') and f.endswith('.v')): continue
        vo = D + '/theories/' + f + 'o'
        if targets and f'theories/{f}o' not in targets.split(): continue
        if not os.path.exists(vo): unbuilt.append(f[:-2]); continue
        if os.path.getmtime(vo) < t0: continue
        names = re.findall(r'^Print Assumptions (\w+)\.', open(D + '/theories/' + f).read(), re.M)
        out = sh(f'cd {D} && coqc -Q theories Verif theories/{f} 2>/dev/null')
        blocks = re.split(r'^(?=Closed under the global context|Axioms:)', out, flags=re.M)[1:]
        if len(blocks) != len(names): stuck.append(f'{f}: {len(blocks)} outputs for {len(names)} names')
        for n, b in zip(names, blocks):
            ax = set(re.findall(r'^([\w.]+)\s*:', b, re.M)) | set(re.findall(r'^([\w.]+)$', b, re.M))
            if {a.split('.')[-1] for a in ax} & bn or n in bn: failed.append(n)
            else: kept.append(n)
    rec = {'definition': m['def'], 'file': m['file'], 'edit': f'{m["old"]}  ==>  {m["new"]}', 'claim': m['claim'], 'theorems_failed': failed,
           'lemmas_broken': broken, 'rebuilt_and_still_proved': kept, 'unbuilt': unbuilt, 'stuck': stuck}
    with open(ROOT + '/results.jsonl', 'a') as o: o.write(json.dumps(rec) + '\n')
    print(i, m['def'], '->', failed, '| broken', len(broken), '| kept', len(kept), '| unbuilt', unbuilt, '| stuck', stuck, flush=True)
