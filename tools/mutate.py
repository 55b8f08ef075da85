#!/usr/bin/env python3
"""Seeded bugs: apply one edit to a model file in a scratch copy, rebuild, admit
every lemma that no longer proves, and report the property theorems that now
rest on an admitted lemma.  Usage: mutate.py batch.json [index ...]
Results are appended to seeded/LOG.jsonl."""
import json, os, re, shutil, subprocess, sys
root = os.path.dirname(os.path.dirname(os.path.abspath(__file__)))
scratch = os.environ.get('SCRATCH', '/tmp/mut')
batch = json.load(open(sys.argv[1]))
sel = [int(x) for x in sys.argv[2:]] or range(len(batch))
th = scratch + '/theories/'
HEAD = re.compile(r'^\s*(?:Lemma|Theorem|Example|Corollary|Fact|Remark)\s+(\w+)')

def sh(cmd, t=1500):
    try:
        p = subprocess.run(cmd, shell=True, cwd=scratch, capture_output=True, text=True, timeout=t)
        return p.returncode, p.stdout + p.stderr
    except subprocess.TimeoutExpired:
        return 99, 'TIMEOUT'

def admit(f, line):
    """Replace the proof of the statement around [line] by Admitted."""
    L = open(f).read().split('\n')
    i = line - 1
    while i >= 0 and not HEAD.match(L[i]):
        if i < line - 1 and re.match(r'^\s*(Definition|Fixpoint|Inductive|Record)\b', L[i]) : return None
        i -= 1
    if i < 0: return None
    name = HEAD.match(L[i]).group(1)
    text = '\n'.join(L[i:])
    m = re.search(r'\bProof\b[\s\S]*?\b(Qed|Defined)\.', text)
    if not m: return None
    seg = m.group(0)
    text = text[:m.start()] + 'Proof. Admitted. ' + '\n' * seg.count('\n') + text[m.end():]
    open(f, 'w').write('\n'.join(L[:i]) + '\n' + text if i else text)
    return name

def run(m):
    shutil.rmtree(scratch, ignore_errors=True)
    subprocess.run(['cp', '-a', base, scratch], check=True)
    f = th + m['file']
    s = open(f).read()
    assert s.count(m['old']) == 1, (m['file'], m['old'], s.count(m['old']))
    open(f, 'w').write(s.replace(m['old'], m['new']))
    failed, thms = [], []
    # TARGETS: property files to build in turn until one of them fails; default all
    groups = [[t] for t in os.environ.get('TARGETS', '').split()] + [None]
    for g in groups:
        if thms: break
        goal = ' '.join('theories/%s.vo' % t for t in g) if g else ''
        for _ in range(40):
            rc, out = sh('make -j' + os.environ.get('JOBS', '3') + ' ' + goal + ' 2>&1')
            if rc == 0: break
            e = re.search(r'File "\./theories/(\w+\.v)", line (\d+)[^\n]*\n(?:Error|\s*Error)', out) or \
                re.search(r'File "\./theories/(\w+\.v)", line (\d+)', out)
            if not e: failed.append('build: ' + out[-300:]); break
            n = admit(th + e.group(1), int(e.group(2)))
            if n is None: failed.append('not a proof: ' + e.group(1) + ':' + e.group(2)); break
            failed.append(n)
        fset = set(failed)
        for t in sorted(os.listdir(th)):
            if not (t.startswith('T_') and t.endswith('.v')) or (g and t[:-2] not in g): continue
            src = open(th + t).read()
            names = re.findall(r'^Print Assumptions (\w+)', src, re.M)
            vo = th + t + 'o'
            if os.path.exists(vo) and os.path.getmtime(vo) == os.path.getmtime(base + '/theories/' + t + 'o'): continue   # not rebuilt
            open(scratch + '/pa.v', 'w').write('From Verif Require Import %s.\n' % t[:-2] + ''.join('Print Assumptions %s.\n' % n for n in names))
            rc, out = sh('coqc -Q theories Verif pa.v')
            if rc != 0:
                thms += [n for n in names]; continue
            parts = re.split(r'(?m)^(?=Closed under the global context|Axioms:)', out)
            parts = [p for p in parts if p.startswith('Closed') or p.startswith('Axioms')]
            for n, p in zip(names, parts):
                ax = set(re.findall(r'^(\w+)', p, re.M)) | {x.split('.')[-1] for x in re.findall(r'^([\w.]+)', p, re.M)}
                if p.startswith('Axioms') and ax & fset: thms.append(n)
    rec = {"definition": m['def'], "file": m['file'], "edit": m['edit'], "claim_broken": m['breaks'],
           "lemmas_failed": failed, "theorems_failed": thms, "theorems_tightened": m.get('tightened', [])}
    open(root + '/seeded/LOG.jsonl', 'a').write(json.dumps(rec) + '\n')
    print(m['def'], '->', thms, failed, flush=True)
    if not thms: print('   SURVIVED', m, flush=True)

base = scratch + '.base'                # a built snapshot of rocq/
shutil.rmtree(base, ignore_errors=True)
subprocess.run(['cp', '-a', root + '/rocq', base], check=True)
for i in sel:
    try: run(batch[i])
    except AssertionError as e: print('BAD', i, e, flush=True)
