#!/usr/bin/env python3
"""Try edits of the model against the theorems, in a scratch copy.

usage: mutate.py BASE WORK LIST.json OUT.jsonl
BASE is a built copy of rocq/. LIST is a JSON list of
  {"file", "definition", "old", "new", "breaks", "targets": [theorem files without .v]}.
A lemma whose proof fails is admitted in the scratch copy and the build goes on, so that
every theorem that depends on it is found with Print Assumptions."""
import json, os, re, subprocess, sys, shutil, time
base, work, lst, out = sys.argv[1:5]
HEAD = re.compile(r'^\s*(Lemma|Theorem|Corollary|Example|Fact|Remark)\s+(\w+)')
claimed = {t for c in json.load(open('/verif/MANIFEST.json'))['claims'] for t in c['theorems']}
done = set()
if os.path.exists(out):
    done = {(json.loads(l)['file'], json.loads(l)['old'], json.loads(l)['new']) for l in open(out)}

def names_in(path):
    r = []
    for l in open(path):
        m = HEAD.match(l)
        if m: r.append(m.group(2))
    return r

def admit(path, line):
    """admit the proof around a line; give the name"""
    L = open(path).read().split('\n')
    i = line - 1
    while i >= 0 and not HEAD.match(L[i]): i -= 1
    if i < 0: return None
    name = HEAD.match(L[i]).group(2)
    j = i
    while j < len(L) and not re.search(r'\bProof\b', L[j]): j += 1
    if j >= len(L) or line - 1 < j: return None
    k = j
    while k < len(L) and not re.search(r'\b(Qed|Defined)\.\s*$', L[k]): k += 1
    if k >= len(L) or k < line - 1: return None
    pre = L[j][:re.search(r'\bProof\b', L[j]).start()]
    L[j:k + 1] = [pre + 'Admitted.'] + ['(* *)'] * (k - j)
    open(path, 'w').write('\n'.join(L))
    return name

for m in json.load(open(lst)):
    if (m['file'], m['old'], m['new']) in done: continue
    t0 = time.time()
    shutil.rmtree(work, ignore_errors=True)
    subprocess.run(['cp', '-a', base, work], check=True)
    p = f"{work}/theories/{m['file']}.v"
    s = open(p).read()
    n = s.count(m['old'])
    if n != 1:
        print('BAD', m['file'], m['definition'], 'occurrences', n, flush=True); continue
    open(p, 'w').write(s.replace(m['old'], m['new']))
    failed, note, ok = [], '', False
    for _ in range(60):
        r = subprocess.run(['make', '-j2', 'TIMECMD=timeout 400'] + [f'theories/{t}.vo' for t in m['targets']], cwd=work, capture_output=True, text=True)
        if r.returncode == 0: ok = True; break
        e = re.search(r'File "\./(theories/\w+\.v)", line (\d+), characters[^\n]*\nError(.*)', r.stderr, re.S)
        if not e:
            note = 'no error position (time or memory limit): ' + r.stderr[-200:]; break
        path = f'{work}/{e.group(1)}'
        if os.path.basename(path) == m['file'] + '.v' and not HEAD.search(open(path).read()):
            note = 'model does not compile: ' + e.group(3)[:300]; break
        nm = admit(path, int(e.group(2)))
        if nm is None:
            note = f'statement fails at {e.group(1)}:{e.group(2)}'; break
        failed.append(nm)
    broken = set(failed)
    if ok and failed:
        v = open(f'{work}/theories/ZZcheck.v', 'w')
        ths = []
        for t in m['targets']:
            ns = [x for x in names_in(f'{work}/theories/{t}.v') if x in claimed and x not in failed]
            ths += [(t, x) for x in ns]
        v.write('From Verif Require Import ' + ' '.join(m['targets']) + '.\n')
        for t, x in ths: v.write(f'Print Assumptions {t}.{x}.\n')
        v.close()
        r = subprocess.run(['timeout', '900', 'coqc', '-Q', 'theories', 'Verif', 'theories/ZZcheck.v'], cwd=work, capture_output=True, text=True)
        blocks = re.findall(r'(Closed under the global context|Axioms:\n(?:.+\n?)*?)(?=Closed under|Axioms:|\Z)', r.stdout)
        for (t, x), b in zip(ths, blocks):
            if any(re.search(r'\b' + f + r'\b', b) for f in failed): broken.add(x)
    res = dict(m)
    res.update(failed=sorted(failed), claimed_failed=sorted(x for x in broken if x in claimed), note=note, survived=(ok and not failed), seconds=round(time.time() - t0))
    open(out, 'a').write(json.dumps(res) + '\n')
    print('SURVIVED' if res['survived'] else 'killed', m['file'], m['definition'], '|', m['old'][:50], '->', m['new'][:50], '|', res['claimed_failed'], note[:150], res['seconds'], flush=True)
