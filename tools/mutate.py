#!/usr/bin/env python3
"""Seeded-bug runner.  Usage: mutate.py [mutant-id ...]   (default: all in seeded/mutants.json not yet in seeded/LOG.jsonl)

For each mutant: copies rocq/theories (with compiled files) to /tmp/mut/w, edits one model definition, recompiles what depends
on it.  A proof that no longer goes through is replaced by Admitted (in the scratch copy only) and the build goes on; at
the end Print Assumptions tells which theorems of Prop*.v do not rest on a failed proof.  One JSON line per mutant.
With MUTFOCUS=1 only the Prop*.v files with theorems of the expected claims, and what they need, are rebuilt; the log line
then lists them under "scope" and theorems outside of them were not checked against that mutant."""
import json, os, re, shutil, subprocess, sys, time
from concurrent.futures import ThreadPoolExecutor, FIRST_COMPLETED, wait
ROOT = '/verif'
BASE = os.environ.get('MUTBASE', ROOT + '/rocq/theories')
W = os.environ.get('MUTDIR', '/tmp/mut/w')
WORKERS = int(os.environ.get('MUTJ', '3'))
TMO = int(os.environ.get('MUTTMO', '400'))
files = [l.strip()[len('theories/'):-2] for l in open(os.environ.get('MUTPROJ', ROOT + '/rocq/_CoqProject')) if l.startswith('theories/')]

def deps():
    d = {}
    for f in files:
        s = open(f'{W}/{f}.v').read()
        r = set()
        for m in re.finditer(r'From Verif Require Import ([^.]*)\.', s):
            r |= set(m.group(1).split())
        d[f] = r & set(files)
    return d

START = re.compile(r'^[ ]*(?:Local |Global |#\[\w+\] )?(Lemma|Theorem|Example|Corollary|Remark|Fact|Definition|Fixpoint|Instance)\s+(\w+)', re.M)
def enclosing(s, pos):
    best = None
    for m in START.finditer(s):
        if m.start() > pos: break
        best = m
    return best

PROOF = re.compile(r'\bProof\.')
END = re.compile(r'\b(Qed|Defined)\.')
def proof_at(s, pos):
    """(name, start, end) of the proof containing the character offset pos"""
    m = enclosing(s, pos)
    if not m: return None
    pr = PROOF.search(s, m.start())
    nxt = START.search(s, m.end())
    if not pr or (nxt and nxt.start() < pr.start()): return None
    en = END.search(s, pr.end())
    if not en or pos > en.end() or pos < pr.start(): return None
    return m.group(2), pr.start(), en.end()
def blank(s, a, b):
    """the same text with Admitted. instead of the proof, keeping all offsets"""
    t = s[a:b]
    return s[:a] + 'Admitted.' + ''.join(c if c == '\n' else ' ' for c in t[9:]) + s[b:]
def admit_passed(s, upto):
    for m in list(START.finditer(s)):
        if m.start() >= upto: break
        pr = PROOF.search(s, m.start()); nxt = START.search(s, m.end())
        if not pr or (nxt and nxt.start() < pr.start()): continue
        en = END.search(s, pr.end())
        if en and en.group(1) == 'Qed' and en.end() <= upto: s = blank(s, pr.start(), en.end())
    return s

def compile(f):
    """returns (ok, admitted names).  Proofs that passed are not checked again until the final compilation."""
    admitted = []
    p, vo = f'{W}/{f}.v', f'{W}/{f}.vo'
    if os.path.exists(vo): os.remove(vo)
    real = open(p, encoding='utf-8').read()
    fast = real
    final = True
    while True:
        open(p, 'w', encoding='utf-8').write(fast)
        try:
            r = subprocess.run(['nice', 'coqc', '-time', '-Q', '.', 'Verif', f + '.v'], cwd=W, capture_output=True, text=True, timeout=TMO, errors='replace')
            if r.returncode == 0:
                if final: return True, admitted
                fast = real; final = True; continue
            err = r.stderr
            m = None
            for m in re.finditer(r'File "[^"]*", line (\d+), characters (\d+)-(\d+):\s*\n(?:Error)', err): pass
            if not m: return False, admitted + ['?' + err[-200:]]
            lines = fast.split('\n')
            pos = sum(len(x) + 1 for x in lines[:int(m.group(1)) - 1]) + len(lines[int(m.group(1)) - 1].encode()[:int(m.group(2))].decode(errors='ignore'))
        except subprocess.TimeoutExpired as e:
            cs = re.findall(r'^Chars (\d+) - (\d+) ', (e.stdout or b'').decode(errors='replace'), re.M)
            b = int(cs[-1][1]) if cs else 0
            pos = len(fast.encode()[:b + 2].decode(errors='ignore'))
        q = proof_at(fast, pos)
        if q is None:
            mm = enclosing(fast, pos)
            open(p, 'w', encoding='utf-8').write(real)
            return False, admitted + ['!' + (mm.group(2) if mm else '?')]
        admitted.append(q[0])
        real = blank(real, q[1], q[2])
        fast = admit_passed(blank(fast, q[1], q[2]), q[1])
        final = False

def run(mut):
    t0 = time.time()
    if os.path.exists(W): shutil.rmtree(W)
    os.makedirs(W)
    for f in files:
        for e in ('.v', '.vo', '.glob'):
            if os.path.exists(f'{BASE}/{f}{e}'): shutil.copy2(f'{BASE}/{f}{e}', W)
    f0 = mut['file']
    s = open(f'{W}/{f0}.v', encoding='utf-8').read()
    assert s.count(mut['old']) == 1, (mut['id'], s.count(mut['old']))
    open(f'{W}/{f0}.v', 'w', encoding='utf-8').write(s.replace(mut['old'], mut['new']))
    d = deps()
    dirty = {f0}
    for _ in files:
        for f in files:
            if d[f] & dirty: dirty.add(f)
    scope = None
    if os.environ.get('MUTFOCUS') and mut['expect']:
        scope = {f for f in files if f.startswith('Prop') and any(re.search(r'(?m)^[ ]*Theorem ' + c + r'(?![0-9])', open(f'{W}/{f}.v').read()) for c in mut['expect'])}
        need = set(scope)
        for _ in files:
            for f in list(need): need |= d[f]
        for f in dirty - need:
            if os.path.exists(f'{W}/{f}.vo'): os.remove(f'{W}/{f}.vo')
        dirty &= need
    todo = [f for f in files if f in dirty]
    done, failed, admitted = set(files) - dirty, {}, {}
    running = {}
    with ThreadPoolExecutor(WORKERS) as ex:
        while todo or running:
            for f in list(todo):
                if len(running) >= WORKERS: break
                if any(x in failed for x in d[f]):
                    failed[f] = ['(needs a file that does not compile)']; todo.remove(f); continue
                if d[f] <= done:
                    running[ex.submit(compile, f)] = f; todo.remove(f)
            if not running:
                if todo: continue
                break
            ds, _ = wait(running, return_when=FIRST_COMPLETED)
            for x in ds:
                f = running.pop(x); ok, a = x.result()
                if a: admitted[f] = a
                if ok: done.add(f)
                else: failed[f] = a
    # which theorems rest on a failed proof
    broken, total = [], []
    for f in files:
        if not f.startswith('Prop') or (scope is not None and f not in dirty): continue
        names = re.findall(r'^[ ]*(?:Theorem|Example) (C\d\d_?\w*)', open(f'{BASE}/{f}.v').read(), re.M)
        total += names
        if f in failed: broken += names; continue
        if f not in dirty: continue
        q = f'Q{f}.v'
        open(f'{W}/{q}', 'w').write(f'From Verif Require Import {f}.\n' + ''.join(f'Print Assumptions {n}.\n' for n in names))
        r = subprocess.run(['nice', 'coqc', '-Q', '.', 'Verif', q], cwd=W, capture_output=True, text=True, errors='replace')
        blocks = re.split(r'(?m)^(?=Closed under the global context|Axioms:)', r.stdout)[1:]
        if len(blocks) != len(names): broken += [n + '(?)' for n in names]; continue
        broken += [n for n, b in zip(names, blocks) if not b.startswith('Closed')]
    claims = sorted({b[:3] for b in broken})
    return {'id': mut['id'], 'file': f0 + '.v', 'definition': mut['definition'], 'edit': mut['edit'], 'breaks': mut['breaks'],
            'claims_hit': claims, 'expected_hit': sorted(set(mut['expect']) & set(claims)), 'expected_missed': sorted(set(mut['expect']) - set(claims)),
            'theorems_failed': broken, 'proofs_failed': {k: v for k, v in admitted.items()}, 'files_failed': {k: v for k, v in failed.items()},
            **({'scope': sorted(f for f in dirty if f.startswith('Prop'))} if scope is not None else {}), 'theorems_tightened': mut.get('tightened', []), 'note': mut.get('note', ''), 'seconds': int(time.time() - t0)}

if __name__ == '__main__':
    muts = json.load(open(ROOT + '/seeded/mutants.json'))
    log = ROOT + '/seeded/LOG.jsonl'
    seen = {json.loads(l)['id'] for l in open(log) if l.strip()} if os.path.exists(log) else set()
    want = sys.argv[1:]
    for m in muts:
        if (want and m['id'] not in want) or (not want and m['id'] in seen): continue
        try: r = run(m)
        except AssertionError as e: print('BAD MUTANT', e); continue
        with open(log, 'a') as fh: fh.write(json.dumps(r, ensure_ascii=False) + '\n')
        print(m['id'], 'hit', r['claims_hit'], 'missed', r['expected_missed'], r['seconds'], flush=True)
