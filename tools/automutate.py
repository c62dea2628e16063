#!/usr/bin/env python3
"""Automatic mutants of the model.  automutate.py list            prints the mutants (id, file, definition, edit)
                                     automutate.py run LOG id...   runs them, one JSON line per mutant into LOG
Each mutant changes one token of one definition of a model file.  In a scratch copy the files that depend on it are compiled
one after the other; the first file that fails kills the mutant.  A mutant that survives all files shows a place of the model
that no theorem depends on."""
import json, os, re, shutil, subprocess, sys, time
ROOT = '/verif'
BASE = os.environ.get('MUTBASE', ROOT + '/rocq/theories')
W = os.environ.get('MUTDIR', '/tmp/amut/w')
MODEL = ['PyBase', 'Percent', 'PyFloat', 'Restrictions', 'Logic', 'Data', 'Words', 'Transformators', 'Constructors', 'Dictionary', 'Lexicon', 'Templates', 'Exceptions',
         'Lazy', 'Migrations', 'Heap', 'Concurrent', 'Readers', 'LexReaders', 'Sessions', 'TemplateThreads', 'LexShared', 'Text', 'Compare', 'Server', 'Interrupt']
files = [l.strip()[len('theories/'):-2] for l in open(ROOT + '/rocq/_CoqProject') if l.startswith('theories/')]
OPS = [(r'\bZ\.leb\b', 'Z.ltb'), (r'\bZ\.ltb\b', 'Z.leb'), (r'\bNat\.leb\b', 'Nat.ltb'), (r'\bNat\.ltb\b', 'Nat.leb'), (r'\bZ\.gtb\b', 'Z.geb'),
       (r'&&', '||'), (r'\|\|', '&&'), (r'\bnegb ', '(fun b : bool => b) '), (r'\bfst\b', 'snd'), (r'\bsnd\b', 'fst'),
       (r'\btrue\b', 'false'), (r'\bfalse\b', 'true'), (r'\bforallb\b', 'existsb'), (r'\bexistsb\b', 'forallb'), (r'\bfold_left\b', '(fun f l a => fold_right (fun x y => f y x) a l)'),
       (r'\bGENITIVE\b', 'DATIVE'), (r'CASE_GENITIVE', 'CASE_DATIVE'), (r'CASE_NOMINATIVE', 'CASE_GENITIVE'), (r'NUMBER_PLURAL', 'NUMBER_SINGULAR'), (r'NUMBER_SINGULAR', 'NUMBER_PLURAL'),
       (r'NOUN_FORM_COUNTABLE', 'NOUN_FORM_NORMAL'), (r'NOUN_FORM_NORMAL', 'NOUN_FORM_COUNTABLE'), (r'ALTERNATIVE', 'SPECIAL'), (r'\bIndexError\b', 'KeyError'), (r'\bKeyError\b', 'ValueError'),
       (r'\bTypeError\b', 'ValueError'), (r'\bValueError\b', 'TypeError'), (r'\bAttributeError\b', 'KeyError'),
       (r'\bLt\b', 'Gt'), (r'\brev ', ''), (r'\bfilter\b', '(fun p l => filter (fun x => negb (p x)) l)'), (r'\bSome \(', 'None; ('),
       (r'(\([^()]*\)|\w+) \+\+ (\([^()]*\)|\[[^\[\]]*\]|\w+)', r'\2 ++ \1'), (r'; [^;\[\]|()]+\]', ']'), (r'\b(\d+)\b(?!%N)', lambda m: str(int(m.group(1)) + 1)), (r'\b(\d+)%N', lambda m: str(int(m.group(1)) + 1) + '%N'),
       (r'\bthen (Ok \S+|\S+) else (\S+)', r'then \2 else \1'), (r'\bS (\w+)', r'\1'), (r'\bNat\.min\b', 'Nat.max'), (r'\bremovelast\b', '(fun x => x)'), (r'\btl\b', '(fun x => x)'),
       (r'\bdset (\w+) (\w+) (\S+) (\w+)', r'\4'), (r'\blist_set (\w+) (\S+) (\S+)', r'\3')]
START = re.compile(r'^[ ]*(Definition|Fixpoint|Inductive|Record)\s+(\w+)', re.M)
def sites():
    out = []
    for f in MODEL:
        s = open(f'{BASE}/{f}.v', encoding='utf-8').read()
        com = [(m.start(), m.end()) for m in re.finditer(r'\(\*.*?\*\)', s, re.S)]
        heads = [(m.start(), m.group(1), m.group(2)) for m in START.finditer(s)]
        ends = {}
        for i, (a, k, n) in enumerate(heads):
            e = re.compile(r'\.\s*(\n|$|\(\*)').search(s, a)
            if k not in ('Definition', 'Fixpoint'): continue
            b = e.end() if e else len(s)
            body = re.compile(r':=').search(s, a)
            if not body or body.start() > b: continue
            for oi, (pat, rep) in enumerate(OPS):
                for m in re.compile(pat).finditer(s, body.end(), b):
                    if any(x <= m.start() < y for x, y in com): continue
                    new = m.expand(rep) if isinstance(rep, str) else rep(m)
                    if new == m.group(0): continue
                    out.append({'id': f'{f}.{n}.{oi}.{m.start()-a}', 'file': f, 'def': n, 'at': m.start(), 'old': m.group(0), 'new': new,
                                'context': s[max(a, m.start() - 40):m.end() + 40].replace('\n', ' ')})
    return out
def deps():
    d = {}
    for f in files:
        s = open(f'{BASE}/{f}.v', encoding='utf-8').read()
        r = set()
        for m in re.finditer(r'From Verif Require Import ([^.]*)\.', s): r |= set(m.group(1).split())
        d[f] = r & set(files)
    return d
def run(m, log):
    t0 = time.time()
    for f in os.listdir(BASE):
        if f.endswith(('.v', '.vo')):
            a, b = f'{BASE}/{f}', f'{W}/{f}'
            if not os.path.exists(b) or os.stat(a).st_mtime != os.stat(b).st_mtime: shutil.copy2(a, b)
    p = f"{W}/{m['file']}.v"
    s = open(p, encoding='utf-8').read()
    assert s[m['at']:m['at'] + len(m['old'])] == m['old']
    open(p, 'w', encoding='utf-8').write(s[:m['at']] + m['new'] + s[m['at'] + len(m['old']):])
    d = deps(); dirty = {m['file']}; res = 'survived'; done = set(files) - dirty
    order = []
    left = list(files)
    def rank(f): return (0 if f.endswith('Facts') else 1 if f.startswith('Spec') else 2 if f in MODEL else 3, os.stat(f'{BASE}/{f}.v').st_size)
    while left:
        f = min((f for f in left if not (d[f] & set(left))), key=rank); order.append(f); left.remove(f)
    for f in order:
        if f in dirty or d[f] & dirty:
            if f == 'Conformance': continue
            dirty.add(f)
            try: r = subprocess.run(['nice', 'coqc', '-Q', '.', 'Verif', f + '.v'], cwd=W, capture_output=True, text=True, timeout=600, errors='replace')
            except subprocess.TimeoutExpired: res = 'killed by timeout in ' + f; break
            if r.returncode:
                if f in MODEL and f == m['file']: res = 'illtyped'
                else:
                    ln = re.findall(r'line (\d+), characters', r.stderr)
                    name = '?'
                    if ln:
                        txt = open(f'{W}/{f}.v', encoding='utf-8').read().split('\n')[:int(ln[-1])]
                        for l in txt:
                            h = re.match(r'\s*(?:Lemma|Theorem|Example|Corollary|Definition|Fixpoint)\s+(\w+)', l)
                            if h: name = h.group(1)
                    res = f'killed by {f}.{name}'
                break
    rec = {'id': m['id'], 'definition': f"{m['file']}.{m['def']}", 'edit': f"{m['old']} -> {m['new']}", 'context': m['context'], 'result': res, 'seconds': round(time.time() - t0)}
    open(log, 'a').write(json.dumps(rec, ensure_ascii=False) + '\n')
    for f in dirty:
        for x in (f + '.v', f + '.vo'):
            try: os.remove(f'{W}/{x}')
            except FileNotFoundError: pass
if __name__ == '__main__':
    ms = sites()
    if sys.argv[1] == 'list':
        for m in ms: print(m['id'], '|', m['old'], '->', m['new'], '|', m['context'])
    else:
        os.makedirs(W, exist_ok=True)
        by = {m['id']: m for m in ms}
        for i in sys.argv[3:]:
            run(by[i], sys.argv[2])
