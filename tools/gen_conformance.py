#!/usr/bin/env python3
"""Writes rocq/theories/Conformance.v: the expectations of the project's own unit tests (utg/tests), evaluated on the model.

The tables of test_transformators, test_constructors and test_logic are extracted from the test source with `ast`;
the other tests are transcribed by hand below (each cites the test).  These are TESTS of the model against the
behaviour that the authors documented, not proofs of properties."""
import ast, os
HERE = os.path.dirname(os.path.abspath(__file__))
REPO = '/repo/utg/tests/'

def src(name):
    return ast.parse(open(REPO + name, encoding='utf-8').read())

def fn(tree, name):
    return next(n for n in ast.walk(tree) if isinstance(n, ast.FunctionDef) and n.name == name)

def rec(node):
    """r.CASE.DATIVE -> CASE_DATIVE ; r.CASE -> R_CASE ; None -> None"""
    if isinstance(node, ast.Constant) and node.value is None:
        return None
    if isinstance(node.value, ast.Attribute):
        return '%s_%s' % (node.value.attr, node.attr)
    return 'R_' + node.attr

def opt(node):
    x = rec(node)
    return 'None' if x is None else 'Some ' + x

def lst(nodes, f=rec):
    return '[' + '; '.join(f(n) for n in nodes) + ']'

def assigned(f, name):
    return next(n.value for n in ast.walk(f) if isinstance(n, ast.Assign) and n.targets[0].id == name)

out = []
w = out.append
w('(** * Conformance: the expectations of the unit tests of the project (utg/tests), evaluated on the model.')
w('    Generated by tools/gen_conformance.py; each Example cites the test.  Tests of the model, not properties. *)')
w('From Verif Require Import PyBase Relations Restrictions Logic Data Words Transformators Constructors Dictionary Lexicon Templates.')
w('')
w('Definition P (l : list prop) : props := Properties (map AProp l).')
w('Definition res_props_eqb (a : result props) (b : props) : bool := match a with Ok p => props_eqb p b | Err _ => false end.')
w('Definition U := ru_unicode.')
w('')
T = src('test_transformators.py')
for test, func, sem in (('test_noun_integer', 'noun_integer', False), ('test_noun_integer__semantic_dependency', 'noun_integer', True),
                        ('test_adjective_integer', 'adjective_integer', False), ('test_adjective_integer__semantic_dependency', 'adjective_integer', True)):
    d = assigned(fn(T, test), 'TESTS')
    table = {}
    for k, v in zip(d.keys, d.values):          # later duplicates win, as in Python
        table[lst(k.elts)] = lst(v.elts)
    rows = ';\n   '.join('(%s, %s)' % kv for kv in table.items())
    w('(** utg/tests/test_transformators.py: %s *)' % test)
    pre = 'DEPENDENCY_MODE_SEMANTIC :: ' if sem else ''
    w('Example %s : forallb (fun t => res_props_eqb (%s (P (%sfst t))) (P (%ssnd t)))\n  [%s] = true.' % (test, func, pre, pre, rows))
    w('Proof. vm_compute. reflexivity. Qed.\n')

C = fn(src('test_constructors.py'), 'test_construct_integer')
names = {}
for n in ast.walk(C):
    if isinstance(n, ast.Assign) and isinstance(n.value, ast.Call) and n.targets[0].id.endswith('_properties'):
        names[n.targets[0].id] = lst(n.value.args)
d = assigned(C, 'tests')
rows = ';\n   '.join('(%d%%Z, %s)' % (k.value, names[v.id]) for k, v in zip(d.keys, d.values))
w('(** utg/tests/test_constructors.py: test_construct_integer (through _construct_integer, and through the cache) *)')
w('Definition integer_ok (z : Z) (p : list prop) (r : result wordform) : bool :=')
w('  match r with')
w('  | Ok f => word_eqb (wf_word f) {| w_type := WT_INTEGER; w_forms := [str_of_Z z]; w_props := P p |} && props_eqb (wf_props f) (P p)')
w('  | Err _ => false')
w('  end.')
w('Definition integer_tests : list (Z * list prop) :=\n  [%s].' % rows)
w('Example test_construct_integer : forallb (fun t => integer_ok (fst t) (snd t) (construct_integer_raw (fst t))) integer_tests = true.')
w('Proof. vm_compute. reflexivity. Qed.')
w('Example test_construct_integer__cached :')
w('  let c := fst (construct_integer None 0) in forallb (fun t => integer_ok (fst t) (snd t) (snd (construct_integer c (fst t)))) integer_tests = true.')
w('Proof. vm_compute. reflexivity. Qed.')
w('(** the forms are the decimal texts *)')
w('Example test_construct_integer__texts : map (fun t => str_of_Z (fst t)) integer_tests = [%s].' % '; '.join('u "%d"' % k.value for k in d.keys))
w('Proof. vm_compute. reflexivity. Qed.\n')

L = src('test_logic.py')
f = fn(L, 'test_keys_generation__with_restrictions')
w('(** utg/tests/test_logic.py: test_keys_generation__with_restrictions *)')
sch = lst(assigned(f, 'schema').elts)
rd = assigned(f, 'restrictions')
restr = '[' + '; '.join('(%s, %s)' % (rec(k), lst(v.elts)) for k, v in zip(rd.keys, rd.values)) + ']'
exp = '[' + ';\n   '.join(lst(e.elts, opt) for e in assigned(f, 'expected').elts) + ']'
w('Example test_keys_generation__with_restrictions : keys_generator [] %s %s =\n  %s.' % (sch, restr, exp))
w('Proof. vm_compute. reflexivity. Qed.\n')
for test in ('test_get_caches', 'test_get_caches__restricted_parts', 'test_get_caches__with_restrictions'):
    f = fn(L, test)
    call = next(n for n in ast.walk(f) if isinstance(n, ast.Call) and getattr(n.func, 'attr', '') == '_get_cache')
    kw = {k.arg: k.value for k in call.keywords}
    sch = lst(kw['schema'].elts)
    rd = kw['restrictions']
    restr = '[' + '; '.join('(%s, %s)' % (rec(k), lst(v.elts)) for k, v in zip(rd.keys, rd.values)) + ']'
    parts = '[' + '; '.join(lst(p.args[0].elts) for p in kw['restricted_key_parts'].elts) + ']'
    eqs = [n for n in ast.walk(f) if isinstance(n, ast.Call) and getattr(n.func, 'attr', '') == 'assertEqual']
    cache = next(n.args[1] for n in eqs if isinstance(n.args[0], ast.Name) and n.args[0].id == 'cache')
    inv = next(n.args[1] for n in eqs if isinstance(n.args[0], ast.Name) and n.args[0].id == 'inverted_cache')
    ccoq = '[' + ';\n    '.join('(%s, %d)' % (lst(k.elts, opt), v.value) for k, v in zip(cache.keys, cache.values)) + ']'
    icoq = '[' + ';\n    '.join(lst(k.elts, opt) for k in inv.elts) + ']'
    w('(** utg/tests/test_logic.py: %s *)' % test)
    w('Example %s :\n  get_cache %s %s %s =\n  (%s,\n   %s).' % (test, sch, restr, parts, ccoq, icoq))
    w('Proof. vm_compute. reflexivity. Qed.\n')
f = fn(L, 'test_get_nearest_key')
av = '[' + '; '.join(lst(k.elts, opt) for k in assigned(f, 'available_keys').elts) + ']'
d = assigned(f, 'expected')
w('(** utg/tests/test_logic.py: test_get_nearest_key *)')
w('Example test_get_nearest_key : map (fun k => get_nearest_key k %s)\n  [%s] =\n  [%s].' % (av,
  '; '.join(lst(k.elts, opt) for k in d.keys), '; '.join('Some ' + lst(v.elts, opt) for v in d.values)))
w('Proof. vm_compute. reflexivity. Qed.\n')
f = fn(L, 'test_get_default_properties')
s = next(n for n in ast.walk(f) if isinstance(n, ast.Call) and getattr(n.func, 'id', '') == 'set' and isinstance(n.args[0], ast.List)).args[0].elts
w('(** utg/tests/test_logic.py: test_get_default_properties *)')
w('Example test_get_default_properties :')
w('  let expected := %s in' % lst(s, opt))
w('  forallb (fun kv => mem (opt_eqb prop_eqb) (snd kv) expected) get_default_properties')
w('  && forallb (fun o => mem (opt_eqb prop_eqb) o (map snd get_default_properties)) expected = true.')
w('Proof. vm_compute. reflexivity. Qed.\n')

out.append(open(os.path.join(HERE, 'conformance_hand.txt'), encoding='utf-8').read())
open(os.path.join(HERE, '..', 'rocq', 'theories', 'Conformance.v'), 'w', encoding='utf-8').write('\n'.join(out))
