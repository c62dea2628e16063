#!/usr/bin/env python3
"""Generates rocq/theories/MigrationTables.v from the TEXT of /repo/utg/migrations/*.py (nothing of /repo is
imported or run: the files are parsed with ast.parse)."""
import ast, os, re, sys

ROOT = '/repo/utg/migrations/'
OUT = os.path.join(os.path.dirname(os.path.abspath(__file__)), '..', 'rocq', 'theories', 'MigrationTables.v')

FILES = {'m_0001': 'm_0001_include_short_forms_in_full.py',
         'm_0003': 'm_0003_change_verb_forms.py',
         'm_0006': 'm_0006_per_word_type_restrictions.py',
         'm_0007': 'm_0007_reduce_words_forms.py',
         'm_0008': 'm_0008_lower_animiality_nearest_priority.py',
         'm_0009': 'm_0009_pronoun_modernization.py'}


def assigns(name):
    tree = ast.parse(open(ROOT + FILES[name], encoding='utf-8').read())
    return {n.targets[0].id: n for n in tree.body if isinstance(n, ast.Assign)}


def elem(e):
    if isinstance(e, ast.Constant) and e.value is None:
        return 'None'
    assert isinstance(e, ast.Attribute) and isinstance(e.value, ast.Name)
    return 'Some %s_%s' % (e.value.id, e.attr)


def table(d):
    assert isinstance(d, ast.Dict)
    rows = []
    seen = set()
    for k, v in zip(d.keys, d.values):
        assert isinstance(k, ast.Tuple)
        key = tuple(elem(e) for e in k.elts)
        seen.add(key)
        assert isinstance(v.value, int)
        rows.append('([%s], %d)' % ('; '.join(key), v.value))
    return rows


def emit(out, coqname, d, cite):
    rows = table(d)
    out.append('(** %s *)' % cite)
    out.append('Definition %s : dict key nat := dict_literal [' % coqname)
    out.append(';\n'.join('  ' + r for r in rows))
    out.append('].\n')


def main():
    out = ['(** * MigrationTables: the slot tables written out in utg/migrations/*.py.',
           '    GENERATED from the text of these files by tools/gen_migrations.py; do not edit.  The order of the',
           '    entries is the order of the dict literals. *)',
           'From Verif Require Import PyBase Relations Restrictions Logic.', '',
           '(** Evaluation of a dict display: a repeated key keeps its first position and gets its last value. *)',
           'Definition dict_literal (l : list (key * nat)) : dict key nat :=',
           '  fold_left (fun d kv => dset key_eqb (fst kv) (snd kv) d) l [].', '']
    a = assigns('m_0001')
    for n in ('OLD_ADJECTIVE_CACHE', 'OLD_PARTICIPLE_CACHE'):
        emit(out, 'm1_' + n, a[n].value, 'utg/migrations/%s:%d' % (FILES['m_0001'], a[n].lineno))

    for m in FILES:
        names = []
        for st in ast.parse(open(ROOT + FILES[m], encoding='utf-8').read()).body:
            if isinstance(st, ast.Assign):
                # attributes in the order in which the display evaluates them
                found = [(e.lineno, e.col_offset, e.value.id, e.attr) for e in ast.walk(st.value)
                         if isinstance(e, ast.Attribute) and isinstance(e.value, ast.Name)]
                for _, _, rel, name in sorted(found):
                    if (rel, name) not in names:
                        names.append((rel, name))
        out.append('(** The attributes (relation, record name) evaluated when utg/migrations/%s\n'
                   '    is imported (its module-level tables), in order of first occurrence *)' % FILES[m])
        out.append('Definition m%s_attributes : list (relation * str) := [' % m[-1])
        out.append(';\n'.join('  (R_%s, u "%s")' % p for p in names))
        out.append('].\n')

    for m in ('m_0007', 'm_0008', 'm_0009'):
        a = assigns(m)
        for n in ('OLD_CACHES', 'NEW_CACHES'):
            if n not in a:
                continue
            d = a[n].value
            short = 'm' + m[-1] + '_' + n
            types = []
            for k, v in zip(d.keys, d.values):
                t = k.attr
                types.append(t)
                emit(out, short + '_' + t, v, 'utg/migrations/%s:%d-%d' % (FILES[m], v.lineno, v.end_lineno))
            out.append('(** utg/migrations/%s:%d *)' % (FILES[m], a[n].lineno))
            out.append('Definition %s (t : word_type) : dict key nat :=\n  match t with' % short)
            for t in types:
                out.append('  | WT_%s => %s_%s' % (t, short, t))
            out.append('  end.\n')
    # record names
    src = open('/repo/utg/relations.py', encoding='utf-8').read()
    out.append('(** Names of the records of a relation, utg/relations.py:10-126 (the record CONDITIONAL of VERB_FORM is\n'
               '    commented out there, line 35) *)')
    out.append('Definition record_names (r : relation) : list str :=\n  match r with')
    for n in ast.parse(src).body:
        if isinstance(n, ast.ClassDef) and n.name != 'PROPERTY_TYPE':
            for s in n.body:
                if isinstance(s, ast.Assign) and s.targets[0].id == 'records':
                    out.append('  | R_%s => [%s]' % (n.name, '; '.join('u "%s"' % e.elts[0].value for e in s.value.elts)))
    out.append('  end.')
    open(OUT, 'w', encoding='utf-8').write('\n'.join(out) + '\n')


main()
