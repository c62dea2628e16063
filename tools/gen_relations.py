#!/usr/bin/env python3
"""Transcribes /repo/utg/relations.py (read as text, not imported) into theories/Relations.v."""
import re, ast, os
SRC='/repo/utg/relations.py'
lines=open(SRC,encoding='utf-8').read().split('\n')
tree=ast.parse('\n'.join(lines))
rels=[]; ptypes=None; wtypes=None
for node in tree.body:
    if not isinstance(node, ast.ClassDef): continue
    rec=None
    for st in node.body:
        if isinstance(st, ast.Assign) and st.targets[0].id=='records': rec=st
    if rec is None: continue
    span=(rec.lineno, rec.end_lineno)
    if node.name=='PROPERTY_TYPE':
        ptypes=(span,[(e.elts[0].value,e.elts[1].value,e.elts[2].value,e.elts[3].id) for e in rec.value.elts]); continue
    if node.name=='WORD_TYPE':
        ws=[]
        for e in rec.value.elts:
            sch=[x.id for x in e.elts[4].elts]
            pr=[(k.id,v.value) for k,v in zip(e.elts[5].keys,e.elts[5].values)]
            ws.append((e.elts[0].value,e.elts[1].value,e.elts[2].value,e.elts[3].value,sch,pr))
        wtypes=(span,ws)
    rels.append((node.name,span,[tuple(x.value for x in e.elts[:4]) for e in rec.value.elts]))
o=[]
w=o.append
w('(** * Relations: utg/relations.py')
w('    GENERATED from the text of /repo/utg/relations.py by tools/gen_relations.py; do not edit.')
w('    A record of a rels relation is a constructor of [prop] (records of WORD_TYPE: of [word_type]);')
w('    the human-readable [text] column is not modelled (nothing uses it). *)')
w('From Verif Require Import PyBase.')
w('Local Open Scope Z_scope.')
w('')
w('(** Subclasses of WORD_PROPERTY in order of definition, utg/relations.py:10-%d.' % wtypes[0][1])
w('    [R_X] is the class X. *)')
w('Inductive relation :=')
for n,_,_ in rels: w('  | R_%s' % n)
o[-1]+='.'
w('')
w('(** Records of WORD_TYPE, utg/relations.py:%d-%d *)' % wtypes[0])
w('Inductive word_type :=')
for x in wtypes[1]: w('  | WT_%s' % x[0])
o[-1]+='.'
w('')
w('(** Records of all property relations: [CASE_DATIVE] is r.CASE.DATIVE. *)')
w('Inductive prop :=')
for n,sp,rs in rels:
    if n=='WORD_TYPE': w('  | P_WORD_TYPE (t : word_type)  (* utg/relations.py:%d-%d *)' % sp)
    else:
        w('  (* utg/relations.py:%d-%d *)' % sp)
        for x in rs: w('  | %s_%s' % (n,x[0]))
o[-1]+='.'
w('')
w('(** record._relation *)')
w('Definition rel_of (p : prop) : relation :=\n  match p with')
for n,sp,rs in rels:
    if n=='WORD_TYPE': w('  | P_WORD_TYPE _ => R_WORD_TYPE')
    else: w('  | '+' | '.join('%s_%s'%(n,x[0]) for x in rs)+' => R_'+n)
w('  end.')
w('')
w('(** WORD_TYPE record.value *)')
w('Definition wt_value (t : word_type) : Z :=\n  match t with')
for x in wtypes[1]: w('  | WT_%s => %d' % (x[0],x[1]))
w('  end.')
w('')
w('(** record.value *)')
w('Definition value_of (p : prop) : Z :=\n  match p with')
for n,sp,rs in rels:
    if n=='WORD_TYPE': w('  | P_WORD_TYPE t => wt_value t')
    else:
        for x in rs: w('  | %s_%s => %d' % (n,x[0],x[1]))
w('  end.')
w('')
w('(** record.verbose_id *)')
w('Definition verbose_id (p : prop) : str :=\n  match p with')
for n,sp,rs in rels:
    for x in rs:
        c = 'P_WORD_TYPE WT_%s'%x[0] if n=='WORD_TYPE' else '%s_%s'%(n,x[0])
        w('  | %s => u "%s"' % (c,x[3]))
w('  end.')
w('')
w('(** WORD_TYPE.records *)')
w('Definition all_word_types : list word_type := ['+'; '.join('WT_'+x[0] for x in wtypes[1])+'].')
w('')
w('(** relation.records *)')
w('Definition records (r : relation) : list prop :=\n  match r with')
for n,sp,rs in rels:
    if n=='WORD_TYPE': w('  | R_WORD_TYPE => map P_WORD_TYPE all_word_types')
    else: w('  | R_%s => [%s]' % (n,'; '.join('%s_%s'%(n,x[0]) for x in rs)))
w('  end.')
w('')
w('(** The relation classes in order of definition in the module, i.e. in the order of r.__dict__;')
w('    this is logic.get_property_relations(), utg/logic.py:6-9. *)')
w('Definition all_relations : list relation :=\n  ['+'; '.join('R_'+n for n,_,_ in rels)+'].')
w('')
w('(** Position of a class in [all_relations]; used only for equality of classes (identity in Python). *)')
w('Definition rel_idx (r : relation) : N :=\n  match r with')
for i,(n,_,_) in enumerate(rels): w('  | R_%s => %d' % (n,i))
w('  end%N.')
w('')
w('(** WORD_TYPE record.schema, utg/relations.py:%d-%d *)' % wtypes[0])
w('Definition schema (t : word_type) : list relation :=\n  match t with')
for x in wtypes[1]: w('  | WT_%s => [%s]' % (x[0],'; '.join('R_'+y for y in x[4])))
w('  end.')
w('')
w('(** WORD_TYPE record.properties (a dict class -> required), utg/relations.py:%d-%d *)' % wtypes[0])
w('Definition type_properties (t : word_type) : list (relation * bool) :=\n  match t with')
for x in wtypes[1]: w('  | WT_%s => [%s]' % (x[0],'; '.join('(R_%s, %s)'%(a,'true' if b else 'false') for a,b in x[5])))
w('  end.')
w('')
w('(** PROPERTY_TYPE.records as (value, relation), utg/relations.py:%d-%d *)' % ptypes[0])
w('Definition property_types : list (Z * relation) :=\n  ['+';\n   '.join('(%d, R_%s)'%(x[1],x[3]) for x in ptypes[1])+'].')
w('')
w('''(** Equality of relation classes and of records (rels: same relation, same record; the value is a unique
    column). *)
Definition rel_eqb (a b : relation) : bool := N.eqb (rel_idx a) (rel_idx b).
Definition prop_eqb (p q : prop) : bool := rel_eqb (rel_of p) (rel_of q) && Z.eqb (value_of p) (value_of q).
Definition wt_eqb (a b : word_type) : bool := Z.eqb (wt_value a) (wt_value b).

(** Relation(value): rels lookup by primary column; None models NotExternalValueError. *)
Definition rel_call (r : relation) (v : Z) : option prop :=
  find (fun p => Z.eqb (value_of p) v) (records r).
(** WORD_TYPE(value) *)
Definition wt_call (v : Z) : option word_type := find (fun t => Z.eqb (wt_value t) v) all_word_types.
(** PROPERTY_TYPE(value).relation; None when value is not in PROPERTY_TYPE.index_value *)
Definition ptype_call (v : Z) : option relation :=
  match find (fun e => Z.eqb (fst e) v) property_types with Some e => Some (snd e) | None => None end.
(** PROPERTY_TYPE.index_relation[relation].value *)
Definition ptype_value (r : relation) : option Z :=
  match find (fun e => rel_eqb (snd e) r) property_types with Some e => Some (fst e) | None => None end.''')
dst=os.path.join(os.path.dirname(os.path.abspath(__file__)),'../rocq/theories/Relations.v')
open(dst,'w',encoding='utf-8').write('\n'.join(o)+'\n')
