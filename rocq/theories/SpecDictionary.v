(** * SpecDictionary: vocabulary for the statements about dictionaries *)
From Verif Require Import PyBase Relations Logic Data Words Dictionary SpecProps.

(** lexicographic order generated by an order of the elements (Python's [<] on str and on lists): a proper prefix is
    smaller; else the first difference decides *)
Definition lex {A} (lt : A -> A -> Prop) (a b : list A) : Prop :=
  (exists x t, b = a ++ x :: t) \/
  (exists p x y a' b', a = p ++ x :: a' /\ b = p ++ y :: b' /\ lt x y).
Definition text_less : str -> str -> Prop := lex N.lt.

(** the candidate a is strictly better than b: smaller number of the word type, then smaller forms list, then fewer
    properties that differ from the defaults *)
Definition preferred (a b : wordform) : Prop :=
  let (wa, wb) := (wf_word a, wf_word b) in
  (wt_value (w_type wa) < wt_value (w_type wb))%Z \/
  (w_type wa = w_type wb /\
   (lex text_less (w_forms wa) (w_forms wb) \/
    (w_forms wa = w_forms wb /\ manhattan_distance (wf_props a) < manhattan_distance (wf_props b)))).

(** the word forms that add_word(w) registers: all forms of w, up to the first one whose text can not be computed *)
Definition registers (U : unicode) (w : word) (l : list wordform) : Prop :=
  exists rest, all_forms w = Ok (l ++ rest) /\
    (forall f, In f l -> exists t, wf_form U f = Ok t) /\
    (rest = [] \/ exists f r e, rest = f :: r /\ wf_form U f = Err e).
(** the word forms registered by a history of add_word calls, in order *)
Definition registered (U : unicode) (ws : list word) (l : list wordform) : Prop :=
  exists ls, Forall2 (registers U) ws ls /\ l = concat ls.

(** the dictionary after a history of add_word calls (a caller may catch the exceptions) *)
Definition after (U : unicode) (ws : list word) : dictionary := fold_left (fun d w => fst (add_word U d w)) ws [].
(** two candidates that are equally good *)
Definition level (a b : wordform) : Prop :=
  w_type (wf_word a) = w_type (wf_word b) /\ w_forms (wf_word a) = w_forms (wf_word b) /\
  manhattan_distance (wf_props a) = manhattan_distance (wf_props b).
