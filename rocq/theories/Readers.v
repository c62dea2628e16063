(** * Readers: Template.substitute, Template.get_undictionaried_words and Dictionary.get_words as threads that run
    concurrently with add_word calls.

    Model file: definitions only.  One atomic step per access to the dict of the dictionary; templates, externals and words
    are not changed meanwhile. *)
From Verif Require Import PyBase Relations Logic Data Words Dictionary Templates Concurrent.

Inductive rd_pc :=
  | RD_substitute (t : template) (ext : externals) (texts : list str) (rest : list substitution)   (* utg/templates.py:169-172 *)
  | RD_text (r : result str)
  | RD_missing (ext : externals) (found : list str) (rest : list substitution)                     (* utg/templates.py:142-155 *)
  | RD_found (l : list str)
  | RD_values                                                       (* utg/dictionary.py:65: self._data.values() *)
  | RD_words (size position : nat) (words : list word)              (* the next element of the generator, added to the set *)
  | RD_set (words : list word)
  | RD_changed.                                                     (* RuntimeError: dictionary changed size during iteration *)

(** get_text (utg/templates.py:93-115) accesses the dictionary once, in get_word (utg/dictionary.py:57); the iterator of
    [values] compares the size of the dict with the size at its creation whenever it is asked for an element; elements are
    visited in the order of insertion *)
Definition rd_step (U : unicode) (d : dictionary) (pc : rd_pc) : rd_pc :=
  match pc with
  | RD_substitute t ext texts (s :: rest) =>
      match get_text U s ext d with Ok x => RD_substitute t ext (texts ++ [x]) rest | Err e => RD_text (Err e) end
  | RD_substitute t ext texts [] => RD_text (match t_text t with None => Err TypeError | Some fmt => py_format fmt texts end)
  | RD_text r => RD_text r
  | RD_missing ext found (s :: rest) =>
      RD_missing ext (if dmem str_eqb (s_id s) ext then found else if has_word d (s_id s) then found else found ++ [s_id s]) rest
  | RD_missing ext found [] => RD_found found
  | RD_found l => RD_found l
  | RD_values => RD_words (length d) 0 []
  | RD_words size position words =>
      if Nat.eqb (length d) size then
        match nth_error d position with
        | None => RD_set words
        | Some (_, f) => RD_words size (S position) (if mem word_eqb (wf_word f) words then words else words ++ [wf_word f])
        end
      else RD_changed
  | RD_set words => RD_set words
  | RD_changed => RD_changed
  end.

(** a program with threads of both kinds *)
Definition mx_step (U : unicode) (d : dictionary) (pc : aw_pc + rd_pc) : dictionary * (aw_pc + rd_pc) :=
  match pc with
  | inl w => let (d', w') := aw_step U d w in (d', inl w')
  | inr r => (d, inr (rd_step U d r))
  end.
Definition mx_run (U : unicode) := run_threads (mx_step U).
