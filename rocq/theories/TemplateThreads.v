(** * TemplateThreads: one Template object used by several threads at once.

    Model file: definitions only.  The object is changed by Template.parse (utg/templates.py:157-167): each found variable is appended to the list
    of substitutions as soon as it is parsed, the text is stored at the end.  One atomic step per access to the list or to the attribute
    [template]: a thread switch can happen between any two of them.  An iteration over the list meets elements appended meanwhile (a list iterator
    is an index that is compared with the current length).  The dictionary and the externals are not changed meanwhile (Readers.v has a changing
    dictionary and a fixed template). *)
From Verif Require Import PyBase Relations Words Dictionary Templates Concurrent.

Inductive tt_pc :=
  | TT_parse (ext : externals) (variables : list str) (text : str)                         (* lines 163-165, and 167 when no variable is left *)
  | TT_parsed (r : result unit)
  | TT_texts (ext : externals) (d : dictionary) (position : nat) (texts : list str)        (* lines 170-171 *)
  | TT_format (texts : list str)                                                           (* line 172: self.template is read after the tuple is made *)
  | TT_text (r : result str)
  | TT_missing (ext : externals) (d : dictionary) (position : nat) (found : list str)      (* lines 145-153 *)
  | TT_found (l : list str)
  | TT_template                                                                            (* line 131: self.template is read first *)
  | TT_stored (text : option str) (position : nat) (subs : list substitution_data)         (* line 132 *)
  | TT_data (r : result template_data).

Definition tt_step (U : unicode) (t : template) (pc : tt_pc) : template * tt_pc :=
  match pc with
  | TT_parse ext [] text => ({| t_subs := t_subs t; t_text := Some text |}, TT_parsed (Ok tt))
  | TT_parse ext (v :: vs) text =>
      match parse_substitution U v ext with
      | Err e => (t, TT_parsed (Err e))
      | Ok s => ({| t_subs := t_subs t ++ [s]; t_text := t_text t |}, TT_parse ext vs (replace_first v (u "%s") text))
      end
  | TT_parsed r => (t, TT_parsed r)
  | TT_texts ext d position texts =>
      (t, match nth_error (t_subs t) position with
          | None => TT_format texts
          | Some s => match get_text U s ext d with Ok x => TT_texts ext d (S position) (texts ++ [x]) | Err e => TT_text (Err e) end
          end)
  | TT_format texts => (t, TT_text (match t_text t with None => Err TypeError | Some fmt => py_format fmt texts end))
  | TT_text r => (t, TT_text r)
  | TT_missing ext d position found =>
      (t, match nth_error (t_subs t) position with
          | None => TT_found found
          | Some s => TT_missing ext d (S position)
                        (found ++ (if dmem str_eqb (s_id s) ext then [] else if has_word d (s_id s) then [] else [s_id s]))
          end)
  | TT_found l => (t, TT_found l)
  | TT_template => (t, TT_stored (t_text t) 0 [])
  | TT_stored text position subs =>
      (t, match nth_error (t_subs t) position with
          | None => TT_data (Ok {| td_text := text; td_subs := subs |})
          | Some s => match serialize_substitution s with Ok x => TT_stored text (S position) (subs ++ [x]) | Err e => TT_data (Err e) end
          end)
  | TT_data r => (t, TT_data r)
  end.
Definition tt_run (U : unicode) := run_threads (tt_step U).

(** the calls *)
Inductive tcall :=
  | CParse (text : str) (ext : externals)                       (** t.parse(text, externals) *)
  | CSubstitute (ext : externals) (d : dictionary)              (** t.substitute(externals, dictionary) *)
  | CUndictionaried (ext : externals) (d : dictionary)          (** t.get_undictionaried_words(externals, dictionary) *)
  | CSerialize.                                                 (** t.serialize() *)
Definition tt_start (c : tcall) : tt_pc :=
  match c with
  | CParse text ext => TT_parse ext (find_variables (escape text)) (escape text)     (* lines 159-161 *)
  | CSubstitute ext d => TT_texts ext d 0 []
  | CUndictionaried ext d => TT_missing ext d 0 []
  | CSerialize => TT_template
  end.
