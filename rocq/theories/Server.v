(** * Server: words are added to a dictionary, templates to a lexicon, and stories are told, all at the same time.

    Model file: definitions only.  A story: lexicon.get_random_template(key, restrictions).substitute(externals, dictionary), or the same
    with get_random_nearest_template (utg/lexicon.py:29-38,58-67, utg/templates.py:169-172), in one thread.  One atomic step per access to a
    shared dict or list, as in Concurrent.v, Readers.v and LexReaders.v, whose steps are used unchanged; the objects in the lexicon are
    templates that are not changed meanwhile. *)
From Verif Require Import PyBase Words Dictionary Lexicon Templates Concurrent Readers LexReaders.

Section Server.
  Context {K R : Type} (keqb : K -> K -> bool) (reqb : R -> R -> bool) (U : unicode).

  Inductive sv_pc :=
    | SV_word (w : aw_pc)                                               (* dictionary.add_word *)
    | SV_template (c : at_pc K template R)                              (* lexicon.add_template *)
    | SV_select (p : lr_pc K template R) (ext : externals)              (* the template of a story is being selected *)
    | SV_print (p : rd_pc).                                             (* and substituted *)

  Definition sv_state : Type := lx_state K template R * dictionary.

  (** the call of substitute follows the return of the selection in the same thread *)
  Definition sv_selected (ext : externals) (p : lr_pc K template R) : sv_pc :=
    match p with
    | LR_answer (Single (Ok t)) => SV_print (RD_substitute t ext [] (t_subs t))
    | LR_answer (Single (Err e)) => SV_print (RD_text (Err e))
    | _ => SV_select p ext
    end.
  Definition sv_step (s : sv_state) (pc : sv_pc) : sv_state * sv_pc :=
    match pc with
    | SV_word w => let (d, w') := aw_step U (snd s) w in ((fst s, d), SV_word w')
    | SV_template c => let (l, c') := at_step keqb (fst s) c in ((l, snd s), SV_template c')
    | SV_select p ext => (s, sv_selected ext (lr_step keqb reqb (fst s) p))
    | SV_print p => (s, SV_print (rd_step U (snd s) p))
    end.
  Definition sv_run := run_threads sv_step.
End Server.
Arguments sv_pc : clear implicits.
Arguments sv_state : clear implicits.
