(** * Sessions: a program that uses Template objects, a Lexicon and a Dictionary together.  Template objects are referred to by their number
    (their identity); a Lexicon keeps references to them (utg/lexicon.py:17 appends the object itself), and Template.parse changes the object in
    place (utg/templates.py:157-167).  The functions of the other files are used unchanged; new is only which object an operation reads and
    changes.  Simplified: one lexicon and one dictionary; the words are values (Heap.v has the objects below). *)
From Verif Require Import PyBase Relations Words Dictionary Lexicon Templates.

Section Sessions.
  Context {K R : Type} (keqb : K -> K -> bool) (reqb : R -> R -> bool) (U : unicode).

  Record session := { ss_templates : list template; ss_lexicon : lexicon K nat R; ss_dictionary : dictionary }.
  Definition fresh_session : session := {| ss_templates := []; ss_lexicon := empty_lexicon; ss_dictionary := [] |}.

  Inductive action :=
    | NewTemplate                                            (** Template(), utg/templates.py:126-128 *)
    | LoadTemplate (d : template_data)                       (** Template.deserialize(data), utg/templates.py:134-140 *)
    | ParseTemplate (r : nat) (text : str) (ext : externals) (** template.parse(text, externals), utg/templates.py:157-167 *)
    | AddTemplate (key : K) (r : nat) (restrictions : list R)(** lexicon.add_template(key, template, restrictions), utg/lexicon.py:13-17 *)
    | AddWord (w : word).                                    (** dictionary.add_word(word), utg/dictionary.py:16-49 *)

  Definition with_templates (s : session) (l : list template) : session :=
    {| ss_templates := l; ss_lexicon := ss_lexicon s; ss_dictionary := ss_dictionary s |}.
  (** the session after an action (which may have raised); a reference that does not exist can not be in the hands of a program: nothing happens *)
  Definition act (s : session) (a : action) : session :=
    match a with
    | NewTemplate => with_templates s (ss_templates s ++ [new_template])
    | LoadTemplate d => match deserialize_template d with
                        | Ok t => with_templates s (ss_templates s ++ [t])
                        | Err _ => s
                        end
    | ParseTemplate r text ext => match nth_error (ss_templates s) r with
                                  | Some t => with_templates s (list_set r (fst (parse_template U t text ext)) (ss_templates s))
                                  | None => s
                                  end
    | AddTemplate key r restrictions =>
        {| ss_templates := ss_templates s; ss_lexicon := add_template keqb (ss_lexicon s) key r restrictions; ss_dictionary := ss_dictionary s |}
    | AddWord w =>
        {| ss_templates := ss_templates s; ss_lexicon := ss_lexicon s; ss_dictionary := fst (add_word U (ss_dictionary s) w) |}
    end.
  Definition session_after (h : list action) : session := fold_left act h fresh_session.

  (** template.substitute(externals, dictionary), utg/templates.py:169-172 *)
  Definition print_template (s : session) (r : nat) (ext : externals) : result str :=
    match nth_error (ss_templates s) r with Some t => substitute U t ext (ss_dictionary s) | None => Err KeyError end.
  (** lexicon.get_random_template(key, restrictions).substitute(externals, dictionary) and the same with get_random_nearest_template,
      utg/lexicon.py:29-38,58-67 *)
  Definition tell (rnd : nat) (nearest : bool) (s : session) (key : K) (restrictions : list R) (ext : externals) : result str :=
    r <- (if nearest then get_random_nearest_template keqb reqb rnd (ss_lexicon s) key restrictions
          else get_random_template keqb reqb rnd (ss_lexicon s) key restrictions) ;;
    print_template s r ext.
End Sessions.
Arguments session : clear implicits.
Arguments action : clear implicits.
