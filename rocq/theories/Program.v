(** * Program: any number of threads, each of which makes one call of the library after the other.

    Model file: definitions only.  The calls: Dictionary.add_word, Lexicon.add_template, Template.substitute and get_undictionaried_words,
    Dictionary.get_words, the four selections of Lexicon, construct_integer - on one dictionary, one lexicon and the module's cache of
    integers.  The steps of the calls are those of Concurrent.v, Readers.v, LexReaders.v and Constructors.v, unchanged.  What a thread does
    between two calls is arbitrary: its next request is any function of the outcomes of its calls so far. *)
From Verif Require Import PyBase Words Constructors Dictionary Lexicon Templates Concurrent Readers LexReaders SpecReaders SpecLexReaders.

(** ** Threads that make calls.  [Q]: requests, [P]: calls in progress or finished, [S]: the shared state *)
Section Workers.
  Context {S P Q : Type} (step : S -> P -> S * P) (start : Q -> P) (returned : P -> bool).
  Definition strategy : Type := list P -> option Q.
  Record worker := { wk_next : strategy; wk_done : list P; wk_current : option P }.
  Definition new_worker (next : strategy) : worker := {| wk_next := next; wk_done := []; wk_current := None |}.
  (** starting a call and looking at its outcome touch nothing that is shared *)
  Definition wk_step (s : S) (w : worker) : S * worker :=
    match wk_current w with
    | None => (s, match wk_next w (wk_done w) with
                  | None => w
                  | Some q => {| wk_next := wk_next w; wk_done := wk_done w; wk_current := Some (start q) |}
                  end)
    | Some p => if returned p then (s, {| wk_next := wk_next w; wk_done := wk_done w ++ [p]; wk_current := None |})
                else let (s', p') := step s p in (s', {| wk_next := wk_next w; wk_done := wk_done w; wk_current := Some p' |})
    end.
  Definition wk_run := run_threads wk_step.
End Workers.
Arguments worker : clear implicits.
Arguments strategy : clear implicits.

(** ** The library *)
Section Program.
  Context {K R : Type} (keqb : K -> K -> bool) (reqb : R -> R -> bool) (U : unicode).

  Record pg_state := { pg_lexicon : lx_state K template R; pg_dictionary : dictionary; pg_integers : integer_cache }.
  Inductive pg_request :=
    | Q_add_word (w : word)
    | Q_add_template (c : lx_call K template R)
    | Q_dictionary (r : reader)
    | Q_lexicon (r : lexicon_reader K R)
    | Q_integer (n : Z).
  Inductive pg_call :=
    | PG_word (p : aw_pc)
    | PG_template (p : at_pc K template R)
    | PG_dictionary (p : rd_pc)
    | PG_lexicon (p : lr_pc K template R)
    | PG_integer (p : ci_pc).
  Definition pg_start (q : pg_request) : pg_call :=
    match q with
    | Q_add_word w => PG_word (aw_start w)
    | Q_add_template c => PG_template (AT_test c)
    | Q_dictionary r => PG_dictionary (reader_start r)
    | Q_lexicon r => PG_lexicon (lr_start (query r))
    | Q_integer n => PG_integer (CI_start n)
    end.
  Definition pg_step (s : pg_state) (c : pg_call) : pg_state * pg_call :=
    match c with
    | PG_word p => let (d, p') := aw_step U (pg_dictionary s) p in
                   ({| pg_lexicon := pg_lexicon s; pg_dictionary := d; pg_integers := pg_integers s |}, PG_word p')
    | PG_template p => let (l, p') := at_step keqb (pg_lexicon s) p in
                       ({| pg_lexicon := l; pg_dictionary := pg_dictionary s; pg_integers := pg_integers s |}, PG_template p')
    | PG_dictionary p => (s, PG_dictionary (rd_step U (pg_dictionary s) p))
    | PG_lexicon p => (s, PG_lexicon (lr_step keqb reqb (pg_lexicon s) p))
    | PG_integer p => let (c', p') := ci_step (pg_integers s) p in
                      ({| pg_lexicon := pg_lexicon s; pg_dictionary := pg_dictionary s; pg_integers := c' |}, PG_integer p')
    end.
  (** the call has returned or raised *)
  Definition pg_returned (c : pg_call) : bool :=
    match c with
    | PG_word (AW_done _) | PG_template (AT_done _ _) | PG_lexicon (LR_answer _) | PG_integer (CI_done _ _) => true
    | PG_dictionary (RD_text _) | PG_dictionary (RD_found _) | PG_dictionary (RD_set _) | PG_dictionary RD_changed => true
    | _ => false
    end.
  Definition pg_run := wk_run pg_step pg_start pg_returned.
End Program.
Arguments pg_state : clear implicits.
Arguments pg_request : clear implicits.
Arguments pg_call : clear implicits.
