(** * LexReaders: the readers of a lexicon (utg/lexicon.py:22-67) as threads that run concurrently with add_template calls.

    Model file: definitions only.  One atomic step per access to the shared dict or to a shared list: [key not in self._data],
    [self._data.get(key, ())], and each request of the list iterator for its next element (the iterator of a list looks at the
    length and the element at its position at the moment it is asked, so it meets elements appended meanwhile). *)
From Verif Require Import PyBase Words Lexicon Concurrent.

Section LexReaders.
  Context {K T R : Type} (keqb : K -> K -> bool) (reqb : R -> R -> bool).

  (** which of the four functions is called (the nearest ones; the random ones with the outcome of the random generator), with
      which arguments *)
  Record lr_query := { q_nearest : bool; q_random : option nat; q_key : K; q_restrictions : list R }.
  Inductive lr_answer := Several (templates : list T) | Single (r : result T).

  Inductive lr_pc :=
    | LR_test (q : lr_query)                                                       (* lines 30, 59 *)
    | LR_get (q : lr_query)                                                        (* lines 24, 45: self._data.get(key, ()) *)
    | LR_templates (q : lr_query) (r position : nat) (acc : list T)                (* lines 23-25 *)
    | LR_nearest (q : lr_query) (r position : nat) (acc : list (T * Z) * Z)        (* lines 45-54 *)
    | LR_answer (a : lr_answer).

  Definition lr_start (q : lr_query) : lr_pc := match q_random q with None => LR_get q | Some _ => LR_test q end.
  (** lines 27, 56; for the random functions lines 35-38, 64-67 *)
  Definition lr_finish (q : lr_query) (candidates : list T) : lr_pc :=
    LR_answer (match q_random q with
               | None => Several candidates
               | Some rnd => Single (match candidates with [] => Err NoTemplatesWithSpecifiedRestrictions | _ => choice rnd candidates end)
               end).
  Definition lr_step (s : lx_state K T R) (pc : lr_pc) : lr_pc :=
    match pc with
    | LR_test q => if negb (dmem keqb (q_key q) (lx_data s)) then LR_answer (Single (Err UnknownLexiconKeyError)) else LR_get q
    | LR_get q =>
        match dget keqb (q_key q) (lx_data s) with
        | None => lr_finish q []
        | Some r => if q_nearest q then LR_nearest q r 0 ([], (-1)%Z) else LR_templates q r 0 []
        end
    | LR_templates q r position acc =>
        match nth_error (nth r (lx_lists s) []) position with
        | None => lr_finish q acc
        | Some tr => LR_templates q r (S position) (if issubset reqb (snd tr) (q_restrictions q) then acc ++ [fst tr] else acc)
        end
    | LR_nearest q r position acc =>
        match nth_error (nth r (lx_lists s) []) position with
        | None => lr_finish q (map fst (filter (fun td => Z.eqb (snd td) (snd acc)) (fst acc)))
        | Some tr => LR_nearest q r (S position) (nearest_templates_step reqb (q_restrictions q) acc tr)
        end
    | LR_answer a => LR_answer a
    end.

  (** a program with threads of both kinds *)
  Definition lm_step (s : lx_state K T R) (pc : at_pc K T R + lr_pc) : lx_state K T R * (at_pc K T R + lr_pc) :=
    match pc with
    | inl w => let (s', w') := at_step keqb s w in (s', inl w')
    | inr r => (s, inr (lr_step s r))
    end.
  Definition lm_run := run_threads lm_step.
End LexReaders.
Arguments lr_query : clear implicits.
Arguments lr_answer : clear implicits.
Arguments lr_pc : clear implicits.
