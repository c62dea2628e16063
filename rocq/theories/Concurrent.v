(** * Concurrent: Dictionary.add_word and Lexicon.add_template as threads of a concurrent program.

    Model file: definitions only.  One atomic step per access to a shared dict or list: under CPython each of them (a
    membership test, a lookup or an assignment of a dict with text keys, list.append) is atomic, and a thread switch can
    happen between any two of them. *)
From Verif Require Import PyBase Relations Logic Data Words Dictionary Lexicon.

(** ** Any number of threads over a shared state; a schedule is the list of the numbers of the threads that move. *)
Section Threads.
  Context {S P : Type} (step : S -> P -> S * P).
  Definition step_at (st : S * list P) (i : nat) : S * list P :=
    match nth_error (snd st) i with
    | None => st
    | Some pc => let (s', pc') := step (fst st) pc in (s', list_set i pc' (snd st))
    end.
  Definition run_threads (st : S * list P) (schedule : list nat) : S * list P := fold_left step_at schedule st.
End Threads.

(** ** add_word, utg/dictionary.py:16-49.  The word is not changed meanwhile, so the generator all_forms
    (utg/words.py:118-119) is the list of its word forms, given to the thread at the start. *)
Inductive aw_pc :=
  | AW_next (forms : list wordform)                                (* line 17 and the test in line 19 *)
  | AW_insert (f : wordform) (text : str) (rest : list wordform)   (* line 20 *)
  | AW_read (f : wordform) (text : str) (rest : list wordform)     (* line 23; lines 25-49 use local values only *)
  | AW_replace (f : wordform) (text : str) (rest : list wordform)  (* lines 26, 33, 40 *)
  | AW_done (r : result unit).

Definition aw_step (U : unicode) (d : dictionary) (pc : aw_pc) : dictionary * aw_pc :=
  match pc with
  | AW_next [] => (d, AW_done (Ok tt))
  | AW_next (f :: rest) =>
      (d, match wf_form U f with
          | Err e => AW_done (Err e)
          | Ok text => if dmem str_eqb text d then AW_read f text rest else AW_insert f text rest
          end)
  | AW_insert f text rest => (dset str_eqb text f d, AW_next rest)
  | AW_read f text rest =>
      (d, match dget str_eqb text d with
          | None => AW_done (Err KeyError)
          | Some registered => if replaces f registered then AW_replace f text rest else AW_next rest
          end)
  | AW_replace f text rest => (dset str_eqb text f d, AW_next rest)
  | AW_done r => (d, AW_done r)
  end.
Definition aw_start (w : word) : aw_pc :=
  match all_forms w with Ok l => AW_next l | Err e => AW_done (Err e) end.
Definition aw_run (U : unicode) := run_threads (aw_step U).

(** ** add_template, utg/lexicon.py:13-17.  The lists in [_data] are objects: [lx_lists] are the list objects ever
    created, [lx_data] maps a key to the number of its list. *)
Section LexiconThreads.
  Context {K T R : Type} (keqb : K -> K -> bool).

  Record lx_state := { lx_lists : list (list (T * list R)); lx_data : dict K nat }.
  (** the arguments of a call add_template(key, template, restrictions) *)
  Definition lx_call : Type := (K * T) * list R.
  Definition lc_key (c : lx_call) : K := fst (fst c).
  Definition lc_item (c : lx_call) : T * list R := (snd (fst c), snd c).

  Inductive at_pc :=
    | AT_test (c : lx_call)                    (* line 14 *)
    | AT_create (c : lx_call)                  (* line 15 *)
    | AT_load (c : lx_call)                    (* line 17: self._data[key] *)
    | AT_append (c : lx_call) (r : nat)        (* line 17: .append *)
    | AT_done (c : lx_call) (r : result unit).

  Definition at_step (s : lx_state) (pc : at_pc) : lx_state * at_pc :=
    match pc with
    | AT_test c => (s, if dmem keqb (lc_key c) (lx_data s) then AT_load c else AT_create c)
    | AT_create c =>
        ({| lx_lists := lx_lists s ++ [[]]; lx_data := dset keqb (lc_key c) (length (lx_lists s)) (lx_data s) |}, AT_load c)
    | AT_load c => (s, match dget keqb (lc_key c) (lx_data s) with None => AT_done c (Err KeyError) | Some r => AT_append c r end)
    | AT_append c r =>
        ({| lx_lists := list_set r (nth r (lx_lists s) [] ++ [lc_item c]) (lx_lists s); lx_data := lx_data s |}, AT_done c (Ok tt))
    | AT_done c r => (s, AT_done c r)
    end.
  Definition at_run := run_threads at_step.

  (** the lexicon as a value: what the readers of utg/lexicon.py:19-67 see at a moment *)
  Definition lx_view (s : lx_state) : lexicon K T R := map (fun kr => (fst kr, nth (snd kr) (lx_lists s) [])) (lx_data s).
  (** the objects of a lexicon: one list per key *)
  Definition lx_of (l : lexicon K T R) : lx_state :=
    {| lx_lists := map snd l; lx_data := combine (map fst l) (seq 0 (length l)) |}.
End LexiconThreads.
Arguments lx_state : clear implicits.
Arguments lx_call : clear implicits.
Arguments at_pc : clear implicits.
