(** * SpecProgram: the calls that the threads of a program have made *)
From Verif Require Import PyBase Words Constructors Dictionary Lexicon Templates Concurrent Program.

Section Calls.
  Context {P Q : Type}.
  (** the calls of a thread so far: those that have returned or raised, then the one in progress *)
  Definition calls_of (w : worker P Q) : list P := wk_done w ++ match wk_current w with Some p => [p] | None => [] end.
  (** call k of the thread was asked for with request q (given the outcomes of the k calls before it), and has got as far as p *)
  Definition made_by (w : worker P Q) (k : nat) (q : Q) (p : P) : Prop :=
    nth_error (calls_of w) k = Some p /\ wk_next w (firstn k (wk_done w)) = Some q.
  Definition made (W : list (worker P Q)) (i k : nat) (q : Q) (p : P) : Prop := exists w, nth_error W i = Some w /\ made_by w k q p.
End Calls.

(** ** programs *)
Section Programs.
  Context {K R : Type} (keqb : K -> K -> bool) (reqb : R -> R -> bool) (U : unicode).
  (** a program: for each of its threads, what the thread asks for next, given the outcomes of its calls so far *)
  Definition program := list (strategy (pg_call K R) (pg_request K R)).
  (** the shared objects and the threads after a schedule: thread i has moved whenever i occurs *)
  Definition running (l : lexicon K template R) (d : dictionary) (c : integer_cache) (p : program) (schedule : list nat) :=
    pg_run keqb reqb U ({| pg_lexicon := lx_of l; pg_dictionary := d; pg_integers := c |}, map new_worker p) schedule.
  Definition dictionary_at l d c p schedule : dictionary := pg_dictionary (fst (running l d c p schedule)).
  Definition lexicon_then l d c p schedule : lexicon K template R := lx_view (pg_lexicon (fst (running l d c p schedule))).
  (** call number (fst x) (snd x) of the program is call (snd x) of thread (fst x): asked for with request q, now at state s *)
  Definition call_made l d c p schedule (x : nat * nat) (q : pg_request K R) (s : pg_call K R) : Prop :=
    made (snd (running l d c p schedule)) (fst x) (snd x) q s.
End Programs.

(** ** how many moves of its thread a call takes at most, when n entries are stored in the dictionary and the lexicon *)
Definition stored {K R} (s : pg_state K R) : nat := length (pg_dictionary s) + length (concat (lx_lists (pg_lexicon s))).
Definition moves_needed {K R} (n : nat) (q : pg_request K R) : nat :=
  match q with
  | Q_add_word w => 3 * length (w_forms w) + 1
  | Q_add_template _ => 4
  | Q_dictionary (SpecReaders.Substitute t _) | Q_dictionary (SpecReaders.Undictionaried t _) => 1 + length (t_subs t)
  | Q_dictionary SpecReaders.Words => n + 2
  | Q_lexicon _ => n + 3
  | Q_integer _ => 5
  end.
