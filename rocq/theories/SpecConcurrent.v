(** * SpecConcurrent: vocabulary for the statements about concurrent calls *)
From Verif Require Import PyBase Words Dictionary Lexicon Concurrent SpecProps SpecDictionary.

(** the dictionary and the threads after a schedule of concurrent calls add_word(w), one thread for each w of ws *)
Definition adding (U : unicode) (d : dictionary) (ws : list word) (schedule : list nat) : dictionary * list aw_pc :=
  aw_run U (d, map aw_start ws) schedule.
(** the call of thread i has returned (Ok) or raised (Err) *)
Definition outcome (threads : list aw_pc) (i : nat) (r : result unit) : Prop := nth_error threads i = Some (AW_done r).
Definition all_finished (threads : list aw_pc) : Prop := forall i pc, nth_error threads i = Some pc -> exists r, pc = AW_done r.
(** how often thread i moves in the schedule *)
Definition moves (i : nat) (schedule : list nat) : nat := count_occ Nat.eq_dec schedule i.
(** the call add_word(w) registers a form with the text t *)
Definition writes (U : unicode) (w : word) (t : str) : Prop := exists lw f, registers U w lw /\ In f lw /\ wf_form U f = Ok t.

(** at most one of the calls registers the text t *)
Definition lone_writer (U : unicode) (t : str) (ws : list word) : Prop :=
  forall i j w w', nth_error ws i = Some w -> nth_error ws j = Some w' -> writes U w t -> writes U w' t -> i = j.
(** a new dictionary, then rounds of concurrent calls of add_word: a round starts when all calls of the one before have
    returned or raised *)
Inductive after_rounds (U : unicode) : list (list word) -> dictionary -> Prop :=
  | rounds_none : after_rounds U [] []
  | rounds_more rounds d ws schedule : after_rounds U rounds d -> Forall is_word ws ->
      all_finished (snd (adding U d ws schedule)) -> after_rounds U (rounds ++ [ws]) (fst (adding U d ws schedule)).

(** ** add_template *)
Section Templates.
  Context {K T R : Type} (keqb : K -> K -> bool) (reqb : R -> R -> bool).
  (** the objects and the threads after a schedule of concurrent calls of add_template on a lexicon l, one thread for each
      (key, template, restrictions) of calls *)
  Definition adding_templates (l : lexicon K T R) (calls : list (lx_call K T R)) (schedule : list nat) : lx_state K T R * list (at_pc K T R) :=
    at_run keqb (lx_of l, map AT_test calls) schedule.
  (** the lexicon a reader sees at that moment *)
  Definition seen (l : lexicon K T R) calls schedule : lexicon K T R := lx_view (fst (adding_templates l calls schedule)).
  (** the call of thread i has returned (Ok) or raised (Err) *)
  Definition ended (l : lexicon K T R) calls schedule (i : nat) (r : result unit) : Prop :=
    exists c, nth_error (snd (adding_templates l calls schedule)) i = Some (AT_done c r).
  Definition all_ended (l : lexicon K T R) calls schedule : Prop := forall i, i < length calls -> exists r, ended l calls schedule i r.
  (** both selections of templates agree for the key, whatever the restrictions asked for *)
  Definition same_answers (key : K) (l l' : lexicon K T R) : Prop := forall restrictions,
    get_templates keqb reqb l key restrictions = get_templates keqb reqb l' key restrictions /\
    get_nearest_templates keqb reqb l key restrictions = get_nearest_templates keqb reqb l' key restrictions.
  (** at most one of the calls has the key *)
  Definition lone (key : K) (calls : list (lx_call K T R)) : Prop := forall i j c c',
    nth_error calls i = Some c -> nth_error calls j = Some c' -> fst (fst c) = key -> fst (fst c') = key -> i = j.
End Templates.
