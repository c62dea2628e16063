(** * SpecLexReaders: vocabulary for the statements about readers of a lexicon that run while templates are added *)
From Verif Require Import PyBase Lexicon Concurrent LexReaders.

Section Spec.
  Context {K T R : Type} (keqb : K -> K -> bool) (reqb : R -> R -> bool).
  (** the calls a reading thread can make; rnd is the outcome of the random generator *)
  Inductive lexicon_reader :=
    | GetTemplates (key : K) (restrictions : list R)
    | GetNearest (key : K) (restrictions : list R)
    | GetRandom (rnd : nat) (key : K) (restrictions : list R)
    | GetRandomNearest (rnd : nat) (key : K) (restrictions : list R).
  Definition asks_for (r : lexicon_reader) : K := match r with GetTemplates k _ | GetNearest k _ | GetRandom _ k _ | GetRandomNearest _ k _ => k end.
  (** what the call returns or raises when nothing else runs *)
  Definition sequential_answer (l : lexicon K T R) (r : lexicon_reader) : lr_answer T :=
    match r with
    | GetTemplates key restrictions => Several (get_templates keqb reqb l key restrictions)
    | GetNearest key restrictions => Several (get_nearest_templates keqb reqb l key restrictions)
    | GetRandom rnd key restrictions => Single (get_random_template keqb reqb rnd l key restrictions)
    | GetRandomNearest rnd key restrictions => Single (get_random_nearest_template keqb reqb rnd l key restrictions)
    end.
  Definition query (r : lexicon_reader) : lr_query K R :=
    match r with
    | GetTemplates key restrictions => {| q_nearest := false; q_random := None; q_key := key; q_restrictions := restrictions |}
    | GetNearest key restrictions => {| q_nearest := true; q_random := None; q_key := key; q_restrictions := restrictions |}
    | GetRandom rnd key restrictions => {| q_nearest := false; q_random := Some rnd; q_key := key; q_restrictions := restrictions |}
    | GetRandomNearest rnd key restrictions => {| q_nearest := true; q_random := Some rnd; q_key := key; q_restrictions := restrictions |}
    end.
  (** the objects and the threads after a schedule: threads 0, 1, ... make the add_template calls, the following ones read *)
  Definition reading_templates (l : lexicon K T R) (calls : list (lx_call K T R)) (readers : list lexicon_reader) (schedule : list nat) :=
    lm_run keqb reqb (lx_of l, map (fun c => inl (AT_test c)) calls ++ map (fun r => inr (lr_start (query r))) readers) schedule.
  (** the lexicon at that moment *)
  Definition lexicon_at l calls readers schedule : lexicon K T R := lx_view (fst (reading_templates l calls readers schedule)).
  (** reader j has returned or raised a *)
  Definition reader_answered l calls readers schedule (j : nat) (a : lr_answer T) : Prop :=
    nth_error (snd (reading_templates l calls readers schedule)) (length calls + j) = Some (inr (LR_answer a)).
  (** the add_template call of thread i has returned *)
  Definition call_returned l calls readers schedule (i : nat) : Prop :=
    exists c, nth_error (snd (reading_templates l calls readers schedule)) i = Some (inl (AT_done c (Ok tt))).
End Spec.
Arguments lexicon_reader : clear implicits.
