(** * SpecRecovery: vocabulary for the statements about loading words again after races and killed calls *)
From Verif Require Import PyBase Relations Logic Data Words Dictionary Concurrent Interrupt SpecProps SpecDictionary SpecConcurrent SpecReload.

(** add_word(w) for each w of ws, one after the other; the caller catches the exceptions *)
Definition added_again (U : unicode) (d : dictionary) (ws : list word) : dictionary := fold_left (fun d w => fst (add_word U d w)) ws d.

(** what one load of the words ws can make of the dictionary d: concurrent calls that may have been killed, or an interrupted load *)
Inductive trouble (U : unicode) (ws : list word) (d : dictionary) : dictionary -> Prop :=
  | trouble_threads schedule : trouble U ws d (fst (adding U d ws schedule))
  | trouble_load n : trouble U ws d (interrupted_load U ws d n).
(** [troubled U ws d]: a new dictionary, then any number of such loads of the words of ws *)
Inductive troubled (U : unicode) : list word -> dictionary -> Prop :=
  | troubled_new : troubled U [] []
  | troubled_more before d ws d' : troubled U before d -> Forall is_word ws -> trouble U ws d d' -> troubled U (before ++ ws) d'.

(** f is one of the candidates for the text t that the words of ws give *)
Definition candidate (U : unicode) (ws : list word) (t : str) (f : wordform) : Prop :=
  wf_form U f = Ok t /\ exists w lw, In w ws /\ registers U w lw /\ In f lw.
(** the dictionary is as good as one to which the words of ws were added one after the other: a text is known to one iff to the other, and is answered with a
    candidate that is level with the answer of the other *)
Definition as_good (U : unicode) (ws : list word) (d : dictionary) : Prop := forall t,
  match get_word (after U ws) t with
  | Ok f => exists f', get_word d t = Ok f' /\ candidate U ws t f' /\ level f f'
  | Err e => get_word d t = Err e
  end.
(** no two candidates for the text are level *)
Definition unrivalled (U : unicode) (ws : list word) (t : str) : Prop := forall f g, candidate U ws t f -> candidate U ws t g -> level f g -> f = g.
