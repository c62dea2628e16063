(** * SpecTemplateThreads: vocabulary for the statements about a Template object that several threads use *)
From Verif Require Import PyBase Words Dictionary Templates Concurrent TemplateThreads SpecConcurrent.

(** the object and the threads after a schedule, one thread for each call *)
Definition sharing (U : unicode) (t : template) (calls : list tcall) (schedule : list nat) : template * list tt_pc :=
  tt_run U (t, map tt_start calls) schedule.
(** call j has got as far as pc (its answer, if it has returned) *)
Definition reached (U : unicode) t calls schedule (j : nat) (pc : tt_pc) : Prop := nth_error (snd (sharing U t calls schedule)) j = Some pc.
(** call i is the only parse *)
Definition only_parse (calls : list tcall) (i : nat) (text : str) (ext : externals) : Prop :=
  nth_error calls i = Some (CParse text ext) /\ forall j text' ext', nth_error calls j = Some (CParse text' ext') -> j = i.
Definition no_parse (calls : list tcall) : Prop := forall text ext, ~ In (CParse text ext) calls.
(** the answer of a call that runs alone on the template t *)
Definition sequential (U : unicode) (t : template) (c : tcall) : tt_pc :=
  match c with
  | CParse text ext => TT_parsed (snd (parse_template U t text ext))
  | CSubstitute ext d => TT_text (substitute U t ext d)
  | CUndictionaried ext d => TT_found (get_undictionaried_words t ext d)
  | CSerialize => TT_data (serialize_template t)
  end.
(** the call has returned or raised *)
Definition answer (pc : tt_pc) : Prop :=
  match pc with TT_parsed _ | TT_text _ | TT_found _ | TT_data _ => True | _ => False end.
(** a template that has got only the first k variables of t, and no text yet *)
Definition unfinished (t : template) (k : nat) : template := {| t_subs := firstn k (t_subs t); t_text := None |}.
