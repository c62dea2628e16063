(** * SpecSessions: vocabulary for the statements about sessions *)
From Verif Require Import PyBase Relations Words Dictionary Lexicon Templates Sessions.

Section Vocabulary.
  Context {K R : Type}.
  (** the calls of lexicon.add_template in a history: key, template object, restrictions *)
  Definition added (h : list (action K R)) : list ((K * nat) * list R) :=
    flat_map (fun a => match a with AddTemplate key r rs => [((key, r), rs)] | _ => [] end) h.
  (** the words given to dictionary.add_word *)
  Definition words_added (h : list (action K R)) : list word := flat_map (fun a => match a with AddWord w => [w] | _ => [] end) h.
  (** the calls of parse on the object r *)
  Definition own_parses (r : nat) (h : list (action K R)) : list (str * externals) :=
    flat_map (fun a => match a with ParseTemplate r' text ext => if Nat.eqb r' r then [(text, ext)] else [] | _ => [] end) h.

  (** an action that makes a new object, with this value *)
  Inductive makes : action K R -> template -> Prop :=
    | makes_new : makes NewTemplate new_template
    | makes_loaded d t : deserialize_template d = Ok t -> makes (LoadTemplate d) t.
  (** n objects are made in the history *)
  Inductive objects : list (action K R) -> nat -> Prop :=
    | objects_none : objects [] 0
    | objects_made a t h n : makes a t -> objects h n -> objects (a :: h) (S n)
    | objects_other a h n : (forall t, ~ makes a t) -> objects h n -> objects (a :: h) n.
  (** the object r was made in the history h with the value t; later is what happened afterwards *)
  Definition made (h : list (action K R)) (r : nat) (t : template) (later : list (action K R)) : Prop :=
    exists before a, h = before ++ a :: later /\ objects before r /\ makes a t.
End Vocabulary.
