(** * SpecLocality: vocabulary for the statements about what a printed text depends on *)
From Verif Require Import PyBase Relations Logic Data Words Dictionary Templates SpecTemplates.

(** every opening bracket of the text is closed by a later bracket of the text *)
Definition finished (text : str) : Prop := forall a b, text = a ++ LBR :: b -> In RBR b.

(** the name has the same meaning in both: it is in none of them or stands for the same word form *)
Definition same_external (ext ext' : externals) (name : str) : Prop := forall f, In (name, f) ext <-> In (name, f) ext'.
(** the same names, whatever they stand for *)
Definition same_names (ext ext' : externals) : Prop := forall name, In name (dkeys ext) <-> In name (dkeys ext').
(** the text has the same meaning in both dictionaries *)
Definition same_entry (d d' : dictionary) (text : str) : Prop := get_word d text = get_word d' text.
(** [mentioned t name]: the name is the identifier or a dependency of a variable of the template *)
Definition mentioned (t : template) (name : str) : Prop := exists s, In s (t_subs t) /\ (s_id s = name \/ In (DExt name) (s_deps s)).

(** one after the other: the first failure, else the texts together *)
Definition both (x y r : result str) : Prop :=
  match x, y with
  | Err e, _ => r = Err e
  | Ok _, Err e => r = Err e
  | Ok a, Ok b => r = Ok (a ++ b)
  end.
