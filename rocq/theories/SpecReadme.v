(** * SpecReadme: vocabulary for the statements about variables as the README describes them *)
From Verif Require Import PyBase Relations Restrictions Logic Data Words Transformators Dictionary Templates
  SpecProps SpecSlots SpecDictionary SpecAgreement SpecTemplates SpecSubstitution.

(** a name or a word as one writes it in a template: not empty, in lower case, without surrounding blanks and syntax characters *)
Definition plain (U : unicode) (x : str) : Prop :=
  x <> [] /\ u_lower U x = x /\ trimmed U x x /\ (forall c, In c x -> ~ In c (u "|]%")).
(** ... and its first letter is not a capital one *)
Definition small (U : unicode) (x : str) : Prop := plain U x /\ forall c r, x = c :: r -> u_isupper U c = false.
(** the text of a list of properties: their identifiers, separated by commas *)
Definition ids (vs : list prop) : str := join (u ",") (map verbose_id vs).
(** what is written after a bar: the name of an external or a list of properties *)
Inductive written (U : unicode) (ext : externals) : str -> dependency -> Prop :=
  | written_name name : plain U name -> In name (dkeys ext) -> written U ext name (DExt name)
  | written_properties vs : ~ In (ids vs) (dkeys ext) -> written U ext (ids vs) (DProps (Properties (map AProp vs))).

(** the properties of a slot *)
Definition key_values (k : key) : list prop := flat_map (fun o => match o with Some p => [p] | None => [] end) k.
(** each property of the slot's key is the value that the layers (see SpecSubstitution) give to its group *)
Definition fits (f : wordform) (ps : list props) (k : key) : Prop :=
  Forall2 (fun g o => forall p, o = Some p -> value_from (layers f ps) g (Some p)) (schema (w_type (wf_word f))) k.
(** the properties p do not contradict the slot's key *)
Definition compatible (t : word_type) (p : props) (k : key) : Prop :=
  Forall2 (fun g o => forall v, o = Some v -> forall x, holds p g x -> x = v) (schema t) k.
(** p specifies nothing for these groups *)
Definition silent (p : props) (gs : list relation) : Prop := forall g v, In g gs -> ~ holds p g v.
(** the gender of a slot: plural forms have none *)
Definition gender_entry (number gender : prop) (o : option prop) : Prop :=
  (number = NUMBER_PLURAL /\ o = None) \/ (number = NUMBER_SINGULAR /\ o = Some gender).
