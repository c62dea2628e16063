(** * SpecReload: vocabulary for the statements about equal objects and about objects that were saved and loaded again *)
From Verif Require Import PyBase Relations Logic Data Words Dictionary Templates SpecProps SpecDictionary SpecSubstitution.

(** two words of the same type with the same forms that specify the same values *)
Definition alike_words (w w' : word) : Prop :=
  w_type w = w_type w' /\ w_forms w = w_forms w' /\ same_props (w_props w) (w_props w').
(** two word forms of such words that specify the same values, and the same values for the form *)
Definition alike (f f' : wordform) : Prop :=
  alike_words (wf_word f) (wf_word f') /\ same_props (wf_props f) (wf_props f') /\ same_props (wf_form_props f) (wf_form_props f').
(** the same answer: word forms that are alike, or the same exception *)
Inductive same_answer : result wordform -> result wordform -> Prop :=
  | both_found f f' : alike f f' -> same_answer (Ok f) (Ok f')
  | both_fail e : same_answer (Err e) (Err e).

(** the externals have the same names and the word forms of each name are alike *)
Definition alike_externals (ext ext' : externals) : Prop :=
  (forall name f, In (name, f) ext -> exists f', In (name, f') ext' /\ alike f f') /\
  (forall name f', In (name, f') ext' -> exists f, In (name, f) ext /\ alike f f').
(** the dictionaries answer alike *)
Definition alike_dictionaries (d d' : dictionary) : Prop := forall t, same_answer (get_word d t) (get_word d' t).

(** [reloaded_word w w']: w was serialized, the data went through JSON, w' is what was deserialized *)
Definition reloaded_word (w w' : word) : Prop :=
  exists d ps, serialize_word w = Ok d /\ json_trip (wd_props d) ps /\
    deserialize_word {| wd_type := wd_type d; wd_forms := wd_forms d; wd_props := ps |} = Ok w'.
Definition reloaded_template (t t' : template) : Prop :=
  exists d d', serialize_template t = Ok d /\ data_trip d d' /\ deserialize_template d' = Ok t'.

(** no two of the words have the same type and forms but different properties *)
Definition no_twins (ws : list word) : Prop :=
  forall w w', In w ws -> In w' ws -> w_type w = w_type w' -> w_forms w = w_forms w' -> same_props (w_props w) (w_props w').
