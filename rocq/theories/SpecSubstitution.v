(** * SpecSubstitution: vocabulary for the statements about the texts printed for variables *)
From Verif Require Import PyBase Relations Restrictions Logic Data Words Transformators Dictionary Templates SpecProps SpecDictionary SpecAgreement Concurrent SpecConcurrent.

(** the objects a caller can pass *)
Definition good_externals (ext : externals) : Prop := NoDup (dkeys ext) /\ forall name f, In (name, f) ext -> is_wordform f.
(** a dictionary at any moment: made by add_word calls, finished or failed, and by concurrent add_word calls stopped at any
    point of any interleaving *)
Inductive is_dictionary (U : unicode) : dictionary -> Prop :=
  | dictionary_empty : is_dictionary U []
  | dictionary_add d w : is_dictionary U d -> is_word w -> is_dictionary U (fst (add_word U d w))
  | dictionary_adding d ws schedule : is_dictionary U d -> Forall is_word ws -> is_dictionary U (fst (adding U d ws schedule)).
(** a dictionary made by a sequence of add_word calls *)
Definition is_sequential_dictionary (U : unicode) (d : dictionary) : Prop := exists ws, Forall is_word ws /\ d = after U ws.
Definition good_deps (deps : list dependency) : Prop := forall p, In (DProps p) deps -> is_properties p.

(** the word form a variable's identifier stands for: the external of this name, else what the dictionary recognises *)
Inductive base_form (ext : externals) (d : dictionary) (id : str) (f : wordform) : Prop :=
  | base_external : In (id, f) ext -> base_form ext d id f
  | base_word : ~ In id (dkeys ext) -> get_word d id = Ok f -> base_form ext d id f.
(** what the dependencies give: property sets, in order, and the externals among them *)
Inductive given (ext : externals) : list dependency -> list props -> list wordform -> Prop :=
  | given_nothing : given ext [] [] []
  | given_external name f deps ps ms : In (name, f) ext -> given ext deps ps ms -> given ext (DExt name :: deps) (wf_props f :: ps) (f :: ms)
  | given_props p deps ps ms : given ext deps ps ms -> given ext (DProps p :: deps) (p :: ps) ms.
(** where a value comes from, the most important first: the word's own properties, the dependencies from the last to the first,
    what was recognised from the base form *)
Definition layers (f : wordform) (ps : list props) : list props := w_props (wf_word f) :: rev ps ++ [wf_props f].

Definition is_integer (m : wordform) : Prop := w_type (wf_word m) = WT_INTEGER.
(** the externals ms contain exactly one integer, m *)
Definition counted_by (ms : list wordform) (m : wordform) : Prop :=
  is_integer m /\ exists ms1 ms2, ms = ms1 ++ m :: ms2 /\ Forall (fun x => ~ is_integer x) (ms1 ++ ms2).

(** [shown U v form r]: the outcome r is the form, with an upper-cased first letter if the letter case v is UPPER *)
Definition shown (U : unicode) (v : prop) (form : str) (r : result str) : Prop :=
  (v = WORD_CASE_UPPER -> match form with [] => r = Err IndexError | c :: rest => r = Ok (u_upper U c ++ rest) end) /\
  (v <> WORD_CASE_UPPER -> r = Ok form).

(** the word has no empty form *)
Definition complete (w : word) : Prop := ~ In [] (w_forms w).

(** which slot of a noun is used with the number n >= 0, in the nominative: один - одна монета, две - монеты, пять - монет *)
Inductive counted_slot (n : Z) : key -> Prop :=
  | counted_one : (n mod 10 = 1)%Z -> (n mod 100 <> 11)%Z -> counted_slot n [Some NOUN_FORM_NORMAL; Some NUMBER_SINGULAR; Some CASE_NOMINATIVE]
  | counted_few : (2 <= n mod 10 <= 4)%Z -> ~ (12 <= n mod 100 <= 14)%Z -> counted_slot n [Some NOUN_FORM_NORMAL; Some NUMBER_SINGULAR; Some CASE_GENITIVE]
  | counted_many : (n mod 10 = 0 \/ 5 <= n mod 10 \/ 11 <= n mod 100 <= 14)%Z -> counted_slot n [Some NOUN_FORM_COUNTABLE; Some NUMBER_PLURAL; Some CASE_GENITIVE].

(** a Template object: what parse leaves has Properties objects as dependencies *)
Definition is_template (t : template) : Prop := forall s, In s (t_subs t) -> good_deps (s_deps s).
(** the words a variable is printed with *)
Definition uses (ext : externals) (d : dictionary) (s : substitution) (w : word) : Prop :=
  (exists f, base_form ext d (s_id s) f /\ w = wf_word f) \/ (exists name f, In (DExt name) (s_deps s) /\ In (name, f) ext /\ w = wf_word f).
(** the values used for printing a counted noun or pronoun *)
Definition noun_values (f : wordform) (ps : list props) (nf n c : prop) (g : relation) (x : prop) : Prop :=
  match g with R_NOUN_FORM => x = nf | R_NUMBER => x = n | R_CASE => x = c | _ => value_from (layers f ps) g (Some x) end.
Definition adjective_values (f : wordform) (ps : list props) (n c : prop) (g : relation) (x : prop) : Prop :=
  match g with R_NUMBER => x = n | R_CASE => x = c | _ => value_from (layers f ps) g (Some x) end.

(** [data_trip d d']: the serialized template d after a trip through JSON (see json_trip) *)
Inductive dep_trip : sdep -> sdep -> Prop :=
  | trip_str s : dep_trip (SStr s) (SStr s)
  | trip_dict d d' : json_trip d d' -> dep_trip (SDict d) (SDict d').
Definition sub_trip (d d' : substitution_data) : Prop := sd_id d' = sd_id d /\ Forall2 dep_trip (sd_deps d) (sd_deps d').
Definition data_trip (d d' : template_data) : Prop := td_text d' = td_text d /\ Forall2 sub_trip (td_subs d) (td_subs d').

(** two templates print the same, whatever they are given *)
Definition same_output (t t' : template) : Prop :=
  forall U ext d, good_externals ext -> is_dictionary U d ->
    substitute U t ext d = substitute U t' ext d /\ get_undictionaried_words t ext d = get_undictionaried_words t' ext d.
(** two templates consist of the same text and the same variables; the property sets of corresponding variables specify the same values *)
Inductive same_dep : dependency -> dependency -> Prop :=
  | same_ext name : same_dep (DExt name) (DExt name)
  | same_set p q : same_props p q -> same_dep (DProps p) (DProps q).
Definition same_sub (a b : substitution) : Prop := s_id a = s_id b /\ Forall2 same_dep (s_deps a) (s_deps b).
Definition same_template (a b : template) : Prop := t_text a = t_text b /\ Forall2 same_sub (t_subs a) (t_subs b).
