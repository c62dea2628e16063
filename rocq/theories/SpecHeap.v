(** * SpecHeap: vocabulary for the statements about objects with identity *)
From Verif Require Import PyBase Relations Restrictions Logic Data Words Transformators Constructors Dictionary Templates Heap SpecProps SpecDictionary SpecSubstitution.

(** everything a program can do with the objects *)
Inductive operation :=
  | Op_list (l : list str)                               (* a list literal *)
  | Op_change (r : ref) (l : list str)                   (* change a list in place *)
  | Op_word (t : word_type) (forms : ref) (p : props)    (* Word(t, forms, p) *)
  | Op_serialize (w : ref) | Op_deserialize (d : hdata)
  | Op_form (w : ref) (p : props) | Op_normal_form (w : ref)
  | Op_syllables (w : ref) | Op_fluent (w : ref)         (* the lazy attributes of a word *)
  | Op_autofill (w : ref)
  | Op_wordform (w : ref) (p fp : option props)          (* WordForm(w, p, fp) *)
  | Op_text (f : ref) | Op_cluster (f : ref)             (* the lazy attributes of a word form *)
  | Op_forget (a : lazy_attribute)                       (* del object.attribute *)
  | Op_dictionary | Op_add_word (d w : ref) | Op_has_word (d : ref) (t : str) | Op_get_word (d : ref) (t : str)
  | Op_substitute (t : template) (ext : dict str ref) (d : ref)
  | Op_integer (n : Z).                                  (* construct_integer(n) *)

Definition perform (U : unicode) (op : operation) (h : heap) : heap :=
  match op with
  | Op_list l => fst (new_list l h)
  | Op_change r l => fst (change_list r l h)
  | Op_word t r p => fst (new_word t r p h)
  | Op_serialize w => fst (serialize w h)
  | Op_deserialize d => fst (deserialize d h)
  | Op_form w p => fst (form w p h)
  | Op_normal_form w => fst (hnormal_form w h)
  | Op_syllables w => fst (syllables w h)
  | Op_fluent w => fst (fluent w h)
  | Op_autofill w => fst (autofill w h)
  | Op_wordform w p fp => fst (new_wordform w p fp h)
  | Op_text f => fst (text U f h)
  | Op_cluster f => fst (cluster U f h)
  | Op_forget a => fst (forget a h)
  | Op_dictionary => fst (new_dict h)
  | Op_add_word d w => fst (hadd_word U d w h)
  | Op_has_word d t => fst (hhas_word d t h)
  | Op_get_word d t => fst (hget_word d t h)
  | Op_substitute t ext d => fst (hsubstitute U t ext d h)
  | Op_integer n => fst (hconstruct_integer n h)
  end.

(** references that stand for existing objects *)
Definition word_at (h : heap) (w : ref) (W : word) : Prop := view_word h w = Ok W.
Definition wordform_at (h : heap) (f : ref) (F : wordform) : Prop := view_wordform h f = Ok F.
Definition dict_at (h : heap) (d : ref) (D : dictionary) : Prop := view_dict h d = Ok D.
Definition list_at (h : heap) (r : ref) (l : list str) : Prop := nth_error (h_lists h) r = Some l.
(** the externals dict: names and word form objects *)
Definition externals_at (h : heap) (ext : dict str ref) (EXT : externals) : Prop := view_entries h ext = Ok EXT.
(** the word w was built on the list r *)
Definition built_on (h : heap) (w r : ref) : Prop := exists o, nth_error (h_words h) w = Some o /\ hw_list o = r.

(** nothing that was read from the list r is remembered: the lazy attributes of the words built on it and of their word forms
    are absent (not read, or deleted again), and these word forms are in no dictionary and not among the cached integers *)
Definition unremembered (h : heap) (r : ref) : Prop :=
  forall w o, nth_error (h_words h) w = Some o -> hw_list o = r ->
    hw_syllables o = None /\ hw_fluent o = None /\
    forall f F, nth_error (h_wordforms h) f = Some F -> hf_word F = w ->
      hf_form F = None /\ hf_cluster F = None /\ (forall d D t, nth_error (h_dicts h) d = Some D -> ~ In (t, f) D) /\ (forall l, h_integers h = Some l -> ~ In f l).

(** the operations of a program that does not change lists behind the back of objects in use *)
Definition allowed (h : heap) (op : operation) : Prop :=
  match op with
  | Op_change r l => unremembered h r /\ forall l0 w, list_at h r l0 -> built_on h w r -> length l = length l0
  | Op_word t r p => is_properties p
  | Op_syllables w | Op_fluent w => exists W, word_at h w W
  | Op_autofill w => (exists W, word_at h w W) /\ forall r, built_on h w r -> unremembered h r
  | Op_wordform w p fp => (forall q, p = Some q -> is_properties q) /\ (forall q, fp = Some q -> is_properties q)
  | Op_text f | Op_cluster f => exists F, wordform_at h f F
  | Op_add_word d w => (exists D, dict_at h d D) /\ exists W, word_at h w W
  | Op_substitute t ext d => (exists EXT, externals_at h ext EXT) /\ exists D, dict_at h d D
  | _ => True
  end.
Inductive reachable (U : unicode) : heap -> Prop :=
  | at_start : reachable U empty_heap
  | next h op : reachable U h -> allowed h op -> reachable U (perform U op h).

(** nothing that existed looks different *)
Definition unchanged_but (d : option ref) (h h' : heap) : Prop :=
  (forall r l, list_at h r l -> list_at h' r l) /\
  (forall w W, word_at h w W -> word_at h' w W) /\
  (forall f F, wordform_at h f F -> wordform_at h' f F) /\
  (forall e D, d <> Some e -> dict_at h e D -> dict_at h' e D) /\
  (forall w r, built_on h w r -> built_on h' w r).
Definition unchanged : heap -> heap -> Prop := unchanged_but None.
(** any program, careful or not *)
Definition run (U : unicode) (ops : list operation) (h : heap) : heap := fold_left (fun h op => perform U op h) ops h.
