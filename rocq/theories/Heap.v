(** * Heap: the objects of utg with identity - shared and mutable forms lists, lazily cached attributes.
    The other model files treat words and word forms as values.  Here Word and WordForm objects, forms lists,
    dictionaries and the integer cache live in a heap; Properties objects are never changed after their construction
    (utg/words.py has no public method that does) and stay values.  Model file: definitions only. *)
From Verif Require Import PyBase Relations Restrictions Logic Data Words Transformators Constructors Dictionary Templates.

(** a reference: the number of the object among the objects of its class *)
Definition ref := nat.

(** class Word, utg/words.py:80-92: [forms] is a reference to a list object; the two lazy attributes
    (utg/utils.py:7, utg/words.py:81) are None while absent *)
Record hword := { hw_type : word_type; hw_list : ref; hw_props : props; hw_syllables : option nat; hw_fluent : option bool }.
(** class WordForm, utg/words.py:210-216 *)
Record hwordform := { hf_word : ref; hf_props : props; hf_form_props : props; hf_form : option str; hf_cluster : option bool }.
Record heap := { h_lists : list (list str); h_words : list hword; h_wordforms : list hwordform;
                 h_dicts : list (dict str ref);           (* Dictionary._data, utg/dictionary.py:7-10 *)
                 h_integers : option (list ref) }.        (* _INTEGER_CACHE, utg/constructors.py:45 *)
Definition empty_heap : heap := {| h_lists := []; h_words := []; h_wordforms := []; h_dicts := []; h_integers := None |}.

Definition set_lists (h : heap) l := {| h_lists := l; h_words := h_words h; h_wordforms := h_wordforms h; h_dicts := h_dicts h; h_integers := h_integers h |}.
Definition set_words (h : heap) l := {| h_lists := h_lists h; h_words := l; h_wordforms := h_wordforms h; h_dicts := h_dicts h; h_integers := h_integers h |}.
Definition set_wordforms (h : heap) l := {| h_lists := h_lists h; h_words := h_words h; h_wordforms := l; h_dicts := h_dicts h; h_integers := h_integers h |}.
Definition set_dicts (h : heap) l := {| h_lists := h_lists h; h_words := h_words h; h_wordforms := h_wordforms h; h_dicts := l; h_integers := h_integers h |}.
Definition set_integers (h : heap) c := {| h_lists := h_lists h; h_words := h_words h; h_wordforms := h_wordforms h; h_dicts := h_dicts h; h_integers := c |}.

(** ** What an object looks like now: the values of its attributes, references followed.  (KeyError stands for a
    reference to nothing, which Python does not have.) *)
Definition deref {A} (l : list A) (r : ref) : result A := match nth_error l r with Some a => Ok a | None => Err KeyError end.
Definition view_word (h : heap) (r : ref) : result word :=
  o <- deref (h_words h) r ;; l <- deref (h_lists h) (hw_list o) ;;
  Ok {| w_type := hw_type o; w_forms := l; w_props := hw_props o |}.
Definition view_wordform (h : heap) (r : ref) : result wordform :=
  o <- deref (h_wordforms h) r ;; w <- view_word h (hf_word o) ;;
  Ok {| wf_word := w; wf_props := hf_props o; wf_form_props := hf_form_props o |}.
Definition view_entry (h : heap) (e : str * ref) : result (str * wordform) :=
  f <- view_wordform h (snd e) ;; Ok (fst e, f).
Definition view_entries (h : heap) (d : dict str ref) : result (dict str wordform) := mapM (view_entry h) d.
Definition view_dict (h : heap) (r : ref) : result dictionary := d <- deref (h_dicts h) r ;; view_entries h d.

(** ** Code that reads and changes the heap and may raise *)
Definition M (A : Type) := heap -> heap * result A.
Definition ret {A} (a : A) : M A := fun h => (h, Ok a).
Definition raise {A} (e : exn) : M A := fun h => (h, Err e).
Definition hbind {A B} (m : M A) (f : A -> M B) : M B :=
  fun h => match m h with (h', Ok a) => f a h' | (h', Err e) => (h', Err e) end.
Notation "x <~ m ;; k" := (hbind m (fun x => k)) (at level 61, m at next level, right associativity).
(** a computation on what the objects look like now *)
Definition reading {A} (f : heap -> result A) : M A := fun h => (h, f h).
Definition lift {A} (r : result A) : M A := fun h => (h, r).
Definition modify (f : heap -> heap) : M unit := fun h => (f h, Ok tt).
Fixpoint hfold {A B} (f : B -> A -> M B) (l : list A) (b : B) : M B :=
  match l with [] => ret b | a :: l' => b' <~ f b a ;; hfold f l' b' end.
Fixpoint hmap {A B} (f : A -> M B) (l : list A) : M (list B) :=
  match l with [] => ret [] | a :: l' => b <~ f a ;; bs <~ hmap f l' ;; ret (b :: bs) end.

(** ** Lists made and changed by the caller *)
Definition new_list (l : list str) : M ref := fun h => (set_lists h (h_lists h ++ [l]), Ok (length (h_lists h))).
(** any change of a list object in place: item assignment, append, ... : the content becomes [l] *)
Definition change_list (r : ref) (l : list str) : M unit := modify (fun h => set_lists h (list_set r l (h_lists h))).

(** ** class Word *)
(** Word.__init__, utg/words.py:83-92: the list itself is stored, not a copy *)
Definition new_word (t : word_type) (forms : ref) (p : props) : M ref := fun h =>
  match (l <- deref (h_lists h) forms ;; Word t l p) with
  | Ok _ => (set_words h (h_words h ++ [{| hw_type := t; hw_list := forms; hw_props := p; hw_syllables := None; hw_fluent := None |}]), Ok (length (h_words h)))
  | Err e => (h, Err e)
  end.
(** Word.serialize, utg/words.py:94-97: the list itself is put into the dict *)
Record hdata := { hd_type : Z; hd_forms : ref; hd_props : dict jkey Z }.
Definition serialize (w : ref) : M hdata := fun h =>
  (h, o <- deref (h_words h) w ;; p <- serialize_props (hw_props o) ;;
      Ok {| hd_type := wt_value (hw_type o); hd_forms := hw_list o; hd_props := p |}).
(** Word.deserialize, utg/words.py:99-103 *)
Definition deserialize (d : hdata) : M ref :=
  match wt_call (hd_type d) with
  | None => raise NotExternalValueError
  | Some t => p <~ lift (deserialize_props (hd_props d)) ;; new_word t (hd_forms d) p
  end.
(** Word.form, normal_form, _form, utg/words.py:105-116: no lazy attribute is involved *)
Definition form (w : ref) (p : props) : M str := reading (fun h => W <- view_word h w ;; word_form W p).
Definition hnormal_form (w : ref) : M str := reading (fun h => W <- view_word h w ;; normal_form W).

(** the lazy getter, utg/utils.py:10-13, for the two attributes of a word *)
Definition store_syllables (w : ref) (n : nat) : heap -> heap := fun h =>
  match nth_error (h_words h) w with
  | None => h
  | Some o => set_words h (list_set w {| hw_type := hw_type o; hw_list := hw_list o; hw_props := hw_props o; hw_syllables := Some n; hw_fluent := hw_fluent o |} (h_words h))
  end.
Definition store_fluent (w : ref) (b : bool) : heap -> heap := fun h =>
  match nth_error (h_words h) w with
  | None => h
  | Some o => set_words h (list_set w {| hw_type := hw_type o; hw_list := hw_list o; hw_props := hw_props o; hw_syllables := hw_syllables o; hw_fluent := Some b |} (h_words h))
  end.
(** Word.number_of_syllables, utg/words.py:170-173 *)
Definition syllables (w : ref) : M nat :=
  o <~ reading (fun h => deref (h_words h) w) ;;
  match hw_syllables o with
  | Some n => ret n
  | None => n <~ reading (fun h => W <- view_word h w ;; number_of_syllables W) ;;
            _ <~ modify (store_syllables w n) ;; ret n
  end.
(** Word.has_fluent_vowel, utg/words.py:175-188 *)
Definition fluent (w : ref) : M bool :=
  o <~ reading (fun h => deref (h_words h) w) ;;
  match hw_fluent o with
  | Some b => ret b
  | None => b <~ reading (fun h => W <- view_word h w ;; has_fluent_vowel W) ;;
            _ <~ modify (store_fluent w b) ;; ret b
  end.

(** Word.autofill_missed_forms, utg/words.py:190-206: the list is changed item by item *)
Definition autofill_item (t : word_type) (r : ref) (avail : list key) (i : nat) : M unit :=
  l' <~ reading (fun h => l <- deref (h_lists h) r ;; autofill_step t avail l i) ;; change_list r l'.
Definition autofill (w : ref) : M unit :=
  o <~ reading (fun h => deref (h_words h) w) ;;
  l <~ reading (fun h => deref (h_lists h) (hw_list o)) ;;
  avail <~ lift (available_keys (hw_type o) l) ;;
  hfold (fun _ i => autofill_item (hw_type o) (hw_list o) avail i) (seq 0 (length l)) tt.

(** ** class WordForm *)
(** WordForm.__init__, utg/words.py:213-216 *)
Definition new_wordform (w : ref) (p fp : option props) : M ref := fun h =>
  match deref (h_words h) w with
  | Err e => (h, Err e)
  | Ok o => let properties := match p with None => hw_props o | Some q => Properties [AProps q; AProps (hw_props o)] end in
            (set_wordforms h (h_wordforms h ++ [{| hf_word := w; hf_props := properties;
                hf_form_props := match fp with Some q => Properties [AProps q; AProps (hw_props o)] | None => properties end;
                hf_form := None; hf_cluster := None |}]), Ok (length (h_wordforms h)))
  end.
Definition store_form (f : ref) (s : str) : heap -> heap := fun h =>
  match nth_error (h_wordforms h) f with
  | None => h
  | Some o => set_wordforms h (list_set f {| hf_word := hf_word o; hf_props := hf_props o; hf_form_props := hf_form_props o; hf_form := Some s; hf_cluster := hf_cluster o |} (h_wordforms h))
  end.
Definition store_cluster (f : ref) (b : bool) : heap -> heap := fun h =>
  match nth_error (h_wordforms h) f with
  | None => h
  | Some o => set_wordforms h (list_set f {| hf_word := hf_word o; hf_props := hf_props o; hf_form_props := hf_form_props o; hf_form := hf_form o; hf_cluster := Some b |} (h_wordforms h))
  end.
(** WordForm.form, utg/words.py:228-230, lazy *)
Definition text (U : unicode) (f : ref) : M str :=
  o <~ reading (fun h => deref (h_wordforms h) f) ;;
  match hf_form o with
  | Some s => ret s
  | None => s <~ reading (fun h => F <- view_wordform h f ;; wf_form U F) ;;
            _ <~ modify (store_form f s) ;; ret s
  end.
(** WordForm.starts_with_consonant_cluster, utg/words.py:232-235, lazy; it reads the lazy attribute form *)
Definition cluster_of (s : str) : result bool :=
  match s with
  | [] => Err IndexError
  | [c] => Ok (is_consonant c)
  | c :: d :: _ => Ok (is_consonant c && is_consonant d)
  end.
Definition cluster (U : unicode) (f : ref) : M bool :=
  o <~ reading (fun h => deref (h_wordforms h) f) ;;
  match hf_cluster o with
  | Some b => ret b
  | None => s <~ text U f ;; b <~ lift (cluster_of s) ;;
            _ <~ modify (store_cluster f b) ;; ret b
  end.
(** the deleters [del word.number_of_syllables] etc., utg/utils.py:15-17: the stored value is removed if there is one *)
Inductive lazy_attribute := L_syllables (w : ref) | L_fluent (w : ref) | L_form (f : ref) | L_cluster (f : ref).
Definition forget_in_word (w : ref) (g : hword -> hword) (h : heap) : heap :=
  match nth_error (h_words h) w with None => h | Some o => set_words h (list_set w (g o) (h_words h)) end.
Definition forget_in_wordform (f : ref) (g : hwordform -> hwordform) (h : heap) : heap :=
  match nth_error (h_wordforms h) f with None => h | Some o => set_wordforms h (list_set f (g o) (h_wordforms h)) end.
Definition forget (a : lazy_attribute) : M unit := modify (fun h =>
  match a with
  | L_syllables w => forget_in_word w (fun o => {| hw_type := hw_type o; hw_list := hw_list o; hw_props := hw_props o; hw_syllables := None; hw_fluent := hw_fluent o |}) h
  | L_fluent w => forget_in_word w (fun o => {| hw_type := hw_type o; hw_list := hw_list o; hw_props := hw_props o; hw_syllables := hw_syllables o; hw_fluent := None |}) h
  | L_form f => forget_in_wordform f (fun o => {| hf_word := hf_word o; hf_props := hf_props o; hf_form_props := hf_form_props o; hf_form := None; hf_cluster := hf_cluster o |}) h
  | L_cluster f => forget_in_wordform f (fun o => {| hf_word := hf_word o; hf_props := hf_props o; hf_form_props := hf_form_props o; hf_form := hf_form o; hf_cluster := None |}) h
  end).

(** ** utg/transformators.py *)
Definition h_and (a : bool) (b : M bool) : M bool := if a then b else ret false.
Definition master_word (f : ref) : M ref := reading (fun h => o <- deref (h_wordforms h) f ;; Ok (hf_word o)).
(** _consonant_preposition_any, utg/transformators.py:32-59 *)
Definition h_consonant_preposition (U : unicode) (slave : str) (p : props) (f : ref) : M props :=
  master <~ text U f ;;
  cl <~ cluster U f ;;
  rule1 <~ h_and cl (w <~ master_word f ;; n <~ syllables w ;; h_and (Nat.eqb n 1) (w' <~ master_word f ;; fluent w')) ;;
  if rule1 : bool then ret (cloneP p [PREPOSITION_FORM_ALTERNATIVE])
  else
    rule2 <~ h_and (str_eqb slave (u "в") || str_eqb slave (u "с"))
                   (c <~ lift (py_first master) ;; h_and (str_eqb slave [c]) (cluster U f)) ;;
    if rule2 : bool then ret (cloneP p [PREPOSITION_FORM_ALTERNATIVE])
    else ret p.
(** _vowels_preposition_any, utg/transformators.py:62-83 *)
Definition h_vowels_preposition (U : unicode) (slave : str) (p : props) (f : ref) : M props :=
  master <~ text U f ;;
  if str_eqb slave (u "о") && mem str_eqb master special_masters
  then ret (cloneP p [PREPOSITION_FORM_SPECIAL])
  else
    c <~ lift (py_first master) ;;
    if mem N.eqb c NOT_J_VOWELS then ret (cloneP p [PREPOSITION_FORM_ALTERNATIVE])
    else ret p.
(** _preposition_any, utg/transformators.py:18-29 *)
Definition h_preposition (U : unicode) (slave_word : ref) (p : props) (f : ref) : M props :=
  slave <~ hnormal_form slave_word ;;
  c <~ lift (py_last slave) ;;
  if mem N.eqb c CONSONANTS then h_consonant_preposition U slave p f
  else h_vowels_preposition U slave p f.
(** transform, utg/transformators.py:8-15 *)
Definition htransform (U : unicode) (slave_word : ref) (p : props) (f : ref) : M props :=
  s <~ reading (fun h => deref (h_words h) slave_word) ;;
  w <~ master_word f ;;
  m <~ reading (fun h => deref (h_words h) w) ;;
  match dget wt_pair_eqb (hw_type s, hw_type m) TRANSFORMATORS with
  | Some T_noun_integer => lift (noun_integer p)
  | Some T_adjective_integer => lift (adjective_integer p)
  | Some T_preposition_any => h_preposition U slave_word p f
  | None => ret p
  end.

(** ** class Dictionary, utg/dictionary.py *)
Definition new_dict : M ref := fun h => (set_dicts h (h_dicts h ++ [[]]), Ok (length (h_dicts h))).
Definition register (d : ref) (t : str) (f : ref) : heap -> heap := fun h =>
  match nth_error (h_dicts h) d with
  | None => h
  | Some D => set_dicts h (list_set d (dset str_eqb t f D) (h_dicts h))
  end.
(** the loop body of add_word, utg/dictionary.py:17-49 *)
Definition hadd_form (U : unicode) (d w : ref) (i : nat) : M unit :=
  o <~ reading (fun h => deref (h_words h) w) ;;
  k <~ lift (py_nth (INVERTED_WORDS_CACHES (hw_type o)) i) ;;
  f <~ new_wordform w (Some (key_props k)) None ;;
  t <~ text U f ;;
  D <~ reading (fun h => deref (h_dicts h) d) ;;
  match dget str_eqb t D with
  | None => modify (register d t f)
  | Some g => new <~ reading (fun h => view_wordform h f) ;;
              old <~ reading (fun h => view_wordform h g) ;;
              if replaces new old then modify (register d t f) else ret tt
  end.
Definition hadd_word (U : unicode) (d w : ref) : M unit :=
  l <~ reading (fun h => o <- deref (h_words h) w ;; deref (h_lists h) (hw_list o)) ;;
  hfold (fun _ i => hadd_form U d w i) (seq 0 (length l)) tt.
Definition hhas_word (d : ref) (t : str) : M bool := reading (fun h => D <- deref (h_dicts h) d ;; Ok (dmem str_eqb t D)).
Definition hget_word (d : ref) (t : str) : M ref :=
  reading (fun h => D <- deref (h_dicts h) d ;; match dget str_eqb t D with None => Err (NoWordsFoundError t) | Some f => Ok f end).

(** ** utg/templates.py; templates and substitutions are values here *)
(** Substitution._list_propeties, utg/templates.py:77-93 *)
Definition h_list_properties_step (ext : dict str ref) (acc : list parg * list ref) (dep : dependency) : M (list parg * list ref) :=
  match dep with
  | DExt name => match dget str_eqb name ext with
                 | Some f => o <~ reading (fun h => deref (h_wordforms h) f) ;; ret (fst acc ++ [AProps (hf_props o)], snd acc ++ [f])
                 | None => raise (ExternalDependecyNotFoundError name)
                 end
  | DProps p => ret (fst acc ++ [AProps p], snd acc)
  end.
(** Substitution.get_text, utg/templates.py:96-116 *)
Definition hget_text (U : unicode) (s : substitution) (ext : dict str ref) (d : ref) : M str :=
  base <~ match dget str_eqb (s_id s) ext with Some f => ret f | None => hget_word d (s_id s) end ;;
  pe <~ hfold (h_list_properties_step ext) (s_deps s) ([], []) ;;
  b <~ reading (fun h => deref (h_wordforms h) base) ;;
  w <~ reading (fun h => deref (h_words h) (hf_word b)) ;;
  let properties := clone (hf_props b) (fst pe ++ [AProps (hw_props w)]) in
  fp <~ hfold (fun fp f => htransform U (hf_word b) fp f) (snd pe) properties ;;
  reading (fun h => W <- view_word h (hf_word b) ;; get_form U W fp).
(** Template.substitute, utg/templates.py:169-172 *)
Definition hsubstitute (U : unicode) (t : template) (ext : dict str ref) (d : ref) : M str :=
  texts <~ hmap (fun s => hget_text U s ext d) (t_subs t) ;;
  lift (match t_text t with None => Err TypeError | Some fmt => py_format fmt texts end).

(** ** utg/constructors.py *)
(** _construct_integer, utg/constructors.py:21-40 *)
Definition h_construct_integer_raw (n : Z) : M ref :=
  l <~ new_list [str_of_Z n] ;; w <~ new_word WT_INTEGER l (integer_properties n) ;; new_wordform w None None.
(** construct_integer, utg/constructors.py:47-55 *)
Definition hconstruct_integer (n : Z) : M ref :=
  if in_cache_range n then
    c <~ reading (fun h => Ok (h_integers h)) ;;
    match c with
    | Some l => lift (py_nth l (Z.to_nat n))
    | None => l <~ hmap (fun i => h_construct_integer_raw (Z.of_nat i + CACHE_LEFT)) (seq 0 (Z.to_nat (CACHE_RIGHT - CACHE_LEFT + 1))) ;;
              _ <~ modify (fun h => set_integers h (Some l)) ;; lift (py_nth l (Z.to_nat n))
    end
  else h_construct_integer_raw n.
