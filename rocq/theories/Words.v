(** * Words: utg/words.py *)
From Verif Require Import PyBase Relations Restrictions Logic Data.

(** ** class Properties, utg/words.py:11-77.  The object is its [_data] dict. *)
Definition props := dict relation prop.

(** One constructor argument: None, a record, or another Properties object. *)
Inductive parg := ANone | AProp (p : prop) | AProps (ps : props).

(** Properties._update, utg/words.py:29-38: one iteration *)
Definition update1 (d : props) (a : parg) : props :=
  match a with
  | ANone => d
  | AProp p => dset rel_eqb (rel_of p) p d
  | AProps q => dupdate rel_eqb d q
  end.
Definition update (d : props) (args : list parg) : props := fold_left update1 args d.

(** Properties.__init__, utg/words.py:14-16 *)
Definition Properties (args : list parg) : props := update [] args.

(** Properties.get, utg/words.py:44-47.  The value None (default of WORD_TYPE) is [Ok None]; KeyError is
    for a group that is not in DEFAULT_PROPERTIES. *)
Definition pget (d : props) (g : relation) : result (option prop) :=
  match dget rel_eqb g d with
  | Some p => Ok (Some p)
  | None => match dget rel_eqb g DEFAULT_PROPERTIES with
            | Some o => Ok o
            | None => Err KeyError
            end
  end.

(** Properties.get_raw_key, utg/words.py:41-42 *)
Definition get_raw_key (d : props) (sch : list relation) : result key := mapM (pget d) sch.

(** Properties.is_specified, utg/words.py:49-50 *)
Definition is_specified (d : props) (g : relation) : bool := dmem rel_eqb g d.

(** Properties.clone, utg/words.py:52-53 *)
Definition clone (d : props) (args : list parg) : props := Properties (AProps d :: args).

(** Properties.__eq__, utg/words.py:64-66: dict equality (same keys, equal values) *)
Definition props_eqb (a b : props) : bool :=
  Nat.eqb (length a) (length b) &&
  forallb (fun kv => match dget rel_eqb (fst kv) b with
                     | Some p => prop_eqb (snd kv) p
                     | None => false
                     end) a.

(** Properties.manhattan_distance, utg/words.py:74-77 ([property_value != None] is true) *)
Definition manhattan_distance (d : props) : nat :=
  length (filter (fun kv => match dget rel_eqb (fst kv) DEFAULT_PROPERTIES with
                            | Some (Some p) => negb (prop_eqb (snd kv) p)
                            | _ => true
                            end) d).
(** Properties.__hash__, utg/words.py:71-72 *)
Definition props_hash (d : props) : nat := manhattan_distance d.

(** Properties.__unicode__, utg/words.py:55-58.  ([__str__] encodes it to bytes: Text.v.) *)
Definition props_unicode (d : props) : str :=
  u "(" ++ join (u ",") (flat_map (fun e => match dget rel_eqb (snd e) d with
                                            | Some p => [verbose_id p]
                                            | None => []
                                            end) property_types) ++ u ")".

(** ** Serialization.  Keys of a serialized dict are ints, or strings after a trip through JSON. *)
Inductive jkey := JInt (z : Z) | JStr (s : str).
Definition jkey_eqb (a b : jkey) : bool :=
  match a, b with
  | JInt x, JInt y => Z.eqb x y
  | JStr x, JStr y => str_eqb x y
  | _, _ => false
  end.

(** [int(s)] on a str.  CPython strips blanks, takes an optional sign, then decimal digits (of any script) with single
    underscores allowed between two digits; anything else is a ValueError.  Its limit on the number of digits
    (sys.set_int_max_str_digits) is not modelled.  The tables are those of Unicode 14 (CPython 3.11). *)
Definition INT_BLANKS : list char :=
  [9; 10; 11; 12; 13; 32; 133; 160; 5760; 8192; 8193; 8194; 8195; 8196; 8197; 8198; 8199; 8200; 8201; 8202; 8232; 8233;
   8239; 8287; 12288]%N.
(** the code points of the digit 0 in the scripts that have decimal digits; 1..9 follow it *)
Definition DECIMAL_ZEROS : list char :=
  [
   48; 1632; 1776; 1984; 2406; 2534; 2662; 2790; 2918; 3046; 3174; 3302; 3430; 3558; 3664; 3792; 3872; 4160;
   4240; 6112; 6160; 6470; 6608; 6784; 6800; 6992; 7088; 7232; 7248; 42528; 43216; 43264; 43472; 43504; 43600;
   44016; 65296; 66720; 68912; 69734; 69872; 69942; 70096; 70384; 70736; 70864; 71248; 71360; 71472; 71904;
   72016; 72784; 73040; 73120; 92768; 92864; 93008; 120782; 120792; 120802; 120812; 120822; 123200; 123632;
   125264; 130032
  ]%N.
Definition int_blank (c : char) : bool := existsb (N.eqb c) INT_BLANKS.
Definition decimal_value (c : char) : option Z :=
  match find (fun z => (N.leb z c && N.leb c (z + 9))%bool) DECIMAL_ZEROS with
  | Some z => Some (Z.of_N c - Z.of_N z)%Z
  | None => None
  end.
Fixpoint int_digits (acc : Z) (s : str) : option Z :=
  match s with
  | [] => None
  | c :: s1 => match decimal_value c with
               | None => None
               | Some d => match s1 with
                           | [] => Some (acc * 10 + d)%Z
                           | c1 :: s2 => if N.eqb c1 95 then int_digits (acc * 10 + d) s2 else int_digits (acc * 10 + d) s1
                           end
               end
  end.
Definition int_of_text (s : str) : option Z :=
  match strip int_blank s with
  | [] => None
  | c :: t => if N.eqb c 45 then option_map Z.opp (int_digits 0 t)
              else if N.eqb c 43 then int_digits 0 t
              else int_digits 0 (c :: t)
  end.
Definition py_int (k : jkey) : result Z :=
  match k with
  | JInt z => Ok z
  | JStr s => match int_of_text s with Some z => Ok z | None => Err ValueError end
  end.

(** Properties.serialize, utg/words.py:18-20; [index_relation[...]] raises KeyError for an unknown class *)
Definition serialize_props (d : props) : result (dict jkey Z) :=
  foldM (fun acc kv => match ptype_value (fst kv) with
                       | Some v => Ok (dset jkey_eqb (JInt v) (value_of (snd kv)) acc)
                       | None => Err KeyError
                       end) d [].

(** Properties.deserialize, utg/words.py:22-27: the comprehension, then the constructor *)
Definition deserialize_entry (e : jkey * Z) : result (list parg) :=
  t <- py_int (fst e) ;;
  match ptype_call t with
  | None => Ok []
  | Some r => match rel_call r (snd e) with
              | None => Ok []
              | Some p => Ok [AProp p]
              end
  end.
Definition deserialize_props (data : dict jkey Z) : result props :=
  args <- mapM deserialize_entry data ;; Ok (Properties (concat args)).

(** ** class Word, utg/words.py:80-206.  The lazily cached attributes are in Lazy.v; here they are plain
    functions of the forms. *)
Record word := { w_type : word_type; w_forms : list str; w_props : props }.

(** Word.__init__, utg/words.py:83-92 *)
Definition Word (t : word_type) (forms : list str) (p : props) : result word :=
  if Nat.eqb (length forms) (length (WORDS_CACHES t))
  then Ok {| w_type := t; w_forms := forms; w_props := p |}
  else Err (WrongFormsNumberError (length forms) (length (WORDS_CACHES t))).

(** data.RAW_WORDS_CACHES[type][key], utg/words.py:112 *)
Definition raw_index (t : word_type) (k : key) : result nat :=
  cache <- RAW_WORDS_CACHES t ;;
  match dget key_eqb k cache with Some i => Ok i | None => Err KeyError end.

(** Word._form, utg/words.py:110-113 *)
Definition word__form (w : word) (p : props) : result str :=
  k <- get_raw_key p (schema (w_type w)) ;;
  i <- raw_index (w_type w) k ;;
  py_nth (w_forms w) i.

(** Word.form, utg/words.py:105-108 *)
Definition word_form (w : word) (p : props) : result str :=
  word__form w (Properties [AProps p; AProps (w_props w)]).

(** Word.normal_form, utg/words.py:115-116 *)
Definition normal_form (w : word) : result str := word_form w (w_props w).

(** Word.__eq__, utg/words.py:121-125 *)
Definition word_eqb (a b : word) : bool :=
  wt_eqb (w_type a) (w_type b) && props_eqb (w_props a) (w_props b)
  && list_eqb str_eqb (w_forms a) (w_forms b).
(** Word.__hash__, utg/words.py:130-131: hash of the pair (type, properties); the tuple hash itself is
    the Python runtime's, the model keeps the pair of component hashes. *)
Definition word_hash (w : word) : word_type * nat := (w_type w, props_hash (w_props w)).

(** Word.get_forms_number, utg/words.py:133-135 (every word type has a cache) *)
Definition get_forms_number (t : word_type) : nat := length (WORDS_CACHES t).

(** [l[i] = x]; IndexError is impossible for the indices used (theorem), the list is then unchanged *)
Fixpoint list_set {A} (i : nat) (x : A) (l : list A) : list A :=
  match l, i with
  | [], _ => []
  | _ :: l', O => x :: l'
  | a :: l', S i' => a :: list_set i' x l'
  end.

(** Word.get_keys, utg/words.py:137-143 *)
Definition get_keys (t : word_type) : list (option key) :=
  fold_left (fun keys ki => list_set (snd ki) (Some (fst ki)) keys)
            (WORDS_CACHES t) (repeat None (length (WORDS_CACHES t))).

(** Word.serialize / deserialize, utg/words.py:94-103 *)
Record word_data := { wd_type : Z; wd_forms : list str; wd_props : dict jkey Z }.
Definition serialize_word (w : word) : result word_data :=
  p <- serialize_props (w_props w) ;;
  Ok {| wd_type := wt_value (w_type w); wd_forms := w_forms w; wd_props := p |}.
Definition deserialize_word (d : word_data) : result word :=
  match wt_call (wd_type d) with
  | None => Err NotExternalValueError
  | Some t => p <- deserialize_props (wd_props d) ;; Word t (wd_forms d) p
  end.

Definition is_vowel (c : char) : bool := mem N.eqb c VOWELS.
Definition is_consonant (c : char) : bool := mem N.eqb c CONSONANTS.

(** number_of_syllables, utg/words.py:170-173 *)
Definition number_of_syllables_of (forms : list str) : result nat :=
  form <- py_nth forms 0 ;;
  Ok (Nat.max 1 (list_sum (map (fun c => count_char c form) VOWELS))).
Definition number_of_syllables (w : word) : result nat := number_of_syllables_of (w_forms w).

(** has_fluent_vowel, utg/words.py:175-188 *)
Definition vowels_of (s : str) : str := filter is_vowel s.
Definition has_fluent_vowel_of (forms : list str) : result bool :=
  form <- py_nth forms 0 ;;
  let base_vowels := vowels_of form in
  Ok (existsb (fun other => match other with
                            | [] => false
                            | _ :: _ => negb (starts_with base_vowels (vowels_of other))
                            end) (tl forms)).
Definition has_fluent_vowel (w : word) : result bool := has_fluent_vowel_of (w_forms w).

Definition nonempty (s : str) : bool := match s with [] => false | _ :: _ => true end.

(** autofill_missed_forms, utg/words.py:190-206.
    [available_keys]: utg/words.py:193-195 *)
Definition available_keys (t : word_type) (forms : list str) : result (list key) :=
  kss <- mapM (fun i => k <- py_nth (INVERTED_WORDS_CACHES t) i ;;
                        f <- py_nth forms i ;;
                        Ok (if nonempty f then [k] else []))
              (seq 0 (length forms)) ;;
  Ok (concat kss).
(** loop body, utg/words.py:197-206; [forms] is the list being mutated *)
Definition autofill_step (t : word_type) (avail : list key) (forms : list str) (i : nat)
    : result (list str) :=
  form <- py_nth forms i ;;
  if nonempty form then Ok forms
  else
    k <- py_nth (INVERTED_WORDS_CACHES t) i ;;
    match get_nearest_key k avail with
    | None => Ok forms
    | Some nk => match dget key_eqb nk (WORDS_CACHES t) with
                 | None => Err KeyError
                 | Some j => f <- py_nth forms j ;; Ok (list_set i f forms)
                 end
    end.
Definition autofill_forms (t : word_type) (forms : list str) : result (list str) :=
  avail <- available_keys t forms ;;
  foldM (autofill_step t avail) (seq 0 (length forms)) forms.
Definition autofill_missed_forms (w : word) : result word :=
  forms <- autofill_forms (w_type w) (w_forms w) ;;
  Ok {| w_type := w_type w; w_forms := forms; w_props := w_props w |}.

(** create_test_word, utg/words.py:146-168.  [only_required] and the random outcomes [rnd] (for
    random.random() > 0.5) are arguments.  The loop goes over PROPERTY_TYPE.records and tests
    [property_type not in type.properties], whose keys are relation classes: a PROPERTY_TYPE record never
    equals a class, so every iteration continues; [member_of_type_properties] is that test.  Were it ever
    true, the body would call the non-existent method Properties.update (AttributeError). *)
Definition member_of_type_properties (t : word_type) (property_type : Z * relation) : bool :=
  existsb (fun k : relation * bool => false) (type_properties t).
Definition create_test_word (rnd : Z * relation -> bool) (t : word_type) (prefix suffix : str)
    (only_required : bool) (p : option props) : result word :=
  forms <- mapM (fun ok => match ok with
                           | None => Err TypeError      (* iteration over None *)
                           | Some k => Ok (prefix ++ join (u ",") (flat_map (fun o => match o with
                                                                                      | Some q => [verbose_id q]
                                                                                      | None => []
                                                                                      end) k) ++ suffix)
                           end) (get_keys t) ;;
  let properties := match p with Some q => q | None => Properties [] end in
  if existsb (fun pt => member_of_type_properties t pt
                        && negb (negb (match find (fun e => rel_eqb (fst e) (snd pt)) (type_properties t) with
                                       | Some e => snd e | None => false end)
                                 && (only_required || rnd pt)))
             property_types
  then Err AttributeError
  else Word t forms properties.

(** ** class WordForm, utg/words.py:210-245 *)
Record wordform := { wf_word : word; wf_props : props; wf_form_props : props }.

(** WordForm.__init__, utg/words.py:213-216 *)
Definition WordForm (w : word) (p : option props) (fp : option props) : wordform :=
  let properties := match p with None => w_props w | Some q => Properties [AProps q; AProps (w_props w)] end in
  {| wf_word := w;
     wf_props := properties;
     wf_form_props := match fp with
                      | Some q => Properties [AProps q; AProps (w_props w)]
                      | None => properties
                      end |}.

(** WordForm.get_form, utg/words.py:219-226 *)
Definition is_upper (p : props) : result bool :=
  o <- pget p R_WORD_CASE ;;
  match o with
  | Some WORD_CASE_UPPER => Ok true
  | Some _ => Ok false
  | None => Err AttributeError
  end.
Definition get_form (U : unicode) (w : word) (p : props) : result str :=
  form <- word__form w p ;;
  up <- is_upper p ;;
  if up : bool then
    match form with
    | [] => Err IndexError
    | c :: rest => Ok (u_upper U c ++ rest)
    end
  else Ok form.

(** WordForm.form, utg/words.py:228-230 *)
Definition wf_form (U : unicode) (f : wordform) : result str := get_form U (wf_word f) (wf_form_props f).

(** starts_with_consonant_cluster, utg/words.py:232-235 *)
Definition starts_with_consonant_cluster (U : unicode) (f : wordform) : result bool :=
  form <- wf_form U f ;;
  match form with
  | [] => Err IndexError
  | [c] => Ok (is_consonant c)
  | c :: d :: _ => Ok (is_consonant c && is_consonant d)
  end.

(** WordForm.__eq__, __hash__, utg/words.py:238-246 *)
Definition wordform_eqb (a b : wordform) : bool :=
  word_eqb (wf_word a) (wf_word b) && props_eqb (wf_props a) (wf_props b).
Definition wordform_hash (f : wordform) : (word_type * nat) * nat :=
  (word_hash (wf_word f), props_hash (wf_form_props f)).

(** _INVERTED_WORDS_CACHES__PROPERTIES, utg/words.py:249-251: Properties( *key ) *)
Definition key_props (k : key) : props :=
  Properties (map (fun o => match o with Some p => AProp p | None => ANone end) k).

(** Word.all_forms, utg/words.py:118-119 *)
Definition all_forms (w : word) : result (list wordform) :=
  mapM (fun i => k <- py_nth (INVERTED_WORDS_CACHES (w_type w)) i ;;
                 Ok (WordForm w (Some (key_props k)) None))
       (seq 0 (length (w_forms w))).
