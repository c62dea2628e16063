(** * Exceptions: utg/exceptions.py.

    Model file: definitions only.  Values given to the constructors are modelled by the two texts that formatting can
    take from them: str(v) and repr(v). *)
From Verif Require Import PyBase Relations Constructors.

Record pyval := { v_str : str; v_repr : str }.
Definition kwargs := dict str pyval.

(** str(n) and repr(n) of an int are the same text *)
Definition v_int (n : nat) : pyval := {| v_str := str_of_Z (Z.of_nat n); v_repr := str_of_Z (Z.of_nat n) |}.

(** The classes of utg/exceptions.py:3-59, in the order of the file. *)
Inductive exn_class :=
  | C_UtgError
  | C_WordsError
  | C_WrongFormsNumberError | C_DuplicateWordError | C_UnknownVerboseIdError | C_ExternalDependecyNotFoundError
  | C_WrongDependencyFormatError | C_NoWordsFoundError | C_MoreThenOneWordFoundError
  | C_LexiconError
  | C_UnknownLexiconKeyError | C_NoTemplatesWithSpecifiedRestrictions
  | C_TransformatorsError
  | C_UnknownIntegerFormError.

(** The base class of each class statement (Exception is not in the list). *)
Definition base_class (c : exn_class) : option exn_class :=
  match c with
  | C_UtgError => None                                     (* class UtgError(Exception), line 3 *)
  | C_WordsError => Some C_UtgError                        (* line 12 *)
  | C_WrongFormsNumberError => Some C_WordsError           (* line 16 *)
  | C_DuplicateWordError => Some C_WordsError              (* line 19 *)
  | C_UnknownVerboseIdError => Some C_WordsError           (* line 22 *)
  | C_ExternalDependecyNotFoundError => Some C_WordsError  (* line 26 *)
  | C_WrongDependencyFormatError => Some C_WordsError      (* line 30 *)
  | C_NoWordsFoundError => Some C_WordsError               (* line 34 *)
  | C_MoreThenOneWordFoundError => Some C_WordsError       (* line 38 *)
  | C_LexiconError => Some C_UtgError                      (* line 42 *)
  | C_UnknownLexiconKeyError => Some C_LexiconError        (* line 45 *)
  | C_NoTemplatesWithSpecifiedRestrictions => Some C_LexiconError (* line 48 *)
  | C_TransformatorsError => Some C_UtgError               (* line 51 *)
  | C_UnknownIntegerFormError => Some C_TransformatorsError (* line 54 *)
  end.

(** The MSG written in the body of the class, None if there is none (lines 3-55). *)
Definition own_msg (c : exn_class) : option str :=
  match c with
  | C_UtgError | C_WordsError | C_LexiconError | C_TransformatorsError => None
  | C_WrongFormsNumberError => Some (u "constuctor of word receive wrong number of forms (%(wrong_number)s intead of %(expected_number)s), forms are: %(forms)s")
  | C_DuplicateWordError => Some (u "duplicate word in dictionary, type: %(type)s, normal form: %(normal_form)s")
  | C_UnknownVerboseIdError => Some (u "Unknown verbose id: %(verbose_id)s")
  | C_ExternalDependecyNotFoundError => Some (u "External dependency not found: %(dependency)s")
  | C_WrongDependencyFormatError => Some (u "wrong dependency format: %(dependency)s")
  | C_NoWordsFoundError => Some (u "no words found for text=""%(text)s""")
  | C_MoreThenOneWordFoundError => Some (u "more then one word found for text=""%(text)s"" and type=%(type)s")
  | C_UnknownLexiconKeyError => Some (u "unknown lexicon key: %(key)s")
  | C_NoTemplatesWithSpecifiedRestrictions => Some (u "no templates with specified key: %(key)s and restrictions: %(restrictions)r")
  | C_UnknownIntegerFormError => Some (u "unknown integer form: %(form)s")
  end.

(** [self.MSG]: the own MSG, else that of the base class, ..., else UtgError.MSG = None (line 4).  No chain of base
    classes is longer than 3. *)
Definition class_msg (c : exn_class) : option str :=
  match own_msg c with
  | Some m => Some m
  | None => match base_class c with
            | None => None
            | Some b => match own_msg b with
                        | Some m => Some m
                        | None => match base_class b with None => None | Some b' => own_msg b' end
                        end
            end
  end.

(** [fmt % mapping] for the directives that occur: %%, %(name)s, %(name)r.  Everything else (other conversions, an
    unfinished directive) is a ValueError here: CPython raises ValueError or TypeError for those, none occurs in the file.
    A missing name is a KeyError. *)
Inductive fmt_state := In_text | After_percent | In_name (rev_name : str) | After_name (name : str).
Fixpoint format_map (st : fmt_state) (fmt : str) (kw : kwargs) : result str :=
  match fmt with
  | [] => match st with In_text => Ok [] | _ => Err ValueError end
  | c :: rest =>
      match st with
      | In_text => if N.eqb c 37 then format_map After_percent rest kw else x <- format_map In_text rest kw ;; Ok (c :: x)
      | After_percent =>
          if N.eqb c 37 then x <- format_map In_text rest kw ;; Ok (c :: x)
          else if N.eqb c 40 then format_map (In_name []) rest kw
          else Err ValueError
      | In_name acc => if N.eqb c 41 then format_map (After_name (rev acc)) rest kw else format_map (In_name (c :: acc)) rest kw
      | After_name name =>
          match dget str_eqb name kw with
          | None => Err KeyError
          | Some v =>
              if N.eqb c 115 then x <- format_map In_text rest kw ;; Ok (v_str v ++ x)
              else if N.eqb c 114 then x <- format_map In_text rest kw ;; Ok (v_repr v ++ x)
              else Err ValueError
          end
      end
  end.

(** An exception object: its class, what BaseException keeps ([args], a tuple of one text), and [arguments]. *)
Record exn_object := { e_class : exn_class; e_args : list str; e_arguments : kwargs }.

(** [cls( *args, **kwargs)] with utg/exceptions.py:6-8: __init__ takes keyword arguments only; [None % kwargs] is a TypeError. *)
Definition construct (c : exn_class) (args : list str) (kw : kwargs) : result exn_object :=
  match args with
  | _ :: _ => Err TypeError
  | [] => match class_msg c with
          | None => Err TypeError
          | Some fmt => m <- format_map In_text fmt kw ;; Ok {| e_class := c; e_args := [m]; e_arguments := kw |}
          end
  end.

(** [str(e)] of an exception with one argument *)
Definition exn_str (e : exn_object) : str := match e_args e with [m] => m | _ => [] end.

(** [copy.copy(e)], [copy.deepcopy(e)], [pickle.loads(pickle.dumps(e))]: BaseException.__reduce__ makes a new object as
    [cls( *self.args)] and then restores the attributes. *)
Definition reconstruct (e : exn_object) : result exn_object :=
  e' <- construct (e_class e) (e_args e) [] ;; Ok {| e_class := e_class e; e_args := e_args e'; e_arguments := e_arguments e |}.

(** The raise statements of the library, with the values at hand. *)
Inductive raise_site :=
  | At_Word (forms expected : nat) (forms_value : pyval)             (* words.py:85-87 *)
  | At_parse (variable : pyval)                                      (* templates.py:39 *)
  | At_parse_properties (slug : pyval)                               (* templates.py:70 *)
  | At_list_properties (dependency : pyval)                          (* templates.py:91 *)
  | At_get_random_template_key (key : pyval)                         (* lexicon.py:31 *)
  | At_get_random_template (key restrictions : pyval)                (* lexicon.py:36 *)
  | At_get_random_nearest_template_key (key : pyval)                 (* lexicon.py:60 *)
  | At_get_random_nearest_template (key restrictions : pyval)        (* lexicon.py:65 *)
  | At_get_word (text : pyval)                                       (* dictionary.py:60 *)
  | At_noun_integer (integer_form : pyval)                           (* transformators.py:150 *)
  | At_adjective_integer (integer_form : pyval).                     (* transformators.py:223 *)

Definition raise_at (s : raise_site) : result exn_object :=
  match s with
  | At_Word n m v => construct C_WrongFormsNumberError [] [(u "wrong_number", v_int n); (u "expected_number", v_int m); (u "forms", v)]
  | At_parse v => construct C_WrongDependencyFormatError [] [(u "dependency", v)]
  | At_parse_properties v => construct C_UnknownVerboseIdError [] [(u "verbose_id", v)]
  | At_list_properties v => construct C_ExternalDependecyNotFoundError [] [(u "dependency", v)]
  | At_get_random_template_key v => construct C_UnknownLexiconKeyError [] [(u "key", v)]
  | At_get_random_template k r => construct C_NoTemplatesWithSpecifiedRestrictions [] [(u "key", k); (u "restrictions", r)]
  | At_get_random_nearest_template_key v => construct C_UnknownLexiconKeyError [] [(u "key", v)]
  | At_get_random_nearest_template k r => construct C_NoTemplatesWithSpecifiedRestrictions [] [(u "key", k); (u "restrictions", r)]
  | At_get_word v => construct C_NoWordsFoundError [] [(u "text", v)]
  | At_noun_integer v => construct C_UnknownIntegerFormError [] [(u "form", v)]
  | At_adjective_integer v => construct C_UnknownIntegerFormError [] [(u "form", v)]
  end.
