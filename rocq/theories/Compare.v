(** * Compare: ==, != and hash() between objects of different classes.  Model file: definitions only. *)
From Verif Require Import PyBase Relations Words Templates.

(** an object that may be compared: of one of the classes of the library with an __eq__, or a foreign one.
    Foreign objects (None, numbers, strings, lists, ...) are told apart by a number; they have no attribute named word, id,
    _substitutions or dependencies, and their own __eq__ declines (NotImplemented) for objects of the library.
    Two foreign objects are compared by Python, not by this library; here: by their numbers. *)
Inductive object := OProps (p : props) | OWord (w : word) | OForm (f : wordform) | OSubst (s : substitution) | OTempl (t : template) | OForeign (n : nat).

(** the attributes of the other object that the __eq__ methods read; a missing one is an AttributeError *)
Definition attr_word (o : object) : result word := match o with OForm f => Ok (wf_word f) | _ => Err AttributeError end.
Definition attr_properties (o : object) : result props := match o with OForm f => Ok (wf_props f) | OWord w => Ok (w_props w) | _ => Err AttributeError end.
Definition attr_id (o : object) : result str := match o with OSubst s => Ok (s_id s) | _ => Err AttributeError end.
Definition attr_dependencies (o : object) : result (list dependency) := match o with OSubst s => Ok (s_deps s) | _ => Err AttributeError end.
Definition attr_substitutions (o : object) : result (list substitution) := match o with OTempl t => Ok (t_subs t) | _ => Err AttributeError end.
Definition attr_template (o : object) : result (option str) := match o with OTempl t => Ok (t_text t) | _ => Err AttributeError end.

(** [a and b], where the evaluation of either may raise and b is evaluated only if a is true *)
Definition py_and (a b : result bool) : result bool := x <- a ;; if x then b else Ok false.

(** self.__eq__(other); None stands for NotImplemented.
    Properties: utg/words.py:63-65; Word: utg/words.py:120-124; WordForm: utg/words.py:237-239;
    Substitution: utg/templates.py:118-120; Template: utg/templates.py:174-176 *)
Definition dunder_eq (self other : object) : result (option bool) :=
  match self with
  | OProps p => Ok (Some (match other with OProps q => props_eqb p q | _ => false end))
  | OWord w => Ok (Some (match other with OWord v => word_eqb w v | _ => false end))
  | OForm f => r <- py_and (w <- attr_word other ;; Ok (word_eqb (wf_word f) w)) (p <- attr_properties other ;; Ok (props_eqb (wf_props f) p)) ;; Ok (Some r)
  | OSubst s => r <- py_and (i <- attr_id other ;; Ok (str_eqb (s_id s) i)) (d <- attr_dependencies other ;; Ok (list_eqb dep_eqb (s_deps s) d)) ;; Ok (Some r)
  | OTempl t => r <- py_and (l <- attr_substitutions other ;; Ok (list_eqb substitution_eqb (t_subs t) l)) (x <- attr_template other ;; Ok (opt_eqb str_eqb (t_text t) x)) ;; Ok (Some r)
  | OForeign n => match other with OForeign m => Ok (Some (Nat.eqb n m)) | _ => Ok None end
  end.
(** [a == b]: a.__eq__(b), then b.__eq__(a), then identity *)
Definition py_eq (a b : object) : result bool :=
  x <- dunder_eq a b ;;
  match x with
  | Some r => Ok r
  | None => y <- dunder_eq b a ;; match y with Some r => Ok r | None => Ok false end
  end.
(** self.__ne__(other).  Properties, Word, WordForm: utg/words.py:67-68, 126-127, 241-242 ([not self.__eq__(other)]);
    the others inherit object.__ne__, which negates __eq__ unless that is NotImplemented *)
Definition dunder_ne (self other : object) : result (option bool) := x <- dunder_eq self other ;; Ok (option_map negb x).
(** [a != b]: a.__ne__(b), then b.__ne__(a), then identity *)
Definition py_ne (a b : object) : result bool :=
  x <- dunder_ne a b ;;
  match x with
  | Some r => Ok r
  | None => y <- dunder_ne b a ;; match y with Some r => Ok r | None => Ok true end
  end.

(** hash(o), as the values it is computed from.  Properties, Word, WordForm: utg/words.py:70-71, 129-130, 244-245.
    Substitution and Template define __eq__ without __hash__: Python makes them unhashable. *)
Inductive hash_value := HProps (n : nat) | HWord (h : word_type * nat) | HForm (h : (word_type * nat) * nat) | HForeign (n : nat).
Definition py_hash (o : object) : result hash_value :=
  match o with
  | OProps p => Ok (HProps (props_hash p))
  | OWord w => Ok (HWord (word_hash w))
  | OForm f => Ok (HForm (wordform_hash f))
  | OSubst _ | OTempl _ => Err TypeError
  | OForeign n => Ok (HForeign n)
  end.
