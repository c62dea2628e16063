(** * Json: the deserialize methods applied to any data, not only to what serialize writes

    Model file: definitions only.  The typed readers (Words.deserialize_word, Templates.deserialize_template) are given
    records with the right fields; here the argument is any value that json.loads can return or that serialize itself
    returns (a dict with int keys), and every operation that the code performs on it is modelled with its exception. *)
From Verif Require Import PyBase Relations Logic Data Words Templates.

(** [JNumber z]: the int z, or a float equal to it (neither == nor hash tell them apart, and no other operation on numbers
    occurs); [JFraction]: any other float.  JSON objects have text keys; a dict that has not been through JSON has int keys. *)
Inductive json :=
  | JNull
  | JBool (b : bool)
  | JNumber (z : Z)
  | JFraction
  | JText (s : str)
  | JArray (l : list json)
  | JObject (l : list (jkey * json)).

(** [data[k]] for a text k: lists and texts want an int, numbers and None are not subscriptable - a TypeError each *)
Definition subscript (j : json) (k : str) : result json :=
  match j with
  | JObject l => match dget jkey_eqb (JStr k) l with Some v => Ok v | None => Err KeyError end
  | _ => Err TypeError
  end.
(** iteration; iterating over a dict gives its keys, over a text its characters *)
Definition key_json (k : jkey) : json := match k with JInt z => JNumber z | JStr s => JText s end.
Definition iterate (j : json) : result (list json) :=
  match j with
  | JArray l => Ok l
  | JObject l => Ok (map (fun kv => key_json (fst kv)) l)
  | JText s => Ok (map (fun c => JText [c]) s)
  | _ => Err TypeError
  end.
(** [len(x)] *)
Definition size_of (j : json) : result nat :=
  match j with
  | JArray l => Ok (length l)
  | JObject l => Ok (length l)
  | JText s => Ok (length s)
  | _ => Err TypeError
  end.
(** [x in index], [index[x]] for an index with int keys: the int that x is equal to, if any; lists and dicts are unhashable *)
Definition hashed (j : json) : result (option Z) :=
  match j with
  | JArray _ | JObject _ => Err TypeError
  | JNumber z => Ok (Some z)
  | JBool b => Ok (Some (if b then 1 else 0)%Z)
  | JNull | JFraction | JText _ => Ok None
  end.

(** Properties.deserialize, utg/words.py:22-27: an entry of the comprehension, the whole; [.items()] of anything but a dict
    is an AttributeError *)
Definition load_entry (e : jkey * json) : result (list parg) :=
  t <- py_int (fst e) ;;
  match ptype_call t with
  | None => Ok []
  | Some r => h <- hashed (snd e) ;;
              match h with
              | None => Ok []
              | Some z => match rel_call r z with None => Ok [] | Some p => Ok [AProp p] end
              end
  end.
Definition load_props (j : json) : result props :=
  match j with
  | JObject l => args <- mapM load_entry l ;; Ok (Properties (concat args))
  | _ => Err AttributeError
  end.

(** The Word that results: the forms are whatever was in the data, Word.__init__ only asks for their len. *)
Record loaded_word := { lw_type : word_type; lw_forms : json; lw_props : props }.
(** Word.deserialize and Word.__init__, utg/words.py:99-103, 83-92 *)
Definition load_word (j : json) : result loaded_word :=
  tv <- subscript j (u "type") ;;
  h <- hashed tv ;;
  match match h with None => None | Some z => wt_call z end with
  | None => Err NotExternalValueError
  | Some t =>
      fv <- subscript j (u "forms") ;;
      pv <- subscript j (u "properties") ;;
      p <- load_props pv ;;
      n <- size_of fv ;;
      if Nat.eqb n (length (WORDS_CACHES t)) then Ok {| lw_type := t; lw_forms := fv; lw_props := p |}
      else Err (WrongFormsNumberError n (length (WORDS_CACHES t)))
  end.
(** [self.forms[index]] and Word._form, utg/words.py:110-113 *)
Definition item_at (j : json) (i : nat) : result json :=
  match j with
  | JArray l => py_nth l i
  | JObject l => match dget jkey_eqb (JInt (Z.of_nat i)) l with Some v => Ok v | None => Err KeyError end
  | JText s => c <- py_nth s i ;; Ok (JText [c])
  | _ => Err TypeError
  end.
Definition loaded__form (w : loaded_word) (p : props) : result json :=
  k <- get_raw_key p (schema (lw_type w)) ;;
  i <- raw_index (lw_type w) k ;;
  item_at (lw_forms w) i.

(** Substitution.deserialize, utg/templates.py:26-32 *)
Record loaded_substitution := { ls_id : json; ls_deps : list dependency }.
Definition load_dep (j : json) : result dependency :=
  match j with
  | JText s => Ok (DExt s)
  | _ => p <- load_props j ;; Ok (DProps p)
  end.
Definition load_substitution (j : json) : result loaded_substitution :=
  i <- subscript j (u "id") ;;
  dv <- subscript j (u "dependencies") ;;
  l <- iterate dv ;;
  deps <- mapM load_dep l ;;
  Ok {| ls_id := i; ls_deps := deps |}.
(** Template.deserialize, utg/templates.py:134-140 *)
Record loaded_template := { lt_text : json; lt_subs : list loaded_substitution }.
Definition load_template (j : json) : result loaded_template :=
  tv <- subscript j (u "template") ;;
  sv <- subscript j (u "substitutions") ;;
  l <- iterate sv ;;
  subs <- mapM load_substitution l ;;
  Ok {| lt_text := tv; lt_subs := subs |}.
