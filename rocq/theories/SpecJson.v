(** * SpecJson: which data the deserialize methods accept, and what it means *)
From Verif Require Import PyBase Relations Words Templates Json SpecProps SpecStored.
Open Scope Z_scope.

(** the value of the (first) field k of the object *)
Definition field (j : json) (k : str) (v : json) : Prop :=
  exists before after, j = JObject (before ++ (JStr k, v) :: after) /\ ~ In (JStr k) (map fst before).
(** the values that are equal to the int *)
Inductive number_like : json -> Z -> Prop :=
  | a_number z : number_like (JNumber z) z
  | a_true : number_like (JBool true) 1
  | a_false : number_like (JBool false) 0.
(** lists and objects can not be looked up *)
Definition scalar (j : json) : Prop := (forall l, j <> JArray l) /\ (forall l, j <> JObject l).
(** a value with a length: a list, a text, an object *)
Inductive sized : json -> nat -> Prop :=
  | array_size l : sized (JArray l) (length l)
  | text_size s : sized (JText s) (length s)
  | object_size l : sized (JObject l) (length l).
(** the elements of a value: the elements of a list, the characters of a text, the keys of an object *)
Inductive elements : json -> list json -> Prop :=
  | array_elements l : elements (JArray l) l
  | text_elements s : elements (JText s) (map (fun c => JText [c]) s)
  | object_elements l : elements (JObject l) (map (fun kv => key_json (fst kv)) l).

(** data accepted as properties: an object, every key reads as an int, the values of known groups can be looked up *)
Definition properties_data (j : json) : Prop :=
  exists l, j = JObject l /\ forall k v, In (k, v) l -> exists g, key_number k g /\ ((exists vs, In (g, vs) stored_groups) -> scalar v).
(** what it means: for every group of properties the last entry that is known counts; everything unknown is ignored *)
Definition properties_meant (j : json) (p : props) : Prop :=
  exists l, j = JObject l /\ forall r q, holds p r q <-> rel_of q = r /\
    exists before k v g n after, l = before ++ (k, v) :: after /\ key_number k g /\ number_like v n /\ stored_as q g n /\
      forall k' v' g' n' q', In (k', v') after -> key_number k' g' -> number_like v' n' -> stored_as q' g' n' -> rel_of q' <> r.
(** the exceptions of reading properties *)
Inductive data_error : exn -> Prop :=
  | not_a_container : data_error TypeError
  | not_an_object : data_error AttributeError
  | not_a_number_key : data_error ValueError
  | no_such_field : data_error KeyError
  | no_such_type : data_error NotExternalValueError
  | wrong_number_of_forms a b : data_error (WrongFormsNumberError a b).

(** the data of typed records: what serialize returns, as it is *)
Definition props_json (d : dict jkey Z) : json := JObject (map (fun kv => (fst kv, JNumber (snd kv))) d).
Definition word_json (d : word_data) : json :=
  JObject [(JStr (u "type"), JNumber (wd_type d)); (JStr (u "forms"), JArray (map JText (wd_forms d))); (JStr (u "properties"), props_json (wd_props d))].
Definition dep_json (d : sdep) : json := match d with SStr s => JText s | SDict d => props_json d end.
Definition substitution_json (d : substitution_data) : json :=
  JObject [(JStr (u "id"), JText (sd_id d)); (JStr (u "dependencies"), JArray (map dep_json (sd_deps d)))].
Definition template_json (d : template_data) : json :=
  JObject [(JStr (u "template"), match td_text d with Some s => JText s | None => JNull end); (JStr (u "substitutions"), JArray (map substitution_json (td_subs d)))].

(** the same objects with the types that the rest of the library expects *)
Definition word_loaded (w : word) (lw : loaded_word) : Prop :=
  lw_type lw = w_type w /\ lw_forms lw = JArray (map JText (w_forms w)) /\ lw_props lw = w_props w.
Definition substitution_loaded (s : substitution) (ls : loaded_substitution) : Prop := ls_id ls = JText (s_id s) /\ ls_deps ls = s_deps s.
Definition template_loaded (t : template) (lt : loaded_template) : Prop :=
  lt_text lt = match t_text t with Some s => JText s | None => JNull end /\ Forall2 substitution_loaded (t_subs t) (lt_subs lt).
(** what json.dumps and json.loads make of the data: the int keys become texts, wherever they are (no object has both a key 1 and a key "1") *)
Fixpoint through_json (j : json) : json :=
  match j with
  | JArray l => JArray (map through_json l)
  | JObject l => JObject (map (fun kv => (JStr (match fst kv with JInt z => Constructors.str_of_Z z | JStr s => s end), through_json (snd kv))) l)
  | _ => j
  end.
