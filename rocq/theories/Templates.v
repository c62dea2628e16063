(** * Templates: utg/templates.py *)
From Verif Require Import PyBase Relations Restrictions Logic Data Words Transformators Dictionary.
From Verif Require Export Percent.

(** characters used by the syntax *)
Definition LBR : char := 91%N.     (* [ *)
Definition RBR : char := 93%N.     (* ] *)
Definition BAR : char := 124%N.    (* | *)
Definition COMMA : char := 44%N.
Definition PERCENT : char := 37%N.

(** the [externals] argument: name -> word form *)
Definition externals := dict str wordform.

(** an element of Substitution.dependencies *)
Inductive dependency := DExt (name : str) | DProps (p : props).

(** class Substitution, utg/templates.py:15-20 *)
Record substitution := { s_id : str; s_deps : list dependency }.

(** Substitution.parse_properties, utg/templates.py:60-74.  [slug.strip()] at line 64 is a statement whose
    value is dropped, so it is absent here. *)
Definition parse_properties_slug (slug : str) : result (list parg) :=
  match slug with
  | [] => Ok []
  | _ :: _ => match dget str_eqb slug VERBOSE_TO_PROPERTIES with
              | None => Err (UnknownVerboseIdError slug)
              | Some p => Ok [AProp p]
              end
  end.
Definition parse_properties (text : str) : result props :=
  l <- mapM parse_properties_slug (split_on COMMA text) ;; Ok (Properties (concat l)).

(** one dependency slug, utg/templates.py:46-51 *)
Definition parse_dependency (U : unicode) (ext : externals) (slug0 : str) : result dependency :=
  let slug := strip (u_isspace U) (u_lower U slug0) in
  if dmem str_eqb slug ext then Ok (DExt slug)
  else p <- parse_properties slug ;; Ok (DProps p).

(** [variable[1:-1]] *)
Definition unbracket (variable : str) : str := removelast (tl variable).

(** Substitution.parse, utg/templates.py:34-57 *)
Definition parse_substitution (U : unicode) (variable : str) (ext : externals) : result substitution :=
  match split_on BAR (unbracket variable) with
  | [] => Err IndexError                                    (* unreachable: split yields a piece *)
  | [] :: _ => Err (WrongDependencyFormatError variable)
  | slug0 :: slugs =>
      let id0 := strip (u_isspace U) slug0 in
      deps <- mapM (parse_dependency U ext) slugs ;;
      match id0 with
      | [] => Err IndexError                                (* s.id[0] *)
      | c :: _ =>
          Ok {| s_id := u_lower U id0;
                s_deps := deps ++ (if u_isupper U c then [DProps (Properties [AProp WORD_CASE_UPPER])] else []) |}
      end
  end.

(** Substitution._list_propeties, utg/templates.py:77-93.  A Properties object is never equal to a str, so
    [dependency in externals] is false for it. *)
Definition list_properties_step (ext : externals) (acc : list parg * list wordform) (dep : dependency)
    : result (list parg * list wordform) :=
  match dep with
  | DExt name => match dget str_eqb name ext with
                 | Some f => Ok (fst acc ++ [AProps (wf_props f)], snd acc ++ [f])
                 | None => Err (ExternalDependecyNotFoundError name)
                 end
  | DProps p => Ok (fst acc ++ [AProps p], snd acc)
  end.
Definition list_properties (ext : externals) (deps : list dependency) : result (list parg * list wordform) :=
  foldM (list_properties_step ext) deps ([], []).

(** the lookup of the base form, utg/templates.py:98-102 *)
Definition base_form_of (ext : externals) (d : dictionary) (id : str) : result wordform :=
  match dget str_eqb id ext with
  | Some f => Ok f
  | None => get_word d id
  end.

(** Substitution.get_text, utg/templates.py:96-116 *)
Definition get_text (U : unicode) (s : substitution) (ext : externals) (d : dictionary) : result str :=
  base_form <- base_form_of ext d (s_id s) ;;
  pe <- list_properties ext (s_deps s) ;;
  let properties := clone (wf_props base_form) (fst pe ++ [AProps (w_props (wf_word base_form))]) in
  form_properties <- foldM (fun fp external => transform U (wf_word base_form) fp external) (snd pe) properties ;;
  get_form U (wf_word base_form) form_properties.

(** Substitution.__eq__, utg/templates.py:118-120 *)
Definition dep_eqb (a b : dependency) : bool :=
  match a, b with
  | DExt x, DExt y => str_eqb x y
  | DProps p, DProps q => props_eqb p q
  | _, _ => false
  end.
Definition substitution_eqb (a b : substitution) : bool :=
  str_eqb (s_id a) (s_id b) && list_eqb dep_eqb (s_deps a) (s_deps b).

(** Substitution.serialize / deserialize, utg/templates.py:22-32 *)
Inductive sdep := SStr (s : str) | SDict (d : dict jkey Z).
Record substitution_data := { sd_id : str; sd_deps : list sdep }.
Definition serialize_dep (dep : dependency) : result sdep :=
  match dep with
  | DExt s => Ok (SStr s)
  | DProps p => d <- serialize_props p ;; Ok (SDict d)
  end.
Definition serialize_substitution (s : substitution) : result substitution_data :=
  deps <- mapM serialize_dep (s_deps s) ;; Ok {| sd_id := s_id s; sd_deps := deps |}.
Definition deserialize_dep (dep : sdep) : result dependency :=
  match dep with
  | SStr s => Ok (DExt s)
  | SDict d => p <- deserialize_props d ;; Ok (DProps p)
  end.
Definition deserialize_substitution (d : substitution_data) : result substitution :=
  deps <- mapM deserialize_dep (sd_deps d) ;; Ok {| s_id := sd_id d; s_deps := deps |}.

(** ** _VARIABLE_REGEX.findall, utg/templates.py:12: [\[[^\]]+\]] - a '[', the longest non-empty run of
    characters other than ']', a ']'.  (The run can only stop at a ']' or at the end of the text, so a shorter
    run never helps: no backtracking.)  Scanning resumes after a match, or one character further. *)
Fixpoint take_until (c : char) (s : str) : str * str :=
  match s with
  | [] => ([], [])
  | x :: s' => if N.eqb x c then ([], s) else let (a, b) := take_until c s' in (x :: a, b)
  end.
(** the match at the beginning of [s]: (matched text, rest) *)
Definition match_variable (s : str) : option (str * str) :=
  match s with
  | [] => None
  | c :: s' =>
      if N.eqb c LBR then
        match take_until RBR s' with
        | ((_ :: _) as run, close :: rest) => Some (c :: run ++ [close], rest)
        | _ => None
        end
      else None
  end.
(** [fuel]: the length of the text is enough (theorem) *)
Fixpoint findall (fuel : nat) (s : str) : list str :=
  match fuel with
  | O => []
  | S fuel' =>
      match match_variable s with
      | Some (v, rest) => v :: findall fuel' rest
      | None => match s with [] => [] | _ :: s' => findall fuel' s' end
      end
  end.
Definition find_variables (s : str) : list str := findall (length s) s.

(** class Template, utg/templates.py:123-128 *)
Record template := { t_subs : list substitution; t_text : option str }.
Definition new_template : template := {| t_subs := []; t_text := None |}.

(** Template.parse, utg/templates.py:157-167: the loop; [subs] is self._substitutions, changed in place *)
Fixpoint parse_loop (U : unicode) (ext : externals) (variables : list str) (text : str)
    (subs : list substitution) : list substitution * result str :=
  match variables with
  | [] => (subs, Ok text)
  | v :: vs =>
      match parse_substitution U v ext with
      | Err e => (subs, Err e)
      | Ok s => parse_loop U ext vs (replace_first v (u "%s") text) (subs ++ [s])
      end
  end.
Definition escape (text : str) : str := replace_char PERCENT (u "%%") text.
(** returns the object as it is left, and the exception if one was raised *)
Definition parse_template (U : unicode) (t : template) (text0 : str) (ext : externals)
    : template * result unit :=
  let text := escape text0 in
  match parse_loop U ext (find_variables text) text (t_subs t) with
  | (subs, Ok text') => ({| t_subs := subs; t_text := Some text' |}, Ok tt)
  | (subs, Err e) => ({| t_subs := subs; t_text := t_text t |}, Err e)
  end.

(** Template.get_undictionaried_words, utg/templates.py:142-155 *)
Definition get_undictionaried_words (t : template) (ext : externals) (d : dictionary) : list str :=
  flat_map (fun s => if dmem str_eqb (s_id s) ext then []
                     else if has_word d (s_id s) then []
                     else [s_id s]) (t_subs t).

(** Template.substitute, utg/templates.py:169-172; [None % tuple] is a TypeError *)
Definition substitute (U : unicode) (t : template) (ext : externals) (d : dictionary) : result str :=
  texts <- mapM (fun s => get_text U s ext d) (t_subs t) ;;
  match t_text t with
  | None => Err TypeError
  | Some fmt => py_format fmt texts
  end.

(** Template.__eq__, utg/templates.py:174-176 *)
Definition template_eqb (a b : template) : bool :=
  list_eqb substitution_eqb (t_subs a) (t_subs b) && opt_eqb str_eqb (t_text a) (t_text b).

(** Template.serialize / deserialize, utg/templates.py:130-140 *)
Record template_data := { td_text : option str; td_subs : list substitution_data }.
Definition serialize_template (t : template) : result template_data :=
  l <- mapM serialize_substitution (t_subs t) ;; Ok {| td_text := t_text t; td_subs := l |}.
Definition deserialize_template (d : template_data) : result template :=
  l <- mapM deserialize_substitution (td_subs d) ;; Ok {| t_subs := l; t_text := td_text d |}.
