(** * Dictionary: utg/dictionary.py *)
From Verif Require Import PyBase Relations Restrictions Logic Data Words.

(** The [_data] dict: text -> word form *)
Definition dictionary := dict str wordform.

(** loop body of add_word for one word form, utg/dictionary.py:19-49: [replaces new old] is true when one of
    the branches that overwrite the registered form is taken.  ([word_form is registered_form] and the final
    branch both continue.) *)
Definition replaces (new old : wordform) : bool :=
  let tn := wt_value (w_type (wf_word new)) in
  let to := wt_value (w_type (wf_word old)) in
  if Z.ltb tn to then true
  else if Z.gtb tn to then false
  else match strs_compare (w_forms (wf_word new)) (w_forms (wf_word old)) with
       | Lt => true
       | Gt => false
       | Eq => Nat.ltb (manhattan_distance (wf_props new)) (manhattan_distance (wf_props old))
       end.

Definition add_form (U : unicode) (d : dictionary) (f : wordform) : result dictionary :=
  text <- wf_form U f ;;
  match dget str_eqb text d with
  | None => Ok (dset str_eqb text f d)
  | Some registered => if replaces f registered then Ok (dset str_eqb text f d) else Ok d
  end.

(** add_word, utg/dictionary.py:16-49: the generator all_forms (utg/words.py:118-119) is consumed form by
    form.  Returns the dictionary as it is left, and the exception if one was raised. *)
Fixpoint add_forms (U : unicode) (d : dictionary) (w : word) (indexes : list nat)
    : dictionary * result unit :=
  match indexes with
  | [] => (d, Ok tt)
  | i :: rest =>
      match (k <- py_nth (INVERTED_WORDS_CACHES (w_type w)) i ;;
             add_form U d (WordForm w (Some (key_props k)) None)) with
      | Ok d' => add_forms U d' w rest
      | Err e => (d, Err e)
      end
  end.
Definition add_word (U : unicode) (d : dictionary) (w : word) : dictionary * result unit :=
  add_forms U d w (seq 0 (length (w_forms w))).

(** Dictionary.__init__, utg/dictionary.py:9-13 *)
Fixpoint add_words (U : unicode) (d : dictionary) (ws : list word) : dictionary * result unit :=
  match ws with
  | [] => (d, Ok tt)
  | w :: rest => match add_word U d w with
                 | (d', Ok _) => add_words U d' rest
                 | (d', Err e) => (d', Err e)
                 end
  end.
Definition Dictionary (U : unicode) (ws : list word) : result dictionary :=
  match add_words U [] ws with
  | (d, Ok _) => Ok d
  | (_, Err e) => Err e
  end.

(** has_word, utg/dictionary.py:52-53 *)
Definition has_word (d : dictionary) (text : str) : bool := dmem str_eqb text d.

(** get_word, utg/dictionary.py:55-62 *)
Definition get_word (d : dictionary) (text : str) : result wordform :=
  match dget str_eqb text d with
  | None => Err (NoWordsFoundError text)
  | Some f => Ok f
  end.

(** get_words, utg/dictionary.py:64-65: a set of words, as a list without equal elements *)
Definition get_words (d : dictionary) : list word :=
  fold_left (fun acc kf => if mem word_eqb (wf_word (snd kf)) acc then acc else acc ++ [wf_word (snd kf)]) d [].
