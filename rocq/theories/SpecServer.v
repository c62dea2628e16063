(** * SpecServer: vocabulary for the statements about stories told while words and templates are added *)
From Verif Require Import PyBase Words Dictionary Lexicon Templates Concurrent Readers LexReaders SpecLexReaders Server.

Section Spec.
  Context {K R : Type} (keqb : K -> K -> bool) (reqb : R -> R -> bool) (U : unicode).
  (** a story that is asked for: the outcome of the random generator, whether the nearest templates only are wanted, key, restrictions, externals *)
  Record story := { st_random : nat; st_nearest : bool; st_key : K; st_restrictions : list R; st_externals : externals }.
  (** the selection of its template from the lexicon l when nothing else runs *)
  Definition template_for (q : story) (l : lexicon K template R) : result template :=
    if st_nearest q then get_random_nearest_template keqb reqb (st_random q) l (st_key q) (st_restrictions q)
    else get_random_template keqb reqb (st_random q) l (st_key q) (st_restrictions q).
  Definition story_reader (q : story) : lexicon_reader K R :=
    if st_nearest q then GetRandomNearest (st_random q) (st_key q) (st_restrictions q) else GetRandom (st_random q) (st_key q) (st_restrictions q).

  (** the program: threads that call dictionary.add_word for the words ws, then threads that call lexicon.add_template, then threads that
      tell the stories; the shared objects are the lexicon l and the dictionary d at the start *)
  Record program := { pr_lexicon : lexicon K template R; pr_dictionary : dictionary; pr_words : list word; pr_calls : list (lx_call K template R); pr_stories : list story }.
  Definition running (p : program) (schedule : list nat) : sv_state K R * list (sv_pc K R) :=
    sv_run keqb reqb U ((lx_of (pr_lexicon p), pr_dictionary p),
      map (fun w => SV_word (aw_start w)) (pr_words p) ++ map (fun c => SV_template (AT_test c)) (pr_calls p) ++
      map (fun q => SV_select (lr_start (query (story_reader q))) (st_externals q)) (pr_stories p)) schedule.
  (** the dictionary and the lexicon at that moment *)
  Definition dictionary_at (p : program) (schedule : list nat) : dictionary := snd (fst (running p schedule)).
  Definition templates_at (p : program) (schedule : list nat) : lexicon K template R := lx_view (fst (fst (running p schedule))).
  (** the number of the thread of story j *)
  Definition teller (p : program) (j : nat) : nat := length (pr_words p) + (length (pr_calls p) + j).
  (** the story j was told: r is its text, or what was raised *)
  Definition told (p : program) (schedule : list nat) (j : nat) (r : result str) : Prop :=
    nth_error (snd (running p schedule)) (teller p j) = Some (SV_print (RD_text r)).
End Spec.
Arguments story : clear implicits.
Arguments program : clear implicits.
