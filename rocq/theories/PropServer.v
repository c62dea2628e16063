(** * PropServer: C86, stories told while words and templates are added *)
From Coq Require Import Lia.
From Verif Require Import PyBase PyBaseFacts Relations Words Dictionary Lexicon Templates Concurrent Readers LexReaders Server
  SpecProps SpecDictionary SpecTemplates SpecLists SpecConcurrent SpecAgreement SpecLocality SpecSubstitution SpecReaders SpecLexReaders SpecServer
  TemplateFacts SubstFacts ConcurrentFacts ReaderFacts LexThreadFacts LexReaderFacts
  PropDictionary PropLexicon PropSyntax PropSubstitution PropLocality PropConcurrent PropLexiconThreads PropReaders PropLexReaders ServerFacts.

Section C86.
  Context {K R : Type} (keqb : K -> K -> bool) (reqb : R -> R -> bool) (keqb_ok : eqb_ok keqb) (reqb_ok : eqb_ok reqb) (U : unicode).
  Notation dictionary_at := (dictionary_at keqb reqb U).
  Notation templates_at := (templates_at keqb reqb U).
  Notation told := (told keqb reqb U).
  Notation template_for := (template_for keqb reqb).
  Notation after_calls := (lex_after (T := template) (R := R) keqb).

  (** the dictionary is that of the add_word calls alone, the lexicon that of the add_template calls alone *)
  Theorem C86_writers_undisturbed : forall (p : program K R) schedule,
    let words := length (pr_words p) in let calls := length (pr_calls p) in
    dictionary_at p schedule = fst (adding U (pr_dictionary p) (pr_words p) (filter (fun i => i <? words) schedule)) /\
    templates_at p schedule = seen keqb (pr_lexicon p) (pr_calls p) (map (fun i => i - words) (filter (fun i => (words <=? i) && (i <? words + calls)) schedule)).
  Proof.
    intros p schedule words calls. split; [apply dictionary_alone|]. rewrite templates_alone, at_alone. f_equal. unfold lex_schedule. fold words.
    induction schedule as [|i schedule IH]; [reflexivity|]. cbn [filter]. destruct (Nat.leb_spec words i); cbn [andb map filter]; [|exact IH].
    destruct (Nat.ltb_spec i (words + calls)); destruct (Nat.ltb_spec (i - words) (length (pr_calls p))); try (unfold calls in *; lia); cbn [map filter]; [f_equal|]; exact IH.
  Qed.

  Lemma dictionary_grows (p : program K R) s1 s2 : forall t, has_word (dictionary_at p s1) t = true -> has_word (dictionary_at p (s1 ++ s2)) t = true.
  Proof. intros t H. rewrite (proj1 (C86_writers_undisturbed p s1)) in H. rewrite (proj1 (C86_writers_undisturbed p (s1 ++ s2))), filter_app. apply C69_never_forgets. exact H. Qed.

  Lemma selection_answer q l : sequential_answer keqb reqb l (story_reader (K := K) (R := R) q) = Single (template_for q l).
  Proof. unfold story_reader, SpecServer.template_for. destruct (st_nearest q); reflexivity. Qed.
  Lemma story_key (q : story K R) : asks_for (story_reader q) = st_key q.
  Proof. unfold story_reader. destruct (st_nearest q); reflexivity. Qed.

  (** what happens to a story that is told, for any key *)
  Lemma told_split p schedule j q r : nth_error (pr_stories p) j = Some q -> told p schedule j r ->
    exists s1 s2 sel, schedule = s1 ++ teller p j :: s2 /\
      reader_answered (T := template) keqb reqb (pr_lexicon p) (pr_calls p) (map story_reader (pr_stories p)) (lex_schedule p (s1 ++ [teller p j])) j (Single sel) /\
      match sel with
      | Err e => r = Err e
      | Ok t => (exists texts, r = formatted t texts /\ Forall2 (fun s x => exists a b, s2 = a ++ b /\ get_text U s (st_externals q) (dictionary_at p (s1 ++ teller p j :: a)) = Ok x) (t_subs t) texts) \/
                (exists before s after a b e, t_subs t = before ++ s :: after /\
                   Forall (fun s => exists a b x, s2 = a ++ b /\ get_text U s (st_externals q) (dictionary_at p (s1 ++ teller p j :: a)) = Ok x) before /\
                   s2 = a ++ b /\ get_text U s (st_externals q) (dictionary_at p (s1 ++ teller p j :: a)) = Err e /\ r = Err e)
      end.
  Proof.
    intros Hq Ht. unfold SpecServer.told in Ht. destruct (selection_split keqb reqb U p j q schedule Hq) as [(a & Ha)|(s1 & s2 & sel & E & A & B)]; [rewrite Ha in Ht; discriminate|].
    exists s1, s2, sel. split; [exact E|]. split; [exact A|]. assert (Er : forall a, running keqb reqb U p (s1 ++ teller p j :: a) = run_threads (sv_step keqb reqb U) (running keqb reqb U p (s1 ++ [teller p j])) a).
    { intros a. unfold running, sv_run. rewrite <- run_app, <- app_assoc. reflexivity. }
    rewrite E, Er in Ht. destruct sel as [t|e]; cbn [told_from] in B.
    - destruct (print_run keqb reqb U (teller p j) t (st_externals q) s2 _ _ _ _ B Ht) as [(new & F & ->)|(before & s & after & a & b & e & Hi & F & Es & G & ->)].
      + left. exists new. split; [reflexivity|]. eapply Forall2_impl'; [|exact F]. intros s x (a & b & Ea & G). exists a, b. split; [exact Ea|]. unfold SpecServer.dictionary_at. rewrite Er. exact G.
      + right. exists before, s, after, a, b, e. split; [exact Hi|]. split; [|split; [exact Es|]; split; [|reflexivity]].
        * eapply Forall_impl; [|exact F]. intros s' (a' & b' & x & Ea & G'). exists a', b', x. split; [exact Ea|]. unfold SpecServer.dictionary_at. rewrite Er. exact G'.
        * unfold SpecServer.dictionary_at. rewrite Er. exact G.
    - apply (text_stays keqb reqb U _ _ s2) in B. congruence.
  Qed.
  Lemma formatted_weave text ext0 t literals variables texts : parse_template U new_template text ext0 = (t, Ok tt) -> cuts text literals variables ->
    length texts = length (t_subs t) -> formatted t texts = Ok (weave literals texts).
  Proof.
    intros Hp Hc F. destruct (parse_ok_inv U new_template text ext0 t literals variables Hc Hp) as (subs & Hn & ->). cbn [t_subs new_template app] in *.
    unfold formatted. cbn [t_text app]. rewrite (py_format_weave _ _ (cuts_lengths _ _ _ Hc)). apply Forall2_length' in Hn. rewrite map_length in Hn. rewrite F, Hn, Nat.eqb_refl. reflexivity.
  Qed.

  (** A story of a key that is known at the start, or that only one of the calls adds: there is a moment such that the story is the one of the
      template that the sequential selection returns from the lexicon of that moment (or the selection's exception), and each variable of the
      template prints what it prints with the dictionary of some moment not before it (or the first variable that fails raises what it raises with the
      dictionary of some such moment) *)
  Theorem C86_told : forall (p : program K R) schedule j q r,
    nth_error (pr_stories p) j = Some q -> told p schedule j r -> has_key keqb (pr_lexicon p) (st_key q) = true \/ lone (st_key q) (pr_calls p) ->
    exists s1 s2, schedule = s1 ++ s2 /\
      match template_for q (templates_at p s1) with
      | Err e => r = Err e
      | Ok t => forall text ext0 literals variables, parse_template U new_template text ext0 = (t, Ok tt) -> cuts text literals variables ->
          (exists texts, r = Ok (weave literals texts) /\
             Forall2 (fun s x => exists a b, s2 = a ++ b /\ get_text U s (st_externals q) (dictionary_at p (s1 ++ a)) = Ok x) (t_subs t) texts) \/
          (exists before s after a b e, t_subs t = before ++ s :: after /\
             Forall (fun s => exists a b x, s2 = a ++ b /\ get_text U s (st_externals q) (dictionary_at p (s1 ++ a)) = Ok x) before /\
             s2 = a ++ b /\ get_text U s (st_externals q) (dictionary_at p (s1 ++ a)) = Err e /\ r = Err e)
      end.
  Proof.
    intros p schedule j q r Hq Ht Hk. destruct (told_split p schedule j q r Hq Ht) as (s1 & s2 & sel & E & A & B).
    assert (Hr : nth_error (map story_reader (pr_stories p)) j = Some (story_reader q)) by (rewrite nth_error_map, Hq; reflexivity).
    rewrite <- story_key in Hk. destruct (C73_linearisable keqb reqb keqb_ok _ _ _ _ _ _ _ Hr A Hk) as (la & lb & El & Ea). rewrite selection_answer in Ea. injection Ea as Ea.
    apply flat_prefix in El as (l1 & i & l2 & El & _ & _ & Es). exists l1, (i :: l2 ++ s2). split; [rewrite E; change (teller p j :: s2) with ([teller p j] ++ s2); rewrite app_assoc, El, <- app_assoc; reflexivity|].
    rewrite templates_alone. unfold lex_schedule. rewrite Es, <- Ea. destruct sel as [t|e]; [|exact B]. intros text ext0 literals variables Hp Hc.
    assert (M : forall a, s1 ++ teller p j :: a = l1 ++ i :: l2 ++ a) by (intros a; change (teller p j :: a) with ([teller p j] ++ a); rewrite app_assoc, El, <- app_assoc; reflexivity).
    destruct B as [(texts & Er & F)|(before & s & after & a & b & e & Hi & F & Es2 & G & Er)].
    - left. exists texts. split; [rewrite Er; eapply formatted_weave; [exact Hp|exact Hc|]; apply Forall2_length' in F; exact F|]. eapply Forall2_impl'; [|exact F]. intros s x (a & b & Es2 & G).
      exists (i :: l2 ++ a), b. split; [rewrite Es2; cbn [app]; rewrite <- app_assoc; reflexivity|]. rewrite <- M. exact G.
    - right. exists before, s, after, (i :: l2 ++ a), b, e. split; [exact Hi|]. split; [|split; [rewrite Es2; cbn [app]; rewrite <- app_assoc; reflexivity|]; split; [rewrite <- M; exact G|exact Er]].
      eapply Forall_impl; [|exact F]. intros s' (a' & b' & x & Ea' & G'). exists (i :: l2 ++ a'), b', x. split; [rewrite Ea'; cbn [app]; rewrite <- app_assoc; reflexivity|]. rewrite <- M. exact G'.
  Qed.

  (** The selection from a lexicon that is being filled: the templates offered under the key *)
  Definition offered (h calls : list (lx_call K template R)) (key : K) (t : template) : Prop := exists restrictions, In (key, t, restrictions) (h ++ calls).
  Lemma selection_alone h p schedule q : pr_lexicon p = after_calls h -> has_key keqb (after_calls h) (st_key q) = true ->
    exists cs, (forall c, In c cs -> In c (pr_calls p) /\ fst (fst c) = st_key q) /\ template_for q (templates_at p schedule) = selection keqb reqb (st_random q) (st_nearest q) (h ++ cs) (st_key q) (st_restrictions q).
  Proof.
    intros Hl Hk. rewrite (proj2 (C86_writers_undisturbed p schedule)), Hl. set (sch := map _ _).
    destruct (C70_some_of_the_calls keqb reqb keqb_ok h (pr_calls p) sch (st_key q)) as (ids & cs & _ & F & S). exists cs. split.
    - clear -F. induction F as [|i c ids cs (Hc & Hk & _) F IH]; [intros c []|]. intros c' [<-|H]; [split; [eapply nth_error_In; exact Hc|exact Hk]|apply IH, H].
    - assert (H1 : has_key keqb (seen keqb (after_calls h) (pr_calls p) sch) (st_key q) = true).
      { apply (C70_never_forgets_a_key keqb keqb_ok (after_calls h) (pr_calls p) [] sch). unfold seen, adding_templates, at_run. cbn [run_threads fold_left fst]. rewrite view_of. exact Hk. }
      assert (H2 : has_key keqb (after_calls (h ++ cs)) (st_key q) = true).
      { apply (C24_has_key keqb keqb_ok). apply (C24_has_key keqb keqb_ok) in Hk as (c & Hc & Ek). exists c. split; [apply in_app_iff; left; exact Hc|exact Ek]. }
      unfold has_key in H1, H2. destruct (S (st_restrictions q)) as [S1 S2]. unfold SpecServer.template_for, selection, get_random_nearest_template, get_random_template. rewrite H1, H2, S1, S2. reflexivity.
  Qed.

  (** It never fails: if the key has a template that the restrictions admit before the writers start, every template offered under the key is a
      parsed one whose externals are given and whose words are known at the start, and all words have all their forms, then a story that is told is
      a text, whatever is added meanwhile and however the threads interleave *)
  Theorem C86_never_fails : forall (p : program K R) h schedule j q r,
    (forall c, u_upper U c <> []) -> pr_lexicon p = after_calls h -> nth_error (pr_stories p) j = Some q -> told p schedule j r ->
    is_dictionary U (pr_dictionary p) -> Forall is_word (pr_words p) -> good_externals (st_externals q) ->
    (forall name f, In (name, f) (st_externals q) -> complete (wf_word f)) -> (forall id f, get_word (pr_dictionary p) id = Ok f -> complete (wf_word f)) -> Forall complete (pr_words p) ->
    (exists t restrictions, In (st_key q, t, restrictions) h /\ incl restrictions (st_restrictions q)) ->
    (forall t, offered h (pr_calls p) (st_key q) t -> exists text ext0, parse_template U new_template text ext0 = (t, Ok tt) /\
       incl (dkeys ext0) (dkeys (st_externals q)) /\ get_undictionaried_words t (st_externals q) (pr_dictionary p) = []) ->
    exists x, r = Ok x.
  Proof.
    intros p h schedule j q r HU Hl Hq Ht Hd Hw He Cx Cd Cw (t0 & rs0 & Hh & Hi0) Ho.
    assert (Hk : has_key keqb (after_calls h) (st_key q) = true) by (apply (C24_has_key keqb keqb_ok); exists (st_key q, t0, rs0); auto).
    destruct (C86_told p schedule j q r Hq Ht) as (s1 & s2 & E & B); [left; rewrite Hl; exact Hk|].
    destruct (selection_alone h p s1 q Hl Hk) as (cs & Hcs & Es). rewrite Es in B.
    destruct (selection keqb reqb (st_random q) (st_nearest q) (h ++ cs) (st_key q) (st_restrictions q)) as [t|e] eqn:S.
    2: { exfalso. apply (C26_errors keqb reqb keqb_ok reqb_ok) in S as [(_ & N)|(_ & _ & N)]; [apply (N (st_key q, t0, rs0)); [apply in_app_iff; left; exact Hh|reflexivity]|].
         apply (N (st_key q, t0, rs0)); [apply in_app_iff; left; exact Hh|split; [reflexivity|exact Hi0]]. }
    assert (Off : offered h (pr_calls p) (st_key q) t).
    { destruct (proj1 (C26_selection keqb reqb keqb_ok reqb_ok (st_nearest q) (h ++ cs) (st_key q) (st_restrictions q)) _ _ S) as ([[k t'] rs] & Hin & Hqu & <-). cbn [fst snd] in *.
      assert (Ek : k = st_key q) by (unfold qualifies, nearest_call, admissible in Hqu; destruct (st_nearest q); cbn in Hqu; tauto). subst k. exists rs. apply in_app_iff. apply in_app_iff in Hin as [Hin|Hin]; [auto|right; apply Hcs, Hin]. }
    destruct (Ho t Off) as (text & ext0 & Hp & Hincl & Hu). destruct (cuts_exists text) as (ls & vs & Hc).
    destruct (B text ext0 ls vs Hp Hc) as [(texts & -> & _)|(before & s & after & a & b & e & Hs & _ & _ & G & _)]; [eexists; reflexivity|]. exfalso. assert (Hs' : In s (t_subs t)) by (rewrite Hs; apply in_app_iff; right; left; reflexivity). clear Hs. rename Hs' into Hs.
    assert (ED := proj1 (C86_writers_undisturbed p (s1 ++ a))). cbv zeta in ED. set (sch := filter _ _) in ED. set (D := dictionary_at p (s1 ++ a)) in *.
    assert (HD : is_dictionary U D) by (rewrite ED; apply dictionary_adding; assumption).
    destruct (parse_template_subs _ _ _ _ _ _ s Hp Hs) as [[]|[Gs Gn]].
    destruct (C34_failures U s (st_externals q) D e HU He HD Gs G) as [(_ & N1 & N2)|[(name & _ & N1 & N2)|(_ & w & Hu' & Hin)]].
    - assert (X : In (s_id s) (get_undictionaried_words t (st_externals q) (pr_dictionary p))).
      { unfold get_undictionaried_words. apply in_flat_map. exists s. split; [exact Hs|]. apply (dmem_false _ str_eqb_ok) in N1. rewrite N1.
        destruct (has_word (pr_dictionary p) (s_id s)) eqn:Eh; [|left; reflexivity]. apply (dictionary_grows p [] (s1 ++ a)) in Eh. cbn [app] in Eh. fold D in Eh. congruence. }
      rewrite Hu in X. exact X.
    - apply N2, Hincl, Gn, N1.
    - assert (CD : forall id f, get_word D id = Ok f -> complete (wf_word f)).
      { intros id f Hf. rewrite ED in Hf. destruct (entry_origin U (pr_dictionary p) (pr_words p) sch id f Hw Hf) as [X|X]; [exact (Cd _ _ X)|]. rewrite Forall_forall in Cw. exact (Cw _ X). }
      destruct Hu' as [(f & [H|_ H] & ->)|(name & f & _ & H & ->)]; [exact (Cx _ _ H Hin)|exact (CD _ _ H Hin)|exact (Cx _ _ H Hin)].
  Qed.

  (** If nothing that is added concerns the story, it is the story of the sequential program: no call adds a template under its key and no added
      word has a text that the chosen template asks the dictionary for *)
  Theorem C86_undisturbed : forall (p : program K R) h schedule j q r t,
    pr_lexicon p = after_calls h -> nth_error (pr_stories p) j = Some q -> told p schedule j r -> Forall is_word (pr_words p) -> NoDup (dkeys (st_externals q)) ->
    (forall c, In c (pr_calls p) -> fst (fst c) <> st_key q) -> template_for q (pr_lexicon p) = Ok t ->
    (forall s, In s (t_subs t) -> In (s_id s) (dkeys (st_externals q)) \/ forall w, In w (pr_words p) -> ~ writes U w (s_id s)) ->
    (exists text ext0, parse_template U new_template text ext0 = (t, Ok tt)) ->
    r = substitute U t (st_externals q) (pr_dictionary p).
  Proof.
    intros p h schedule j q r t Hl Hq Ht Hw Hn Hc Hsel HN (text & ext0 & Hp). assert (Hlone : lone (st_key q) (pr_calls p)).
    { intros i i' c c' Hi _ Hk _. exfalso. exact (Hc c (nth_error_In _ _ Hi) Hk). }
    assert (Hk : has_key keqb (after_calls h) (st_key q) = true).
    { unfold has_key. rewrite Hl in Hsel. unfold SpecServer.template_for, get_random_nearest_template, get_random_template in Hsel. destruct (st_nearest q), (dmem keqb (st_key q) (after_calls h)); cbn in Hsel; congruence. }
    destruct (cuts_exists text) as (ls & vs & Hcut). destruct (C86_told p schedule j q r Hq Ht (or_intror Hlone)) as (s1 & s2 & _ & B).
    destruct (selection_alone h p s1 q Hl Hk) as (cs & Hcs & Es). destruct cs as [|c cs]; [|exfalso; destruct (Hcs c (or_introl eq_refl)) as [X Y]; exact (Hc c X Y)]. rewrite app_nil_r in Es. rewrite Es in B.
    unfold SpecServer.template_for in Hsel. rewrite Hl in Hsel. unfold selection in B. rewrite Hsel in B.
    assert (G : forall s a, In s (t_subs t) -> get_text U s (st_externals q) (dictionary_at p (s1 ++ a)) = get_text U s (st_externals q) (pr_dictionary p)).
    { intros s a Hs. rewrite (proj1 (C86_writers_undisturbed p (s1 ++ a))). apply C63_variable; try assumption; [intros f; reflexivity|intros name _ f; reflexivity|].
      intros Hni. destruct (HN s Hs) as [X|X]; [contradiction|]. apply no_writer; assumption. }
    unfold substitute. fold (formatted t). destruct (B text ext0 ls vs Hp Hcut) as [(texts & -> & F)|(before & s & after & a & b & e & Hs & F & _ & Ge & ->)].
    - rewrite <- (formatted_weave _ _ _ _ _ texts Hp Hcut) by (apply Forall2_length' in F; exact F).
      assert (M : mapM (fun s => get_text U s (st_externals q) (pr_dictionary p)) (t_subs t) = Ok texts).
      { apply mapM_ok. clear - F G. induction F as [|s x l l' (a & b & _ & E) F IH]; constructor; [rewrite <- (G s a) by (left; reflexivity); exact E|]. apply IH. intros s' a' H'. apply G. right. exact H'. }
      rewrite M. reflexivity.
    - assert (M : mapM (fun s => get_text U s (st_externals q) (pr_dictionary p)) (t_subs t) = Err e).
      { apply mapM_err. exists before, s, after. split; [exact Hs|]. split; [rewrite <- (G s a); [exact Ge|rewrite Hs; apply in_app_iff; right; left; reflexivity]|].
        apply Forall_forall. intros s' Hs'. rewrite Forall_forall in F. destruct (F s' Hs') as (a' & b' & x & _ & E). exists x. rewrite <- (G s' a'); [exact E|]. rewrite Hs. apply in_app_iff. left. exact Hs'. }
      rewrite M. reflexivity.
  Qed.

  (** and it comes to an end: after as many moves of the thread as the key has entries, all calls are, and a template has variables *)
  Theorem C86_progress : forall (p : program K R) h schedule j q variables,
    pr_lexicon p = after_calls h -> nth_error (pr_stories p) j = Some q ->
    (forall t, offered h (pr_calls p) (st_key q) t -> length (t_subs t) <= variables) ->
    4 + length (entries keqb (after_calls h) (st_key q)) + length (pr_calls p) + variables < moves (teller p j) schedule -> exists r, told p schedule j r.
  Proof.
    intros p h schedule j q variables Hl Hq Hv Hm. set (n := 3 + length (entries keqb (after_calls h) (st_key q)) + length (pr_calls p)).
    destruct (moves_prefix (teller p j) n schedule) as (a & b & E & Ha); [unfold n; lia|]. assert (Hb : variables + 1 < moves (teller p j) b) by (rewrite E, moves_app in Hm; unfold n in *; lia).
    destruct (selection_split keqb reqb U p j q a Hq) as [(pc & Hpc)|(s1 & s2 & sel & Ea & A & B)].
    - exfalso. assert (Hr : nth_error (map story_reader (pr_stories p)) j = Some (story_reader q)) by (rewrite nth_error_map, Hq; reflexivity).
      destruct (C73_progress keqb reqb keqb_ok h (pr_calls p) (map story_reader (pr_stories p)) (lex_schedule p a) j _ Hr) as (x & Hx).
      { unfold lex_schedule. rewrite moves_shift. change (length (pr_words p) + (length (pr_calls p) + j)) with (teller p j). rewrite Ha, story_key. unfold n. lia. }
      destruct (lexicon_alone keqb reqb U p a) as (_ & _ & _ & M). rewrite Hl in M. destruct (M _ _ Hx) as (pc' & Ep & Hmt). change (length (pr_words p) + (length (pr_calls p) + j)) with (teller p j) in Ep.
      rewrite Hpc in Ep. injection Ep as <-. destruct Hmt as [-> Hmt]. destruct x as [l|[t|e]]; [|discriminate|discriminate].
      destruct (C73_some_of_the_calls keqb reqb keqb_ok _ _ _ _ _ _ _ Hr Hx) as (z1 & z2 & ids & cs & _ & _ & _ & [Y|[Y _]]); [rewrite selection_answer in Y|]; discriminate.
    - assert (Off : forall t, sel = Ok t -> length (t_subs t) <= variables).
      { intros t ->. apply Hv. assert (Hr : nth_error (map story_reader (pr_stories p)) j = Some (story_reader q)) by (rewrite nth_error_map, Hq; reflexivity). rewrite Hl in A.
        destruct (C73_some_of_the_calls keqb reqb keqb_ok _ _ _ _ _ _ _ Hr A) as (z1 & z2 & ids & cs & _ & _ & F & [Y|[Y _]]); [|discriminate]. rewrite selection_answer in Y. injection Y as Y. symmetry in Y.
        change (selection keqb reqb (st_random q) (st_nearest q) (h ++ cs) (st_key q) (st_restrictions q) = Ok t) in Y.
        destruct (proj1 (C26_selection keqb reqb keqb_ok reqb_ok (st_nearest q) (h ++ cs) (st_key q) (st_restrictions q)) _ _ Y) as ([[k t'] rs] & Hin & Hqu & <-). cbn [fst snd] in *.
        assert (Ek : k = st_key q) by (unfold qualifies, nearest_call, admissible in Hqu; destruct (st_nearest q); cbn in Hqu; tauto). subst k. exists rs. apply in_app_iff. apply in_app_iff in Hin as [Hin|Hin]; [auto|right].
        clear - F Hin. induction F as [|i c ids cs (Hc & _) F IH]; [destruct Hin|]. destruct Hin as [->|Hin]; [eapply nth_error_In; exact Hc|apply IH, Hin]. }
      assert (Er : running keqb reqb U p schedule = run_threads (sv_step keqb reqb U) (running keqb reqb U p (s1 ++ [teller p j])) (s2 ++ b)).
      { unfold running, sv_run. rewrite <- run_app, E, Ea, <- !app_assoc. reflexivity. }
      unfold SpecServer.told. rewrite Er. destruct sel as [t|e]; cbn [told_from] in B.
      + apply (print_progress keqb reqb U _ _ _ _ _ _ _ B). rewrite moves_app. specialize (Off t eq_refl). lia.
      + eexists. apply text_stays. exact B.
  Qed.
End C86.

Example C86_case : exists t1 t2 t3, let h := [(1, t1, [])] in
  let q := {| st_random := 0; st_nearest := true; st_key := 1; st_restrictions := [5]; st_externals := [] |} in
  let q' := {| st_random := 3; st_nearest := false; st_key := 2; st_restrictions := []; st_externals := [] |} in
  let p := {| pr_lexicon := lex_after Nat.eqb h; pr_dictionary := after ru_unicode [about]; pr_words := [eight]; pr_calls := [(1, t2, [5]); (2, t3, [])]; pr_stories := [q; q'] |} in
  let schedule := [3; 3; 2; 1; 1; 1; 2; 1; 0; 3; 2; 3; 2; 4; 3; 4; 3; 4; 0; 4; 0; 0; 4; 3; 3; 4; 3; 3; 3; 4] in
  parse_template ru_unicode new_template (u "[Об]!") [] = (t1, Ok tt) /\ parse_template ru_unicode new_template (u "[об]: [об]") [] = (t2, Ok tt) /\
  parse_template ru_unicode new_template (u "[8], [8]") [] = (t3, Ok tt) /\
  eqb_ok Nat.eqb /\ is_dictionary ru_unicode (pr_dictionary p) /\ Forall is_word (pr_words p) /\ Forall complete (pr_words p) /\
  (forall id f, get_word (pr_dictionary p) id = Ok f -> complete (wf_word f)) /\ has_key Nat.eqb (pr_lexicon p) (st_key q) = true /\ lone (st_key q') (pr_calls p) /\
  (forall t, offered h (pr_calls p) (st_key q) t -> (t = t1 \/ t = t2) /\ length (t_subs t) <= 2 /\ get_undictionaried_words t (st_externals q) (pr_dictionary p) = []) /\
  template_for Nat.eqb Nat.eqb q (pr_lexicon p) = Ok t1 /\
  told Nat.eqb Nat.eqb ru_unicode p schedule 0 (Ok (u "об: об")) /\ told Nat.eqb Nat.eqb ru_unicode p schedule 1 (Ok (u "8, 8")) /\
  told Nat.eqb Nat.eqb ru_unicode p [3; 3; 3; 3; 1; 1; 1; 1; 3; 3; 3; 4] 0 (Ok (u "Об!")) /\
  told Nat.eqb Nat.eqb ru_unicode p [2; 2; 2; 2; 4; 4; 4; 4; 4] 1 (Err (NoWordsFoundError (u "8"))) /\
  told Nat.eqb Nat.eqb ru_unicode p [3; 3; 3; 3; 1; 1; 1; 1; 3; 3; 3; 4] 1 (Err UnknownLexiconKeyError).
Proof.
  assert (Hw : forall w, In w [about; eight] -> is_word w) by (intros w [<-|[<-|[]]]; repeat constructor; try apply (new_properties []); intros d []).
  assert (Ha : Forall is_word [about]) by (constructor; [apply Hw; left; reflexivity|constructor]).
  do 3 eexists. cbv zeta. split; [vm_compute; reflexivity|]. split; [vm_compute; reflexivity|]. split; [vm_compute; reflexivity|]. split; [exact Nat.eqb_eq|]. cbn [pr_dictionary pr_words pr_lexicon pr_calls st_key st_externals].
  split; [apply is_dictionary_after, Ha|]. split; [constructor; [apply Hw; right; left; reflexivity|constructor]|].
  split; [constructor; [intros [[=]|[]]|constructor]|]. split.
  { intros id f Hf. destruct (C20_get_words ru_unicode [about] Ha) as (X & Y & _). destruct (Y id f Hf) as (w & Hin & HS). destruct (X w Hin) as [[<-|[]] _].
    unfold complete. destruct HS as (_ & <- & _). intros [[=]|[[=]|[[=]|[]]]]. }
  split; [vm_compute; reflexivity|]. split.
  { intros [|[|[|i]]] [|[|[|i']]] c c' H H' E E'; cbn in H, H'; try reflexivity; try discriminate; exfalso; injection H as <-; injection H' as <-; discriminate. }
  split.
  { intros t [rs Hin]. cbn [app In] in Hin. destruct Hin as [E|[E|[E|[]]]]; [injection E as <- _|injection E as <- _|discriminate E]; (split; [auto|]); (split; [cbn; lia|vm_compute; reflexivity]). }
  split; [vm_compute; reflexivity|]. split; [vm_compute; reflexivity|]. split; [vm_compute; reflexivity|]. split; [vm_compute; reflexivity|]. split; vm_compute; reflexivity.
Qed.
