(** * PropChosen: C89 - words and names chosen by others are printed as they are, and their letters choose nothing *)
From Coq Require Import Lia.
From Verif Require Import PyBase PyFloat Relations Restrictions Logic Data Words Constructors Transformators Dictionary Templates SpecProps SpecSlots SpecDictionary
  SpecAgreement SpecTemplates SpecIntegers SpecSubstitution SpecLocality SpecChosen PyBaseFacts PropsFacts SlotFacts LookupFacts WordFacts DictFacts TemplateFacts SubstFacts IntFacts
  PropSlots PropWords PropDictionary PropSyntax PropIntegers PropSubstitution PropLocality.

Lemma base_stands_for ext d name f : base_form_of ext d name = Ok f -> stands_for ext d name f.
Proof.
  unfold base_form_of, stands_for. destruct (dget str_eqb name ext) as [g|] eqn:E.
  - intros [= ->]. left. apply (dget_In _ str_eqb_ok). exact E.
  - intros H. right. split; [apply (dget_None _ str_eqb_ok); exact E|exact H].
Qed.
Lemma get_form_slot U w p x : get_form U w p = Ok x -> exists i up, prints_slot U w i up (Ok x).
Proof.
  unfold get_form, word__form. destruct (get_raw_key p (schema (w_type w))) as [k|]; [|discriminate]. cbn [bind].
  destruct (raw_index (w_type w) k) as [i|]; [|discriminate]. cbn [bind]. unfold py_nth.
  destruct (nth_error (w_forms w) i) as [form|] eqn:En; [|discriminate]. cbn [bind].
  destruct (is_upper p) as [up|]; [|discriminate]. cbn [bind]. intros H. exists i, up, form. split; [exact En|].
  destruct up; [|symmetry; exact H]. destruct form; [discriminate|]. symmetry; exact H.
Qed.

(** a variable prints one of the forms of the word that its identifier stands for *)
Theorem C89_variable : forall U s ext d x, get_text U s ext d = Ok x ->
  exists f, stands_for ext d (s_id s) f /\ printed_form U (wf_word f) x.
Proof.
  intros U s ext d x H. unfold get_text in H. destruct (base_form_of ext d (s_id s)) as [f|] eqn:Eb; [|discriminate]. cbn [bind] in H.
  destruct (list_properties ext (s_deps s)) as [pe|]; [|discriminate]. cbn [bind] in H. exists f. split; [apply base_stands_for, Eb|].
  destruct (foldM _ (snd pe) _) as [fp|]; [|discriminate]. cbn [bind] in H. exact (get_form_slot _ _ _ _ H).
Qed.
(** a template prints the literal parts of its text as they are and, between them, forms of the words: nothing in a form is read again *)
Theorem C89_template : forall U ext0 text t literals variables, parse_template U new_template text ext0 = (t, Ok tt) -> cuts text literals variables ->
  forall U' ext d x, substitute U' t ext d = Ok x -> exists texts, x = weave literals texts /\
    Forall2 (fun s y => exists f, stands_for ext d (s_id s) f /\ printed_form U' (wf_word f) y) (t_subs t) texts.
Proof.
  intros U ext0 text t ls vs Hp Hc U' ext d x H. destruct (C28_literals_verbatim _ _ _ _ _ _ Hp Hc) as [_ HL].
  assert (H0 := H). unfold substitute in H0. destruct (mapM (fun s => get_text U' s ext d) (t_subs t)) as [texts|] eqn:E; [|discriminate]. clear H0.
  apply mapM_ok in E. exists texts. split; [rewrite (HL U' ext d texts E) in H; congruence|].
  eapply Forall2_impl'; [|exact E]. cbn. intros a b Hab. exact (C89_variable _ _ _ _ _ Hab).
Qed.

(** ** other letters, the same choice *)
Lemma transformators_prepositions a b : a <> WT_PREPOSITION -> dget wt_pair_eqb (a, b) TRANSFORMATORS <> Some T_preposition_any.
Proof. intros N. destruct a; try (exfalso; apply N; reflexivity); destruct b; vm_compute; discriminate. Qed.
Lemma transform_letters U w w' p m m' : w_type w = w_type w' -> w_type w <> WT_PREPOSITION -> w_type (wf_word m) = w_type (wf_word m') ->
  transform U w p m = transform U w' p m'.
Proof.
  intros Ht Hn Hm. unfold transform. rewrite <- Ht, <- Hm. assert (T := transformators_prepositions (w_type w) (w_type (wf_word m)) Hn).
  destruct (dget wt_pair_eqb _ TRANSFORMATORS) as [[| |]|]; try reflexivity. exfalso. apply T. reflexivity.
Qed.
Lemma transforms_letters U w w' ms ms' : w_type w = w_type w' -> w_type w <> WT_PREPOSITION -> Forall2 same_grammar ms ms' -> forall p,
  foldM (fun fp m => transform U w fp m) ms p = foldM (fun fp m => transform U w' fp m) ms' p.
Proof.
  intros Ht Hn H. induction H as [|m m' ms ms' Hm _ IH]; intros p; [reflexivity|]. cbn [foldM].
  rewrite (transform_letters U w w' p m m' Ht Hn (proj1 Hm)). destruct (transform U w' p m'); cbn [bind]; [apply IH|reflexivity].
Qed.
Lemma renamed_dget ext ext' name : renamed ext ext' ->
  match dget str_eqb name ext, dget str_eqb name ext' with
  | Some f, Some f' => same_grammar f f'
  | None, None => True
  | _, _ => False
  end.
Proof.
  intros H. induction H as [|[k f] [k' f'] e e' [Hk Hf] _ IH]; [exact I|]. cbn [fst snd] in Hk, Hf. subst k'. unfold dget. cbn [find fst snd].
  destruct (str_eqb name k); [exact Hf|]. exact IH.
Qed.
Lemma list_properties_letters ext ext' deps : renamed ext ext' -> forall ps ms ms', Forall2 same_grammar ms ms' ->
  match foldM (list_properties_step ext) deps (ps, ms), foldM (list_properties_step ext') deps (ps, ms') with
  | Ok a, Ok b => fst a = fst b /\ Forall2 same_grammar (snd a) (snd b)
  | Err e, Err e' => e = e'
  | _, _ => False
  end.
Proof.
  intros Hr. induction deps as [|[name|p] deps IH]; intros ps ms ms' Hm.
  - cbn [foldM]. split; [reflexivity|exact Hm].
  - cbn [foldM list_properties_step]. assert (G := renamed_dget ext ext' name Hr).
    destruct (dget str_eqb name ext) as [f|], (dget str_eqb name ext') as [f'|]; try contradiction; cbn [bind fst snd]; [|reflexivity].
    destruct G as (G1 & G2 & G3 & G4 & G5). rewrite <- G4. apply IH. apply Forall2_app; [exact Hm|]. constructor; [|constructor]. repeat split; assumption.
  - cbn [foldM list_properties_step bind fst snd]. apply IH. exact Hm.
Qed.
Lemma get_form_letters U w w' p : w_type w = w_type w' -> length (w_forms w) = length (w_forms w') ->
  (exists e, get_form U w p = Err e /\ get_form U w' p = Err e) \/
  exists i up, prints_slot U w i up (get_form U w p) /\ prints_slot U w' i up (get_form U w' p).
Proof.
  intros Ht Hl. unfold get_form, word__form. rewrite <- Ht.
  destruct (get_raw_key p (schema (w_type w))) as [k|e]; [|left; exists e; split; reflexivity]. cbn [bind].
  destruct (raw_index (w_type w) k) as [i|e]; [|left; exists e; split; reflexivity]. cbn [bind]. unfold py_nth.
  destruct (nth_error (w_forms w) i) as [form|] eqn:E.
  - assert (L : (i < length (w_forms w'))%nat) by (rewrite <- Hl; apply nth_error_Some; congruence). apply nth_error_Some in L.
    destruct (nth_error (w_forms w') i) as [form'|] eqn:E'; [|congruence]. cbn [bind].
    destruct (is_upper p) as [up|e]; [|left; exists e; split; reflexivity]. cbn [bind]. right. exists i, up. split.
    + exists form. split; [exact E|]. destruct up; [destruct form|]; reflexivity.
    + exists form'. split; [exact E'|]. destruct up; [destruct form'|]; reflexivity.
  - apply nth_error_None in E. rewrite Hl in E. apply nth_error_None in E. rewrite E. left. exists IndexError. split; reflexivity.
Qed.

(** if every name and text keeps its grammar and changes its letters, a variable prints the same slot with the same letter case, or fails with the
    same error; prepositions excepted *)
Theorem C89_choice : forall U s ext ext' d d', renamed ext ext' -> (~ In (s_id s) (dkeys ext) -> same_grammar_entry d d' (s_id s)) ->
  no_preposition s ext d ->
  (exists e, get_text U s ext d = Err e /\ get_text U s ext' d' = Err e) \/
  exists i up f f', stands_for ext d (s_id s) f /\ stands_for ext' d' (s_id s) f' /\ same_grammar f f' /\
    prints_slot U (wf_word f) i up (get_text U s ext d) /\ prints_slot U (wf_word f') i up (get_text U s ext' d').
Proof.
  intros U s ext ext' d d' Hr Hd Hn. unfold get_text.
  assert (B : match base_form_of ext d (s_id s), base_form_of ext' d' (s_id s) with
              | Ok f, Ok f' => same_grammar f f' | Err e, Err e' => e = e' | _, _ => False end).
  { unfold base_form_of. assert (G := renamed_dget ext ext' (s_id s) Hr). destruct (dget str_eqb (s_id s) ext) as [f|] eqn:E, (dget str_eqb (s_id s) ext') as [f'|] eqn:E';
      try contradiction; [exact G|]. apply (dget_None _ str_eqb_ok) in E. exact (Hd E). }
  destruct (base_form_of ext d (s_id s)) as [f|e] eqn:Eb, (base_form_of ext' d' (s_id s)) as [f'|e'] eqn:Eb'; try contradiction; cbn [bind];
    [|subst e'; left; exists e; split; reflexivity].
  apply base_stands_for in Eb, Eb'. assert (Np := Hn f Eb). destruct B as (B1 & B2 & B3 & B4 & B5).
  assert (L := list_properties_letters ext ext' (s_deps s) Hr [] [] [] (Forall2_nil _)). fold (list_properties ext (s_deps s)) in L. fold (list_properties ext' (s_deps s)) in L.
  destruct (list_properties ext (s_deps s)) as [pe|e], (list_properties ext' (s_deps s)) as [pe'|e']; try contradiction; cbn [bind];
    [|subst e'; left; exists e; split; reflexivity].
  destruct L as [L1 L2]. rewrite <- L1, <- B4, <- B2, <- (transforms_letters U (wf_word f) (wf_word f') (snd pe) (snd pe') B1 Np L2).
  destruct (foldM _ (snd pe) _) as [p|e]; [|left; exists e; split; reflexivity]. cbn [bind].
  destruct (get_form_letters U (wf_word f) (wf_word f') p B1 B3) as [He|(i & up & H1 & H2)]; [left; exact He|right].
  exists i, up, f, f'. repeat split; assumption.
Qed.
Lemma same_grammar_refl f : same_grammar f f.
Proof. repeat split. Qed.
Lemma renamed_refl ext : renamed ext ext.
Proof. induction ext as [|a ext IH]; constructor; [|exact IH]. split; [reflexivity|apply same_grammar_refl]. Qed.
Lemma renamed_one pre name f f' post : same_grammar f f' -> renamed (pre ++ (name, f) :: post) (pre ++ (name, f') :: post).
Proof. intros H. apply Forall2_app; [apply renamed_refl|]. constructor; [|apply renamed_refl]. split; [reflexivity|exact H]. Qed.
(** in particular another name with the same grammar changes nothing in the variables whose identifier is not this name *)
Theorem C89_others : forall U s pre name f f' post d, same_grammar f f' -> s_id s <> name -> no_preposition s (pre ++ (name, f) :: post) d ->
  get_text U s (pre ++ (name, f) :: post) d = get_text U s (pre ++ (name, f') :: post) d.
Proof.
  intros U s pre name f f' post d Hg Hn Hp. unfold get_text.
  assert (B : base_form_of (pre ++ (name, f) :: post) d (s_id s) = base_form_of (pre ++ (name, f') :: post) d (s_id s)).
  { unfold base_form_of. rewrite !dget_app. cbn [dget]. destruct (str_eqb (s_id s) name) eqn:E; [apply str_eqb_ok in E; congruence|reflexivity]. }
  destruct (base_form_of (pre ++ (name, f) :: post) d (s_id s)) as [b|e] eqn:Eb; rewrite <- B; [|reflexivity]. cbn [bind].
  apply base_stands_for in Eb. assert (Np := Hp b Eb). assert (Hr := renamed_one pre name f f' post Hg).
  assert (L := list_properties_letters _ _ (s_deps s) Hr [] [] [] (Forall2_nil _)).
  fold (list_properties (pre ++ (name, f) :: post) (s_deps s)) in L. fold (list_properties (pre ++ (name, f') :: post) (s_deps s)) in L.
  destruct (list_properties (pre ++ (name, f) :: post) (s_deps s)) as [pe|e], (list_properties (pre ++ (name, f') :: post) (s_deps s)) as [pe'|e'];
    try contradiction; cbn [bind]; [|subst e'; reflexivity].
  destruct L as [L1 L2]. rewrite <- L1, <- (transforms_letters U (wf_word b) (wf_word b) (snd pe) (snd pe') eq_refl Np L2). reflexivity.
Qed.

(** the printed text as a whole: the same slots are printed between the same literal parts *)
Theorem C89_template_choice : forall U ext0 text t literals variables, parse_template U new_template text ext0 = (t, Ok tt) -> cuts text literals variables ->
  forall U' ext ext' d d' x x', renamed ext ext' ->
  (forall s, In s (t_subs t) -> (~ In (s_id s) (dkeys ext) -> same_grammar_entry d d' (s_id s)) /\ no_preposition s ext d) ->
  substitute U' t ext d = Ok x -> substitute U' t ext' d' = Ok x' ->
  exists choices texts texts', length choices = length (t_subs t) /\ x = weave literals texts /\ x' = weave literals texts' /\
    Forall2 (fun sc y => prints_choice U' ext d (fst sc) (snd sc) y) (combine (t_subs t) choices) texts /\
    Forall2 (fun sc y => prints_choice U' ext' d' (fst sc) (snd sc) y) (combine (t_subs t) choices) texts'.
Proof.
  intros U ext0 text t ls vs Hp Hc U' ext ext' d d' x x' Hr Hs H H'. destruct (C28_literals_verbatim _ _ _ _ _ _ Hp Hc) as [_ HL].
  assert (H0 := H). assert (H0' := H'). unfold substitute in H0, H0'.
  destruct (mapM (fun s => get_text U' s ext d) (t_subs t)) as [texts|] eqn:E; [|discriminate]. clear H0.
  destruct (mapM (fun s => get_text U' s ext' d') (t_subs t)) as [texts'|] eqn:E'; [|discriminate]. clear H0'.
  apply mapM_ok in E, E'. rewrite (HL U' ext d texts E) in H. rewrite (HL U' ext' d' texts' E') in H'.
  assert (G : exists choices, length choices = length (t_subs t) /\
    Forall2 (fun sc y => prints_choice U' ext d (fst sc) (snd sc) y) (combine (t_subs t) choices) texts /\
    Forall2 (fun sc y => prints_choice U' ext' d' (fst sc) (snd sc) y) (combine (t_subs t) choices) texts').
  { clear H H' Hp Hc HL. revert texts' E'. induction E as [|s y subs ys Hy _ IH]; intros ys' E'; inversion E' as [|? y' ? ys'' Hy' E'']; subst.
    - exists []. split; [reflexivity|]. split; constructor.
    - destruct (IH (fun s' Hi => Hs s' (or_intror Hi)) _ E'') as (cs & L & F1 & F2). destruct (Hs s (or_introl eq_refl)) as [Hd Hn].
      destruct (C89_choice U' s ext ext' d d' Hr Hd Hn) as [(e & He & _)|(i & up & f & f' & S & S' & _ & P & P')]; [congruence|].
      rewrite Hy in P. rewrite Hy' in P'.
      exists ((i, up) :: cs). split; [cbn [length]; rewrite L; reflexivity|]. cbn [combine].
      split; constructor; try assumption; [exists f; split; [exact S|exact P]|exists f'; split; [exact S'|exact P']]. }
  destruct G as (cs & L & F1 & F2). exists cs, texts, texts'. split; [exact L|]. split; [congruence|]. split; [congruence|]. split; assumption.
Qed.

(** ** numbers *)
Lemma numeral_properties n form number : numeral (Z.abs n) form number -> integer_properties n = Properties [AProp number; AProp form].
Proof.
  unfold integer_properties. set (m := Z.abs n). clearbody m.
  intros H. destruct H as [m [-> | ->]| |m Hm|m Ho Ht|m Ho Ht Hm|m Ho Ht Hm|m Ho Ht Hm]; try (vm_compute; reflexivity).
  - assert (m = 2 \/ m = 3 \/ m = 4)%Z as [-> |[-> | ->]] by lia; vm_compute; reflexivity.
  - unfold ordinary, teens in *. replace (Z.eqb m 1000000) with false by (symmetry; apply Z.eqb_neq; lia). replace (Z.eqb m 1000000000) with false by (symmetry; apply Z.eqb_neq; lia).
    replace (Z.eqb m 1) with false by (symmetry; apply Z.eqb_neq; lia). replace (Z.eqb m 2) with false by (symmetry; apply Z.eqb_neq; lia).
    replace (Z.eqb m 3) with false by (symmetry; apply Z.eqb_neq; lia). replace (Z.eqb m 4) with false by (symmetry; apply Z.eqb_neq; lia).
    replace (Z.leb 10 (m mod 100)) with true by (symmetry; apply Z.leb_le; lia). replace (Z.leb (m mod 100) 19) with true by (symmetry; apply Z.leb_le; lia). reflexivity.
  - unfold ordinary, teens in *. replace (Z.eqb m 1000000) with false by (symmetry; apply Z.eqb_neq; lia). replace (Z.eqb m 1000000000) with false by (symmetry; apply Z.eqb_neq; lia).
    replace (Z.eqb m 1) with false by (symmetry; apply Z.eqb_neq; lia). replace (Z.eqb m 2) with false by (symmetry; apply Z.eqb_neq; lia).
    replace (Z.eqb m 3) with false by (symmetry; apply Z.eqb_neq; lia). replace (Z.eqb m 4) with false by (symmetry; apply Z.eqb_neq; lia).
    replace (Z.leb 10 (m mod 100) && Z.leb (m mod 100) 19)%bool with false by (symmetry; apply andb_false_iff; destruct (Z.leb_spec 10 (m mod 100)); [right; apply Z.leb_gt; lia|left; reflexivity]).
    replace (Z.eqb (m mod 10) 1) with true by (symmetry; apply Z.eqb_eq; exact Hm). reflexivity.
  - unfold ordinary, teens in *. replace (Z.eqb m 1000000) with false by (symmetry; apply Z.eqb_neq; lia). replace (Z.eqb m 1000000000) with false by (symmetry; apply Z.eqb_neq; lia).
    replace (Z.eqb m 1) with false by (symmetry; apply Z.eqb_neq; lia). replace (Z.eqb m 2) with false by (symmetry; apply Z.eqb_neq; lia).
    replace (Z.eqb m 3) with false by (symmetry; apply Z.eqb_neq; lia). replace (Z.eqb m 4) with false by (symmetry; apply Z.eqb_neq; lia).
    replace (Z.leb 10 (m mod 100) && Z.leb (m mod 100) 19)%bool with false by (symmetry; apply andb_false_iff; destruct (Z.leb_spec 10 (m mod 100)); [right; apply Z.leb_gt; lia|left; reflexivity]).
    replace (Z.eqb (m mod 10) 1) with false by (symmetry; apply Z.eqb_neq; lia). replace (Z.leb 2 (m mod 10)) with true by (symmetry; apply Z.leb_le; lia).
    replace (Z.leb (m mod 10) 4) with true by (symmetry; apply Z.leb_le; lia). reflexivity.
  - unfold ordinary, teens in *. replace (Z.eqb m 1000000) with false by (symmetry; apply Z.eqb_neq; lia). replace (Z.eqb m 1000000000) with false by (symmetry; apply Z.eqb_neq; lia).
    replace (Z.eqb m 1) with false by (symmetry; apply Z.eqb_neq; lia). replace (Z.eqb m 2) with false by (symmetry; apply Z.eqb_neq; lia).
    replace (Z.eqb m 3) with false by (symmetry; apply Z.eqb_neq; lia). replace (Z.eqb m 4) with false by (symmetry; apply Z.eqb_neq; lia).
    replace (Z.leb 10 (m mod 100) && Z.leb (m mod 100) 19)%bool with false by (symmetry; apply andb_false_iff; destruct (Z.leb_spec 10 (m mod 100)); [right; apply Z.leb_gt; lia|left; reflexivity]).
    assert (B := Z.mod_pos_bound m 10 ltac:(lia)).
    replace (Z.eqb (m mod 10) 1) with false by (symmetry; apply Z.eqb_neq; lia).
    replace (Z.leb 2 (m mod 10) && Z.leb (m mod 10) 4)%bool with false by (symmetry; apply andb_false_iff; destruct (Z.leb_spec 2 (m mod 10)); [right; apply Z.leb_gt; lia|left; reflexivity]). reflexivity.
Qed.
Lemma numbers_same_grammar n m form number : numeral (Z.abs n) form number -> numeral (Z.abs m) form number ->
  same_grammar (WordForm (integer_word n) None None) (WordForm (integer_word m) None None).
Proof.
  intros Hn Hm. apply numeral_properties in Hn, Hm. unfold same_grammar, WordForm, integer_word. cbn [wf_word wf_props wf_form_props w_type w_props w_forms].
  rewrite Hn, Hm. repeat split.
Qed.
(** two numbers of the same class: every variable that does not print the number itself (and no preposition) is the same *)
Theorem C89_numbers : forall U s calls cache calls' cache' n m form number f g pre name post d, after_calls calls cache -> after_calls calls' cache' ->
  numeral (Z.abs n) form number -> numeral (Z.abs m) form number ->
  snd (construct_integer cache n) = Ok f -> snd (construct_integer cache' m) = Ok g ->
  s_id s <> name -> no_preposition s (pre ++ (name, f) :: post) d ->
  get_text U s (pre ++ (name, f) :: post) d = get_text U s (pre ++ (name, g) :: post) d.
Proof.
  intros U s calls cache calls' cache' n m form number f g pre name post d Hc Hc' Hn Hm Hf Hg Hs Hp.
  destruct (C47_histories _ _ n Hc) as [E _]. rewrite E, raw_ok in Hf. destruct (C47_histories _ _ m Hc') as [E' _]. rewrite E', raw_ok in Hg.
  injection Hf as <-. injection Hg as <-. apply C89_others; [|exact Hs|exact Hp]. exact (numbers_same_grammar _ _ _ _ Hn Hm).
Qed.
(** six numbers are enough to see every text around a number *)
Theorem C89_six_numbers : forall n, exists m, In m [1; 2; 5; 21; 22; 1000000]%Z /\
  forall U s calls cache calls' cache' f g pre name post d, after_calls calls cache -> after_calls calls' cache' ->
  snd (construct_integer cache n) = Ok f -> snd (construct_integer cache' m) = Ok g ->
  s_id s <> name -> no_preposition s (pre ++ (name, f) :: post) d ->
  get_text U s (pre ++ (name, f) :: post) d = get_text U s (pre ++ (name, g) :: post) d.
Proof.
  intros n. destruct (C45_classified [] None n no_calls) as (f0 & form & number & _ & _ & _ & Hn & _).
  assert (G : exists m, In m [1; 2; 5; 21; 22; 1000000]%Z /\ numeral (Z.abs m) form number).
  { destruct Hn as [z Hz| |z Hz|z Ho Ht|z Ho Ht Hz|z Ho Ht Hz|z Ho Ht Hz].
    - exists 1000000%Z. split; [cbn; tauto|]. apply num_million. left. reflexivity.
    - exists 1%Z. split; [cbn; tauto|]. apply num_one.
    - exists 2%Z. split; [cbn; tauto|]. apply num_few. cbn. lia.
    - exists 5%Z. split; [cbn; tauto|]. apply num_other; [unfold ordinary; cbn; lia|unfold teens; cbn; lia|right; cbn; lia].
    - exists 21%Z. split; [cbn; tauto|]. apply num_ends_1; [unfold ordinary; cbn; lia|unfold teens; cbn; lia|reflexivity].
    - exists 22%Z. split; [cbn; tauto|]. apply num_ends_234; [unfold ordinary; cbn; lia|unfold teens; cbn; lia|cbn; lia].
    - exists 5%Z. split; [cbn; tauto|]. apply num_other; [unfold ordinary; cbn; lia|unfold teens; cbn; lia|right; cbn; lia]. }
  destruct G as (m & Hi & Hm). exists m. split; [exact Hi|]. intros U s calls cache calls' cache' f g pre name post d Hc Hc' Hf Hg Hs Hp.
  exact (C89_numbers U s _ _ _ _ n m form number f g pre name post d Hc Hc' Hn Hm Hf Hg Hs Hp).
Qed.
(** and every text of a template that mentions the number only as a dependency *)
Theorem C89_six_numbers_template : forall n, exists m, In m [1; 2; 5; 21; 22; 1000000]%Z /\
  forall U t calls cache calls' cache' f g pre name post d, after_calls calls cache -> after_calls calls' cache' ->
  snd (construct_integer cache n) = Ok f -> snd (construct_integer cache' m) = Ok g ->
  (forall s, In s (t_subs t) -> s_id s <> name /\ no_preposition s (pre ++ (name, f) :: post) d) ->
  substitute U t (pre ++ (name, f) :: post) d = substitute U t (pre ++ (name, g) :: post) d.
Proof.
  intros n. destruct (C89_six_numbers n) as (m & Hi & H). exists m. split; [exact Hi|].
  intros U t calls cache calls' cache' f g pre name post d Hc Hc' Hf Hg Hs. unfold substitute.
  rewrite (mapM_ext_in _ (fun s => get_text U s (pre ++ (name, g) :: post) d)); [reflexivity|].
  intros s Hin. destruct (Hs s Hin) as [Hn Hp]. exact (H U s _ _ _ _ f g pre name post d Hc Hc' Hf Hg Hn Hp).
Qed.

(** every hypothesis is met: a name made of brackets and percent signs is printed as it is, and 1017 counts coins as 5 does *)
Definition nasty : word := {| w_type := WT_NOUN; w_forms := map (fun x => u "[%s|" ++ x) noun_forms; w_props := w_props coin |}.
Definition named (w : word) : externals := [(u "who", WordForm w None None)].
Definition counted (n : Z) : externals := [(u "n", WordForm (integer_word n) None None)].
Example C89_case : (exists t, parse_template ru_unicode new_template (u "[Who|дт], 100%") (named coin) = (t, Ok tt) /\
    (exists literals variables, cuts (u "[Who|дт], 100%") literals variables) /\
    substitute ru_unicode t (named coin) [] = Ok (u "Монете, 100%") /\ substitute ru_unicode t (named nasty) [] = Ok (u "[%s|монете, 100%") /\
    renamed (named coin) (named nasty) /\ forall s, In s (t_subs t) -> s_id s = u "who" /\ no_preposition s (named coin) []) /\
  same_grammar (WordForm coin None None) (WordForm nasty None None) /\
  numeral (Z.abs 1017) INTEGER_FORM_PLURAL NUMBER_PLURAL /\ numeral (Z.abs 5) INTEGER_FORM_PLURAL NUMBER_PLURAL /\
  get_text ru_unicode {| s_id := u "монета"; s_deps := [DExt (u "n")] |} (counted 1017) dict2 = Ok (u "монет") /\
  get_text ru_unicode {| s_id := u "монета"; s_deps := [DExt (u "n")] |} (counted 22) dict2 = Ok (u "монеты").
Proof.
  assert (G : same_grammar (WordForm coin None None) (WordForm nasty None None)) by (repeat split).
  split.
  - eexists. split; [vm_compute; reflexivity|]. split; [apply cuts_exists|]. split; [vm_compute; reflexivity|]. split; [vm_compute; reflexivity|].
    split; [constructor; [split; [reflexivity|exact G]|constructor]|].
    intros s [<-|[]]. split; [reflexivity|]. intros f [[[= <-]|[]]|[N _]]; [discriminate|]. exfalso. apply N. left. reflexivity.
  - split; [exact G|]. split; [apply num_teens; [unfold ordinary; cbn; lia|unfold teens; cbn; lia]|].
    split; [apply num_other; [unfold ordinary; cbn; lia|unfold teens; cbn; lia|right; cbn; lia]|]. split; vm_compute; reflexivity.
Qed.
