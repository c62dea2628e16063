(** * PropVariables: C76: variables without dependencies; C67: verbs of all tenses, adjectives and participles *)
From Coq Require Import Lia.
From Verif Require Import SlotTables CaseTools PyBase PyFloat Relations Restrictions Logic Data Words Transformators Constructors Dictionary Templates SpecProps SpecSlots SpecDictionary
  SpecAgreement SpecTemplates SpecSubstitution SpecReadme SpecIntegers SpecCounting PyBaseFacts PropsFacts SynFacts SlotFacts LookupFacts WordFacts DictFacts TemplateFacts SubstFacts
  AgreementFacts PropSlots PropWords PropDictionary PropSyntax PropAgreement PropIntegers PropSubstitution PropReadme PropCounting.

(** the word's own properties are part of the form's properties already *)
Lemma own_included f g v : is_wordform f -> holds (w_props (wf_word f)) g v -> holds (wf_props f) g v.
Proof.
  intros (w & p & fp & Hw & Hp & _ & ->) H. cbn [WordForm wf_word wf_props] in *. destruct p as [q|]; [|exact H].
  assert (W : wf_args [AProps q; AProps (w_props w)]) by (apply good_args_wf; intros x [[= <-]|[[= <-]|[]]]; [apply Hp; reflexivity|apply Hw]).
  apply holds_dget; [apply wf_Properties, W|]. rewrite dget_Properties by exact W. cbn. apply holds_dget in H; [|apply is_properties_wf, Hw]. rewrite H. reflexivity.
Qed.
Lemma bare_values f g : is_wordform f -> pget (merged f []) g = pget (wf_props f) g.
Proof.
  intros Wf. destruct (wordform_parts f Wf) as (Hw & Hq & _).
  rewrite (pget_spec (wf_props f)). apply (merged_pget f [] g); [exact Wf|constructor|]. unfold layers. cbn [rev app].
  destruct (dget rel_eqb g (w_props (wf_word f))) as [v|] eqn:E.
  - apply holds_dget in E; [|apply is_properties_wf, Hw]. assert (E' := own_included f g v Wf E). apply holds_dget in E'; [|apply is_properties_wf, Hq].
    rewrite E'. apply vf_here, E.
  - apply vf_next; [apply holds_none, E|]. destruct (dget rel_eqb g (wf_props f)) as [v|] eqn:E'.
    + apply vf_here, holds_dget; [apply is_properties_wf, Hq|exact E'].
    + apply vf_next; [apply holds_none, E'|]. apply vf_default.
Qed.
Lemma bare_text U ext d id f : good_externals ext -> is_dictionary U d -> base_form ext d id f ->
  get_text U {| s_id := id; s_deps := [] |} ext d = get_form U (wf_word f) (wf_props f).
Proof.
  intros He Hd Hf. destruct (base_form_good U ext d _ f He Hd Hf) as [Wf _].
  rewrite (get_text_eq U {| s_id := id; s_deps := [] |} ext d f [] [] He Hd Hf); [|constructor]. cbn [foldM bind].
  unfold get_form, is_upper. rewrite (word__form_ext (wf_word f) (merged f []) (wf_props f)) by (intros g _; apply bare_values, Wf). rewrite (bare_values f R_WORD_CASE Wf). reflexivity.
Qed.
(** ** C76 *)
(** [name] *)
Theorem C76_variable : forall U ext0 ext d name f, unicode_ok U -> small U name -> good_externals ext -> is_dictionary U d -> In (name, f) ext ->
  exists t form v, parse_template U new_template (variable name []) ext0 = (t, Ok tt) /\ word_form (wf_word f) (wf_props f) = Ok form /\ value (wf_props f) R_WORD_CASE v /\
    shown U v form (substitute U t ext d).
Proof.
  intros U ext0 ext d name f HU Hs He Hd Hf. destruct (C66_understood U ext0 name [] [] HU Hs ltac:(constructor)) as (t & Hp & _ & Hsub).
  assert (Wf := proj2 He _ _ Hf). destruct (wordform_parts f Wf) as (Hw & Hq & _ & _ & E).
  destruct (C19_upper_case U {| wf_word := wf_word f; wf_props := wf_props f; wf_form_props := wf_props f |}) as (form & E1 & _).
  { destruct Wf as (w & p & fp & W1 & W2 & W3 & ->). exists w, p, None. split; [exact W1|]. split; [exact W2|]. split; [discriminate|]. reflexivity. }
  cbn [wf_word wf_form_props] in E1. destruct (pget_some (wf_props f) R_WORD_CASE) as (v & Ev & _); [apply is_properties_wf, Hq|discriminate|].
  exists t, form, v. split; [exact Hp|]. split; [exact E1|]. split.
  - unfold value. rewrite pget_spec in Ev. destruct (dget rel_eqb R_WORD_CASE (wf_props f)) as [y|] eqn:Ey.
    + injection Ev as ->. apply vf_here, holds_dget; [apply is_properties_wf, Hq|exact Ey].
    + injection Ev as Ev. rewrite <- Ev. apply vf_next; [apply holds_none, Ey|]. apply vf_default.
  - rewrite (Hsub ext d _ (bare_text U ext d name f He Hd (base_external _ _ _ _ Hf))). apply get_form_shown; [exact Hq|exact Ev|]. rewrite E. exact E1.
Qed.
(** so a WordForm made without separate properties of the form is printed as its form, *)
Theorem C76_form : forall U ext0 ext d name w p, unicode_ok U -> small U name -> good_externals ext -> is_dictionary U d -> In (name, WordForm w p None) ext ->
  exists t, parse_template U new_template (variable name []) ext0 = (t, Ok tt) /\ substitute U t ext d = wf_form U (WordForm w p None).
Proof.
  intros U ext0 ext d name w p HU Hs He Hd Hf. destruct (C66_understood U ext0 name [] [] HU Hs ltac:(constructor)) as (t & Hp & _ & Hsub).
  exists t. split; [exact Hp|]. apply Hsub. rewrite (bare_text U ext d name _ He Hd (base_external _ _ _ _ Hf)). reflexivity.
Qed.
(** and WordForm(word) in the normal form of the word *)
Theorem C76_normal_form : forall U ext0 ext d name w, unicode_ok U -> small U name -> good_externals ext -> is_dictionary U d -> In (name, WordForm w None None) ext ->
  ~ holds (w_props w) R_WORD_CASE WORD_CASE_UPPER ->
  exists t form, parse_template U new_template (variable name []) ext0 = (t, Ok tt) /\ normal_form w = Ok form /\ substitute U t ext d = Ok form.
Proof.
  intros U ext0 ext d name w HU Hs He Hd Hf Hn. destruct (C76_form U ext0 ext d name w None HU Hs He Hd Hf) as (t & Hp & Hsub).
  destruct (C19_upper_case U (WordForm w None None) (proj2 He _ _ Hf)) as (form & E1 & _ & E2). exists t, form. split; [exact Hp|]. split; [exact E1|]. rewrite Hsub. apply E2, Hn.
Qed.
(** FINDING: the form_properties of a WordForm do not matter when it is printed, although they choose its form *)
Theorem C76_form_properties_ignored : forall U ext0 ext ext' d name w p fp fp', unicode_ok U -> small U name -> good_externals ext -> good_externals ext' -> is_dictionary U d ->
  In (name, WordForm w p fp) ext -> In (name, WordForm w p fp') ext' ->
  exists t, parse_template U new_template (variable name []) ext0 = (t, Ok tt) /\ substitute U t ext d = substitute U t ext' d.
Proof.
  intros U ext0 ext ext' d name w p fp fp' HU Hs He He' Hd Hf Hf'. destruct (C66_understood U ext0 name [] [] HU Hs ltac:(constructor)) as (t & Hp & _ & Hsub).
  exists t. split; [exact Hp|]. rewrite (Hsub ext d _ (bare_text U ext d name _ He Hd (base_external _ _ _ _ Hf))), (Hsub ext' d _ (bare_text U ext' d name _ He' Hd (base_external _ _ _ _ Hf'))).
  reflexivity.
Qed.
(** [n] prints the number in decimal digits *)
Theorem C76_integer : forall U ext0 ext d name calls cache n m, unicode_ok U -> small U name -> good_externals ext -> is_dictionary U d -> In (name, m) ext ->
  after_calls calls cache -> snd (construct_integer cache n) = Ok m ->
  exists t x, parse_template U new_template (variable name []) ext0 = (t, Ok tt) /\ substitute U t ext d = Ok x /\ literal x n /\ canonical x.
Proof.
  intros U ext0 ext d name calls cache n m HU Hs He Hd Hm Hc Hn. destruct (C46_text U calls cache n m Hc Hn) as (x & Ex & Hl & Hca).
  assert (Hraw := Hn). rewrite (proj1 (C47_histories calls cache n Hc)), raw_ok in Hraw. injection Hraw as <-.
  destruct (C76_form U ext0 ext d name (integer_word n) None HU Hs He Hd Hm) as (t & Hp & E). exists t, x. split; [exact Hp|]. split; [rewrite E; exact Ex|auto].
Qed.
(** [Name]: written with a capital letter, the variable is printed with one *)
Theorem C76_capitalised : forall U ext0 ext d C R name f, good_externals ext -> is_dictionary U d ->
  u_lower U (C :: R) = name -> trimmed U (C :: R) (C :: R) -> (forall x, In x (C :: R) -> ~ In x (u "|]%")) -> u_isupper U C = true ->
  In (name, f) ext -> silent (w_props (wf_word f)) [R_WORD_CASE] ->
  exists t form, parse_template U new_template (variable (C :: R) []) ext0 = (t, Ok tt) /\ word_form (wf_word f) (wf_props f) = Ok form /\
    shown U WORD_CASE_UPPER form (substitute U t ext d).
Proof.
  intros U ext0 ext d C R name f He Hd Hl Ht Hch Hup Hf Hno.
  assert (Hbar : ~ In BAR (C :: R)) by (intros H; apply (Hch _ H); left; reflexivity).
  assert (Hrbr : ~ In RBR (C :: R)) by (intros H; apply (Hch _ H); right; left; reflexivity).
  assert (Hper : ~ In PERCENT (C :: R)) by (intros H; apply (Hch _ H); right; right; left; reflexivity).
  assert (E := C30_parsed U ext0 (C :: R) [] C R [] ltac:(constructor; [exact Hbar|constructor]) Ht ltac:(constructor)). rewrite Hup, Hl in E. cbn [app] in E.
  assert (Wf := proj2 He _ _ Hf). destruct (wordform_parts f Wf) as (Hw & Hq & _ & _ & Ew).
  set (P := Properties [AProp WORD_CASE_UPPER]) in *. assert (HP : is_properties P) by (apply Properties_ok; intros q [[=]|[]]).
  assert (HPh : forall g v, holds P g v <-> g = R_WORD_CASE /\ v = WORD_CASE_UPPER).
  { intros g v. subst P. unfold holds, Properties, update. cbn. split; [intros [[= <- <-]|[]]; auto|intros [-> ->]; auto]. }
  destruct (C19_upper_case U {| wf_word := wf_word f; wf_props := wf_props f; wf_form_props := wf_props f |}) as (form & E1 & _).
  { destruct Wf as (w & p & fp & W1 & W2 & W3 & ->). exists w, p, None. split; [exact W1|]. split; [exact W2|]. split; [discriminate|]. reflexivity. }
  cbn [wf_word wf_form_props] in E1.
  eexists. exists form. split; [apply (parse_one U ext0 (C :: R) _ ltac:(discriminate) Hrbr Hper E)|]. split; [exact E1|].
  assert (G : shown U WORD_CASE_UPPER form (get_text U {| s_id := name; s_deps := [DProps P] |} ext d)).
  { rewrite (get_text_eq U {| s_id := name; s_deps := [DProps P] |} ext d f [P] [] He Hd (base_external _ _ _ _ Hf)); [|apply given_props; constructor]. cbn [foldM bind].
    assert (Gp : Forall is_properties [P]) by (constructor; [exact HP|constructor]).
    apply get_form_shown.
    - apply merged_good; assumption.
    - apply merged_pget; [exact Wf|exact Gp|]. unfold layers. cbn [rev app]. apply vf_next; [intros v; apply Hno; left; reflexivity|]. apply vf_here, HPh. auto.
    - rewrite <- E1, <- Ew. apply word__form_ext. intros g Hg. rewrite <- (bare_values f g Wf).
      destruct (value_from_exists (layers f []) g (layers_wf f [] Wf ltac:(constructor))) as [o Ho]. rewrite (proj1 (merged_pget f [] g o Wf ltac:(constructor)) Ho).
      apply merged_pget; [exact Wf|exact Gp|]. unfold layers in *. cbn [rev app] in *.
      inversion Ho as [|? ? ? ? K|? ? ? ? K1 K2]; subst; [apply vf_here, K|]. apply vf_next; [exact K1|]. apply vf_next; [|exact K2].
      intros v Hv. apply HPh in Hv as [-> _]. destruct (w_type (wf_word f)); cbn in Hg; intuition discriminate. }
  unfold substitute. cbn [t_subs t_text mapM]. destruct (get_text U {| s_id := name; s_deps := [DProps P] |} ext d) as [x|e] eqn:Ex; cbn [bind].
  - change (u "%s") with [37%N; 115%N]. cbn [py_format N.eqb Pos.eqb bind]. rewrite app_nil_r. exact G.
  - exact G.
Qed.
Example C76_case : small ru_unicode (u "hero") /\ u_lower ru_unicode (u "Hero") = u "hero" /\ silent (w_props knight) [R_WORD_CASE] /\ normal_form knight = Ok (u "рыцарь0") /\
  substitute ru_unicode (fst (parse_template ru_unicode new_template (u "[hero] [Hero] [mob]") ext4)) ext4 dict4 = Ok (u "рыцарь0 Рыцарь0 рыцарь6") /\
  wf_form ru_unicode (WordForm knight None (Some (Properties [AProp CASE_DATIVE]))) = Ok (u "рыцарь2") /\
  substitute ru_unicode (fst (parse_template ru_unicode new_template (u "[hero]") ext4)) [(u "hero", WordForm knight None (Some (Properties [AProp CASE_DATIVE])))] dict4 = Ok (u "рыцарь0").
Proof.
  split; [eapply small_text; vm_compute; reflexivity|]. split; [reflexivity|]. split; [silent_tac|]. split; [vm_compute; reflexivity|]. split; [vm_compute; reflexivity|]. split; vm_compute; reflexivity.
Qed.

(** ** C67 *)
(** [verb|noun]: tense and person recognised in the written form, number and gender those of the noun *)
Theorem C67_verb : forall U ext0 ext d id name f m n g time person,
  unicode_ok U -> small U id -> plain U name -> In name (dkeys ext0) -> good_externals ext -> is_dictionary U d -> base_form ext d id f -> In (name, m) ext ->
  w_type (wf_word f) = WT_VERB -> ~ is_integer m ->
  silent (w_props (wf_word f)) (R_WORD_CASE :: schema WT_VERB) -> silent (wf_props m) [R_VERB_FORM; R_TIME; R_WORD_CASE] -> silent (wf_props f) [R_WORD_CASE] ->
  value (wf_props f) R_VERB_FORM VERB_FORM_INDICATIVE -> value (wf_props f) R_TIME time -> value_from [wf_props m; wf_props f] R_PERSON (Some person) ->
  value_from [wf_props m; wf_props f] R_NUMBER (Some n) -> value_from [wf_props m; wf_props f] R_GENDER (Some g) ->
  exists t i k x, parse_template U new_template (variable id [name]) ext0 = (t, Ok tt) /\ verb_key n person g time k /\ slot WT_VERB i k /\
    nth_error (w_forms (wf_word f)) i = Some x /\ substitute U t ext d = Ok x.
Proof.
  intros U ext0 ext d id name f m n g time person HU Hid Hnm Hin0 He Hd Hf Hm Ht Hni Hs1 Hs2 Hs3 Hvf Htm Hpe Hn Hg.
  destruct (base_form_good U ext d _ f He Hd Hf) as [Wf _]. destruct (wordform_parts f Wf) as (Hw & Hpf & _). destruct (wordform_parts m (proj2 He _ _ Hm)) as (_ & Hpm & _).
  assert (Hwf : Forall props_wf [wf_props m; wf_props f]) by (repeat constructor; apply is_properties_wf; assumption).
  assert (Hwf1 : Forall props_wf [wf_props f]) by (repeat constructor; apply is_properties_wf; assumption).
  destruct (verb_key_exists n person g time (value_in_records _ _ _ Hwf Hn) (value_in_records _ _ _ Hwf1 Htm)) as [k Hk].
  assert (Hsl := verb_slot _ _ _ _ _ (value_in_records _ _ _ Hwf Hn) (value_in_records _ _ _ Hwf Hpe) (value_in_records _ _ _ Hwf Hg) Hk). set (i := index_of WT_VERB k) in *.
  destruct (slot_form (wf_word f) i k Hw) as [x Hx]; [rewrite Ht; exact Hsl|].
  destruct (C66_understood U ext0 id [name] [DExt name] HU Hid) as (t & Hp & _ & Hsub); [constructor; [apply written_name; assumption|constructor]|].
  exists t, i, k, x. split; [exact Hp|]. split; [exact Hk|]. split; [exact Hsl|]. split; [exact Hx|]. apply Hsub.
  assert (V : forall h y, In h [R_VERB_FORM; R_TIME; R_WORD_CASE] -> value_from [wf_props f] h (Some y) -> value_from [[]; wf_props m; wf_props f] h (Some y)).
  { intros h y Hh Hv. apply vf_next; [intros v []|]. apply vf_next; [intros v; apply Hs2, Hh|exact Hv]. }
  assert (V' : forall h y, value_from [wf_props m; wf_props f] h (Some y) -> value_from [[]; wf_props m; wf_props f] h (Some y)) by (intros h y Hv; apply vf_next; [intros v []|exact Hv]).
  apply (one_external U ext d id name f m [] [] i k); try assumption; try (rewrite Ht; assumption).
  - apply wf_is_properties, wf_nil.
  - rewrite Ht. discriminate.
  - left. auto.
  - rewrite Ht. cbn [schema]. destruct Hk as [o Ho|time Hti].
    + constructor; [intros v [= <-]; apply V; [cbn; auto|exact Hvf]|]. constructor; [intros v [= <-]; apply V; [cbn; auto|exact Htm]|].
      constructor; [intros v [= <-]; apply V', Hn|]. constructor; [intros v [=]|]. constructor; [|constructor].
      intros v E. destruct Ho as [[_ ->]|[_ ->]]; [discriminate|]. injection E as <-. apply V', Hg.
    + constructor; [intros v [= <-]; apply V; [cbn; auto|exact Hvf]|]. constructor; [intros v [= <-]; apply V; [cbn; auto|exact Htm]|].
      constructor; [intros v [= <-]; apply V', Hn|]. constructor; [intros v [= <-]; apply V', Hpe|]. constructor; [intros v [=]|constructor].
  - apply V; [cbn; auto|]. apply vf_next; [intros v; apply Hs3; left; reflexivity|]. apply vf_default.
Qed.
(** [adjective|noun], [participle|noun|вн]: form, grade or tense recognised in the written form, animality, number, case and gender those of the noun; vs: written cases *)
Theorem C67_attribute : forall U ext0 ext d id name f m vs g1 g2 p1 p2 a n c g,
  unicode_ok U -> small U id -> plain U name -> In name (dkeys ext0) -> ~ In (ids vs) (dkeys ext0) -> good_externals ext -> is_dictionary U d -> base_form ext d id f -> In (name, m) ext ->
  ~ is_integer m -> Forall (fun p => rel_of p = R_CASE) vs -> firstn 2 (schema (w_type (wf_word f))) = [g1; g2] -> attribute_start (w_type (wf_word f)) p1 p2 ->
  silent (w_props (wf_word f)) (R_WORD_CASE :: schema (w_type (wf_word f))) -> silent (wf_props m) [g1; g2; R_WORD_CASE] -> silent (wf_props f) [R_WORD_CASE] ->
  value (wf_props f) g1 p1 -> value (wf_props f) g2 p2 ->
  value_from [wf_props m; wf_props f] R_ANIMALITY (Some a) -> value_from [wf_props m; wf_props f] R_NUMBER (Some n) -> value_from [wf_props m; wf_props f] R_GENDER (Some g) ->
  value_from [Properties (map AProp vs); wf_props m; wf_props f] R_CASE (Some c) ->
  exists t i k x, parse_template U new_template (variable id (name :: tail_text vs)) ext0 = (t, Ok tt) /\ attribute_key p1 p2 a n c g k /\ slot (w_type (wf_word f)) i k /\
    nth_error (w_forms (wf_word f)) i = Some x /\ substitute U t ext d = Ok x.
Proof.
  intros U ext0 ext d id name f m vs g1 g2 p1 p2 a n c g HU Hid Hnm Hin0 Hni0 He Hd Hf Hm Hni Hvs Hsc Hst Hs1 Hs2 Hs3 Hp1 Hp2 Ha Hn Hg Hc.
  destruct (base_form_good U ext d _ f He Hd Hf) as [Wf _]. destruct (wordform_parts f Wf) as (Hw & Hpf & _). destruct (wordform_parts m (proj2 He _ _ Hm)) as (_ & Hpm & _).
  set (P := Properties (map AProp vs)) in *.
  assert (HP : is_properties P) by (apply Properties_ok; intros q Hq; apply in_map_iff in Hq as (v & E & _); discriminate).
  assert (HPh : forall h v, holds P h v -> h = R_CASE) by (intros h v H; apply records_hold in H as [H <-]; rewrite Forall_forall in Hvs; exact (Hvs v H)).
  assert (Hwf : Forall props_wf [wf_props m; wf_props f]) by (repeat constructor; apply is_properties_wf; assumption).
  assert (Hwf3 : Forall props_wf [P; wf_props m; wf_props f]) by (repeat constructor; apply is_properties_wf; assumption).
  destruct (number_entry n g (value_in_records _ _ _ Hwf Hn)) as [o Ho].
  assert (Hk := attribute p1 p2 a n c g o Ho). set (k := [Some p1; Some p2; Some a; Some n; Some c; o]) in *.
  assert (Hsl := attribute_slot _ _ _ _ _ _ _ _ Hst (value_in_records _ _ _ Hwf Ha) (value_in_records _ _ _ Hwf3 Hc) (value_in_records _ _ _ Hwf Hg) Hk). set (i := index_of _ k) in *.
  destruct (slot_form (wf_word f) i k Hw Hsl) as [x Hx].
  assert (Hty : w_type (wf_word f) = WT_ADJECTIVE \/ w_type (wf_word f) = WT_PARTICIPLE) by (inversion Hst; auto).
  set (dep := match vs with [] => [] | _ => [DProps P] end).
  destruct (C66_understood U ext0 id (name :: tail_text vs) (DExt name :: dep) HU Hid) as (t & Hp & _ & Hsub).
  { constructor; [apply written_name; assumption|]. subst dep. destruct vs; constructor; [apply written_properties, Hni0|constructor]. }
  exists t, i, k, x. split; [exact Hp|]. split; [exact Hk|]. split; [exact Hsl|]. split; [exact Hx|]. apply Hsub.
  assert (V : forall h y, h <> R_CASE -> value_from [wf_props m; wf_props f] h (Some y) -> value_from [P; wf_props m; wf_props f] h (Some y)).
  { intros h y Hh Hv. apply vf_next; [intros v K; apply HPh in K; contradiction|exact Hv]. }
  assert (V' : forall h y, h <> R_CASE -> In h [g1; g2; R_WORD_CASE] -> value_from [wf_props f] h (Some y) -> value_from [P; wf_props m; wf_props f] h (Some y)).
  { intros h y Hh Hi Hv. apply V; [exact Hh|]. apply vf_next; [intros v; apply Hs2, Hi|exact Hv]. }
  apply (one_external U ext d id name f m dep P i k); try assumption.
  - destruct Hty as [-> | ->]; discriminate.
  - subst dep. destruct vs; auto.
  - destruct Hty as [E|E]; rewrite E in *; cbn in Hsc; injection Hsc as <- <-; cbn [schema];
    (constructor; [intros v [= <-]; apply V'; [discriminate|cbn; auto|exact Hp1]|]; constructor; [intros v [= <-]; apply V'; [discriminate|cbn; auto|exact Hp2]|];
     constructor; [intros v [= <-]; apply V; [discriminate|exact Ha]|]; constructor; [intros v [= <-]; apply V; [discriminate|exact Hn]|]; constructor; [intros v [= <-]; exact Hc|];
     constructor; [|constructor]; intros v E'; destruct Ho as [[_ ->]|[_ ->]]; [discriminate|]; injection E' as <-; apply V; [discriminate|exact Hg]).
  - apply V'; [discriminate|cbn; auto|]. apply vf_next; [intros v; apply Hs3; left; reflexivity|]. apply vf_default.
Qed.
(** [красивый0|hero|вн] with the animate masculine hero *)
Example C67_attribute_case : exists f, base_form ext4 dict4 (u "красивый0") f /\ attribute_start (w_type (wf_word f)) ADJECTIVE_FORM_FULL GRADE_POSITIVE /\
  firstn 2 (schema (w_type (wf_word f))) = [R_ADJECTIVE_FORM; R_GRADE] /\ silent (wf_props (WordForm knight None None)) [R_ADJECTIVE_FORM; R_GRADE; R_WORD_CASE] /\
  value (wf_props f) R_GRADE GRADE_POSITIVE /\ value_from [Properties (map AProp [CASE_ACCUSATIVE]); wf_props (WordForm knight None None); wf_props f] R_CASE (Some CASE_ACCUSATIVE) /\
  substitute ru_unicode (fst (parse_template ru_unicode new_template (u "[красивый0|hero|вн]") ext4)) ext4 dict4 = Ok acc_handsome.
Proof.
  assert (B : get_word dict4 (u "красивый0") = Ok (WordForm handsome (Some (key_props [Some ADJECTIVE_FORM_FULL; Some GRADE_POSITIVE; Some ANIMALITY_ANIMATE; Some NUMBER_SINGULAR; Some CASE_NOMINATIVE; Some GENDER_MASCULINE])) None)) by (vm_compute; reflexivity).
  eexists. split; [apply base_word; [intros H; vm_compute in H; repeat (destruct H as [[=]|H]); destruct H|exact B]|].
  split; [constructor; auto|]. split; [reflexivity|]. split; [silent_tac|]. split; [apply vf_here; cbn; auto 10|]. split; [apply vf_here; cbn; auto|]. rewrite (substitute_known _ _ _ _ _ _ B) by (vm_compute; reflexivity). vm_compute. reflexivity.
Qed.
