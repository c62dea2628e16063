(** * PropSubstitution: C34 - C38, C42 and the printed form of prepositions (C43) *)
From Coq Require Import Lia.
From Verif Require Import PyBase Relations Restrictions Logic Data Words Transformators Constructors Dictionary Templates PyBaseFacts SpecProps PropsFacts SpecSlots SlotFacts LookupFacts WordFacts
  SpecDictionary DictFacts SpecLists SpecAgreement AgreementFacts SpecTemplates SpecIntegers SpecSubstitution SubstFacts TemplateFacts PropSlots PropWords PropDictionary PropAgreement PropSyntax PropIntegers.

(** ** when agreement and printing raise *)
Lemma preposition_good U w p m q : is_properties p -> preposition_any U w p m = Ok q -> is_properties q.
Proof.
  intros Hp. apply is_properties_wf in Hp.
  assert (G : forall l, is_properties (cloneP p l)) by (intros l; apply wf_is_properties, wf_cloneP, Hp).
  apply wf_is_properties in Hp.
  unfold preposition_any. intros H. apply bind_ok in H as (sl & _ & H). apply bind_ok in H as (c & _ & H). destruct (mem N.eqb c CONSONANTS).
  - unfold consonant_preposition_any in H. apply bind_ok in H as (ma & _ & H). apply bind_ok in H as (cl & _ & H). apply bind_ok in H as (r1 & _ & H).
    destruct r1; [injection H as <-; apply G|]. apply bind_ok in H as (r2 & _ & H). destruct r2; injection H as <-; [apply G|exact Hp].
  - unfold vowels_preposition_any in H. apply bind_ok in H as (ma & _ & H). destruct (_ && _)%bool; [injection H as <-; apply G|].
    apply bind_ok in H as (x & _ & H). destruct (mem N.eqb x NOT_J_VOWELS); injection H as <-; [apply G|exact Hp].
Qed.
Lemma noun_like_dec t : {noun_like t} + {~ noun_like t}.
Proof. unfold noun_like. destruct t; auto; right; intros [H|H]; discriminate. Qed.
Lemma adjective_like_dec t : {adjective_like t} + {~ adjective_like t}.
Proof. unfold adjective_like. destruct t; auto; right; intros [H|[H|H]]; discriminate. Qed.
Lemma is_integer_dec m : {is_integer m} + {~ is_integer m}.
Proof. unfold is_integer. destruct (w_type (wf_word m)); auto; right; discriminate. Qed.
(** agreement yields properties or raises IndexError, the latter only for a preposition and a text that is empty or that can not be computed *)
Lemma transform_cases U w p m : is_word w -> is_properties p -> is_wordform m ->
  (exists q, transform U w p m = Ok q /\ is_properties q) \/
  (transform U w p m = Err IndexError /\ (normal_form w = Ok [] \/ wf_form U m = Ok [] \/ exists e, wf_form U m = Err e)).
Proof.
  intros Hw Hp Hm. destruct (wt_eqb (w_type w) WT_PREPOSITION) eqn:E.
  - apply wt_eqb_ok in E. destruct (transform U w p m) as [q|e] eqn:T.
    + left. exists q. split; [reflexivity|]. rewrite (transform_preposition U w p m E) in T. exact (preposition_good U w p m q Hp T).
    + right. apply (C43_errors U w p m e Hw E Hp Hm) in T as [-> T]. auto.
  - apply (eqb_ok_neq _ wt_eqb_ok) in E. left. destruct (is_integer_dec m) as [Hi|Hi].
    + destruct (noun_like_dec (w_type w)) as [Hn|Hn]; [destruct (C40_noun_total U w p m Hp Hn Hi) as (q & A & B & _); eauto|].
      destruct (adjective_like_dec (w_type w)) as [Ha|Ha]; [destruct (C40_adjective_total U w p m Hp Ha Hi) as (q & A & B & _); eauto|].
      exists p. split; [apply transform_other; [exact E|tauto]|exact Hp].
    + exists p. split; [apply transform_other; [exact E|tauto]|exact Hp].
Qed.
Lemma complete_form w p : is_word w -> is_properties p -> complete w -> exists c r, word__form w p = Ok (c :: r).
Proof.
  intros Hw Hp Hc. destruct (word__form_total w p Hw Hp) as (f & Hf & Hin). destruct f as [|c r]; [destruct (Hc Hin)|]. eauto.
Qed.
Lemma complete_text U f : (forall c, u_upper U c <> []) -> is_wordform f -> complete (wf_word f) -> exists c r, wf_form U f = Ok (c :: r).
Proof.
  intros HU Hf Hc. destruct (wordform_parts f Hf) as (Hw & _ & Hp & _). destruct (complete_form _ _ Hw Hp Hc) as (c & r & E).
  destruct (get_form_spec U _ _ _ Hp E) as [G1 G2]. unfold wf_form. destruct (upper_dec _ Hp) as [H|H]; [|rewrite (G2 H); eauto].
  rewrite (G1 H). specialize (HU c). destruct (u_upper U c) as [|x y]; [congruence|]. cbn [app]. eauto.
Qed.
Lemma complete_normal_form w : is_word w -> complete w -> normal_form w <> Ok [].
Proof. intros Hw Hc H. destruct (C10_normal_form_total w Hw) as (f & Hf & Hin). rewrite H in Hf. injection Hf as <-. exact (Hc Hin). Qed.

Lemma fold_transform_cases U w ms : is_word w -> Forall is_wordform ms -> forall p, is_properties p ->
  (exists q, foldM (fun fp m => transform U w fp m) ms p = Ok q /\ is_properties q) \/
  (foldM (fun fp m => transform U w fp m) ms p = Err IndexError /\ exists m, In m ms /\ (normal_form w = Ok [] \/ wf_form U m = Ok [] \/ exists e, wf_form U m = Err e)).
Proof.
  intros Hw. induction 1 as [|m ms Hm _ IH]; intros p Hp; [left; exists p; auto|]. cbn [foldM].
  destruct (transform_cases U w p m Hw Hp Hm) as [(q & E & Hq)|(E & H)]; rewrite E; cbn [bind].
  - destruct (IH q Hq) as [?|(E' & m' & Hin & H)]; [auto|]. right. split; [exact E'|]. exists m'. split; [right; exact Hin|exact H].
  - right. split; [reflexivity|]. exists m. split; [left; reflexivity|exact H].
Qed.
(** the possible outcomes of get_text *)
Definition incomplete_among (ws : list word) : Prop := exists w, In w ws /\ ~ complete w.
Lemma complete_dec w : {complete w} + {~ complete w}.
Proof. unfold complete. destruct (in_dec (list_eq_dec N.eq_dec) [] (w_forms w)); [right; tauto|left; exact n]. Qed.


Lemma reads_good U ext b dep : reads U ext b dep -> forall p, dep = DProps p -> is_properties p.
Proof. intros [|s vs _ _ _] p [= <-]. apply Properties_ok. intros d Hd. apply in_map_iff in Hd as (? & [=] & _). Qed.
Lemma parsed_dependencies U ext v s : parse_substitution U v ext = Ok s ->
  good_deps (s_deps s) /\ forall name, In (DExt name) (s_deps s) -> In name (dkeys ext).
Proof.
  intros H. unfold parse_substitution in H. destruct (split_on BAR (unbracket v)) as [|[|c0 a0] bs]; try discriminate. apply bind_ok in H as (deps & Hd & H). apply mapM_reads in Hd.
  destruct (strip (u_isspace U) (c0 :: a0)) as [|c r]; [discriminate|]. injection H as <-. cbn [s_deps]. split.
  - intros p Hp. apply in_app_iff in Hp as [Hp|Hp].
    + destruct (Forall2_in_r _ _ _ _ Hd Hp) as (b & _ & Hr). exact (reads_good U ext b _ Hr p eq_refl).
    + destruct (u_isupper U c); [|destruct Hp]. destruct Hp as [[= <-]|[]]. apply Properties_ok. intros d [[=]|[]].
  - intros name Hp. apply in_app_iff in Hp as [Hp|Hp].
    + destruct (Forall2_in_r _ _ _ _ Hd Hp) as (b & _ & Hr). inversion Hr. assumption.
    + destruct (u_isupper U c); [|destruct Hp]. destruct Hp as [[=]|[]].
Qed.
Lemma parse_loop_subs U ext vs : forall text subs subs' r, parse_loop U ext vs text subs = (subs', r) ->
  forall s, In s subs' -> In s subs \/ exists v, parse_substitution U v ext = Ok s.
Proof.
  induction vs as [|v vs IH]; intros text subs subs' r H s Hs; cbn [parse_loop] in H; [injection H as <- _; auto|].
  destruct (parse_substitution U v ext) as [s0|e] eqn:E; [|injection H as <- _; auto].
  destruct (IH _ _ _ _ H s Hs) as [G|G]; [|auto]. apply in_app_iff in G as [G|[<-|[]]]; eauto.
Qed.
Lemma parse_template_subs U t text ext t' r s : parse_template U t text ext = (t', r) -> In s (t_subs t') ->
  In s (t_subs t) \/ (good_deps (s_deps s) /\ forall name, In (DExt name) (s_deps s) -> In name (dkeys ext)).
Proof.
  unfold parse_template. destruct (parse_loop U ext _ _ (t_subs t)) as [subs [text'|e]] eqn:E; intros [= <- <-] Hs; cbn [t_subs] in Hs;
  (destruct (parse_loop_subs _ _ _ _ _ _ _ E s Hs) as [H|[v H]]; [auto|right; exact (parsed_dependencies _ _ _ _ H)]).
Qed.
(** however it was parsed, also again or with errors, a template is a template *)
Lemma parse_keeps_template U t text ext : is_template t -> is_template (fst (parse_template U t text ext)).
Proof.
  intros Ht s Hs. destruct (parse_template U t text ext) as [t' r] eqn:E. cbn [fst] in Hs. destruct (parse_template_subs _ _ _ _ _ _ s E Hs) as [H|[H _]]; [exact (Ht s H)|exact H].
Qed.
Lemma new_is_template : is_template new_template.
Proof. intros s []. Qed.
Lemma parsed_is_template U text ext : is_template (fst (parse_template U new_template text ext)).
Proof. apply parse_keeps_template, new_is_template. Qed.

(** ** C34 *)
Lemma get_text_cases U s ext d : good_externals ext -> is_dictionary U d -> good_deps (s_deps s) ->
  (~ In (s_id s) (dkeys ext) /\ has_word d (s_id s) = false /\ get_text U s ext d = Err (NoWordsFoundError (s_id s))) \/
  (exists f, base_form ext d (s_id s) f /\
   ((exists name, In (DExt name) (s_deps s) /\ ~ In name (dkeys ext) /\ get_text U s ext d = Err (ExternalDependecyNotFoundError name)) \/
    (exists ps ms, given ext (s_deps s) ps ms /\
      ((exists q form v, foldM (fun fp m => transform U (wf_word f) fp m) ms (merged f ps) = Ok q /\ is_properties q /\ word__form (wf_word f) q = Ok form /\
          pget q R_WORD_CASE = Ok (Some v) /\ shown U v form (get_text U s ext d)) \/
       (get_text U s ext d = Err IndexError /\ exists m, In m ms /\ (normal_form (wf_word f) = Ok [] \/ wf_form U m = Ok [] \/ exists e, wf_form U m = Err e)))))).
Proof.
  intros He Hd Hs. destruct (base_form_cases ext d (s_id s) He) as [(f & Hf)|(Hn & Hh & E)].
  - right. exists f. split; [exact Hf|]. destruct (base_form_good U ext d _ f He Hd Hf) as [Wf Ef]. destruct (wordform_parts f Wf) as (Hw & _).
    destruct (list_properties_missing ext (s_deps s)) as [(ps & ms & G)|(name & H1 & H2 & H3)].
    + right. exists ps, ms. split; [exact G|]. rewrite (get_text_eq U s ext d f ps ms He Hd Hf G). destruct (given_good ext _ _ _ He Hs G) as (Gp & Gm & _).
      destruct (fold_transform_cases U (wf_word f) ms Hw Gm (merged f ps) (merged_good f ps Wf Gp)) as [(q & Eq & Hq)|(Eq & m & Hm & H)]; rewrite Eq; cbn [bind].
      * left. destruct (word__form_total (wf_word f) q Hw Hq) as (form & Hform & _). destruct (pget_some q R_WORD_CASE (is_properties_wf q Hq)) as (v & Hv & _); [discriminate|].
        exists q, form, v. split; [reflexivity|]. split; [exact Hq|]. split; [exact Hform|]. split; [exact Hv|]. apply get_form_shown; assumption.
      * right. split; [reflexivity|]. exists m. auto.
    + left. exists name. split; [exact H1|]. split; [exact H2|]. unfold get_text. rewrite Ef. cbn [bind]. rewrite H3. reflexivity.
  - left. split; [exact Hn|]. split; [exact Hh|]. unfold get_text. rewrite E. reflexivity.
Qed.

Lemma given_in ext deps ps ms m : given ext deps ps ms -> In m ms -> exists name, In (DExt name) deps /\ In (name, m) ext.
Proof.
  induction 1 as [|name f deps ps ms Hf _ IH|p deps ps ms _ IH]; intros Hm; [destruct Hm|..].
  - destruct Hm as [<-|Hm]; [exists name; split; [left; reflexivity|exact Hf]|]. destruct (IH Hm) as (n & A & B). exists n. split; [right; exact A|exact B].
  - destruct (IH Hm) as (n & A & B). exists n. split; [right; exact A|exact B].
Qed.
Lemma shown_complete U v form r : shown U v form r -> form <> [] -> exists x, r = Ok x.
Proof.
  intros [H1 H2] Hn. destruct (prop_eqb v WORD_CASE_UPPER) eqn:E.
  - apply prop_eqb_ok in E. specialize (H1 E). destruct form; [congruence|]. eauto.
  - apply (eqb_ok_neq _ prop_eqb_ok) in E. specialize (H2 E). eauto.
Qed.
(** every way in which printing a variable can fail *)
Theorem C34_failures : forall U s ext d e, (forall c, u_upper U c <> []) -> good_externals ext -> is_dictionary U d -> good_deps (s_deps s) -> get_text U s ext d = Err e ->
  (e = NoWordsFoundError (s_id s) /\ ~ In (s_id s) (dkeys ext) /\ has_word d (s_id s) = false) \/
  (exists name, e = ExternalDependecyNotFoundError name /\ In (DExt name) (s_deps s) /\ ~ In name (dkeys ext)) \/
  (e = IndexError /\ exists w, uses ext d s w /\ In [] (w_forms w)).
Proof.
  intros U s ext d e HU He Hd Hs Herr. destruct (get_text_cases U s ext d He Hd Hs) as [(A & B & C)|(f & Hf & [(name & A & B & C)|(ps & ms & G & [(q & form & v & _ & Hq & Hform & _ & Hsh)|(E & m & Hm & H)])])].
  - left. rewrite Herr in C. injection C as ->. auto.
  - right. left. exists name. rewrite Herr in C. injection C as ->. auto.
  - right. right. destruct (base_form_good U ext d _ f He Hd Hf) as [Wf _]. destruct (wordform_parts f Wf) as (Hw & _). destruct (word__form_total (wf_word f) q Hw Hq) as (form' & E' & Hin). rewrite Hform in E'. injection E' as <-.
    destruct form as [|c r]; [|destruct (shown_complete _ _ _ _ Hsh ltac:(discriminate)); congruence].
    split; [|exists (wf_word f); split; [left; exists f; auto|exact Hin]].
    destruct Hsh as [H1 H2]. destruct (prop_eqb v WORD_CASE_UPPER) eqn:Ev; [apply prop_eqb_ok in Ev; rewrite (H1 Ev) in Herr; congruence|].
    apply (eqb_ok_neq _ prop_eqb_ok) in Ev. rewrite (H2 Ev) in Herr. discriminate.
  - right. right. rewrite Herr in E. injection E as ->. split; [reflexivity|]. destruct (base_form_good U ext d _ f He Hd Hf) as [Wf _]. destruct (wordform_parts f Wf) as (Hw & _).
    destruct H as [H|H].
    + exists (wf_word f). split; [left; exists f; auto|]. destruct (C10_normal_form_total _ Hw) as (x & Ex & Hin). rewrite H in Ex. injection Ex as <-. exact Hin.
    + destruct (given_in ext _ _ _ m G Hm) as (name & N1 & N2). assert (Wm := proj2 He _ _ N2). exists (wf_word m). split; [right; exists name, m; auto|].
      destruct (complete_dec (wf_word m)) as [Hc|Hc]; [|unfold complete in Hc; destruct (in_dec (list_eq_dec N.eq_dec) [] (w_forms (wf_word m))); tauto].
      exfalso. destruct (complete_text U m HU Wm Hc) as (c & r & Ec). destruct H as [H|[e H]]; congruence.
Qed.
Theorem C34_substitute_succeeds : forall U text ext0 t ext d,
  (forall c, u_upper U c <> []) -> parse_template U new_template text ext0 = (t, Ok tt) ->
  good_externals ext -> incl (dkeys ext0) (dkeys ext) -> is_dictionary U d -> get_undictionaried_words t ext d = [] ->
  (forall name f, In (name, f) ext -> complete (wf_word f)) -> (forall id f, get_word d id = Ok f -> complete (wf_word f)) ->
  exists result, substitute U t ext d = Ok result.
Proof.
  intros U text ext0 t ext d HU Hp He Hincl Hd Hu Cx Cd. destruct (substitute U t ext d) as [x|e] eqn:E; [eauto|exfalso].
  destruct (C28_no_other_error U ext0 text t U ext d e Hp E) as (s & Hs & Herr).
  destruct (parse_template_subs _ _ _ _ _ _ s Hp Hs) as [[]|[Gs Gn]].
  destruct (C34_failures U s ext d e HU He Hd Gs Herr) as [(_ & N1 & N2)|[(name & _ & N1 & N2)|(_ & w & Hw & Hin)]].
  - unfold get_undictionaried_words in Hu. assert (X : In (s_id s) (flat_map (fun s => if dmem str_eqb (s_id s) ext then [] else if has_word d (s_id s) then [] else [s_id s]) (t_subs t))).
    { apply in_flat_map. exists s. split; [exact Hs|]. apply (dmem_false _ str_eqb_ok) in N1. rewrite N1, N2. left. reflexivity. }
    rewrite Hu in X. exact X.
  - apply N2, Hincl, Gn, N1.
  - destruct Hw as [(f & [H|_ H] & ->)|(name & f & _ & H & ->)]; [exact (Cx _ _ H Hin)|exact (Cd _ _ H Hin)|exact (Cx _ _ H Hin)].
Qed.

(** ** C35 *)
Theorem C35_undictionaried : forall U t ext d, good_externals ext -> is_dictionary U d -> is_template t ->
  selected (fun s => get_text U s ext d = Err (NoWordsFoundError (s_id s))) s_id (t_subs t) (get_undictionaried_words t ext d).
Proof.
  intros U t ext d He Hd Ht.
  assert (X : get_undictionaried_words t ext d = map s_id (filter (fun s => negb (dmem str_eqb (s_id s) ext) && negb (has_word d (s_id s)))%bool (t_subs t))).
  { unfold get_undictionaried_words. clear Ht. induction (t_subs t) as [|s l IH]; [reflexivity|]. cbn [flat_map filter]. rewrite IH.
    destruct (dmem str_eqb (s_id s) ext); [reflexivity|]. destruct (has_word d (s_id s)); reflexivity. }
  rewrite X. apply selected_filter. intros s Hs. specialize (Ht s Hs). rewrite andb_true_iff, !negb_true_iff.
  destruct (get_text_cases U s ext d He Hd Ht) as [(A & B & C)|(f & Hf & H)].
  - rewrite C, B. apply (dmem_false _ str_eqb_ok) in A. rewrite A. tauto.
  - split.
    + intros [A B]. exfalso. apply (dmem_false _ str_eqb_ok) in A. destruct Hf as [Hin|Hn Hg]; [apply A, in_map_iff; exists (s_id s, f); auto|].
      assert (Y : get_word d (s_id s) = Err (NoWordsFoundError (s_id s))) by (apply C20_unknown_text; auto). congruence.
    + intros E. exfalso. destruct H as [(name & _ & _ & C)|(ps & ms & _ & [(q & form & v & _ & _ & _ & _ & Hsh)|(C & _)])]; try congruence.
      destruct Hsh as [H1 H2]. destruct (prop_eqb v WORD_CASE_UPPER) eqn:Ev.
      * apply prop_eqb_ok in Ev. specialize (H1 Ev). destruct form; congruence.
      * apply (eqb_ok_neq _ prop_eqb_ok) in Ev. specialize (H2 Ev). congruence.
Qed.
(** and NoWordsFoundError is only raised about the identifier of the variable *)
Theorem C35_only_own_identifier : forall U s ext d id, good_externals ext -> is_dictionary U d -> good_deps (s_deps s) ->
  get_text U s ext d = Err (NoWordsFoundError id) -> id = s_id s.
Proof.
  intros U s ext d id He Hd Hs E. destruct (get_text_cases U s ext d He Hd Hs) as [(_ & _ & C)|(f & Hf & H)]; [congruence|].
  exfalso. destruct H as [(name & _ & _ & C)|(ps & ms & _ & [(q & form & v & _ & _ & _ & _ & Hsh)|(C & _)])]; try congruence.
  destruct Hsh as [H1 H2]. destruct (prop_eqb v WORD_CASE_UPPER) eqn:Ev.
  - apply prop_eqb_ok in Ev. specialize (H1 Ev). destruct form; congruence.
  - apply (eqb_ok_neq _ prop_eqb_ok) in Ev. specialize (H2 Ev). congruence.
Qed.

(** ** C36 *)
Lemma merged_own U d t f ps : is_dictionary U d -> get_word d t = Ok f -> (forall p, In p ps -> forall g, In g (schema (w_type (wf_word f))) -> forall v, ~ holds p g v) -> Forall is_properties ps ->
  word__form (wf_word f) (merged f ps) = word__form (wf_word f) (wf_form_props f).
Proof.
  intros Hd Ht Hps Gps. destruct (dictionary_form U d t f Hd Ht) as (Wf & _ & i & k & Hk & Ef). destruct (wordform_parts f Wf) as (Hw & Hp & _ & _).
  assert (Efp : wf_form_props f = wf_props f) by (rewrite Ef; reflexivity). rewrite Efp.
  apply word__form_ext. intros g Hg. destruct (values_exist (merged f ps) [g]) as [c Hc]; [intros g' [<-|[]]; exact (schema_no_word_type _ _ Hg)|].
  inversion Hc as [|? v ? ? Hv _]; subst. rewrite Hv. apply merged_pget in Hv; [|exact Wf|exact Gps]. symmetry.
  assert (Hwf := is_properties_wf _ Hp). assert (Eown : forall x, holds (w_props (wf_word f)) g x -> holds (wf_props f) g x).
  { intros x Hx. rewrite Ef. cbn [WordForm wf_props]. apply holds_dget; [apply is_properties_wf, merged_ok; [apply is_properties_key|apply Hw]|].
    rewrite dget_Properties by (apply good_args_wf; intros y [[= <-]|[[= <-]|[]]]; [apply is_properties_key|apply Hw]). cbn [args_get arg_get].
    apply holds_dget in Hx; [|apply is_properties_wf, Hw]. rewrite Hx. reflexivity. }
  unfold layers in Hv. inversion Hv as [|? ? ? x Hx|? ? ? ? Hn Hrest]; subst.
  - apply Eown in Hx. rewrite pget_spec. apply holds_dget in Hx; [|exact Hwf]. rewrite Hx. reflexivity.
  - assert (G : forall l, (forall p, In p l -> forall x, ~ holds p g x) -> value_from (l ++ [wf_props f]) g (Some v) -> value_from [wf_props f] g (Some v)).
    { induction l as [|p l IH]; intros Hl H; [exact H|]. cbn [app] in H. inversion H as [|? ? ? x Hx|? ? ? ? _ H']; subst; [destruct (Hl p (or_introl eq_refl) _ Hx)|].
      apply IH; [|exact H']. intros q Hq. apply Hl. right. exact Hq. }
    apply G in Hrest; [|intros p Hin x Hx; apply in_rev in Hin; exact (Hps p Hin g Hg x Hx)]. apply (value_pget (wf_props f) g v Hwf). exact Hrest.
Qed.
Theorem C36_as_written : forall U ext d t, good_externals ext -> is_dictionary U d -> ~ In t (dkeys ext) -> has_word d t = true ->
  get_text U {| s_id := t; s_deps := [] |} ext d = Ok t.
Proof.
  intros U ext d t He Hd Hn Hh. destruct (get_word d t) as [f|e] eqn:Eg; [|apply C20_unknown_text in Eg as [_ Eg]; congruence].
  assert (Hf : base_form ext d t f) by (apply base_word; assumption).
  rewrite (get_text_eq U {| s_id := t; s_deps := [] |} ext d f [] [] He Hd Hf (given_nothing ext)). cbn [foldM bind].
  destruct (dictionary_form U d t f Hd Eg) as (Wf & Et & i & k & Hk & Ef). destruct (wordform_parts f Wf) as (Hw & Hp & Hfp & _).
  unfold wf_form in Et. assert (Efp : wf_form_props f = wf_props f) by (rewrite Ef; reflexivity).
  rewrite <- Et. unfold get_form. rewrite (merged_own U d t f [] Hd Eg) by (constructor || intros p []).
  destruct (word__form (wf_word f) (wf_form_props f)) as [form|e]; [|reflexivity]. cbn [bind].
  assert (X : is_upper (merged f []) = is_upper (wf_form_props f)); [|rewrite X; reflexivity].
  unfold is_upper. enough (Y : pget (merged f []) R_WORD_CASE = pget (wf_form_props f) R_WORD_CASE) by (rewrite Y; reflexivity).
  rewrite Efp, merged_eq, !pget_spec. unfold clone. cbn [map app]. rewrite dget_Properties by (apply good_args_wf; intros y [[= <-]|[[= <-]|[]]]; [exact Hp|apply Hw]).
  cbn [args_get arg_get]. destruct (dget rel_eqb R_WORD_CASE (w_props (wf_word f))) as [v|] eqn:Ev; [|reflexivity].
  rewrite Ef. cbn [WordForm wf_props]. rewrite dget_Properties by (apply good_args_wf; intros y [[= <-]|[[= <-]|[]]]; [apply is_properties_key|apply Hw]).
  cbn [args_get arg_get]. rewrite Ev. reflexivity.
Qed.
Definition UPPER : dependency := DProps (Properties [AProp WORD_CASE_UPPER]).
Theorem C36_capitalised : forall U ext d c r f, good_externals ext -> is_dictionary U d -> ~ In (c :: r) (dkeys ext) -> get_word d (c :: r) = Ok f ->
  (forall v, ~ holds (w_props (wf_word f)) R_WORD_CASE v) ->
  get_text U {| s_id := c :: r; s_deps := [UPPER] |} ext d = Ok (u_upper U c ++ r).
Proof.
  intros U ext d c r f He Hd Hn Eg Hno. assert (Hf : base_form ext d (c :: r) f) by (apply base_word; assumption).
  set (up := Properties [AProp WORD_CASE_UPPER]). assert (Gu : is_properties up) by (apply Properties_ok; intros y [[=]|[]]).
  rewrite (get_text_eq U {| s_id := c :: r; s_deps := [UPPER] |} ext d f [up] [] He Hd Hf (given_props ext up _ _ _ (given_nothing ext))). cbn [foldM bind].
  destruct (dictionary_form U d (c :: r) f Hd Eg) as (Wf & Et & i & k & Hk & Ef). destruct (wordform_parts f Wf) as (Hw & Hp & Hfp & _).
  assert (Gm : is_properties (merged f [up])) by (apply merged_good; [exact Wf|constructor; [exact Gu|constructor]]).
  assert (Hform : word__form (wf_word f) (merged f [up]) = word__form (wf_word f) (wf_form_props f)).
  { apply (merged_own U d (c :: r) f [up] Hd Eg); [|constructor; [exact Gu|constructor]]. intros p [<-|[]] g Hg v Hv. assert (Er := Hv). destruct Hv as [[= <- <-]|[]]. exact (schema_no_case _ Hg). }
  assert (Efp : wf_form_props f = wf_props f) by (rewrite Ef; reflexivity).
  assert (Hlow : ~ holds (wf_form_props f) R_WORD_CASE WORD_CASE_UPPER).
  { rewrite Efp, Ef. cbn [WordForm wf_props]. rewrite <- holds_dget by (apply is_properties_wf, merged_ok; [apply is_properties_key|apply Hw]).
    rewrite dget_Properties by (apply good_args_wf; intros y [[= <-]|[[= <-]|[]]]; [apply is_properties_key|apply Hw]). cbn [args_get arg_get].
    destruct (dget rel_eqb R_WORD_CASE (w_props (wf_word f))) as [v|] eqn:Ev; [apply holds_dget in Ev; [destruct (Hno _ Ev)|apply is_properties_wf, Hw]|].
    rewrite holds_dget by apply is_properties_wf, is_properties_key. rewrite (key_props_holds _ i k Hk). intros [Hin _]. exact (slot_no_case _ _ _ Hk Hin). }
  destruct (word__form_total (wf_word f) (wf_form_props f) Hw Hfp) as (form & E & _).
  assert (Eform : form = c :: r). { unfold wf_form in Et. rewrite (proj2 (get_form_spec U _ _ form Hfp E) Hlow) in Et. congruence. } subst form.
  rewrite E in Hform. rewrite (proj1 (get_form_spec U _ _ _ Gm Hform)); [reflexivity|].
  apply (upper_value _ WORD_CASE_UPPER Gm); [|reflexivity]. apply merged_pget; [exact Wf|constructor; [exact Gu|constructor]|].
  unfold layers. apply vf_next; [exact Hno|]. cbn [rev app]. apply vf_here. left. reflexivity.
Qed.
(** as templates: the text in brackets is printed as it is, or capitalised *)
Theorem C36_template : forall U ext0 ext d t c r, good_externals ext -> is_dictionary U d ->
  t = c :: r -> u_lower U t = t -> trimmed U t t -> (forall x, In x t -> ~ In x (u "|]%")) -> u_isupper U c = false ->
  ~ In t (dkeys ext) -> has_word d t = true ->
  exists tmpl, parse_template U new_template ([LBR] ++ t ++ [RBR]) ext0 = (tmpl, Ok tt) /\ substitute U tmpl ext d = Ok t.
Proof.
  intros U ext0 ext d t c r He Hd -> Hl Ht Hch Hup Hn Hh.
  assert (Hbar : ~ In BAR (c :: r)) by (intros H; apply (Hch _ H); left; reflexivity).
  assert (Hrbr : ~ In RBR (c :: r)) by (intros H; apply (Hch _ H); right; left; reflexivity).
  assert (Hper : ~ In PERCENT (c :: r)) by (intros H; apply (Hch _ H); right; right; left; reflexivity).
  assert (E := C30_parsed U ext0 (c :: r) [] c r [] ltac:(constructor; [exact Hbar|constructor]) Ht ltac:(constructor)). rewrite Hup, Hl in E. cbn [app] in E.
  eexists. split; [apply (parse_one U ext0 (c :: r) _ ltac:(discriminate) Hrbr Hper E)|]. unfold substitute. cbn [t_subs t_text mapM].
  rewrite (C36_as_written U ext d (c :: r) He Hd Hn Hh). cbn [bind]. change (u "%s") with [37%N; 115%N]. cbn [py_format N.eqb Pos.eqb bind]. rewrite app_nil_r. reflexivity.
Qed.
Theorem C36_template_capitalised : forall U ext0 ext d C R c r f, good_externals ext -> is_dictionary U d ->
  u_lower U (C :: R) = c :: r -> trimmed U (C :: R) (C :: R) -> (forall x, In x (C :: R) -> ~ In x (u "|]%")) -> u_isupper U C = true ->
  ~ In (c :: r) (dkeys ext) -> get_word d (c :: r) = Ok f -> (forall v, ~ holds (w_props (wf_word f)) R_WORD_CASE v) ->
  exists tmpl, parse_template U new_template ([LBR] ++ (C :: R) ++ [RBR]) ext0 = (tmpl, Ok tt) /\ substitute U tmpl ext d = Ok (u_upper U c ++ r).
Proof.
  intros U ext0 ext d C R c r f He Hd Hl Ht Hch Hup Hn Hh Hno.
  assert (Hbar : ~ In BAR (C :: R)) by (intros H; apply (Hch _ H); left; reflexivity).
  assert (Hrbr : ~ In RBR (C :: R)) by (intros H; apply (Hch _ H); right; left; reflexivity).
  assert (Hper : ~ In PERCENT (C :: R)) by (intros H; apply (Hch _ H); right; right; left; reflexivity).
  assert (E := C30_parsed U ext0 (C :: R) [] C R [] ltac:(constructor; [exact Hbar|constructor]) Ht ltac:(constructor)). rewrite Hup, Hl in E. cbn [app] in E.
  eexists. split; [apply (parse_one U ext0 (C :: R) _ ltac:(discriminate) Hrbr Hper E)|]. unfold substitute. cbn [t_subs t_text mapM].
  fold UPPER. rewrite (C36_capitalised U ext d c r f He Hd Hn Hh Hno). cbn [bind]. change (u "%s") with [37%N; 115%N]. cbn [py_format N.eqb Pos.eqb bind]. rewrite app_nil_r. reflexivity.
Qed.

(** ** C37 *)
Theorem C37_priority : forall U s ext d f ps ms c v,
  good_externals ext -> is_dictionary U d -> good_deps (s_deps s) -> base_form ext d (s_id s) f -> given ext (s_deps s) ps ms ->
  w_type (wf_word f) <> WT_PREPOSITION -> (noun_like (w_type (wf_word f)) \/ adjective_like (w_type (wf_word f)) -> Forall (fun m => ~ is_integer m) ms) ->
  Forall2 (fun g x => value_from (layers f ps) g (Some x)) (schema (w_type (wf_word f))) c -> value_from (layers f ps) R_WORD_CASE (Some v) ->
  exists form, word_form (wf_word f) (Properties (map AProp c)) = Ok form /\ shown U v form (get_text U s ext d).
Proof.
  intros U s ext d f ps ms c v He Hd Hs Hf Hg Hnp Hq Hc Hv. destruct (base_form_good U ext d _ f He Hd Hf) as [Wf _]. destruct (wordform_parts f Wf) as (Hw & _).
  destruct (given_good ext _ _ _ He Hs Hg) as (Gp & _). rewrite (get_text_eq U s ext d f ps ms He Hd Hf Hg).
  rewrite fold_quiet; [|intros m q Hm; apply transform_other; [exact Hnp|]; intros X; specialize (Hq X); rewrite Forall_forall in Hq; exact (Hq m Hm)]. cbn [bind].
  assert (Gm := merged_good f ps Wf Gp). destruct (word__form_total (wf_word f) (merged f ps) Hw Gm) as (form & Hform & _). exists form. split.
  - rewrite <- Hform. symmetry. apply word__form_combination; [exact Hw|exact Gm| |].
    + unfold values. revert Hc. apply Forall2_impl'. intros g x. apply merged_pget; assumption.
    + intros g x _ Hx. apply merged_pget; [exact Wf|exact Gp|]. unfold layers. apply vf_here, Hx.
  - apply get_form_shown; [exact Gm| |exact Hform]. apply merged_pget; assumption.
Qed.
(** such a combination always exists, and is unique *)
Theorem C37_combination_exists : forall U s ext d f ps ms, good_externals ext -> is_dictionary U d -> good_deps (s_deps s) -> base_form ext d (s_id s) f -> given ext (s_deps s) ps ms ->
  exists c v, Forall2 (fun g x => value_from (layers f ps) g (Some x)) (schema (w_type (wf_word f))) c /\ value_from (layers f ps) R_WORD_CASE (Some v).
Proof.
  intros U s ext d f ps ms He Hd Hs Hf Hg. destruct (base_form_good U ext d _ f He Hd Hf) as [Wf _]. destruct (given_good ext _ _ _ He Hs Hg) as (Gp & _).
  destruct (values_exist (merged f ps) (schema (w_type (wf_word f))) (schema_no_word_type _)) as [c Hc].
  destruct (pget_some (merged f ps) R_WORD_CASE (is_properties_wf _ (merged_good f ps Wf Gp))) as (v & Hv & _); [discriminate|].
  exists c, v. split; [|apply merged_pget; assumption]. revert Hc. apply Forall2_impl'. intros g x. apply merged_pget; assumption.
Qed.

(** ** C42, C38: agreement with an integer *)
Lemma pget_holds p q g : props_wf p -> props_wf q -> (forall v, holds p g v <-> holds q g v) -> pget p g = pget q g.
Proof.
  intros Hp Hq H. rewrite !pget_spec. destruct (dget rel_eqb g p) as [v|] eqn:E.
  - apply (holds_dget p g v Hp), H, (holds_dget q g v Hq) in E. rewrite E. reflexivity.
  - assert (E0 := proj1 (holds_none p g) E). assert (E' : dget rel_eqb g q = None) by (apply (proj2 (holds_none q g)); intros v Hv; apply (E0 v), H, Hv). rewrite E'. reflexivity.
Qed.
Lemma value_merged f ps g v : is_wordform f -> Forall is_properties ps -> (value (merged f ps) g v <-> value_from (layers f ps) g (Some v)).
Proof. intros Hf Hp. rewrite merged_pget by assumption. apply value_pget, is_properties_wf, merged_good; assumption. Qed.
Lemma counted_text U s ext d f ps ms m q i k comb form v :
  good_externals ext -> is_dictionary U d -> base_form ext d (s_id s) f -> given ext (s_deps s) ps ms ->
  noun_like (w_type (wf_word f)) \/ adjective_like (w_type (wf_word f)) -> counted_by ms m ->
  transform U (wf_word f) (merged f ps) m = Ok q -> is_properties q -> values q (schema (w_type (wf_word f))) comb -> pget q R_WORD_CASE = Ok (Some v) ->
  slot (w_type (wf_word f)) i k -> agrees comb k -> nth_error (w_forms (wf_word f)) i = Some form -> shown U v form (get_text U s ext d).
Proof.
  intros He Hd Hf Hg Ht Hm Eq Hq Hc Hv Hk Ha Hn. destruct (base_form_good U ext d _ f He Hd Hf) as [Wf _]. destruct (wordform_parts f Wf) as (Hw & _).
  rewrite (get_text_eq U s ext d f ps ms He Hd Hf Hg). rewrite (fold_one U (wf_word f) ms m _); [|intros m' q' Hi; apply transform_other; [|intros _; exact Hi]|exact Hm].
  - rewrite Eq. cbn [bind]. destruct (word__form_slot (wf_word f) q comb i k Hw Hq Hc Hk Ha) as (form' & E1 & E2). rewrite Hn in E2. injection E2 as <-.
    apply get_form_shown; assumption.
  - intros E. rewrite E in Ht. destruct Ht as [[X|X]|[X|[X|X]]]; discriminate.
Qed.
Theorem C42_noun_like_table : forall U s ext d f ps ms m mode iform case animality nf n case' comb i k form v,
  good_externals ext -> is_dictionary U d -> good_deps (s_deps s) -> base_form ext d (s_id s) f -> given ext (s_deps s) ps ms ->
  noun_like (w_type (wf_word f)) -> counted_by ms m ->
  value_from (layers f ps) R_DEPENDENCY_MODE (Some mode) -> value_from (layers f ps) R_INTEGER_FORM (Some iform) ->
  value_from (layers f ps) R_CASE (Some case) -> value_from (layers f ps) R_ANIMALITY (Some animality) -> value_from (layers f ps) R_WORD_CASE (Some v) ->
  noun_row mode iform case animality nf n case' ->
  Forall2 (noun_values f ps nf n case') (schema (w_type (wf_word f))) comb ->
  slot (w_type (wf_word f)) i k -> agrees comb k -> nth_error (w_forms (wf_word f)) i = Some form ->
  shown U v form (get_text U s ext d).
Proof.
  intros U s ext d f ps ms m mode iform case a nf n case' comb i k form v He Hd Hs Hf Hg Ht Hm V1 V2 V3 V4 V5 Hrow Hc Hk Ha Hform.
  destruct (base_form_good U ext d _ f He Hd Hf) as [Wf _]. destruct (given_good ext _ _ _ He Hs Hg) as (Gp & _). assert (Gm := merged_good f ps Wf Gp).
  apply (value_merged f ps _ _ Wf Gp) in V1, V2, V3, V4.
  destruct (C41_noun_table U (wf_word f) (merged f ps) m _ _ _ _ _ _ _ Gm Ht (proj1 Hm) V1 V2 V3 V4 Hrow) as (q & Eq & Q1 & Q2 & Q3).
  destruct (C40_noun_total U (wf_word f) (merged f ps) m Gm Ht (proj1 Hm)) as (q' & Eq' & Gq & Hother). rewrite Eq in Eq'. injection Eq' as <-.
  assert (Wq := is_properties_wf q Gq). assert (Wm := is_properties_wf _ Gm). apply (value_pget q _ _ Wq) in Q1, Q2, Q3.
  assert (P : forall g, g <> R_NUMBER -> g <> R_CASE -> g <> R_NOUN_FORM -> pget q g = pget (merged f ps) g) by (intros g N1 N2 N3; apply pget_holds; auto).
  eapply (counted_text U s ext d f ps ms m q i k comb form v); try eassumption; [left; exact Ht| |].
  - unfold values. revert Hc. apply Forall2_impl'. intros g x Hx. unfold noun_values in Hx.
    destruct g; try (subst x; assumption); (rewrite P by discriminate; apply merged_pget; assumption).
  - rewrite P by discriminate. apply merged_pget; assumption.
Qed.
Theorem C42_adjective_like_table : forall U s ext d f ps ms m mode iform case gender n case' comb i k form v,
  good_externals ext -> is_dictionary U d -> good_deps (s_deps s) -> base_form ext d (s_id s) f -> given ext (s_deps s) ps ms ->
  adjective_like (w_type (wf_word f)) -> counted_by ms m ->
  value_from (layers f ps) R_DEPENDENCY_MODE (Some mode) -> value_from (layers f ps) R_INTEGER_FORM (Some iform) ->
  value_from (layers f ps) R_CASE (Some case) -> value_from (layers f ps) R_GENDER (Some gender) -> value_from (layers f ps) R_WORD_CASE (Some v) ->
  adjective_row mode iform case gender n case' ->
  Forall2 (adjective_values f ps n case') (schema (w_type (wf_word f))) comb ->
  slot (w_type (wf_word f)) i k -> agrees comb k -> nth_error (w_forms (wf_word f)) i = Some form ->
  shown U v form (get_text U s ext d).
Proof.
  intros U s ext d f ps ms m mode iform case a n case' comb i k form v He Hd Hs Hf Hg Ht Hm V1 V2 V3 V4 V5 Hrow Hc Hk Ha Hform.
  destruct (base_form_good U ext d _ f He Hd Hf) as [Wf _]. destruct (given_good ext _ _ _ He Hs Hg) as (Gp & _). assert (Gm := merged_good f ps Wf Gp).
  apply (value_merged f ps _ _ Wf Gp) in V1, V2, V3, V4.
  destruct (C41_adjective_table U (wf_word f) (merged f ps) m _ _ _ _ _ _ Gm Ht (proj1 Hm) V1 V2 V3 V4 Hrow) as (q & Eq & Q2 & Q3).
  destruct (C40_adjective_total U (wf_word f) (merged f ps) m Gm Ht (proj1 Hm)) as (q' & Eq' & Gq & Hother). rewrite Eq in Eq'. injection Eq' as <-.
  assert (Wq := is_properties_wf q Gq). assert (Wm := is_properties_wf _ Gm). apply (value_pget q _ _ Wq) in Q2, Q3.
  assert (P : forall g, g <> R_NUMBER -> g <> R_CASE -> pget q g = pget (merged f ps) g) by (intros g N1 N2; apply pget_holds; auto).
  eapply (counted_text U s ext d f ps ms m q i k comb form v); try eassumption; [right; exact Ht| |].
  - unfold values. revert Hc. apply Forall2_impl'. intros g x Hx. unfold adjective_values in Hx.
    destruct g; try (subst x; assumption); (rewrite P by discriminate; apply merged_pget; assumption).
  - rewrite P by discriminate. apply merged_pget; assumption.
Qed.
(** nouns: the slot *)
Lemma noun_slot mode iform case a nf n case' : In case (records R_CASE) -> noun_row mode iform case a nf n case' -> exists i, slot WT_NOUN i [Some nf; Some n; Some case'] /\ i < 18.
Proof.
  assert (G : forall nf n c, (nf = NOUN_FORM_NORMAL /\ In n (records R_NUMBER) \/ nf = NOUN_FORM_COUNTABLE /\ n = NUMBER_PLURAL) -> In c (records R_CASE) -> exists i, slot WT_NOUN i [Some nf; Some n; Some c] /\ i < 18).
  { clear. intros nf n c H Hc. cbn [records In] in Hc.
    assert (F : existsb (fun i => opt_eqb key_eqb (nth_error (INVERTED_WORDS_CACHES WT_NOUN) i) (Some [Some nf; Some n; Some c])) (seq 0 18) = true).
    { destruct H as [[-> Hn]|[-> ->]]; [cbn [records In] in Hn; destruct Hn as [<-|[<-|[]]]|]; destruct Hc as [<-|[<-|[<-|[<-|[<-|[<-|[]]]]]]]; vm_compute; reflexivity. }
    apply existsb_exists in F as (i & Hi & E). apply (opt_eqb_ok _ key_eqb_ok) in E. apply in_seq in Hi. exists i. split; [exact E|lia]. }
  intros Hc H. destruct H; apply G; try exact Hc; cbn [records In]; auto 10.
Qed.
Theorem C42_noun_table : forall U s ext d f ps ms m mode iform case animality nf n case' v,
  good_externals ext -> is_dictionary U d -> good_deps (s_deps s) -> base_form ext d (s_id s) f -> given ext (s_deps s) ps ms ->
  w_type (wf_word f) = WT_NOUN -> counted_by ms m ->
  value_from (layers f ps) R_DEPENDENCY_MODE (Some mode) -> value_from (layers f ps) R_INTEGER_FORM (Some iform) ->
  value_from (layers f ps) R_CASE (Some case) -> value_from (layers f ps) R_ANIMALITY (Some animality) -> value_from (layers f ps) R_WORD_CASE (Some v) ->
  noun_row mode iform case animality nf n case' ->
  exists i form, slot WT_NOUN i [Some nf; Some n; Some case'] /\ nth_error (w_forms (wf_word f)) i = Some form /\ shown U v form (get_text U s ext d).
Proof.
  intros U s ext d f ps ms m mode iform case a nf n case' v He Hd Hs Hf Hg Ht Hm V1 V2 V3 V4 V5 Hrow.
  destruct (base_form_good U ext d _ f He Hd Hf) as [Wf _]. destruct (given_good ext _ _ _ He Hs Hg) as (Gp & _). destruct (wordform_parts f Wf) as (Hw & _).
  assert (Hcase : In case (records R_CASE)) by (apply (pget_rel (merged f ps)); [apply is_properties_wf, merged_good; assumption|apply merged_pget; assumption]).
  destruct (noun_slot _ _ _ _ _ _ _ Hcase Hrow) as (i & Hi & _). assert (L := slot_lt _ _ _ Hi). rewrite <- Ht, <- (word_forms_length _ Hw) in L.
  destruct (nth_error (w_forms (wf_word f)) i) as [form|] eqn:E; [|apply nth_error_None in E; lia]. exists i, form. split; [exact Hi|]. split; [exact E|].
  rewrite <- Ht in Hi.
  apply (C42_noun_like_table U s ext d f ps ms m mode iform case a nf n case' [nf; n; case'] i [Some nf; Some n; Some case'] form v He Hd Hs Hf Hg (or_introl Ht) Hm V1 V2 V3 V4 V5 Hrow); [|exact Hi| |exact E].
  - rewrite Ht. repeat constructor.
  - repeat (apply Forall2_cons; [right; reflexivity|]). apply Forall2_nil.
Qed.
Lemma mod_10_100 n : (n mod 10 = (n mod 100) mod 10)%Z.
Proof. Z.to_euclidean_division_equations. lia. Qed.
Lemma counted_row n form number a : (0 <= n)%Z -> numeral n form number ->
  exists nf num c, noun_row DEPENDENCY_MODE_FULL form CASE_NOMINATIVE a nf num c /\ counted_slot n [Some nf; Some num; Some c].
Proof.
  intros Hn H. assert (B := Z.mod_pos_bound n 100 ltac:(lia)). assert (M := mod_10_100 n).
  destruct H as [n [->| ->]| |n H|n Ho Ht|n Ho Ht H|n Ho Ht H|n Ho Ht H]; unfold teens in *.
  - do 3 eexists. split; [apply nr_million|apply counted_many; left; reflexivity].
  - do 3 eexists. split; [apply nr_million|apply counted_many; left; reflexivity].
  - do 3 eexists. split; [apply nr_one|apply counted_one; [reflexivity|discriminate]].
  - do 3 eexists. split; [apply nr_dual_nominative|]. rewrite Z.mod_small in B, M by lia. apply counted_few; rewrite Z.mod_small by lia; lia.
  - do 3 eexists. split; [apply nr_plural_direct; left; reflexivity|]. apply counted_many. rewrite M. revert Ht. generalize (n mod 100)%Z. intros x Hx. Z.to_euclidean_division_equations. lia.
  - do 3 eexists. split; [apply nr_one|]. apply counted_one; [exact H|lia].
  - do 3 eexists. split; [apply nr_composite_direct; left; reflexivity|]. apply counted_few; [exact H|lia].
  - do 3 eexists. split; [apply nr_plural_direct; left; reflexivity|]. apply counted_many. lia.
Qed.
Lemma integer_holds n f g v : construct_integer_raw n = Ok f -> holds (wf_props f) g v -> g = R_NUMBER \/ g = R_INTEGER_FORM.
Proof.
  rewrite raw_ok. intros [= <-]. cbn [WordForm wf_props integer_word w_props]. unfold integer_properties, holds.
  repeat match goal with |- context [if ?b then _ else _] => destruct b end; cbn; intros [[= <- _]|[[= <- _]|[]]]; auto.
Qed.
Lemma value_skip p ps g o : (forall v, ~ holds p g v) -> value_from ps g o -> value_from (p :: ps) g o.
Proof. apply vf_next. Qed.
(** [noun|n] *)
Theorem C42_counted_noun : forall U ext d id name f calls cache n m,
  good_externals ext -> is_dictionary U d -> base_form ext d id f -> In (name, m) ext ->
  after_calls calls cache -> snd (construct_integer cache n) = Ok m ->
  w_type (wf_word f) = WT_NOUN ->
  (forall g v, In g [R_DEPENDENCY_MODE; R_WORD_CASE; R_INTEGER_FORM; R_CASE] -> ~ holds (w_props (wf_word f)) g v) ->
  (forall g v, In g [R_DEPENDENCY_MODE; R_WORD_CASE] -> ~ holds (wf_props f) g v) -> value (wf_props f) R_CASE CASE_NOMINATIVE ->
  exists i k x, counted_slot (Z.abs n) k /\ slot WT_NOUN i k /\ nth_error (w_forms (wf_word f)) i = Some x /\
    get_text U {| s_id := id; s_deps := [DExt name] |} ext d = Ok x.
Proof.
  intros U ext d id name f calls cache n m He Hd Hf Hm Hc Hn Ht Hown Hbase Hcase.
  destruct (C45_classified calls cache n Hc) as (m' & iform & number & E & _ & Htm & Hnum & Hif & _). rewrite Hn in E. injection E as <-.
  rewrite (proj1 (C47_histories calls cache n Hc)) in Hn.
  set (s := {| s_id := id; s_deps := [DExt name] |}).
  assert (Gs : good_deps (s_deps s)) by (intros p [[=]|[]]).
  assert (Hg : given ext (s_deps s) [wf_props m] [m]) by (apply given_external; [exact Hm|constructor]).
  assert (Hcb : counted_by [m] m) by (split; [exact Htm|]; exists [], []; split; [reflexivity|constructor]).
  assert (Hint : forall g v, g <> R_NUMBER -> g <> R_INTEGER_FORM -> ~ holds (wf_props m) g v) by (intros g v N1 N2 H; destruct (integer_holds n m g v Hn H); contradiction).
  assert (V : forall g o, In g [R_DEPENDENCY_MODE; R_WORD_CASE] -> default_of g = o -> value_from (layers f [wf_props m]) g o).
  { intros g o Hin <-. unfold layers. cbn [rev app]. apply vf_next; [intros v; apply Hown; cbn in *; intuition|].
    apply vf_next; [intros v; apply Hint; intros ->; cbn in Hin; intuition discriminate|]. apply vf_next; [intros v; apply Hbase, Hin|constructor]. }
  destruct (base_form_good U ext d _ f He Hd Hf) as [Wf _]. assert (Wm := proj2 He _ _ Hm).
  destruct (value_from_exists (layers f [wf_props m]) R_ANIMALITY) as [oa Ha]; [apply layers_wf; [exact Wf|constructor; [apply (wordform_parts m Wm)|constructor]]|].
  assert (Ha' : exists a, oa = Some a).
  { apply (merged_pget f [wf_props m]) in Ha; [|exact Wf|constructor; [apply (wordform_parts m Wm)|constructor]].
    destruct (pget_some (merged f [wf_props m]) R_ANIMALITY) as (a & Ea & _); [apply is_properties_wf, merged_good; [exact Wf|constructor; [apply (wordform_parts m Wm)|constructor]]|discriminate|].
    rewrite Ea in Ha. injection Ha as <-. eauto. }
  destruct Ha' as [a ->].
  destruct (counted_row (Z.abs n) iform number a ltac:(lia) Hnum) as (nf & num & c & Hrow & Hslot).
  destruct (C42_noun_table U s ext d f [wf_props m] [m] m DEPENDENCY_MODE_FULL iform CASE_NOMINATIVE a nf num c WORD_CASE_LOWER He Hd Gs Hf Hg Ht Hcb) as (i & form & S1 & S2 & S3).
  - apply V; [left; reflexivity|reflexivity].
  - unfold layers. cbn [rev app]. apply vf_next; [intros v; apply Hown; cbn; auto|]. apply vf_here, Hif.
  - unfold layers. cbn [rev app]. apply vf_next; [intros v; apply Hown; cbn; auto|]. apply vf_next; [intros v; apply Hint; discriminate|exact Hcase].
  - exact Ha.
  - apply V; [right; left; reflexivity|reflexivity].
  - exact Hrow.
  - exists i, [Some nf; Some num; Some c], form. split; [exact Hslot|]. split; [exact S1|]. split; [exact S2|]. apply S3. discriminate.
Qed.
(** the same as a template: "[id|name]" *)
Theorem C42_template : forall U ext0 ext d id c r name f calls cache n m,
  id = c :: r -> u_lower U id = id -> trimmed U id id -> u_isupper U c = false -> u_lower U name = name -> trimmed U name name ->
  (forall x, In x (id ++ name) -> ~ In x (u "|]%")) -> In name (dkeys ext0) ->
  good_externals ext -> is_dictionary U d -> base_form ext d id f -> In (name, m) ext ->
  after_calls calls cache -> snd (construct_integer cache n) = Ok m ->
  w_type (wf_word f) = WT_NOUN ->
  (forall g v, In g [R_DEPENDENCY_MODE; R_WORD_CASE; R_INTEGER_FORM; R_CASE] -> ~ holds (w_props (wf_word f)) g v) ->
  (forall g v, In g [R_DEPENDENCY_MODE; R_WORD_CASE] -> ~ holds (wf_props f) g v) -> value (wf_props f) R_CASE CASE_NOMINATIVE ->
  exists t i k x, parse_template U new_template ([LBR] ++ (id ++ [BAR] ++ name) ++ [RBR]) ext0 = (t, Ok tt) /\
    counted_slot (Z.abs n) k /\ slot WT_NOUN i k /\ nth_error (w_forms (wf_word f)) i = Some x /\ substitute U t ext d = Ok x.
Proof.
  intros U ext0 ext d id c r name f calls cache n m -> Hl Ht Hup Hln Htn Hch Hin0 He Hd Hf Hm Hc Hn Hty Hown Hbase Hcase.
  assert (Hch1 : forall y x, In y (u "|]%") -> x = c :: r \/ x = name -> ~ In y x).
  { intros y x Hy Hx H. apply (Hch y); [|exact Hy]. apply in_app_iff. destruct Hx as [->| ->]; auto. }
  assert (E := C30_parsed U ext0 (c :: r) [name] c r [DExt name] ltac:(constructor; [apply Hch1; [left; reflexivity|auto]|constructor; [apply Hch1; [left; reflexivity|auto]|constructor]]) Ht
    ltac:(constructor; [apply reads_external; [rewrite Hln; exact Htn|exact Hin0]|constructor])).
  rewrite Hup, Hl in E. cbn [app] in E.
  assert (N : forall y, In y (u "|]%") -> y <> BAR -> ~ In y ((c :: r) ++ [BAR] ++ name)).
  { intros y Hy Hb H. apply in_app_iff in H as [H|H]; [exact (Hch1 y _ Hy (or_introl eq_refl) H)|]. apply in_app_iff in H as [[H|[]]|H]; [congruence|exact (Hch1 y _ Hy (or_intror eq_refl) H)]. }
  destruct (C42_counted_noun U ext d (c :: r) name f calls cache n m He Hd Hf Hm Hc Hn Hty Hown Hbase Hcase) as (i & k & x & K1 & K2 & K3 & K4).
  exists {| t_subs := [{| s_id := c :: r; s_deps := [DExt name] |}]; t_text := Some (u "%s") |}, i, k, x. split.
  - apply parse_one; [discriminate|apply N; [right; left; reflexivity|discriminate]|apply N; [right; right; left; reflexivity|discriminate]|].
    rewrite variable_is in E. exact E.
  - split; [exact K1|]. split; [exact K2|]. split; [exact K3|]. unfold substitute. cbn [t_subs t_text mapM]. rewrite K4. cbn [bind].
    change (u "%s") with [37%N; 115%N]. cbn [py_format N.eqb Pos.eqb bind]. rewrite app_nil_r. reflexivity.
Qed.

(** ** C38 *)
(** FINDING: the number fixed by a plural-only noun is lost beside the integer 1, 21, ... *)
Theorem C38_own_number_overridden : forall U ext d id name f calls cache n m,
  good_externals ext -> is_dictionary U d -> base_form ext d id f -> In (name, m) ext ->
  after_calls calls cache -> snd (construct_integer cache n) = Ok m -> (Z.abs n mod 10 = 1)%Z -> (Z.abs n mod 100 <> 11)%Z ->
  w_type (wf_word f) = WT_NOUN -> holds (w_props (wf_word f)) R_NUMBER NUMBER_PLURAL ->
  (forall g v, In g [R_DEPENDENCY_MODE; R_WORD_CASE; R_INTEGER_FORM; R_CASE] -> ~ holds (w_props (wf_word f)) g v) ->
  (forall g v, In g [R_DEPENDENCY_MODE; R_WORD_CASE] -> ~ holds (wf_props f) g v) -> value (wf_props f) R_CASE CASE_NOMINATIVE ->
  exists i x, slot WT_NOUN i [Some NOUN_FORM_NORMAL; Some NUMBER_SINGULAR; Some CASE_NOMINATIVE] /\ nth_error (w_forms (wf_word f)) i = Some x /\
    get_text U {| s_id := id; s_deps := [DExt name] |} ext d = Ok x.
Proof.
  intros U ext d id name f calls cache n m He Hd Hf Hm Hc Hn M1 M2 Hty _ Hown Hbase Hcase.
  destruct (C42_counted_noun U ext d id name f calls cache n m He Hd Hf Hm Hc Hn Hty Hown Hbase Hcase) as (i & k & x & K1 & K2 & K3 & K4).
  exists i, x. split; [|auto]. inversion K1; subst; [exact K2|lia|]. exfalso. assert (B := Z.mod_pos_bound (Z.abs n) 100 ltac:(lia)). assert (M := mod_10_100 (Z.abs n)).
  revert M M1 M2 H B. generalize (Z.abs n mod 100)%Z. intros y -> M1 M2 H B. destruct H as [H|[H|H]]; try lia. revert M1. Z.to_euclidean_division_equations. lia.
Qed.
(** without an integer the own number stays, whatever the dependencies say *)
Theorem C38_own_plural_kept : forall U s ext d f ps ms v,
  good_externals ext -> is_dictionary U d -> good_deps (s_deps s) -> base_form ext d (s_id s) f -> given ext (s_deps s) ps ms ->
  w_type (wf_word f) = WT_NOUN -> Forall (fun m => ~ is_integer m) ms ->
  holds (w_props (wf_word f)) R_NUMBER NUMBER_PLURAL -> value_from (layers f ps) R_WORD_CASE (Some v) ->
  exists i nf case x, slot WT_NOUN i [Some nf; Some NUMBER_PLURAL; Some case] /\ nth_error (w_forms (wf_word f)) i = Some x /\ shown U v x (get_text U s ext d).
Proof.
  intros U s ext d f ps ms v He Hd Hs Hf Hg Hty Hni Hown Hv. destruct (C37_combination_exists U s ext d f ps ms He Hd Hs Hf Hg) as (c & _ & Hc & _).
  destruct (C37_priority U s ext d f ps ms c v He Hd Hs Hf Hg ltac:(rewrite Hty; discriminate) (fun _ => Hni) Hc Hv) as (form & E & Hsh).
  destruct (base_form_good U ext d _ f He Hd Hf) as [Wf _]. destruct (wordform_parts f Wf) as (Hw & _). destruct (given_good ext _ _ _ He Hs Hg) as (Gp & _).
  assert (Hcp : is_properties (Properties (map AProp c))) by (apply Properties_ok; intros x Hx; apply in_map_iff in Hx as (? & [=] & _)).
  assert (Hcomb : combination (schema (w_type (wf_word f))) c).
  { apply (values_combination (merged f ps)); [apply is_properties_wf, merged_good; assumption|]. revert Hc. apply Forall2_impl'. intros g x. apply merged_pget; assumption. }
  destruct (requested_exists (wf_word f) _ Hw Hcp) as [c' Hreq].
  rewrite Hty in Hc, Hcomb. cbn [schema] in Hc, Hcomb. inversion Hc as [|? nf ? ? V1 Hc1]; subst. inversion Hc1 as [|? num ? ? V2 Hc2]; subst. inversion Hc2 as [|? case ? ? V3 Hc3]; subst. inversion Hc3; subst.
  assert (num = NUMBER_PLURAL). { unfold layers in V2. inversion V2 as [|? ? ? ? Hx|? ? ? ? Hn _]; subst; [exact (holds_fun _ _ _ _ (is_properties_wf _ (proj1 Hw)) Hx Hown)|destruct (Hn _ Hown)]. } subst num.
  inversion Hcomb as [|? ? ? ? R1 Hcomb1]; subst. inversion Hcomb1 as [|? ? ? ? R2 Hcomb2]; subst. inversion Hcomb2 as [|? ? ? ? R3 _]; subst.
  assert (Hslot : exists i, slot WT_NOUN i [Some nf; Some NUMBER_PLURAL; Some case]).
  { destruct R1 as [<-|[<-|[]]].
    - destruct (noun_slot DEPENDENCY_MODE_SEMANTIC INTEGER_FORM_DUAL case ANIMALITY_ANIMATE NOUN_FORM_NORMAL NUMBER_PLURAL case R3) as (i & Hi & _); [apply nr_semantic_many; discriminate|eauto].
    - destruct R3 as [<-|R3]; [exists 12; vm_compute; reflexivity|]. destruct R3 as [<-|R3]; [exists 13; vm_compute; reflexivity|]. destruct R3 as [<-|R3]; [exists 14; vm_compute; reflexivity|].
      destruct R3 as [<-|R3]; [exists 15; vm_compute; reflexivity|]. destruct R3 as [<-|R3]; [exists 16; vm_compute; reflexivity|]. destruct R3 as [<-|[]]; exists 17; vm_compute; reflexivity. }
  destruct Hslot as [i Hi].
  assert (X : requested (wf_word f) (Properties (map AProp [nf; NUMBER_PLURAL; case])) [nf; NUMBER_PLURAL; case]).
  { assert (Q : forall g x, value_from (layers f ps) g (Some x) -> (forall y, ~ holds (w_props (wf_word f)) g y) \/ holds (w_props (wf_word f)) g x).
    { intros g x Hx. unfold layers in Hx. inversion Hx as [|? ? ? ? Hy|? ? ? ? Hn _]; subst; auto. }
    apply in_records in R1, R3.
    assert (A : forall g x, In (g, x) [(R_NOUN_FORM, nf); (R_NUMBER, NUMBER_PLURAL); (R_CASE, case)] -> value_from (layers f ps) g (Some x) ->
       value_from [w_props (wf_word f); Properties (map AProp [nf; NUMBER_PLURAL; case])] g (Some x)).
    { intros g x Hin Hx. destruct (Q g x Hx) as [H|H]; [|apply vf_here; exact H]. apply vf_next; [exact H|]. apply vf_here.
      apply holds_dget; [apply is_properties_wf, Hcp|]. rewrite dget_Properties by (intros y Hy; apply in_map_iff in Hy as (? & [=] & _)). cbn [map args_get arg_get]. rewrite R1, R3.
      destruct Hin as [[= <- <-]|[[= <- <-]|[[= <- <-]|[]]]]; reflexivity. }
    unfold requested. rewrite Hty. cbn [schema]. constructor; [apply A; [left; reflexivity|exact V1]|]. constructor; [apply A; [right; left; reflexivity|exact V2]|].
    constructor; [apply A; [right; right; left; reflexivity|exact V3]|constructor]. }
  rewrite <- Hty in Hi. destruct (C11_matching_slot (wf_word f) _ _ i _ Hw Hcp X Hi) as (form' & F1 & F2).
  { repeat (apply Forall2_cons; [right; reflexivity|]). apply Forall2_nil. }
  rewrite Hty in Hi. rewrite E in F1. injection F1 as <-. exists i, nf, case, form. auto.
Qed.

(** ** C43: the printed preposition *)
Lemma consonant_dec c : consonant c \/ ~ consonant c.
Proof. unfold consonant. match goal with |- In c ?l \/ _ => generalize l end. intros l. destruct (in_dec N.eq_dec c l); auto. Qed.
Lemma cluster_dec t : cluster t \/ ~ cluster t.
Proof. destruct t as [|c [|d t]]; cbn [cluster]; [auto|apply consonant_dec|]. destruct (consonant_dec c), (consonant_dec d); tauto. Qed.
Lemma special_dec a b : special a b \/ ~ special a b.
Proof. destruct (str_eqb a (u "о") && mem str_eqb b special_masters)%bool eqn:E; [left; apply special_iff, E|right; intros X; apply special_iff in X; rewrite X in E; discriminate]. Qed.
Lemma str_dec (a b : str) : a = b \/ a <> b.
Proof. destruct (list_eq_dec N.eq_dec a b); auto. Qed.
Lemma vowel_dec c l : @In char c l \/ ~ In c l.
Proof. destruct (in_dec N.eq_dec c l); auto. Qed.
Lemma dec_and (P Q : Prop) : P \/ ~ P -> Q \/ ~ Q -> (P /\ Q) \/ ~ (P /\ Q). Proof. tauto. Qed.
Lemma dec_or (P Q : Prop) : P \/ ~ P -> Q \/ ~ Q -> (P \/ Q) \/ ~ (P \/ Q). Proof. tauto. Qed.
Lemma dec_not (P : Prop) : P \/ ~ P -> ~ P \/ ~ ~ P. Proof. tauto. Qed.
Lemma alternative_dec slave master w : is_word w -> slave <> [] -> master <> [] -> alternative slave master w \/ ~ alternative slave master w.
Proof.
  intros Hw Hs Hm. destruct master as [|first rest]; [congruence|]. destruct (@exists_last _ slave Hs) as (s & last & ->).
  destruct (word_syllables w Hw) as (n & b & En & Eb).
  assert (D : forall P : Prop, (P <-> (consonant last /\ cluster (first :: rest) /\ number_of_syllables w = Ok 1 /\ has_fluent_vowel w = Ok true) \/
   (consonant last /\ cluster (first :: rest) /\ (s ++ [last] = u "в" \/ s ++ [last] = u "с") /\ s ++ [last] = [first]) \/
   (~ consonant last /\ ~ special (s ++ [last]) (first :: rest) /\ In first (u "аиоуыэАИОУЫЭ"))) -> P \/ ~ P).
  { intros P ->. rewrite En, Eb.
    assert (D1 : Ok n = Ok 1 \/ Ok n <> Ok 1) by (destruct (Nat.eq_dec n 1); [left; congruence|right; congruence]).
    assert (D2 : Ok b = Ok true \/ Ok b <> Ok true) by (destruct b; [left; reflexivity|right; discriminate]).
    apply dec_or; [apply dec_and; [exact (consonant_dec last)|apply dec_and; [exact (cluster_dec _)|exact (dec_and _ _ D1 D2)]]|].
    apply dec_or; [apply dec_and; [exact (consonant_dec last)|apply dec_and; [exact (cluster_dec _)|apply dec_and; [exact (dec_or _ _ (str_dec _ _) (str_dec _ _))|exact (str_dec _ _)]]]|].
    exact (dec_and _ _ (dec_not _ (consonant_dec last)) (dec_and _ _ (dec_not _ (special_dec _ _)) (vowel_dec _ _))). }
  apply D. unfold alternative. split.
  - intros (s' & l' & f' & r' & E1 & E2 & H). apply app_inj_tail in E1 as [<- <-]. injection E2 as <- <-. exact H.
  - intros H. exists s, last, first, rest. auto.
Qed.
Lemma special_not_alternative slave master w : special slave master -> alternative slave master w -> False.
Proof.
  intros S (s & last & first & rest & -> & -> & [[H _]|[[H _]|[_ [H _]]]]); [exact (consonant_not_special _ _ _ H S)|exact (consonant_not_special _ _ _ H S)|exact (H S)].
Qed.
Theorem C43_printed : forall U s ext d f name m ps slave master,
  good_externals ext -> is_dictionary U d -> good_deps (s_deps s) -> base_form ext d (s_id s) f -> given ext (s_deps s) ps [m] -> In (name, m) ext ->
  w_type (wf_word f) = WT_PREPOSITION ->
  value_from (layers f ps) R_PREPOSITION_FORM (Some PREPOSITION_FORM_NORMAL) -> value_from (layers f ps) R_WORD_CASE (Some WORD_CASE_LOWER) ->
  normal_form (wf_word f) = Ok slave -> slave <> [] -> wf_form U m = Ok master -> master <> [] ->
  exists i x, nth_error (w_forms (wf_word f)) i = Some x /\ get_text U s ext d = Ok x /\
    (special slave master -> i = 2) /\ (alternative slave master (wf_word m) -> i = 1) /\ (~ special slave master -> ~ alternative slave master (wf_word m) -> i = 0).
Proof.
  intros U s ext d f name m ps slave master He Hd Hs Hf Hg Hm Hty V1 V2 Hsl Hsn Hma Hmn.
  destruct (base_form_good U ext d _ f He Hd Hf) as [Wf _]. destruct (wordform_parts f Wf) as (Hw & _). destruct (given_good ext _ _ _ He Hs Hg) as (Gp & _).
  assert (Gm := merged_good f ps Wf Gp). assert (Wm := proj2 He _ _ Hm).
  destruct (C43_preposition_form U (wf_word f) (merged f ps) m slave master Hw Hty Gm Wm Hsl Hsn Hma Hmn) as (q & Eq & H1 & H2 & H3).
  rewrite (get_text_eq U s ext d f ps [m] He Hd Hf Hg). cbn [foldM]. rewrite Eq. cbn [bind].
  assert (Gq : is_properties q) by (rewrite (transform_preposition U _ _ _ Hty) in Eq; exact (preposition_good U _ _ _ _ Gm Eq)).
  apply (merged_pget f ps _ _ Wf Gp) in V1, V2.
  assert (K : forall v i, value q R_PREPOSITION_FORM v -> pget q R_WORD_CASE = Ok (Some WORD_CASE_LOWER) -> slot WT_PREPOSITION i [Some v] ->
     exists x, nth_error (w_forms (wf_word f)) i = Some x /\ get_form U (wf_word f) q = Ok x).
  { intros v i Hv Hc Hi. apply value_pget in Hv; [|apply is_properties_wf, Gq].
    destruct (word__form_slot (wf_word f) q [v] i [Some v] Hw Gq) as (x & X1 & X2).
    - rewrite Hty. constructor; [exact Hv|constructor].
    - rewrite Hty. exact Hi.
    - constructor; [right; reflexivity|constructor].
    - exists x. split; [exact X2|]. apply (get_form_shown U (wf_word f) q WORD_CASE_LOWER x Gq Hc X1). discriminate. }
  assert (Ch : forall v, changed (merged f ps) q v -> rel_of v = R_PREPOSITION_FORM -> value q R_PREPOSITION_FORM v /\ pget q R_WORD_CASE = Ok (Some WORD_CASE_LOWER)).
  { intros v Hv Hr. split; [apply vf_here, Hv; left; auto|]. rewrite <- V2. apply pget_holds; [apply is_properties_wf, Gq|apply is_properties_wf, Gm|].
    intros x. rewrite (Hv R_WORD_CASE x), Hr. split; [intros [[X _]|[_ X]]; [discriminate|exact X]|intros X; right; split; [discriminate|exact X]]. }
  assert (Excl := special_not_alternative slave master (wf_word m)).
  destruct (special_dec slave master) as [S|S].
  - destruct (Ch _ (H1 S) eq_refl) as [C1 C2]. destruct (K _ 2 C1 C2 ltac:(vm_compute; reflexivity)) as (x & X1 & X2). exists 2, x. split; [exact X1|]. split; [exact X2|].
    split; [reflexivity|]. split; [intros A; destruct (Excl S A)|intros X; contradiction].
  - destruct (alternative_dec slave master (wf_word m)) as [A|A]; [exact (proj1 (wordform_parts m Wm))|exact Hsn|exact Hmn| |].
    + destruct (Ch _ (H2 A) eq_refl) as [C1 C2]. destruct (K _ 1 C1 C2 ltac:(vm_compute; reflexivity)) as (x & X1 & X2). exists 1, x. split; [exact X1|]. split; [exact X2|].
      split; [intros X; contradiction|]. split; [reflexivity|intros _ X; contradiction].
    + assert (q = merged f ps) by auto. subst q. destruct (K PREPOSITION_FORM_NORMAL 0) as (x & X1 & X2); [apply value_pget; [apply is_properties_wf, Gm|exact V1]|exact V2|vm_compute; reflexivity|].
      exists 0, x. split; [exact X1|]. split; [exact X2|]. split; [intros X; contradiction|]. split; [intros X; contradiction|reflexivity].
Qed.

(** ** concrete cases *)
Definition five : wordform := WordForm (integer_word 5) None None.
Definition twenty_one : wordform := WordForm (integer_word 21) None None.
Definition hero : wordform := WordForm coin (Some (Properties [AProp CASE_DATIVE; AProp NUMBER_PLURAL])) None.
(** a noun that has only a plural *)
Definition scissors : word := {| w_type := WT_NOUN; w_forms := noun_forms; w_props := Properties [AProp NUMBER_PLURAL] |}.
Definition into : word := preposition (u "в") (u "во") (u "во").
Definition to_lion : wordform := WordForm lion (Some (Properties [AProp CASE_PREPOSITIONAL])) None.
Definition dict2 : dictionary := after ru_unicode [coin; into].
Definition ext2 : externals := [(u "n", five); (u "hero", hero); (u "scissors", WordForm scissors None None); (u "лев", to_lion); (u "m", twenty_one)].
Lemma five_constructed : snd (construct_integer None 5) = Ok five.
Proof. destruct (C47_histories [] None 5%Z no_calls) as [E _]. rewrite E. apply raw_ok. Qed.
Lemma twenty_one_constructed : snd (construct_integer None 21) = Ok twenty_one.
Proof. destruct (C47_histories [] None 21%Z no_calls) as [E _]. rewrite E. apply raw_ok. Qed.
Lemma scissors_is_word : is_word scissors.
Proof. apply is_word_iff; split; [apply Properties_ok; intros d H; simpl in H; repeat (destruct H as [[=]|H]); destruct H|vm_compute; reflexivity]. Qed.
Lemma form_of w p : is_word w -> (forall q, p = Some q -> is_properties q) -> is_wordform (WordForm w p None).
Proof. intros Hw Hp. exists w, p, None. split; [exact Hw|]. split; [exact Hp|]. split; [discriminate|reflexivity]. Qed.
Lemma plain_properties l : is_properties (Properties (map AProp l)).
Proof. apply Properties_ok. intros d H. apply in_map_iff in H as (? & [=] & _). Qed.
Fixpoint distinct (l : list str) : bool := match l with [] => true | x :: r => if mem str_eqb x r then false else distinct r end.
Lemma NoDup_dec_str l : distinct l = true -> NoDup l.
Proof.
  induction l as [|x l IH]; [constructor|]. cbn [distinct]. destruct (mem str_eqb x l) eqn:E; [discriminate|]. intros H. constructor; [|auto].
  intros X. apply (mem_iff _ str_eqb_ok) in X. congruence.
Qed.
Lemma ext2_good : good_externals ext2.
Proof.
  split; [apply NoDup_dec_str; vm_compute; reflexivity|].
  intros name f H. cbn [ext2 In] in H. destruct H as [[= _ <-]|[[= _ <-]|[[= _ <-]|[[= _ <-]|[[= _ <-]|[]]]]]].
  - apply integer_is_wordform.
  - apply form_of; [apply coin_is_word|]. intros q [= <-]. exact (plain_properties [CASE_DATIVE; NUMBER_PLURAL]).
  - apply form_of; [apply scissors_is_word|discriminate].
  - apply form_of; [apply C55_case|]. intros q [= <-]. exact (plain_properties [CASE_PREPOSITIONAL]).
  - apply integer_is_wordform.
Qed.
Lemma dict2_good : is_dictionary ru_unicode dict2.
Proof. apply (is_dictionary_after ru_unicode [coin; into]). constructor; [apply coin_is_word|]. constructor; [apply preposition_is_word|constructor]. Qed.

(** an unknown word, an unknown external and a word without the needed form *)
Example C34_case : good_externals ext2 /\ is_dictionary ru_unicode dict2 /\
  get_text ru_unicode {| s_id := u "нечто"; s_deps := [] |} ext2 dict2 = Err (NoWordsFoundError (u "нечто")) /\
  get_text ru_unicode {| s_id := u "монета"; s_deps := [DExt (u "k")] |} ext2 dict2 = Err (ExternalDependecyNotFoundError (u "k")) /\
  get_text ru_unicode {| s_id := u "лев"; s_deps := [DProps (Properties [AProp NUMBER_PLURAL]); DProps (Properties [AProp WORD_CASE_UPPER])] |} ext2 dict2 = Err IndexError /\
  In [] (w_forms lion).
Proof.
  split; [apply ext2_good|]. split; [apply dict2_good|]. split; [vm_compute; reflexivity|]. split; [vm_compute; reflexivity|]. split; [vm_compute; reflexivity|].
  cbn. tauto.
Qed.
Example C34_success_case : exists t, parse_template ru_unicode new_template (u "[Hero|вн] [монета|n]") ext2 = (t, Ok tt) /\
  get_undictionaried_words t ext2 dict2 = [] /\ substitute ru_unicode t ext2 dict2 = Ok (u "Монеты монет") /\ complete coin /\ complete (integer_word 5).
Proof.
  eexists. split; [vm_compute; reflexivity|]. split; [vm_compute; reflexivity|]. split; [vm_compute; reflexivity|].
  split; unfold complete; cbn [coin integer_word w_forms]; intros H; repeat (destruct H as [[=]|H]); destruct H.
Qed.
Example C35_case : exists t, parse_template ru_unicode new_template (u "[нечто] [hero] [Нечто] [монета]") ext2 = (t, Ok tt) /\
  get_undictionaried_words t ext2 dict2 = [u "нечто"; u "нечто"].
Proof. eexists. split; [vm_compute; reflexivity|vm_compute; reflexivity]. Qed.
Example C36_case : ~ In (u "монетами") (dkeys ext2) /\ has_word dict2 (u "монетами") = true /\ u_lower ru_unicode (u "монетами") = u "монетами" /\
  trimmed ru_unicode (u "монетами") (u "монетами") /\ get_text ru_unicode {| s_id := u "монетами"; s_deps := [] |} ext2 dict2 = Ok (u "монетами") /\
  get_text ru_unicode {| s_id := u "монетами"; s_deps := [DProps (Properties [AProp WORD_CASE_UPPER])] |} ext2 dict2 = Ok (u "Монетами").
Proof.
  split; [apply (dmem_false _ str_eqb_ok); vm_compute; reflexivity|]. split; [vm_compute; reflexivity|]. split; [vm_compute; reflexivity|].
  split; [|split; vm_compute; reflexivity].
  exists [], []. split; [vm_compute; reflexivity|]. split; [constructor|]. split; [constructor|]. split.
  - intros c r [= <- _]. vm_compute. reflexivity.
  - intros c r E. change (u "монетами") with (u "монетам" ++ [1080%N]) in E. apply app_inj_tail in E as [_ <-]. vm_compute. reflexivity.
Qed.
(** [монета|hero|вн,ед]: the case and number written last win over those of the external *)
Example C37_case :
  let s := {| s_id := u "монета"; s_deps := [DExt (u "hero"); DProps (Properties [AProp CASE_ACCUSATIVE; AProp NUMBER_SINGULAR])] |} in
  exists f ps ms c, base_form ext2 dict2 (s_id s) f /\ given ext2 (s_deps s) ps ms /\ w_type (wf_word f) = WT_NOUN /\ Forall (fun m => ~ is_integer m) ms /\
    c = [NOUN_FORM_NORMAL; NUMBER_SINGULAR; CASE_ACCUSATIVE] /\
    Forall2 (fun g x => value_from (layers f ps) g (Some x)) (schema (w_type (wf_word f))) c /\
    get_text ru_unicode s ext2 dict2 = Ok (u "монету").
Proof.
  cbn zeta. cbn [s_id s_deps]. destruct (get_word dict2 (u "монета")) as [f|] eqn:E; [|vm_compute in E; discriminate].
  assert (Hf : base_form ext2 dict2 (u "монета") f) by (apply base_word; [apply (dmem_false _ str_eqb_ok); vm_compute; reflexivity|exact E]).
  assert (Hg : given ext2 [DExt (u "hero"); DProps (Properties [AProp CASE_ACCUSATIVE; AProp NUMBER_SINGULAR])] [wf_props hero; Properties [AProp CASE_ACCUSATIVE; AProp NUMBER_SINGULAR]] [hero]).
  { apply given_external; [right; left; reflexivity|]. apply given_props. apply given_nothing. }
  exists f. eexists. eexists. exists [NOUN_FORM_NORMAL; NUMBER_SINGULAR; CASE_ACCUSATIVE].
  split; [exact Hf|]. split; [exact Hg|].
  assert (Gd : good_deps [DExt (u "hero"); DProps (Properties [AProp CASE_ACCUSATIVE; AProp NUMBER_SINGULAR])]).
  { intros p [H|[H|[]]]; [discriminate|]. injection H as <-. exact (plain_properties [CASE_ACCUSATIVE; NUMBER_SINGULAR]). }
  assert (Gp := proj1 (given_good ext2 _ _ _ ext2_good Gd Hg)).
  assert (Wf := proj1 (base_form_good ru_unicode ext2 dict2 _ f ext2_good dict2_good Hf)).
  assert (Ef : Ok f = get_word dict2 (u "монета")) by (symmetry; exact E). vm_compute in Ef. injection Ef as Ef. rewrite Ef in *. clear E Ef f.
  split; [reflexivity|]. split; [constructor; [discriminate|constructor]|]. split; [reflexivity|]. split; [|vm_compute; reflexivity].
  cbn [w_type wf_word schema]. constructor; [|constructor; [|constructor; [|constructor]]]; apply merged_pget; try assumption; vm_compute; reflexivity.
Qed.
Lemma unheld p gs : forallb (fun g => negb (dmem rel_eqb g p)) gs = true -> forall g v, In g gs -> ~ holds p g v.
Proof.
  intros H g v Hg X. rewrite forallb_forall in H. specialize (H g Hg). apply negb_true_iff, (dmem_false _ rel_eqb_ok) in H. apply H.
  unfold holds in X. apply (in_map fst) in X. exact X.
Qed.
Lemma coin_form_in_dict2 : exists f, get_word dict2 (u "монета") = Ok f /\ w_type (wf_word f) = WT_NOUN /\ w_forms (wf_word f) = noun_forms /\
  (forall g v, In g [R_DEPENDENCY_MODE; R_WORD_CASE; R_INTEGER_FORM; R_CASE] -> ~ holds (w_props (wf_word f)) g v) /\
  (forall g v, In g [R_DEPENDENCY_MODE; R_WORD_CASE] -> ~ holds (wf_props f) g v) /\ value (wf_props f) R_CASE CASE_NOMINATIVE.
Proof.
  eexists. split; [vm_compute; reflexivity|]. split; [reflexivity|]. split; [reflexivity|]. split; [apply unheld; vm_compute; reflexivity|].
  split; [apply unheld; vm_compute; reflexivity|]. apply vf_here. vm_compute. tauto.
Qed.
(** [монета|n] with 5 and with 21 *)
Example C42_case : exists f, base_form ext2 dict2 (u "монета") f /\ In (u "n", five) ext2 /\ after_calls [] None /\ snd (construct_integer None 5) = Ok five /\
  w_type (wf_word f) = WT_NOUN /\ (forall g v, In g [R_DEPENDENCY_MODE; R_WORD_CASE; R_INTEGER_FORM; R_CASE] -> ~ holds (w_props (wf_word f)) g v) /\
  (forall g v, In g [R_DEPENDENCY_MODE; R_WORD_CASE] -> ~ holds (wf_props f) g v) /\ value (wf_props f) R_CASE CASE_NOMINATIVE /\
  counted_slot 5 [Some NOUN_FORM_COUNTABLE; Some NUMBER_PLURAL; Some CASE_GENITIVE] /\
  get_text ru_unicode {| s_id := u "монета"; s_deps := [DExt (u "n")] |} ext2 dict2 = Ok (u "монет") /\
  get_text ru_unicode {| s_id := u "монета"; s_deps := [DExt (u "m")] |} ext2 dict2 = Ok (u "монета").
Proof.
  destruct coin_form_in_dict2 as (f & E & Ht & _ & H1 & H2 & H3). exists f.
  split; [apply base_word; [apply (dmem_false _ str_eqb_ok); vm_compute; reflexivity|exact E]|].
  split; [left; reflexivity|]. split; [constructor|]. split; [apply five_constructed|]. split; [exact Ht|]. split; [exact H1|]. split; [exact H2|]. split; [exact H3|].
  split; [apply counted_many; right; left; vm_compute; discriminate|]. split; vm_compute; reflexivity.
Qed.
(** the whole template "[монета|n]" *)
Example C42_template_case : exists t, parse_template ru_unicode new_template (u "[монета|n]") ext2 = (t, Ok tt) /\ substitute ru_unicode t ext2 dict2 = Ok (u "монет").
Proof. eexists. split; [vm_compute; reflexivity|vm_compute; reflexivity]. Qed.
(** an adjective (its forms are one-letter texts 1000, 1001, ...) counted by 2 with a feminine word: two golden coins *)
Definition golden : word := {| w_type := WT_ADJECTIVE; w_forms := map (fun i => [N.of_nat (1000 + i)]) (seq 0 101); w_props := [] |}.
Definition ext3 : externals := [(u "golden", WordForm golden None None); (u "coin", WordForm coin None None); (u "n", WordForm (integer_word 2) None None)].
Example C42_adjective_case :
  let s := {| s_id := u "golden"; s_deps := [DExt (u "n"); DExt (u "coin")] |} in
  exists f ps ms comb i k form, is_word golden /\ base_form ext3 dict2 (s_id s) f /\ given ext3 (s_deps s) ps ms /\ adjective_like (w_type (wf_word f)) /\
    counted_by ms (WordForm (integer_word 2) None None) /\
    value_from (layers f ps) R_GENDER (Some GENDER_FEMININE) /\ value_from (layers f ps) R_INTEGER_FORM (Some INTEGER_FORM_DUAL) /\ value_from (layers f ps) R_CASE (Some CASE_NOMINATIVE) /\
    adjective_row DEPENDENCY_MODE_FULL INTEGER_FORM_DUAL CASE_NOMINATIVE GENDER_FEMININE NUMBER_PLURAL CASE_NOMINATIVE /\
    Forall2 (adjective_values f ps NUMBER_PLURAL CASE_NOMINATIVE) (schema (w_type (wf_word f))) comb /\
    slot (w_type (wf_word f)) i k /\ agrees comb k /\ nth_error (w_forms (wf_word f)) i = Some form /\ get_text ru_unicode s ext3 dict2 = Ok form.
Proof.
  cbn zeta. cbn [s_id s_deps].
  assert (Wg : is_word golden) by (apply is_word_iff; split; [apply wf_is_properties, wf_nil|vm_compute; reflexivity]).
  assert (G3 : good_externals ext3).
  { split; [apply NoDup_dec_str; vm_compute; reflexivity|]. intros name f H. cbn [ext3 In] in H. destruct H as [[= _ <-]|[[= _ <-]|[[= _ <-]|[]]]].
    - apply form_of; [exact Wg|discriminate].
    - apply form_of; [apply coin_is_word|discriminate].
    - apply integer_is_wordform. }
  set (f := WordForm golden None None). set (c := WordForm coin None None). set (n := WordForm (integer_word 2) None None).
  assert (Hg : given ext3 [DExt (u "n"); DExt (u "coin")] [wf_props n; wf_props c] [n; c]).
  { apply given_external; [right; right; left; reflexivity|]. apply given_external; [right; left; reflexivity|]. apply given_nothing. }
  assert (Wf : is_wordform f) by (apply (proj2 G3 (u "golden")); left; reflexivity).
  assert (Gp : Forall is_properties [wf_props n; wf_props c]) by (constructor; [apply (integer_properties_ok 2)|constructor; [apply coin_is_word|constructor]]).
  assert (V : forall g v, pget (merged f [wf_props n; wf_props c]) g = Ok (Some v) -> value_from (layers f [wf_props n; wf_props c]) g (Some v)) by (intros g v H; apply merged_pget; assumption).
  destruct (get_text ru_unicode {| s_id := u "golden"; s_deps := [DExt (u "n"); DExt (u "coin")] |} ext3 dict2) as [x|] eqn:Ex; [|vm_compute in Ex; discriminate].
  assert (Hi : exists i k, nth_error (INVERTED_WORDS_CACHES WT_ADJECTIVE) i = Some k /\
      agrees [ADJECTIVE_FORM_FULL; GRADE_POSITIVE; ANIMALITY_INANIMATE; NUMBER_PLURAL; CASE_NOMINATIVE; GENDER_FEMININE] k /\ nth_error (w_forms golden) i = Some x).
  { vm_compute in Ex. injection Ex as <-. exists 42. eexists. split; [vm_compute; reflexivity|]. split; [|vm_compute; reflexivity].
    repeat (apply Forall2_cons; [first [right; reflexivity|left; reflexivity]|]). apply Forall2_nil. }
  destruct Hi as (i & k & Hi & Ha & Hn).
  exists f, [wf_props n; wf_props c], [n; c], [ADJECTIVE_FORM_FULL; GRADE_POSITIVE; ANIMALITY_INANIMATE; NUMBER_PLURAL; CASE_NOMINATIVE; GENDER_FEMININE], i, k, x.
  split; [exact Wg|]. split; [apply base_external; left; reflexivity|]. split; [exact Hg|]. split; [left; reflexivity|].
  split; [split; [reflexivity|]; exists [], [c]; split; [reflexivity|constructor; [discriminate|constructor]]|].
  split; [apply V; vm_compute; reflexivity|]. split; [apply V; vm_compute; reflexivity|]. split; [apply V; vm_compute; reflexivity|].
  split; [apply ar_dual_feminine; left; reflexivity|]. split; [|split; [exact Hi|split; [exact Ha|split; [exact Hn|reflexivity]]]].
  change (schema (w_type (wf_word f))) with [R_ADJECTIVE_FORM; R_GRADE; R_ANIMALITY; R_NUMBER; R_CASE; R_GENDER].
  repeat (apply Forall2_cons; [first [reflexivity|apply V; vm_compute; reflexivity]|]). apply Forall2_nil.
Qed.
(** the noun with a fixed plural: the plural slots are used, unless it is counted: 21 makes it singular *)
Example C38_case :
  base_form ext2 dict2 (u "scissors") (WordForm scissors None None) /\ holds (w_props scissors) R_NUMBER NUMBER_PLURAL /\ snd (construct_integer None 21) = Ok twenty_one /\
  (forall g v, In g [R_DEPENDENCY_MODE; R_WORD_CASE; R_INTEGER_FORM; R_CASE] -> ~ holds (w_props scissors) g v) /\
  (forall g v, In g [R_DEPENDENCY_MODE; R_WORD_CASE] -> ~ holds (wf_props (WordForm scissors None None)) g v) /\ value (wf_props (WordForm scissors None None)) R_CASE CASE_NOMINATIVE /\
  get_text ru_unicode {| s_id := u "scissors"; s_deps := [DProps (Properties [AProp NUMBER_SINGULAR; AProp CASE_GENITIVE])] |} ext2 dict2 = Ok (u "монет") /\
  get_text ru_unicode {| s_id := u "scissors"; s_deps := [DExt (u "m")] |} ext2 dict2 = Ok (u "монета").
Proof.
  split; [apply base_external; right; right; left; reflexivity|]. split; [vm_compute; tauto|]. split; [apply twenty_one_constructed|].
  split; [apply unheld; vm_compute; reflexivity|]. split; [apply unheld; vm_compute; reflexivity|]. split; [|split; vm_compute; reflexivity].
  apply vf_next; [|apply (vf_default R_CASE)]. intros v H. vm_compute in H. destruct H as [[=]|[]].
Qed.
(** [в|лев]: into the lion *)
Example C43_printed_case : exists f, base_form ext2 dict2 (u "в") f /\ given ext2 [DExt (u "лев")] [wf_props to_lion] [to_lion] /\ In (u "лев", to_lion) ext2 /\
  w_type (wf_word f) = WT_PREPOSITION /\ value_from (layers f [wf_props to_lion]) R_PREPOSITION_FORM (Some PREPOSITION_FORM_NORMAL) /\
  value_from (layers f [wf_props to_lion]) R_WORD_CASE (Some WORD_CASE_LOWER) /\ normal_form (wf_word f) = Ok (u "в") /\ wf_form ru_unicode to_lion = Ok (u "льве") /\
  alternative (u "в") (u "льве") lion /\ get_text ru_unicode {| s_id := u "в"; s_deps := [DExt (u "лев")] |} ext2 dict2 = Ok (u "во").
Proof.
  destruct (get_word dict2 (u "в")) as [f|] eqn:E; [|vm_compute in E; discriminate]. exists f.
  assert (Hf : base_form ext2 dict2 (u "в") f) by (apply base_word; [apply (dmem_false _ str_eqb_ok); vm_compute; reflexivity|exact E]).
  assert (Wf := proj1 (base_form_good ru_unicode ext2 dict2 _ f ext2_good dict2_good Hf)).
  assert (In2 : In (u "лев", to_lion) ext2) by (right; right; right; left; reflexivity).
  assert (Gp : Forall is_properties [wf_props to_lion]) by (constructor; [apply (wordform_parts to_lion (proj2 ext2_good _ _ In2))|constructor]).
  split; [exact Hf|]. split; [apply given_external; [exact In2|apply given_nothing]|]. split; [exact In2|].
  assert (Ef : Ok f = get_word dict2 (u "в")) by (symmetry; exact E). vm_compute in Ef. injection Ef as Ef. clear Hf E. rewrite Ef in *. clear Ef f.
  split; [reflexivity|]. split; [apply merged_pget; [exact Wf|exact Gp|vm_compute; reflexivity]|]. split; [apply merged_pget; [exact Wf|exact Gp|vm_compute; reflexivity]|].
  split; [vm_compute; reflexivity|]. split; [vm_compute; reflexivity|]. split; [apply C43_case|]. vm_compute. reflexivity.
Qed.
