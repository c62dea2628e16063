(** * PropPrepositions: C77: prepositions, from the template's text to the printed word *)
From Coq Require Import Lia.
From Verif Require Import SlotTables PyBase PyFloat Relations Restrictions Logic Data Words Transformators Constructors Dictionary Templates SpecProps SpecSlots SpecDictionary
  SpecAgreement SpecTemplates SpecSubstitution SpecReadme SpecCounting SpecPrepositions PyBaseFacts PropsFacts SynFacts SlotFacts LookupFacts WordFacts DictFacts TemplateFacts SubstFacts
  AgreementFacts PropSlots PropWords PropDictionary PropSyntax PropAgreement PropSubstitution PropReadme SpecRelevance PropRelevance PropCounting PropVariables.

Lemma asks_dec U slave m : is_wordform m -> slave <> [] -> not_empty_form U m -> (exists v, asks U slave m v) \/ (forall v, ~ asks U slave m v).
Proof.
  intros Wm Hs (master & E & Hn). destruct (special_dec slave master) as [S|S]; [left; eexists; exact (asks_special U slave m master E S)|].
  destruct (alternative_dec slave master (wf_word m)) as [A|A]; [exact (proj1 (wordform_parts m Wm))|exact Hs|exact Hn|left; eexists; exact (asks_alternative U slave m master E A)|].
  right. intros v [ma E' X|ma E' X]; rewrite E in E'; injection E' as <-; contradiction.
Qed.
Lemma asks_functional U slave m v v' : asks U slave m v -> asks U slave m v' -> v' = v.
Proof.
  intros [ma E X|ma E X] [mb E' X'|mb E' X']; rewrite E in E'; injection E' as <-; try reflexivity; [destruct (special_not_alternative _ _ _ X X')|destruct (special_not_alternative _ _ _ X' X)].
Qed.

(** what the transformators make of the properties *)
Lemma fold_asks U w slave : is_word w -> w_type w = WT_PREPOSITION -> normal_form w = Ok slave -> slave <> [] -> forall ms p,
  Forall is_wordform ms -> (forall m, In m ms -> not_empty_form U m) -> is_properties p ->
  exists q, foldM (fun fp m => transform U w fp m) ms p = Ok q /\ is_properties q /\
    (forall g x, g <> R_PREPOSITION_FORM -> (holds q g x <-> holds p g x)) /\
    ((q = p /\ (forall m v, In m ms -> ~ asks U slave m v)) \/
     (exists ms1 m ms2 v, ms = ms1 ++ m :: ms2 /\ asks U slave m v /\ (forall m' v', In m' ms2 -> ~ asks U slave m' v') /\ holds q R_PREPOSITION_FORM v)).
Proof.
  intros Hw Hty Hsl Hsn ms. induction ms as [|m ms IH]; intros p Wms Ht Hp.
  - exists p. split; [reflexivity|]. split; [exact Hp|]. split; [tauto|]. left. split; [reflexivity|intros m v []].
  - inversion Wms as [|? ? Wm Wms']; subst. destruct (Ht m (or_introl eq_refl)) as (master & Ema & Hma).
    destruct (C43_preposition_form U w p m slave master Hw Hty Hp Wm Hsl Hsn Ema Hma) as (q0 & Eq0 & H1 & H2 & H3).
    assert (Gq0 : is_properties q0) by (assert (T := Eq0); rewrite (transform_preposition U _ _ _ Hty) in T; exact (preposition_good U _ _ _ _ Hp T)).
    destruct (IH q0 Wms' (fun m' H => Ht m' (or_intror H)) Gq0) as (q & Eq & Gq & Oq & C).
    exists q. cbn [foldM]. rewrite Eq0. cbn [bind]. split; [exact Eq|]. split; [exact Gq|].
    assert (Step : (forall g x, g <> R_PREPOSITION_FORM -> (holds q0 g x <-> holds p g x)) /\
      ((q0 = p /\ forall v, ~ asks U slave m v) \/ exists v, asks U slave m v /\ holds q0 R_PREPOSITION_FORM v)).
    { assert (Ch : forall v, changed p q0 v -> rel_of v = R_PREPOSITION_FORM -> (forall g x, g <> R_PREPOSITION_FORM -> (holds q0 g x <-> holds p g x)) /\ holds q0 R_PREPOSITION_FORM v).
      { intros v Hv Hr. split; [|apply Hv; left; auto]. intros g x Hg. rewrite (Hv g x), Hr. tauto. }
      destruct (special_dec slave master) as [S|S].
      - destruct (Ch _ (H1 S) eq_refl) as [C1 C2]. split; [exact C1|right; eexists; split; [exact (asks_special U slave m master Ema S)|exact C2]].
      - destruct (alternative_dec slave master (wf_word m)) as [A|A]; [exact (proj1 (wordform_parts m Wm))|exact Hsn|exact Hma| |].
        + destruct (Ch _ (H2 A) eq_refl) as [C1 C2]. split; [exact C1|right; eexists; split; [exact (asks_alternative U slave m master Ema A)|exact C2]].
        + assert (q0 = p) by auto. subst q0. split; [tauto|]. left. split; [reflexivity|].
          intros v [ma E' X|ma E' X]; rewrite Ema in E'; injection E' as <-; contradiction. }
    destruct Step as [O0 C0]. split; [intros g x Hg; rewrite (Oq g x Hg); apply O0, Hg|].
    destruct C as [[-> N]|(ms1 & m1 & ms2 & v & -> & A & N & Hh)].
    + destruct C0 as [[-> N0]|(v & A & Hh)].
      * left. split; [reflexivity|]. intros m' v [<-|H]; [apply N0|apply N, H].
      * right. exists [], m, ms, v. auto.
    + right. exists (m :: ms1), m1, ms2, v. auto.
Qed.

(** [preposition|..|..] *)
Theorem C77_preposition : forall U ext0 ext d id bs deps f ps ms v0 v slave,
  unicode_ok U -> small U id -> Forall2 (written U ext0) bs deps -> good_externals ext -> is_dictionary U d -> base_form ext d id f -> given ext deps ps ms ->
  w_type (wf_word f) = WT_PREPOSITION -> normal_form (wf_word f) = Ok slave -> slave <> [] -> (forall m, In m ms -> not_empty_form U m) ->
  value_from (layers f ps) R_PREPOSITION_FORM (Some v0) -> value_from (layers f ps) R_WORD_CASE (Some v) ->
  exists t vf i x, parse_template U new_template (variable id bs) ext0 = (t, Ok tt) /\ preposition_form U slave ms v0 vf /\
    slot WT_PREPOSITION i [Some vf] /\ nth_error (w_forms (wf_word f)) i = Some x /\ shown U v x (substitute U t ext d).
Proof.
  intros U ext0 ext d id bs deps f ps ms v0 v slave HU Hs Hb He Hd Hf Hg Hty Hsl Hsn Ht V1 V2.
  destruct (C66_understood U ext0 id bs deps HU Hs Hb) as (t & Hp & _ & Hsub).
  assert (Gd := written_good U ext0 bs deps Hb).
  destruct (base_form_good U ext d _ f He Hd Hf) as [Wf _]. destruct (wordform_parts f Wf) as (Hw & _). destruct (given_good ext _ _ _ He Gd Hg) as (Gp & Gms & _).
  assert (Gm := merged_good f ps Wf Gp).
  destruct (fold_asks U (wf_word f) slave Hw Hty Hsl Hsn ms (merged f ps) Gms Ht Gm) as (q & Eq & Gq & Oq & C).
  apply (merged_pget f ps _ _ Wf Gp) in V1, V2.
  assert (Vq : pget q R_WORD_CASE = Ok (Some v)).
  { rewrite <- V2. apply pget_holds; [apply is_properties_wf, Gq|apply is_properties_wf, Gm|]. intros x. apply Oq. discriminate. }
  assert (K : forall vf, value q R_PREPOSITION_FORM vf -> exists i x, slot WT_PREPOSITION i [Some vf] /\ nth_error (w_forms (wf_word f)) i = Some x /\ shown U v x (substitute U t ext d)).
  { intros vf Hv. apply value_pget in Hv; [|apply is_properties_wf, Gq].
    assert (R : In vf (records R_PREPOSITION_FORM)) by (apply (value_in_records [q] R_PREPOSITION_FORM); [constructor; [apply is_properties_wf, Gq|constructor]|apply value_pget; [apply is_properties_wf, Gq|exact Hv]]).
    assert (S : slot WT_PREPOSITION (index_of WT_PREPOSITION [Some vf]) [Some vf]) by (vm_compute in R; destruct R as [<-|[<-|[<-|[]]]]; vm_compute; reflexivity).
    destruct (word__form_slot (wf_word f) q [vf] (index_of WT_PREPOSITION [Some vf]) [Some vf] Hw Gq) as (x & X1 & X2); [rewrite Hty; constructor; [exact Hv|constructor]|rewrite Hty; exact S|constructor; [right; reflexivity|constructor]|].
    exists (index_of WT_PREPOSITION [Some vf]), x. split; [exact S|]. split; [exact X2|].
    rewrite (Hsub ext d _ (get_text_eq U {| s_id := id; s_deps := deps |} ext d f ps ms He Hd Hf Hg)), Eq. cbn [bind]. apply get_form_shown; [exact Gq|exact Vq|exact X1]. }
  exists t. destruct C as [[-> N]|(ms1 & m & ms2 & vf & E & A & N & Hh)].
  - exists v0. destruct (K v0) as (i & x & K1 & K2 & K3); [apply value_pget; [apply is_properties_wf, Gm|exact V1]|]. exists i, x. split; [exact Hp|]. split; [apply nobody_asks, N|]. auto.
  - exists vf. destruct (K vf) as (i & x & K1 & K2 & K3); [apply vf_here, Hh|]. exists i, x. split; [exact Hp|]. split; [exact (last_asks U slave ms v0 ms1 m ms2 vf E A N)|]. auto.
Qed.
(** the rule leaves no choice *)
Theorem C77_unique : forall U slave ms v0 v v', preposition_form U slave ms v0 v -> preposition_form U slave ms v0 v' -> v' = v.
Proof.
  intros U slave ms v0 v v' [N|ms1 m ms2 w E A N] [N'|ms1' m' ms2' w' E' A' N'].
  - reflexivity.
  - subst ms. destruct (N m' w'); [apply in_or_app; right; left; reflexivity|exact A'].
  - subst ms. destruct (N' m w); [apply in_or_app; right; left; reflexivity|exact A].
  - subst ms. assert (G : forall (l1 l1' : list wordform) a a' l2 l2', l1 ++ a :: l2 = l1' ++ a' :: l2' -> (l1 = l1' /\ a = a') \/ In a' l2 \/ In a l2').
    { induction l1 as [|y l1 IH]; intros l1' a a' l2 l2' E; destruct l1' as [|y' l1']; cbn in E; injection E as E1 E2.
      - left. auto.
      - right. left. rewrite E2. apply in_or_app. right. left. reflexivity.
      - right. right. rewrite <- E2. apply in_or_app. right. left. reflexivity.
      - destruct (IH _ _ _ _ _ E2) as [[-> ->]|[H|H]]; [left; subst; auto|auto|auto]. }
    destruct (G _ _ _ _ _ _ E') as [[_ ->]|[H|H]].
    + exact (asks_functional U slave m' w w' A A').
    + destruct (N _ _ H A').
    + destruct (N' _ _ H A).
Qed.

(** [preposition|name] *)
Theorem C77_written : forall U ext0 ext d id name f m v0 slave master,
  unicode_ok U -> small U id -> plain U name -> In name (dkeys ext0) -> good_externals ext -> is_dictionary U d -> base_form ext d id f -> In (name, m) ext ->
  w_type (wf_word f) = WT_PREPOSITION -> normal_form (wf_word f) = Ok slave -> slave <> [] -> wf_form U m = Ok master -> master <> [] ->
  silent (w_props (wf_word f)) [R_PREPOSITION_FORM; R_WORD_CASE] -> silent (wf_props m) [R_PREPOSITION_FORM; R_WORD_CASE] -> silent (wf_props f) [R_WORD_CASE] ->
  value (wf_props f) R_PREPOSITION_FORM v0 ->
  exists t vf i x, parse_template U new_template (variable id [name]) ext0 = (t, Ok tt) /\ slot WT_PREPOSITION i [Some vf] /\ nth_error (w_forms (wf_word f)) i = Some x /\
    substitute U t ext d = Ok x /\
    (special slave master -> vf = PREPOSITION_FORM_SPECIAL) /\ (alternative slave master (wf_word m) -> vf = PREPOSITION_FORM_ALTERNATIVE) /\
    (~ special slave master -> ~ alternative slave master (wf_word m) -> vf = v0).
Proof.
  intros U ext0 ext d id name f m v0 slave master HU Hs Hn Hin He Hd Hf Hm Hty Hsl Hsn Hma Hmn S1 S2 S3 V0.
  assert (One : forall m', In m' [m] -> not_empty_form U m') by (intros m' [<-|[]]; exists master; auto).
  destruct (C77_preposition U ext0 ext d id [name] [DExt name] f [wf_props m] [m] v0 WORD_CASE_LOWER slave HU Hs) as (t & vf & i & x & P1 & P2 & P3 & P4 & P5); try assumption.
  - constructor; [exact (written_name U ext0 name Hn Hin)|constructor].
  - apply given_external; [exact Hm|constructor].
  - unfold layers. cbn [rev app]. apply vf_next; [intros y; apply S1; left; reflexivity|]. apply vf_next; [intros y; apply S2; left; reflexivity|]. exact V0.
  - unfold layers. cbn [rev app]. apply vf_next; [intros y; apply S1; right; left; reflexivity|]. apply vf_next; [intros y; apply S2; right; left; reflexivity|].
    apply vf_next; [intros y; apply S3; left; reflexivity|]. apply (vf_default R_WORD_CASE).
  - exists t, vf, i, x. split; [exact P1|]. split; [exact P3|]. split; [exact P4|]. split; [apply P5; discriminate|].
    assert (F := fun v => C77_unique U slave [m] v0 vf v P2).
    split; [intros S; symmetry; apply F; apply (last_asks U slave [m] v0 [] m []); [reflexivity|exact (asks_special U slave m master Hma S)|intros m' v' []]|].
    split; [intros A; symmetry; apply F; apply (last_asks U slave [m] v0 [] m []); [reflexivity|exact (asks_alternative U slave m master Hma A)|intros m' v' []]|].
    intros NS NA. symmetry. apply F. apply nobody_asks. intros m' v' [<-|[]] [ma E X|ma E X]; rewrite Hma in E; injection E as <-; contradiction.
Qed.

(** FINDING: the case in which the external is printed beside the preposition is not looked at, and can not be written: [в|hero|пр] prints what
    [в|hero] prints *)
Theorem C77_written_case_ignored : forall U ext0 ext d id name f vs,
  unicode_ok U -> small U id -> plain U name -> In name (dkeys ext0) -> ~ In (ids vs) (dkeys ext0) -> good_externals ext -> is_dictionary U d -> base_form ext d id f ->
  w_type (wf_word f) = WT_PREPOSITION -> (forall p, In p vs -> rel_of p <> R_PREPOSITION_FORM /\ rel_of p <> R_WORD_CASE) ->
  exists t t', parse_template U new_template (variable id [name]) ext0 = (t, Ok tt) /\ parse_template U new_template (variable id [name; ids vs]) ext0 = (t', Ok tt) /\
    substitute U t' ext d = substitute U t ext d.
Proof.
  intros U ext0 ext d id name f vs HU Hs Hn Hin Hni He Hd Hf Hty Hvs.
  assert (W := written_name U ext0 name Hn Hin). assert (W' := written_properties U ext0 vs Hni).
  destruct (C66_understood U ext0 id [name] [DExt name] HU Hs) as (t & Hp & _ & Hsub); [constructor; [exact W|constructor]|].
  destruct (C66_understood U ext0 id [name; ids vs] [DExt name; DProps (Properties (map AProp vs))] HU Hs) as (t' & Hp' & _ & Hsub'); [constructor; [exact W|constructor; [exact W'|constructor]]|].
  exists t, t'. split; [exact Hp|]. split; [exact Hp'|].
  rewrite (Hsub ext d _ eq_refl). apply Hsub'. apply (C71_silent_dependency U ext d id [DExt name] (Properties (map AProp vs)) [] He Hd).
  - apply (written_good U ext0 [name; ids vs]). constructor; [exact W|constructor; [exact W'|constructor]].
  - intros f' ps ms g v Hf' _ R Hh. assert (f' = f) by (destruct (base_form_good U ext d id f He Hd Hf) as [_ E1]; destruct (base_form_good U ext d id f' He Hd Hf') as [_ E2]; congruence). subst f'. rewrite Hty in R.
    apply records_hold in Hh as [Hv <-]. destruct (Hvs v Hv) as [X1 X2].
    inversion R as [g R1 E|E|g _ [X|X] _ E|g _ [X|[X|X]] _ E]; try discriminate; [|congruence]. destruct R1 as [R1|[]]; congruence.
Qed.

Definition about : word := preposition (u "о") (u "об") (u "обо").
Definition me : word := {| w_type := WT_NOUN; w_props := []; w_forms := u "мне" :: repeat [] 17 |}.
Definition dict7 : dictionary := after ru_unicode [into; about].
Definition ext7 : externals := [(u "hero", WordForm lion None None); (u "mob", to_lion); (u "me", WordForm me None None)].
Definition print7 (text : str) : result str := substitute ru_unicode (fst (parse_template ru_unicode new_template text ext7)) ext7 dict7.
Lemma me_word : is_word me.
Proof. apply is_word_iff. split; [apply wf_is_properties, wf_nil|vm_compute; reflexivity]. Qed.
Lemma ext7_good : good_externals ext7.
Proof.
  split; [apply NoDup_dec_str; vm_compute; reflexivity|].
  intros name f H. cbn [ext7 In] in H. destruct H as [[= _ <-]|[[= _ <-]|[[= _ <-]|[]]]].
  - apply form_of; [apply C55_case|discriminate].
  - apply form_of; [apply C55_case|]. intros q [= <-]. exact (plain_properties [CASE_PREPOSITIONAL]).
  - apply form_of; [apply me_word|discriminate].
Qed.
Lemma dict7_good : is_dictionary ru_unicode dict7.
Proof. apply (is_dictionary_after ru_unicode [into; about]). constructor; [apply preposition_is_word|]. constructor; [apply preposition_is_word|constructor]. Qed.
(** в лев.., во льве; but, with the same lion given in the nominative, "в льве" (finding); обо мне, also if something else is named later *)
Example C77_case : exists f, good_externals ext7 /\ is_dictionary ru_unicode dict7 /\ base_form ext7 dict7 (u "в") f /\ w_type (wf_word f) = WT_PREPOSITION /\
  normal_form (wf_word f) = Ok (u "в") /\ small ru_unicode (u "в") /\ plain ru_unicode (u "mob") /\ value (wf_props f) R_PREPOSITION_FORM PREPOSITION_FORM_NORMAL /\
  silent (w_props (wf_word f)) [R_PREPOSITION_FORM; R_WORD_CASE] /\ silent (wf_props to_lion) [R_PREPOSITION_FORM; R_WORD_CASE] /\ silent (wf_props f) [R_WORD_CASE] /\
  wf_form ru_unicode to_lion = Ok (u "льве") /\ alternative (u "в") (u "льве") lion /\
  print7 (u "[в|mob] [mob]") = Ok (u "во льве") /\ print7 (u "[в|hero] [hero|пр]") = Ok (u "в льве") /\ print7 (u "[в|hero|пр] [hero|пр]") = Ok (u "в льве") /\
  print7 (u "[о|me] [me]") = Ok (u "обо мне") /\ print7 (u "[о|me|hero]") = Ok (u "обо") /\ print7 (u "[Во|hero]") = Ok (u "Во").
Proof.
  destruct (dget str_eqb (u "в") dict7) as [f|] eqn:E; [|vm_compute in E; discriminate]. exists f. vm_compute in E. injection E as <-.
  split; [apply ext7_good|]. split; [apply dict7_good|]. split.
  { apply base_word; [|vm_compute; reflexivity]. intros H. cbn [ext7 dkeys map fst In] in H. destruct H as [H|[H|[H|[]]]]; discriminate H. }
  split; [reflexivity|]. split; [vm_compute; reflexivity|]. split; [eapply small_text; vm_compute; reflexivity|]. split; [eapply small_text; vm_compute; reflexivity|].
  split; [apply vf_here; vm_compute; tauto|].
  split; [silent_tac|]. split; [silent_tac|]. split; [silent_tac|].
  split; [vm_compute; reflexivity|]. split; [apply C43_case|].
  repeat split; vm_compute; reflexivity.
Qed.
