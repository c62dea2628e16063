(** * PropPhrases: C79: whole phrases *)
From Coq Require Import Lia.
From Verif Require Import PyBase PyFloat Relations Restrictions Logic Data Words Transformators Constructors Dictionary Templates SpecProps SpecSlots SpecDictionary
  SpecAgreement SpecTemplates SpecSubstitution SpecReadme SpecIntegers SpecCounting SpecLocality SpecPlaces SpecPhrases PyBaseFacts PropsFacts SynFacts SlotFacts LookupFacts SlotTables CaseTools WordFacts
  DictFacts TemplateFacts SubstFacts AgreementFacts PropSlots PropWords PropDictionary PropSyntax PropAgreement PropIntegers PropSubstitution PropLocality PropReadme PropCounting
  PropVariables PropPlaces.

(** ** putting pieces together *)
Lemma finished_nil : finished []. Proof. intros [|] b [=]. Qed.
Lemma finished_app a b : finished a -> finished b -> finished (a ++ b).
Proof.
  intros Ha Hb x y E. apply app_eq_app in E as [l [[-> E]|[-> E]]].
  - destruct l as [|c l]; [exact (Hb [] y (eq_sym E))|]. injection E as <- ->. apply in_app_iff. left. exact (Ha x l eq_refl).
  - exact (Hb l y E).
Qed.
Lemma variable_finished v : is_variable v -> finished v.
Proof.
  intros (x & -> & _ & Hx). intros p q E. destruct p as [|c p]; simpl in E; [injection E as E2|injection E as _ E2].
  - subst q. apply in_app_iff. right; left; reflexivity.
  - destruct (exists_last (l := LBR :: q)) as (q' & c' & Eq); [discriminate|]. rewrite Eq, app_assoc in E2. apply app_inj_tail in E2 as [_ <-].
    assert (K : In RBR (LBR :: q)) by (rewrite Eq; apply in_app_iff; right; left; reflexivity). destruct K as [K|K]; [discriminate|exact K].
Qed.
Lemma literal_finished l : ~ In LBR l -> finished l.
Proof. intros H a b ->. destruct H. apply in_app_iff. right; left; reflexivity. Qed.

Theorem C79_literal : forall U ext0 ext d l, ~ In LBR l -> says U ext0 ext d l l.
Proof.
  intros U ext0 ext d l H. assert (C : cuts l [l] []). { apply cut_end. intros a v b (x & -> & _) ->. apply H. apply in_app_iff. right. left. reflexivity. }
  destruct (parse_template U new_template l ext0) as [t r] eqn:E. assert (E' := E).
  assert (D : exists l2, doubled l l2). { clear. induction l as [|c l [l2 IH]]; [exists []; constructor|]. destruct (N.eq_dec c PERCENT) as [->|N]; eexists; [apply dbl_percent, IH|apply dbl_other; [exact N|exact IH]]. }
  destruct D as [l2 D]. rewrite (C27_parse U ext0 l [l] [] [l2] [] [] C ltac:(constructor; [exact D|constructor]) ltac:(constructor) ltac:(constructor)) in E. injection E as Et Er. subst r.
  exists t. split; [exact E'|]. destruct (C28_literals_verbatim U ext0 l t [l] [] E' C) as [_ K]. rewrite (K U ext d []); [reflexivity|]. rewrite <- Et. constructor.
Qed.
Lemma says_app U ext0 ext d a b x y : finished a -> says U ext0 ext d a x -> says U ext0 ext d b y -> says U ext0 ext d (a ++ b) (x ++ y).
Proof.
  intros Hf (ta & Pa & Sa) (tb & Pb & Sb). destruct (parse_template U new_template (a ++ b) ext0) as [t r] eqn:E.
  destruct (C65_concatenation U ext0 a b _ _ _ _ _ _ Hf Pa Pb E) as (_ & _ & K). destruct (K eq_refl eq_refl) as (-> & _ & K'). exists t. split; [exact E|].
  destruct (K' U ext d) as [_ B]. rewrite Sa, Sb in B. exact B.
Qed.
Theorem C79_phrase : forall U ext0 ext d texts xs, Forall2 (fun text x => finished text /\ says U ext0 ext d text x) texts xs -> says U ext0 ext d (concat texts) (concat xs).
Proof.
  intros U ext0 ext d texts xs H. induction H as [|text x texts xs [Hf Hs] _ IH]; [apply C79_literal; intros []|]. cbn [concat]. apply says_app; assumption.
Qed.

(** ** one variable *)
Lemma printed_shown U v x r y : printed U v x y -> shown U v x r -> r = Ok y.
Proof. intros [v' x' N|c rest] [S1 S2]; [apply S2, N|exact (S1 eq_refl)]. Qed.
Lemma substitute_one U t s ext d text : t_subs t = [s] -> t_text t = Some (u "%s") -> text = get_text U s ext d -> substitute U t ext d = text.
Proof.
  intros Hs Ht ->. unfold substitute. rewrite Hs, Ht. cbn [mapM]. destruct (get_text U s ext d) as [x|e]; cbn [bind]; [|reflexivity].
  change (u "%s") with [37%N; 115%N]. cbn [py_format N.eqb Pos.eqb bind]. rewrite app_nil_r. reflexivity.
Qed.

Lemma spelled_understood U ext0 A id v0 bs deps : unicode_ok U -> spelled U A id v0 -> Forall2 (written U ext0) bs deps ->
  exists t, parse_template U new_template (variable A bs) ext0 = (t, Ok tt) /\
    forall ext d, substitute U t ext d = get_text U {| s_id := id; s_deps := deps ++ map DProps (capital_set v0) |} ext d.
Proof.
  intros HU [id' Hs|c r id' Hp Ht Hch Hl Hup] Hw.
  - destruct (C66_understood U ext0 id' bs deps HU Hs Hw) as (t & P & _ & S). exists t. split; [exact P|]. intros ext d. cbn [capital_set map]. rewrite app_nil_r. apply S. reflexivity.
  - assert (Hnb : forall y, In y [BAR; RBR; PERCENT] -> Forall (fun x => ~ In y x) ((c :: r) :: bs)).
    { intros y Hy. constructor; [intros K; apply (Hch y K); destruct Hy as [<-|[<-|[<-|[]]]]; cbn; auto|]. clear -HU Hw Hy. induction Hw as [|b dep bs deps Hb _ IH]; constructor; [|exact IH].
      assert (K := written_chars U ext0 b dep HU Hb). destruct Hy as [<-|[<-|[<-|[]]]]; apply K. }
    assert (E := C30_parsed U ext0 (c :: r) bs c r deps (Hnb BAR (or_introl eq_refl)) Ht).
    rewrite Hup, Hl in E. specialize (E ltac:(revert Hw; apply Forall2_impl'; intros; apply written_reads; assumption)).
    eexists. split.
    + unfold variable. apply parse_one.
      * destruct bs; discriminate.
      * apply join_chars; [intros [K|[]]; discriminate|apply Hnb; right; left; reflexivity].
      * apply join_chars; [intros [K|[]]; discriminate|apply Hnb; right; right; left; reflexivity].
      * rewrite variable_is in E. exact E.
    + intros ext d. eapply substitute_one; reflexivity.
Qed.
Lemma capital_holds p v g y : In p (capital_set v) -> holds p g y -> g = R_WORD_CASE.
Proof. destruct v; intros []; [|contradiction]. subst p. unfold holds, Properties, update. cbn. intros [[= <- _]|[]]. reflexivity. Qed.
Lemma given_capital ext deps ps ms v : given ext deps ps ms -> given ext (deps ++ map DProps (capital_set v)) (ps ++ capital_set v) ms.
Proof.
  intros H. induction H as [|name f deps ps ms Hf _ IH|p deps ps ms _ IH]; cbn [app].
  - destruct v; cbn; repeat constructor.
  - apply given_external; assumption.
  - apply given_props; assumption.
Qed.
Lemma layers_capital f ps v : layers f (ps ++ capital_set v) = w_props (wf_word f) :: capital_set v ++ rev ps ++ [wf_props f].
Proof. unfold layers. rewrite rev_app_distr, <- app_assoc. destruct v; reflexivity. Qed.
Lemma through_capital f ps v g o : g <> R_WORD_CASE -> value_from (layers f ps) g o -> value_from (layers f (ps ++ capital_set v)) g o.
Proof.
  intros N H. rewrite layers_capital. unfold layers in H. inversion H as [|? ? ? ? K|? ? ? ? K1 K2]; subst; [apply vf_here, K|]. apply vf_next; [exact K1|].
  destruct v; try exact K2. cbn [capital_set app]. apply vf_next; [|exact K2]. intros y Hy. apply N. exact (capital_holds _ WORD_CASE_UPPER g y (or_introl eq_refl) Hy).
Qed.
Lemma own_again f ps g o : is_wordform f -> Forall is_properties ps -> value_from (layers f ps) g o -> value_from [w_props (wf_word f); merged f ps] g o.
Proof.
  intros Wf Gp H. assert (H' := proj1 (merged_pget f ps g o Wf Gp) H). assert (Gm := is_properties_wf _ (merged_good f ps Wf Gp)).
  unfold layers in H. inversion H as [|? ? ? ? K|? ? ? ? K1 K2]; subst; [apply vf_here, K|]. apply vf_next; [exact K1|].
  apply value_from_pget; [constructor; [exact Gm|constructor]|]. rewrite pget_spec in H'. injection H' as H'. symmetry. rewrite <- H'. generalize (merged f ps). intros q. cbn. destruct (dget rel_eqb g q); reflexivity.
Qed.

(** a variable without numbers prints the form at the place that the values of its groups have: the word's own properties, else the written dependencies from the last
    to the first, else what was recognised in the written word, else the default *)
Theorem C79_variable : forall U ext0 ext d A id v0 bs deps f ps ms c i v,
  unicode_ok U -> spelled U A id v0 -> Forall2 (written U ext0) bs deps -> good_externals ext -> is_dictionary U d -> base_form ext d id f -> given ext deps ps ms ->
  w_type (wf_word f) <> WT_PREPOSITION -> (noun_like (w_type (wf_word f)) \/ adjective_like (w_type (wf_word f)) -> Forall (fun m => ~ is_integer m) ms) ->
  combined f (layers f ps) c -> place (w_type (wf_word f)) c i ->
  value_from (w_props (wf_word f) :: capital_set v0 ++ rev ps ++ [wf_props f]) R_WORD_CASE (Some v) ->
  exists t x, parse_template U new_template (variable A bs) ext0 = (t, Ok tt) /\ nth_error (w_forms (wf_word f)) i = Some x /\ shown U v x (substitute U t ext d).
Proof.
  intros U ext0 ext d A id v0 bs deps f ps ms c i v HU HA Hw He Hd Hf Hg Hnp Hq Hc Hpl Hv.
  destruct (spelled_understood U ext0 A id v0 bs deps HU HA Hw) as (t & P & S). exists t.
  destruct (base_form_good U ext d _ f He Hd Hf) as [Wf _]. destruct (wordform_parts f Wf) as (Ww & _).
  assert (Gd : good_deps (deps ++ map DProps (capital_set v0))).
  { intros p Hp. apply in_app_or in Hp as [Hp|Hp]; [exact (written_good U ext0 bs deps Hw p Hp)|]. apply in_map_iff in Hp as (q & [= ->] & Hp). destruct v0; try contradiction. destruct Hp as [<-|[]].
    apply Properties_ok. intros q [[=]|[]]. }
  assert (Hg' := given_capital ext deps ps ms v0 Hg). destruct (given_good ext _ _ _ He Gd Hg') as (Gp & _).
  assert (Gm := merged_good f _ Wf Gp). set (ps' := ps ++ capital_set v0) in *.
  assert (Hc' : combined f (layers f ps') c).
  { unfold combined in *. assert (N : forall g, In g (schema (w_type (wf_word f))) -> g <> R_WORD_CASE) by (intros g Hin ->; destruct (w_type (wf_word f)); cbn in Hin; intuition discriminate).
    clear -Hc N. induction Hc as [|g y sch c Hy _ IH]; constructor; [apply through_capital; [apply N; left; reflexivity|exact Hy]|apply IH; intros; apply N; right; assumption]. }
  assert (Hr : requested (wf_word f) (merged f ps') c).
  { unfold requested. revert Hc'. apply Forall2_impl'. intros g y Hy. assert (Hy2 := proj1 (merged_pget f ps' g (Some y) Wf Gp) Hy).
    apply own_again; assumption. }
  destruct (C78_place (wf_word f) (merged f ps') c i Ww Gm Hr Hpl) as (x & F1 & F2). exists x. split; [exact P|]. split; [exact F2|]. rewrite S.
  rewrite (get_text_eq U {| s_id := id; s_deps := deps ++ map DProps (capital_set v0) |} ext d f ps' ms He Hd Hf Hg'), fold_quiet; cbn [bind].
  - apply get_form_shown; [exact Gm|apply merged_pget; [exact Wf|exact Gp|unfold ps'; rewrite layers_capital; exact Hv]|].
    rewrite <- F1. unfold word_form. apply word__form_ext. intros g _. destruct (value_from_exists (layers f ps') g (layers_wf f ps' Wf Gp)) as [o Ho].
    rewrite (proj1 (merged_pget f ps' g o Wf Gp) Ho). symmetry.
    assert (Wp : Forall props_wf [w_props (wf_word f); merged f ps']) by (constructor; [apply is_properties_wf, Ww|constructor; [apply is_properties_wf, Gm|constructor]]).
    exact (proj1 (value_from_Properties _ g Wp o) (own_again f ps' g o Wf Gp Ho)).
  - intros m q Hm. apply C44_identity; [exact Hnp|]. intros X. specialize (Hq X). rewrite Forall_forall in Hq. exact (Hq m Hm).
Qed.

(** ** nouns *)
Lemma vf_own (w : word) (l : list props) g v : holds (w_props w) g v -> value_from (w_props w :: l) g (Some v). Proof. apply vf_here. Qed.
Lemma silent_next p l g o gs : silent p gs -> In g gs -> value_from l g o -> value_from (p :: l) g o.
Proof. intros H1 H2. apply vf_next. intros v. apply H1, H2. Qed.
(** a value of w's own properties counts for every WordForm of w *)
Lemma value_twice p l g v : value p g v -> (exists y, holds p g y) \/ value_from l g (Some v) -> value_from (p :: l) g (Some v).
Proof.
  intros H K. unfold value in H. inversion H as [|? ? ? ? K0|? ? ? ? K1 K2]; subst; [apply vf_here, K0|]. destruct K as [[y Hy]|K]; [destruct (K1 y Hy)|]. apply vf_next; [exact K1|exact K].
Qed.
Lemma value_again p l g v : value p g v -> value_from (p :: l) g (Some v) \/ ((forall y, ~ holds p g y) /\ value_from [] g (Some v)).
Proof. intros H. unfold value in H. inversion H as [|? ? ? ? K0|? ? ? ? K1 K2]; subst; [left; apply vf_here, K0|right; auto]. Qed.

(** [noun], [Noun], [noun|дт] *)
Theorem C79_noun : forall U ext0 ext d A name v0 w a g n cs c,
  unicode_ok U -> spelled U A name v0 -> good_externals ext -> is_dictionary U d -> In (name, WordForm w None None) ext -> ordinary_noun w a g n ->
  (cs = [] /\ c = CASE_NOMINATIVE \/ cs = [c] /\ In c (records R_CASE) /\ ~ In (ids [c]) (dkeys ext0)) -> (v0 = WORD_CASE_UPPER -> complete w) ->
  exists x y, form_at w [NOUN_FORM_NORMAL; n; c] x /\ printed U v0 x y /\ says U ext0 ext d (variable A (tail_text cs)) y.
Proof.
  intros U ext0 ext d A name v0 w a g n cs c HU HA He Hd Hin (Ht & Ha & Hg & Hn & Hs) Hcs Hcomp. set (f := WordForm w None None) in *.
  assert (Wf := proj2 He _ _ Hin). destruct (wordform_parts f Wf) as (Ww & _). assert (Pw := is_properties_wf _ (proj1 Ww)).
  set (P := Properties (map AProp cs)). assert (HP : forall g y, holds P g y <-> In y cs /\ rel_of y = g /\ cs = [c]).
  { intros h y. subst P. destruct Hcs as [[-> _]|(-> & Hr & _)].
    - split; [intros []|intros ([] & _)].
    - split; [intros H; apply records_hold in H as [H1 H2]; auto|]. intros ([<-|[]] & <- & _). unfold holds, Properties, update. cbn. left. reflexivity. }
  set (ps := match cs with [] => [] | _ => [P] end). set (deps := match cs with [] => [] | _ => [DProps P] end).
  assert (Hwr : Forall2 (written U ext0) (tail_text cs) deps).
  { subst deps. destruct Hcs as [[-> _]|(-> & _ & Hni)]; [constructor|]. constructor; [apply written_properties, Hni|constructor]. }
  assert (Hgv : given ext deps ps []). { subst deps ps. destruct Hcs as [[-> _]|(-> & _ & _)]; [constructor|apply given_props; constructor]. }
  assert (L : layers f ps = w_props w :: ps ++ [w_props w]). { unfold layers. destruct Hcs as [[-> _]|(-> & _ & _)]; reflexivity. }
  assert (Lc : forall h o, h <> R_CASE -> value_from [w_props w] h o -> value_from (layers f ps) h o).
  { intros h o Nh H. rewrite L. inversion H as [|? ? ? ? K|? ? ? ? K1 K2]; subst; [apply vf_here, K|]. apply vf_next; [exact K1|]. subst ps.
    destruct Hcs as [[-> _]|(-> & Hr & _)]; cbn [app]; [exact H|]. apply vf_next; [|exact H]. intros y Hy. apply HP in Hy as ([<-|[]] & Hy & _). apply Nh. rewrite <- Hy. revert Hr. clear. cbn. intuition subst; reflexivity. }
  assert (Vc : value_from (layers f ps) R_CASE (Some c)).
  { rewrite L. apply vf_next; [intros y; apply Hs; cbn; auto|]. subst ps. destruct Hcs as [[-> ->]|(-> & Hr & _)]; cbn [app].
    - apply vf_next; [intros y; apply Hs; cbn; auto|]. apply vf_default.
    - apply vf_here, HP. split; [left; reflexivity|]. split; [|reflexivity]. revert Hr. clear. cbn. intuition subst; reflexivity. }
  assert (Hcomb : combined f (layers f ps) [NOUN_FORM_NORMAL; n; c]).
  { unfold combined. change (w_type (wf_word f)) with (w_type w). rewrite Ht. cbn [schema]. constructor; [|constructor; [|constructor; [exact Vc|constructor]]].
    - apply Lc; [discriminate|]. apply vf_next; [intros y; apply Hs; cbn; auto|]. apply vf_default.
    - apply Lc; [discriminate|exact Hn]. }
  assert (Hnr : In n (records R_NUMBER)) by (apply (value_in_records [w_props w]); [constructor; [exact Pw|constructor]|exact Hn]).
  assert (Hpl : exists i, place (w_type w) [NOUN_FORM_NORMAL; n; c] i).
  { rewrite Ht. cbn in Hnr. destruct Hnr as [<-|[<-|[]]]; eexists; [apply noun_singular|apply noun_plural]. }
  destruct Hpl as [i Hpl].
  destruct (C79_variable U ext0 ext d A name v0 (tail_text cs) deps f ps [] [NOUN_FORM_NORMAL; n; c] i v0 HU HA Hwr He Hd (base_external _ _ _ _ Hin) Hgv) as (t & x & T1 & T2 & T3); try assumption.
  - change (w_type (wf_word f)) with (w_type w). rewrite Ht. discriminate.
  - constructor.
  - apply vf_next; [intros y; apply Hs; cbn; auto|]. destruct HA as [id _|cc r id _ _ _ _ _]; cbn [capital_set app].
    + change (rev ps ++ [wf_props f]) with (rev ps ++ [w_props w]). destruct Hcs as [[-> _]|(-> & Hr & _)]; subst ps; cbn [rev app].
      * apply vf_next; [intros y; apply Hs; cbn; auto|]. apply vf_default.
      * apply vf_next; [|apply vf_next; [intros y; apply Hs; cbn; auto|]; apply vf_default]. intros y Hy. apply HP in Hy as ([<-|[]] & Hy & _). revert Hr Hy. clear. cbn. intuition subst; discriminate.
    + apply vf_here. unfold holds, Properties, update. cbn. auto.
  - assert (Hpr : exists y, printed U v0 x y).
    { destruct HA; [eexists; apply printed_small; discriminate|]. destruct x as [|ch r']; [|eexists; apply printed_capital]. exfalso. apply Hcomp; [reflexivity|]. exact (nth_error_In _ _ T2). }
      destruct Hpr as [y Hy]. exists x, y. split; [exists i; split; assumption|]. split; [exact Hy|]. exists t. split; [exact T1|]. exact (printed_shown U v0 _ _ y Hy T3).
Qed.

(** ** [past verb|noun] *)
Theorem C79_verb : forall U ext0 ext d id name f w a g n person,
  unicode_ok U -> small U id -> plain U name -> In name (dkeys ext0) -> good_externals ext -> is_dictionary U d -> base_form ext d id f -> written_verb f ->
  In (name, WordForm w None None) ext -> ordinary_noun w a g n ->
  exists x, form_at (wf_word f) [VERB_FORM_INDICATIVE; TIME_PAST; n; person; g] x /\ says U ext0 ext d (variable id [name]) x.
Proof.
  intros U ext0 ext d id name f w a g n person HU Hid Hnm Hin0 He Hd Hf (Vt & Vs1 & Vs2 & Vi & Vp & Vn) Hin (Ht & Ha & Hg & Hn & Hs).
  destruct (base_form_good U ext d _ f He Hd Hf) as [Wf _]. destruct (wordform_parts f Wf) as (Ww & Pf & _).
  assert (Wm := proj2 He _ _ Hin). destruct (wordform_parts _ Wm) as (Wmw & _). cbn [WordForm wf_word] in Wmw.
  assert (Hnr : In n (records R_NUMBER)) by (apply (value_in_records [w_props w]); [constructor; [apply is_properties_wf, Wmw|constructor]|exact Hn]).
  assert (Hgr : In g (records R_GENDER)) by (apply (value_in_records [w_props w]); [constructor; [apply is_properties_wf, Wmw|constructor]|apply vf_here, Hg]).
  destruct (number_entry n g Hnr) as [o Ho].
  destruct (C67_past_verb U ext0 ext d id name f (WordForm w None None) n g o HU Hid Hnm Hin0 He Hd Hf Hin Vt) as (t & i & x & T1 & T2 & T3 & T4).
  - unfold is_integer. cbn [WordForm wf_word]. rewrite Ht. discriminate.
  - intros h v Hh. apply Vs1. cbn in *. intuition.
  - intros h v Hh. apply Hs. cbn in *. intuition.
  - intros h v Hh. apply Vs2. cbn in *. intuition.
  - exact Vi.
  - exact Vp.
  - cbn [WordForm wf_props]. destruct (value_again _ [wf_props f] _ _ Hn) as [K|[K1 K2]]; [exact K|]. apply vf_next; [exact K1|].
    assert (n = NUMBER_SINGULAR) as -> by (inversion K2; subst; reflexivity). exact Vn.
  - apply vf_here, Hg.
  - exact Ho.
  - exists x. split; [|exists t; auto]. 
    assert (E : exists j, place WT_VERB [VERB_FORM_INDICATIVE; TIME_PAST; n; person; g] j /\ slot WT_VERB j [Some VERB_FORM_INDICATIVE; Some TIME_PAST; Some n; None; o]).
    { destruct Ho as [[-> ->]|[-> ->]].
      - exists 4. split; [apply (verb_past _ _ _ 3), short_plural|apply slot_by_table; vm_compute; reflexivity].
      - exists (1 + gender_no g). split; [apply verb_past, short_singular|]. cbn in Hgr. destruct Hgr as [<-|[<-|[<-|[]]]]; apply slot_by_table; vm_compute; reflexivity. }
    destruct E as (j & E1 & E2). exists j. rewrite Vt. split; [exact E1|]. assert (j = i) as -> by exact (slot_inj _ _ _ _ E2 T2). exact T3.
Qed.

(** ** "[Npc] [подарил|npc] [hero|дт] [coins] [монета|coins|вн]." *)
Lemma says_finished_variable A bs : (forall x, In x (A :: bs) -> ~ In RBR x) -> A <> [] -> finished (variable A bs).
Proof.
  intros H N. apply variable_finished. exists (join [BAR] (A :: bs)). split; [reflexivity|]. split; [destruct bs; [exact N|destruct A; [congruence|discriminate]]|].
  apply join_chars; [intros [K|[]]; discriminate|]. apply Forall_forall. exact H.
Qed.
Lemma spelled_chars U A id v : spelled U A id v -> A <> [] /\ ~ In RBR A.
Proof. intros [i [Hp _]|c r i _ _ Hch _ _]; [split; [apply Hp|apply (plain_chars U i Hp)]|]. split; [discriminate|]. intros K. apply (Hch _ K). cbn. auto. Qed.
Lemma ids_chars U vs : unicode_ok U -> ~ In RBR (ids vs).
Proof. intros HU. apply (written_chars U [] (ids vs) _ HU (written_properties U [] vs (fun H => H))). Qed.
Lemma space_finished : finished (u " ") /\ finished (u "."). Proof. split; apply literal_finished; intros H; vm_compute in H; intuition discriminate. Qed.
Lemma space_says U ext0 ext d : says U ext0 ext d (u " ") (u " ") /\ says U ext0 ext d (u ".") (u ".").
Proof. split; apply C79_literal; intros H; vm_compute in H; intuition discriminate. Qed.

Theorem C79_gift : forall U ext0 ext d Npc npc hero coins gave coin wn a g n wh a' g' n' calls cache N m fv fc ac,
  unicode_ok U -> good_externals ext -> is_dictionary U d ->
  spelled U Npc npc WORD_CASE_UPPER -> small U hero -> small U coins -> small U gave -> small U coin ->
  (forall name, In name [npc; coins] -> In name (dkeys ext0)) -> ~ In (u "дт") (dkeys ext0) -> ~ In (u "вн") (dkeys ext0) ->
  In (npc, WordForm wn None None) ext -> ordinary_noun wn a g n -> complete wn ->
  In (hero, WordForm wh None None) ext -> ordinary_noun wh a' g' n' ->
  In (coins, m) ext -> after_calls calls cache -> snd (construct_integer cache N) = Ok m ->
  base_form ext d gave fv -> written_verb fv -> base_form ext d coin fc -> written_noun fc ac ->
  exists xn yn xv xh digits i k xc,
    form_at wn [NOUN_FORM_NORMAL; n; CASE_NOMINATIVE] xn /\ printed U WORD_CASE_UPPER xn yn /\
    form_at (wf_word fv) [VERB_FORM_INDICATIVE; TIME_PAST; n; PERSON_THIRD; g] xv /\
    form_at wh [NOUN_FORM_NORMAL; n'; CASE_DATIVE] xh /\
    literal digits N /\ canonical digits /\
    counted_noun (Z.abs N) ac CASE_ACCUSATIVE DEPENDENCY_MODE_FULL k /\ slot WT_NOUN i k /\ nth_error (w_forms (wf_word fc)) i = Some xc /\
    says U ext0 ext d
      (variable Npc [] ++ u " " ++ variable gave [npc] ++ u " " ++ variable hero [u "дт"] ++ u " " ++ variable coins [] ++ u " " ++ variable coin [coins; u "вн"] ++ u ".")
      (yn ++ u " " ++ xv ++ u " " ++ xh ++ u " " ++ digits ++ u " " ++ xc ++ u ".").
Proof.
  intros U ext0 ext d Npc npc hero coins gave coin wn a g n wh a' g' n' calls cache N m fv fc ac HU He Hd HNpc Hhero Hcoins Hgave Hcoin Hnames Hdt Hvn Hin1 Hwn Cn Hin2 Hwh Hin3 Hcs HN
    Bv Wv Bc (Ct & Ca & Cs1 & Cs2 & Cc).
  assert (Hnpc : plain U npc) by (inversion HNpc; assumption).
  destruct (C79_noun U ext0 ext d Npc npc WORD_CASE_UPPER wn a g n [] CASE_NOMINATIVE HU HNpc He Hd Hin1 Hwn (or_introl (conj eq_refl eq_refl)) (fun _ => Cn)) as (xn & yn & A1 & A2 & A3).
  destruct (C79_verb U ext0 ext d gave npc fv wn a g n PERSON_THIRD HU Hgave Hnpc (Hnames _ (or_introl eq_refl)) He Hd Bv Wv Hin1 Hwn) as (xv & B1 & B2).
  destruct (C79_noun U ext0 ext d hero hero WORD_CASE_LOWER wh a' g' n' [CASE_DATIVE] CASE_DATIVE HU (spelled_small U hero Hhero) He Hd Hin2 Hwh) as (xh & yh & D1 & D2 & D3);
    [right; split; [reflexivity|]; split; [cbn; auto|exact Hdt]|discriminate|]. assert (yh = xh) as -> by (inversion D2; subst; reflexivity).
  destruct (C76_integer U ext0 ext d coins calls cache N m HU Hcoins He Hd Hin3 Hcs HN) as (tn & digits & E1 & E2 & E3 & E4).
  destruct (C74_written_noun U ext0 ext d coin coins fc calls cache N m [CASE_ACCUSATIVE] DEPENDENCY_MODE_FULL CASE_ACCUSATIVE ac HU Hcoin (proj1 Hcoins)) as (tc & i & k & xc & F1 & F2 & F3 & F4 & F5);
    try assumption.
  - apply Hnames. right; left; reflexivity.
  - constructor; [left; reflexivity|constructor].
  - intros h v Hh. apply Cs1. cbn in *. intuition.
  - intros h v Hh. apply Cs2. cbn in *. intuition.
  - apply vf_next; [intros v Hv; apply records_hold in Hv as [[<-|[]] K]; discriminate|]. apply vf_next; [intros v; apply Cs2; cbn; auto|]. apply vf_default.
  - apply vf_here. unfold holds, Properties, update. cbn. auto.
  - apply vf_here, Ca.
  - exists xn, yn, xv, xh, digits, i, k, xc. split; [exact A1|]. split; [exact A2|]. split; [exact B1|]. split; [exact D1|]. split; [exact E3|]. split; [exact E4|].
    split; [exact F2|]. split; [exact F3|]. split; [exact F4|].
    assert (R : forall x, plain U x -> ~ In RBR x) by (intros x H; apply (plain_chars U x H)).
    assert (S := space_says U ext0 ext d). assert (SF := space_finished).
    repeat match goal with |- says _ _ _ _ (_ ++ _) (_ ++ _) => apply says_app end; try (apply S || apply SF).
    + apply says_finished_variable; [intros x [<-|[]]; apply (spelled_chars U _ _ _ HNpc)|apply (spelled_chars U _ _ _ HNpc)].
    + exact A3.
    + apply says_finished_variable; [intros x [<-|[<-|[]]]; apply R; [apply Hgave|apply Hnpc]|apply Hgave].
    + exact B2.
    + apply says_finished_variable; [intros x [<-|[<-|[]]]; [apply R, Hhero|apply (ids_chars U [CASE_DATIVE] HU)]|apply Hhero].
    + exact D3.
    + apply says_finished_variable; [intros x [<-|[]]; apply R, Hcoins|apply Hcoins].
    + exists tn. auto.
    + apply says_finished_variable; [intros x [<-|[<-|[<-|[]]]]; [apply R, Hcoin|apply R, Hcoins|apply (ids_chars U [CASE_ACCUSATIVE] HU)]|apply Hcoin].
    + exists tc. auto.
Qed.

(** ** "Вчера [mob] [укусил|mob] [hero|вн]." *)
Theorem C79_bite : forall U ext0 ext d before mob hero bit wm a g n wh a' g' n' fv,
  unicode_ok U -> good_externals ext -> is_dictionary U d -> ~ In LBR before -> small U mob -> small U hero -> small U bit ->
  In mob (dkeys ext0) -> ~ In (u "вн") (dkeys ext0) ->
  In (mob, WordForm wm None None) ext -> ordinary_noun wm a g n -> In (hero, WordForm wh None None) ext -> ordinary_noun wh a' g' n' ->
  base_form ext d bit fv -> written_verb fv ->
  exists xm xv xh,
    form_at wm [NOUN_FORM_NORMAL; n; CASE_NOMINATIVE] xm /\ form_at (wf_word fv) [VERB_FORM_INDICATIVE; TIME_PAST; n; PERSON_THIRD; g] xv /\
    form_at wh [NOUN_FORM_NORMAL; n'; CASE_ACCUSATIVE] xh /\
    says U ext0 ext d (before ++ variable mob [] ++ u " " ++ variable bit [mob] ++ u " " ++ variable hero [u "вн"] ++ u ".") (before ++ xm ++ u " " ++ xv ++ u " " ++ xh ++ u ".").
Proof.
  intros U ext0 ext d before mob hero bit wm a g n wh a' g' n' fv HU He Hd Hb Hmob Hhero Hbit Hname Hvn Hin1 Hwm Hin2 Hwh Bv Wv.
  destruct (C79_noun U ext0 ext d mob mob WORD_CASE_LOWER wm a g n [] CASE_NOMINATIVE HU (spelled_small U mob Hmob) He Hd Hin1 Hwm (or_introl (conj eq_refl eq_refl))) as (xm & ym & A1 & A2 & A3);
    [discriminate|]. assert (ym = xm) as -> by (inversion A2; subst; reflexivity).
  destruct (C79_verb U ext0 ext d bit mob fv wm a g n PERSON_THIRD HU Hbit (proj1 Hmob) Hname He Hd Bv Wv Hin1 Hwm) as (xv & B1 & B2).
  destruct (C79_noun U ext0 ext d hero hero WORD_CASE_LOWER wh a' g' n' [CASE_ACCUSATIVE] CASE_ACCUSATIVE HU (spelled_small U hero Hhero) He Hd Hin2 Hwh) as (xh & yh & D1 & D2 & D3);
    [right; split; [reflexivity|]; split; [cbn; auto|exact Hvn]|discriminate|]. assert (yh = xh) as -> by (inversion D2; subst; reflexivity).
  exists xm, xv, xh. split; [exact A1|]. split; [exact B1|]. split; [exact D1|].
  assert (R : forall x, plain U x -> ~ In RBR x) by (intros x H; apply (plain_chars U x H)).
  assert (S := space_says U ext0 ext d). assert (SF := space_finished).
  repeat match goal with |- says _ _ _ _ (_ ++ _) (_ ++ _) => apply says_app end; try (apply S || apply SF).
  - apply literal_finished, Hb.
  - apply C79_literal, Hb.
  - apply says_finished_variable; [intros x [<-|[]]; apply R, Hmob|apply Hmob].
  - exact A3.
  - apply says_finished_variable; [intros x [<-|[<-|[]]]; apply R; [apply Hbit|apply Hmob]|apply Hbit].
  - exact B2.
  - apply says_finished_variable; [intros x [<-|[<-|[]]]; [apply R, Hhero|apply (ids_chars U [CASE_ACCUSATIVE] HU)]|apply Hhero].
  - exact D3.
Qed.

(** ** "[n] [красивый|n] [хомячок|n] [побежал|n] в норку", "[красивый|n|сзв] [хомячок|n|сзв] [побежал|n|сзв] в норку" *)
Theorem C79_hamsters : forall U ext0 ext d name pretty hamster ran after_text mode vs calls cache N m fa a g fn an fv gv,
  unicode_ok U -> good_externals ext -> is_dictionary U d -> small U name -> small U pretty -> small U hamster -> small U ran ->
  In name (dkeys ext0) -> written_mode mode vs -> ~ In (ids vs) (dkeys ext0) -> ~ In LBR after_text ->
  In (name, m) ext -> after_calls calls cache -> snd (construct_integer cache N) = Ok m ->
  base_form ext d pretty fa -> written_adjective fa a g -> base_form ext d hamster fn -> written_noun fn an -> base_form ext d ran fv -> written_verb fv -> value (wf_props fv) R_GENDER gv ->
  exists digits num c' xa i k xn numv xv,
    literal digits N /\ canonical digits /\
    described (Z.abs N) g CASE_NOMINATIVE mode num c' /\ form_at (wf_word fa) [ADJECTIVE_FORM_FULL; GRADE_POSITIVE; a; num; c'; g] xa /\
    counted_noun (Z.abs N) an CASE_NOMINATIVE mode k /\ slot WT_NOUN i k /\ nth_error (w_forms (wf_word fn)) i = Some xn /\
    counted_number (Z.abs N) mode numv /\ form_at (wf_word fv) [VERB_FORM_INDICATIVE; TIME_PAST; numv; PERSON_THIRD; gv] xv /\
    says U ext0 ext d (variable name []) digits /\
    says U ext0 ext d (variable pretty (name :: tail_text vs) ++ u " " ++ variable hamster (name :: tail_text vs) ++ u " " ++ variable ran (name :: tail_text vs) ++ after_text)
      (xa ++ u " " ++ xn ++ u " " ++ xv ++ after_text).
Proof.
  intros U ext0 ext d name pretty hamster ran after_text mode vs calls cache N m fa a g fn an fv gv HU He Hd Hname Hpretty Hhamster Hran Hin0 Hmode Hids Hafter Hin Hcs HN
    Ba (At & As1 & As2 & Af & Ag & Ac & Aa & Agn) Bn (Nt & Na & Ns1 & Ns2 & Nc) Bv (Vt & Vs1 & Vs2 & Vi & Vp & Vn) Vg.
  assert (Hvs : Forall (fun p => rel_of p = R_DEPENDENCY_MODE) vs) by (destruct Hmode as [|mode Hr]; [constructor|constructor; [revert Hr; clear; cbn; intuition subst; reflexivity|constructor]]).
  assert (Hcm : Forall case_or_mode vs) by (revert Hvs; apply Forall_impl; intros p Hp; right; exact Hp).
  assert (Vm : forall f : wordform, silent (wf_props f) [R_DEPENDENCY_MODE] -> value_from [Properties (map AProp vs); wf_props f] R_DEPENDENCY_MODE (Some mode)).
  { intros f Hf. destruct Hmode as [|mode Hr]; [apply vf_next; [intros v []|]; apply vf_next; [intros v; apply Hf; left; reflexivity|]; apply vf_default|].
    apply vf_here. replace R_DEPENDENCY_MODE with (rel_of mode) by (inversion Hvs; assumption). unfold holds, Properties, update. cbn. auto. }
  assert (Vc : forall (f : wordform) h v, h <> R_DEPENDENCY_MODE -> value (wf_props f) h v -> value_from [Properties (map AProp vs); wf_props f] h (Some v)).
  { intros f h v Nh Hv. apply vf_next; [|exact Hv]. intros y Hy. apply records_hold in Hy as [Hy1 Hy2]. rewrite Forall_forall in Hvs. specialize (Hvs y Hy1). congruence. }
  destruct (C76_integer U ext0 ext d name calls cache N m HU Hname He Hd Hin Hcs HN) as (tn & digits & E1 & E2 & E3 & E4).
  destruct (C74_written_noun U ext0 ext d hamster name fn calls cache N m vs mode CASE_NOMINATIVE an HU Hhamster (proj1 Hname) Hin0 Hids He Hd Bn Hin Hcs HN Hcm) as (tc & i & k & xn & F1 & F2 & F3 & F4 & F5).
  { intros h v Hh. apply Ns1. cbn in *. intuition. } { intros h v Hh. apply Ns2. cbn in *. intuition. } { apply Vm. intros h v Hh. apply Ns2. cbn in *. intuition. }
  { apply Vc; [discriminate|exact Nc]. } { exact Nt. } { apply vf_here, Na. }
  destruct (base_form_good U ext d _ fv He Hd Bv) as [Wfv _]. destruct (wordform_parts fv Wfv) as (Wwv & Pfv & _).
  destruct (base_form_good U ext d _ fa He Hd Ba) as [Wfa _]. destruct (wordform_parts fa Wfa) as (Wwa & Pfa & _).
  assert (Two : forall (f : wordform) gs h y, silent (w_props (wf_word f)) gs -> In h gs -> value (wf_props f) h y -> value_from [w_props (wf_word f); wf_props f] h (Some y)).
  { intros f gs h y H1 H2 H3. apply vf_next; [intros v; apply H1, H2|exact H3]. }
  assert (Hper : exists person, value_from [w_props (wf_word fv); wf_props fv] R_PERSON (Some person)).
  { destruct (pget_some (wf_props fv) R_PERSON) as (v & Ev & _); [apply is_properties_wf, Pfv|discriminate|]. exists v. apply (Two fv _ _ _ Vs1); [cbn; auto 10|]. unfold value.
    apply value_from_pget; [constructor; [apply is_properties_wf, Pfv|constructor]|]. rewrite pget_spec in Ev. injection Ev as Ev. rewrite <- Ev. generalize (wf_props fv). intros q. cbn. destruct (dget rel_eqb R_PERSON q); reflexivity. }
  destruct Hper as [person Hper].
  destruct (C74_written_verb U ext0 ext d ran name fv calls cache N m vs mode TIME_PAST person gv HU Hran (proj1 Hname) Hin0 Hids He Hd Bv Hin Hcs HN Hvs) as (tv & j & kv & xv & numv & G1 & G2 & G3 & G4 & G5 & G6).
  { intros h v Hh. apply Vs1. cbn in *. intuition. } { intros h v Hh. apply Vs2. cbn in *. intuition. } { apply Vm. intros h v Hh. apply Vs2. cbn in *. intuition. } { exact Vt. }
  { intros h y Hh. cbn in Hh. destruct Hh as [[= <- <-]|[[= <- <-]|[[= <- <-]|[[= <- <-]|[]]]]]; try exact Hper; apply (Two fv _ _ _ Vs1); try assumption; cbn; auto 10. }
  destruct (simple_variable U ext0 ext d pretty name fa calls cache N m vs mode CASE_NOMINATIVE HU Hpretty (proj1 Hname) Hin0 Hids He Hd Ba Hin Hcs HN Hcm) as (deps & ps & CV & LV).
  { intros h v Hh. apply As1. cbn in *. intuition. } { intros h v Hh. apply As2. cbn in *. intuition. } { apply Vm. intros h v Hh. apply As2. cbn in *. intuition. }
  { apply Vc; [discriminate|exact Ac]. }
  assert (LA : forall h y, In h [R_ADJECTIVE_FORM; R_GRADE; R_ANIMALITY; R_GENDER] -> value (wf_props fa) h y -> value_from (layers fa ps) h (Some y)).
  { intros h y Hh Hy. apply LV; try (intros ->; cbn in Hh; intuition discriminate). apply (Two fa _ _ _ As1); [|exact Hy]. cbn in *. intuition. }
  destruct (C74_attribute U ext0 ext d pretty _ deps fa ps [m] calls cache N m mode CASE_NOMINATIVE WORD_CASE_LOWER R_ADJECTIVE_FORM R_GRADE ADJECTIVE_FORM_FULL GRADE_POSITIVE a g CV)
    as (ta & ia & ka & xa & num & c' & H1 & H2 & H3 & H4 & H5 & H6).
  { rewrite At. reflexivity. } { apply LA; [cbn; auto|exact Af]. } { apply LA; [cbn; auto|exact Ag]. } { rewrite At. apply full_adjective. auto. } { apply LA; [cbn; auto|exact Aa]. }
  { apply LA; [cbn; auto|exact Agn]. }
  destruct H6 as [_ H6]. specialize (H6 ltac:(discriminate)).
  assert (Rec : forall h v, value (wf_props fa) h v -> In v (records h)) by (intros h v Hv; apply (value_in_records [wf_props fa]); [constructor; [apply is_properties_wf, Pfa|constructor]|exact Hv]).
  assert (Ra := Rec _ _ Aa). assert (Rg := Rec _ _ Agn).
  assert (Rgv : In gv (records R_GENDER)) by (apply (value_in_records [wf_props fv]); [constructor; [apply is_properties_wf, Pfv|constructor]|exact Vg]).
  exists digits, num, c', xa, i, k, xn, numv, xv. split; [exact E3|]. split; [exact E4|]. split; [exact H2|]. split.
  { assert (Rc : In c' (records R_CASE)).
    { clear -H2. inversion H2 as [? ? K| |]; subst; [|cbn; auto..]. inversion K; subst; cbn; auto 10. }
    inversion H3 as [o Ho]; subst ka. rewrite At in H4. destruct Ho as [[-> ->]|[-> ->]].
    - exists (0 + (24 * animality_no a + 18 + case_no c')). rewrite At. split; [apply adjective_positive, declined_plural|].
      assert (E : slot WT_ADJECTIVE (24 * animality_no a + 18 + case_no c') [Some ADJECTIVE_FORM_FULL; Some GRADE_POSITIVE; Some a; Some NUMBER_PLURAL; Some c'; None]).
      { clear -Ra Rc. cbn in Ra, Rc. repeat (destruct Ra as [<-|Ra]); try contradiction; repeat (destruct Rc as [<-|Rc]); try contradiction; apply slot_by_table; vm_compute; reflexivity. }
      rewrite (slot_inj _ _ _ _ E H4). exact H5.
    - exists (24 * animality_no a + 3 * case_no c' + gender_no g). rewrite At. split; [apply adjective_positive, declined_singular|].
      assert (E : slot WT_ADJECTIVE (24 * animality_no a + 3 * case_no c' + gender_no g) [Some ADJECTIVE_FORM_FULL; Some GRADE_POSITIVE; Some a; Some NUMBER_SINGULAR; Some c'; Some g]).
      { clear -Ra Rc Rg. cbn in Ra, Rc, Rg. repeat (destruct Ra as [<-|Ra]); try contradiction; repeat (destruct Rc as [<-|Rc]); try contradiction; repeat (destruct Rg as [<-|Rg]); try contradiction; apply slot_by_table; vm_compute; reflexivity. }
      rewrite (slot_inj _ _ _ _ E H4). exact H5. }
  split; [exact F2|]. split; [exact F3|]. split; [exact F4|]. split; [exact G2|]. split.
  { inversion G3 as [o Ho Ek|? [K|K]]; [|discriminate..]. subst kv. destruct Ho as [[-> ->]|[-> ->]].
    - exists 4. rewrite Vt. split; [apply (verb_past _ _ _ 3), short_plural|]. assert (E : slot WT_VERB 4 [Some VERB_FORM_INDICATIVE; Some TIME_PAST; Some NUMBER_PLURAL; None; None]) by (apply slot_by_table; vm_compute; reflexivity).
      rewrite (slot_inj _ _ _ _ E G4). exact G5.
    - exists (1 + gender_no gv). rewrite Vt. split; [apply verb_past, short_singular|].
      assert (E : slot WT_VERB (1 + gender_no gv) [Some VERB_FORM_INDICATIVE; Some TIME_PAST; Some NUMBER_SINGULAR; None; Some gv]).
      { clear -Rgv. cbn in Rgv. repeat (destruct Rgv as [<-|Rgv]); try contradiction; apply slot_by_table; vm_compute; reflexivity. }
      rewrite (slot_inj _ _ _ _ E G4). exact G5. }
  split; [exists tn; auto|].
  assert (R : forall x, plain U x -> ~ In RBR x) by (intros x H; apply (plain_chars U x H)).
  assert (S := space_says U ext0 ext d). assert (SF := space_finished).
  assert (Fin : forall x, small U x -> finished (variable x (name :: tail_text vs))).
  { intros x [Hx _]. apply says_finished_variable; [|apply Hx]. intros y [<-|[<-|Hy]]; [apply R, Hx|apply R, Hname|]. destruct vs; [destruct Hy|]. destruct Hy as [<-|[]]. apply (ids_chars U _ HU). }
  repeat match goal with |- says _ _ _ _ (_ ++ _) (_ ++ _) => apply says_app end; try (apply S || apply SF || (apply Fin; assumption)).
  - exists ta. auto.
  - exists tc. auto.
  - exists tv. auto.
  - apply C79_literal, Hafter.
Qed.

(** ** the README's words *)
Definition noun_forms (l : list str) : list str := l ++ skipn 6 l.
Definition mermaid : word := {| w_type := WT_NOUN; w_props := Properties [AProp ANIMALITY_ANIMATE; AProp GENDER_FEMININE];
  w_forms := noun_forms [u "русалка"; u "русалки"; u "русалке"; u "русалку"; u "русалкой"; u "русалке"; u "русалки"; u "русалок"; u "русалкам"; u "русалок"; u "русалками"; u "русалках"] |}.
Definition the_hero : word := {| w_type := WT_NOUN; w_props := Properties [AProp ANIMALITY_ANIMATE; AProp GENDER_MASCULINE];
  w_forms := noun_forms [u "герой"; u "героя"; u "герою"; u "героя"; u "героем"; u "герое"; u "герои"; u "героев"; u "героям"; u "героев"; u "героями"; u "героях"] |}.
Definition gold : word := {| w_type := WT_NOUN; w_props := Properties [AProp ANIMALITY_INANIMATE; AProp GENDER_FEMININE];
  w_forms := noun_forms [u "монета"; u "монеты"; u "монете"; u "монету"; u "монетой"; u "монете"; u "монеты"; u "монет"; u "монетам"; u "монеты"; u "монетами"; u "монетах"] |}.
Definition present : word := {| w_type := WT_VERB; w_props := Properties [AProp ASPECT_PERFECTIVE; AProp VOICE_DIRECT];
  w_forms := [u "подарить"; u "подарил"; u "подарило"; u "подарила"; u "подарили"] ++ repeat (u "подарю") 15 |}.
Definition dict8 : dictionary := after ru_unicode [gold; present].
Definition hundred : wordform := WordForm (integer_word 125) None None.
Definition ext8 : externals := [(u "hero", WordForm the_hero None None); (u "npc", WordForm mermaid None None); (u "coins", hundred)].
(** what the dictionary has for подарил and монета *)
Definition verb8 : wordform := WordForm present (Some (key_props [Some VERB_FORM_INDICATIVE; Some TIME_PAST; Some NUMBER_SINGULAR; None; Some GENDER_MASCULINE])) None.
Definition noun8 : wordform := WordForm gold (Some (key_props [Some NOUN_FORM_NORMAL; Some NUMBER_SINGULAR; Some CASE_NOMINATIVE])) None.
Lemma two_entries (A : Type) (a b c d : A) : [a; b] = [c; d] -> a = c /\ b = d.
Proof. intro E. injection E. auto. Qed.
Lemma dict8_entries : get_word dict8 (u "подарил") = Ok verb8 /\ get_word dict8 (u "монета") = Ok noun8.
Proof.
  assert (X : (fun d => [dget str_eqb (u "подарил") d; dget str_eqb (u "монета") d]) dict8 = [Some verb8; Some noun8]) by (vm_compute; reflexivity).
  cbv beta in X. apply two_entries in X. destruct X as [X1 X2]. unfold get_word. rewrite X1, X2. auto.
Qed.
Example C79_case : spelled ru_unicode (u "Npc") (u "npc") WORD_CASE_UPPER /\ small ru_unicode (u "hero") /\ small ru_unicode (u "подарил") /\
  ordinary_noun mermaid ANIMALITY_ANIMATE GENDER_FEMININE NUMBER_SINGULAR /\ complete mermaid /\ ordinary_noun the_hero ANIMALITY_ANIMATE GENDER_MASCULINE NUMBER_SINGULAR /\
  In (u "coins", hundred) ext8 /\ after_calls [] None /\ snd (construct_integer None 125) = Ok hundred /\
  base_form ext8 dict8 (u "подарил") verb8 /\ written_verb verb8 /\
  base_form ext8 dict8 (u "монета") noun8 /\ written_noun noun8 ANIMALITY_INANIMATE /\
  variable (u "Npc") [] ++ u " " ++ variable (u "подарил") [u "npc"] ++ u " " ++ variable (u "hero") [u "дт"] ++ u " " ++ variable (u "coins") [] ++ u " " ++
    variable (u "монета") [u "coins"; u "вн"] ++ u "." = u "[Npc] [подарил|npc] [hero|дт] [coins] [монета|coins|вн]." /\
  says ru_unicode ext8 ext8 dict8 (u "[Npc] [подарил|npc] [hero|дт] [coins] [монета|coins|вн].") (u "Русалка подарила герою 125 монет.").
Proof.
  split. { apply spelled_capital; [eapply small_text; vm_compute; reflexivity|apply trimmed_iff; vm_compute; reflexivity| |vm_compute; reflexivity|vm_compute; reflexivity].
    intros x H K. vm_compute in H, K. intuition subst; discriminate. }
  split; [eapply small_text; vm_compute; reflexivity|]. split; [eapply small_text; vm_compute; reflexivity|].
  assert (Sil : forall p gs, forallb (fun kv => negb (existsb (rel_eqb (fst kv)) gs)) p = true -> silent p gs).
  { intros p gs H g v Hg Hv. rewrite forallb_forall in H. specialize (H _ Hv). cbn [fst] in H. rewrite (proj2 (existsb_exists _ _)) in H; [discriminate|]. exists g. split; [exact Hg|apply rel_eqb_ok; reflexivity]. }
  assert (Def : forall p g v, dget rel_eqb g p = None -> default_of g = Some v -> value p g v).
  { intros p g v H1 H2. apply vf_next; [apply holds_none, H1|]. rewrite <- H2. apply vf_default. }
  split. { split; [reflexivity|]. split; [left; reflexivity|]. split; [right; left; reflexivity|]. split; [apply Def; reflexivity|]. apply Sil. vm_compute. reflexivity. }
  split. { intros H. vm_compute in H. intuition discriminate. }
  split. { split; [reflexivity|]. split; [left; reflexivity|]. split; [right; left; reflexivity|]. split; [apply Def; reflexivity|]. apply Sil. vm_compute. reflexivity. }
  split; [right; right; left; reflexivity|]. split; [constructor|]. split; [vm_compute; reflexivity|].
  assert (Nin : forall x, existsb (str_eqb x) (dkeys ext8) = false -> ~ In x (dkeys ext8)).
  { intros x H K. rewrite (proj2 (existsb_exists _ _)) in H; [discriminate|]. exists x. split; [exact K|]. apply str_eqb_ok. reflexivity. }
  split; [apply base_word; [apply Nin; vm_compute; reflexivity|apply dict8_entries]|].
  assert (Here : forall p g v, existsb (fun kv => rel_eqb g (fst kv) && prop_eqb v (snd kv)) p = true -> value p g v).
  { intros p g v H. apply existsb_exists in H as ([g' v'] & H & E). apply andb_prop in E as [E1 E2]. apply rel_eqb_ok in E1. apply prop_eqb_ok in E2. cbn [fst snd] in *. subst. apply vf_here. exact H. }
  split. { split; [vm_compute; reflexivity|]. split; [apply Sil; vm_compute; reflexivity|]. split; [apply Sil; vm_compute; reflexivity|].
    split; [apply Here; vm_compute; reflexivity|]. split; apply Here; vm_compute; reflexivity. }
  split; [apply base_word; [apply Nin; vm_compute; reflexivity|apply dict8_entries]|].
  split. { split; [vm_compute; reflexivity|]. split; [vm_compute; left; reflexivity|]. split; [apply Sil; vm_compute; reflexivity|]. split; [apply Sil; vm_compute; reflexivity|].
    apply Here; vm_compute; reflexivity. }
  split; [vm_compute; reflexivity|]. eexists. split; [vm_compute; reflexivity|].
  rewrite (substitute_entry _ _ _ dict8 (entry (u "подарил") verb8 ++ entry (u "монета") noun8)); [vm_compute; reflexivity|].
  assert (E : get_word (entry (u "подарил") verb8 ++ entry (u "монета") noun8) (u "подарил") = Ok verb8 /\ get_word (entry (u "подарил") verb8 ++ entry (u "монета") noun8) (u "монета") = Ok noun8) by (split; vm_compute; reflexivity).
  intros id Hid Hn. match type of Hid with In _ ?l => assert (L : l = [u "npc"; u "подарил"; u "hero"; u "coins"; u "монета"]) by (vm_compute; reflexivity) end. rewrite L in Hid. clear L. destruct Hid as [<-|[<-|[<-|[<-|[<-|[]]]]]]; try (exfalso; vm_compute in Hn; discriminate Hn).
  - rewrite (proj1 dict8_entries). symmetry. apply E.
  - rewrite (proj2 dict8_entries). symmetry. apply E.
Qed.
