(** * PropCounting: C74: phrases with numbers, from the text of the template to the printed words *)
From Coq Require Import Lia.
From Verif Require Import PyBase PyFloat Relations Restrictions Logic Data Words Transformators Constructors Dictionary Templates SpecProps SpecSlots SpecDictionary
  SpecAgreement SpecTemplates SpecSubstitution SpecReadme SpecIntegers SpecCounting PyBaseFacts PropsFacts SynFacts SlotFacts LookupFacts SlotTables CaseTools WordFacts DictFacts TemplateFacts SubstFacts
  AgreementFacts PropSlots PropWords PropDictionary PropSyntax PropAgreement PropIntegers PropSubstitution PropReadme.

Lemma numeral_kind n form number : (0 <= n)%Z -> numeral n form number ->
  (form = INTEGER_FORM_SINGULAR /\ like_one n) \/ (form = INTEGER_FORM_DUAL /\ two_to_four n) \/ (form = INTEGER_FORM_COMPOSITE_DUAL /\ ends_in_2_4 n) \/
  (form = INTEGER_FORM_PLURAL /\ many n) \/ (form = INTEGER_FORM_MIL_BIL /\ round_million n).
Proof.
  intros Hn H. assert (B := Z.mod_pos_bound n 100 ltac:(lia)). assert (M := mod_10_100 n).
  destruct H as [n H| |n H|n Ho Ht|n Ho Ht H|n Ho Ht H|n Ho Ht H]; unfold teens, ordinary in *.
  - do 4 right. split; [reflexivity|exact H].
  - left. split; [reflexivity|]. split; [reflexivity|discriminate].
  - right; left. split; [reflexivity|exact H].
  - do 3 right; left. split; [reflexivity|]. split; [|unfold round_million; lia]. rewrite M. revert Ht. generalize (n mod 100)%Z. intros x Hx. Z.to_euclidean_division_equations. lia.
  - left. split; [reflexivity|]. split; [exact H|lia].
  - do 2 right; left. split; [reflexivity|]. split; [|lia]. destruct (Z_lt_le_dec 4 n); [assumption|]. exfalso. assert (n = 0)%Z by lia. subst n. vm_compute in H. destruct H as [H _]. apply H. reflexivity.
  - do 3 right; left. split; [reflexivity|]. split; [lia|unfold round_million; lia].
Qed.
Lemma kinds_apart n : two_to_four n \/ ends_in_2_4 n \/ many n \/ round_million n -> ~ like_one n.
Proof.
  unfold two_to_four, ends_in_2_4, many, round_million, like_one. intros H [H1 H2]. assert (M := mod_10_100 n). assert (B := Z.mod_pos_bound n 100 ltac:(lia)).
  destruct H as [H|[H|[[H _]|[->| ->]]]]; [|lia| |discriminate H1|discriminate H1].
  - assert (n = 2 \/ n = 3 \/ n = 4)%Z as [->|[->| ->]] by lia; discriminate H1.
  - rewrite M in *. revert H1 H2 H B. clear M. generalize (n mod 100)%Z. intros x. Z.to_euclidean_division_equations. lia.
Qed.
Lemma direct_dec c : In c (records R_CASE) -> direct_case c \/ ~ direct_case c.
Proof. cbn. unfold direct_case. intros [<-|[<-|[<-|[<-|[<-|[<-|[]]]]]]]; (left; tauto) || (right; intros [?|?]; discriminate). Qed.

Section Rows.
Variables (n : Z) (form number mode c : prop).
Hypotheses (Hn : (0 <= n)%Z) (Hnum : numeral n form number) (Hmode : In mode (records R_DEPENDENCY_MODE)) (Hc : In c (records R_CASE)).
Lemma noun_row_counted a : In a (records R_ANIMALITY) -> exists nf num c', noun_row mode form c a nf num c' /\ counted_noun n a c mode [Some nf; Some num; Some c'].
Proof.
  intros Ha. assert (K := numeral_kind n form number Hn Hnum). assert (D := direct_dec c Hc). clear Hnum. cbn in Hmode.
  destruct Hmode as [<-|[<-|[]]].
  - destruct K as [[-> K]|[[-> K]|[[-> K]|[[-> K]|[-> K]]]]].
    + do 3 eexists. split; [apply nr_one|]. apply noun_full. apply one_of_them. exact K.
    + destruct D as [D|D].
      * destruct D as [->| ->].
        -- do 3 eexists. split; [apply nr_dual_nominative|]. apply noun_full. apply few_nominative. exact K.
        -- cbn in Ha. destruct Ha as [<-|[<-|[]]]; do 3 eexists; (split; [apply nr_dual_animate || apply nr_dual_accusative|]); apply noun_full; (apply few_beings || apply few_things); assumption || reflexivity.
      * do 3 eexists. split; [apply nr_dual_oblique; exact D|]. apply noun_full. apply few_oblique; assumption.
    + destruct D as [D|D]; do 3 eexists; (split; [(apply nr_composite_direct; exact D) || (apply nr_composite_oblique; exact D)|]); apply noun_full; (apply composite; assumption) || (apply composite_oblique; assumption).
    + destruct D as [D|D]; do 3 eexists; (split; [(apply nr_plural_direct; exact D) || (apply nr_plural_oblique; exact D)|]); apply noun_full; (apply many_direct; assumption) || (apply many_oblique; assumption).
    + do 3 eexists. split; [apply nr_million|]. apply noun_full. apply million_of. exact K.
  - destruct K as [[-> K]|K].
    + do 3 eexists. split; [apply nr_semantic_one|]. apply noun_semantic. apply the_one. exact K.
    + do 3 eexists. split; [apply nr_semantic_many; intros ->; repeat destruct K as [K|K]; destruct K; discriminate|]. apply noun_semantic. apply several.
      apply kinds_apart. tauto.
Qed.
Lemma adjective_row_counted g : In g (records R_GENDER) -> exists num c', adjective_row mode form c g num c' /\ described n g c mode num c' /\ (c = CASE_NOMINATIVE -> counted_number n mode num).
Proof.
  intros Hg. assert (K := numeral_kind n form number Hn Hnum). assert (D := direct_dec c Hc). clear Hnum. cbn in Hmode.
  assert (F : g = GENDER_FEMININE \/ g <> GENDER_FEMININE) by (cbn in Hg; repeat (destruct Hg as [<-|Hg]; [(left; reflexivity) || (right; discriminate)|]); destruct Hg).
  assert (ND : ~ direct_case c -> c <> CASE_NOMINATIVE) by (intros N ->; apply N; left; reflexivity).
  destruct Hmode as [<-|[<-|[]]].
  - destruct K as [[-> K]|[[-> K]|[[-> K]|[[-> K]|[-> K]]]]].
    + do 2 eexists. split; [apply ar_one|]. split; [apply adj_full, d_one, K|]. intros _. apply v_one, K.
    + destruct D as [D|D].
      * destruct F as [->|F]; do 2 eexists; (split; [(apply ar_dual_feminine; exact D) || (apply ar_dual_direct; assumption)|]);
          (split; [apply adj_full; (apply d_few_feminine; [assumption|assumption|reflexivity]) || (apply d_few; assumption)|]); intros _; apply v_full; tauto.
      * do 2 eexists. split; [apply ar_dual_oblique; exact D|]. split; [apply adj_full, d_oblique; tauto|]. intros E. destruct (ND D E).
    + destruct D as [D|D].
      * do 2 eexists. split; [apply ar_composite_direct; exact D|]. split; [apply adj_full, d_composite; tauto|]. intros _. apply v_composite, K.
      * do 2 eexists. split; [apply ar_composite_oblique; exact D|]. split; [apply adj_full, d_oblique; tauto|]. intros E. destruct (ND D E).
    + destruct D as [D|D].
      * do 2 eexists. split; [apply ar_plural_direct; exact D|]. split; [apply adj_full, d_many; tauto|]. intros _. apply v_full; tauto.
      * do 2 eexists. split; [apply ar_plural_oblique; exact D|]. split; [apply adj_full, d_oblique; tauto|]. intros E. destruct (ND D E).
    + do 2 eexists. split; [apply ar_million|]. split; [apply adj_full, d_million, K|]. intros _. apply v_full; tauto.
  - destruct K as [[-> K]|K].
    + do 2 eexists. split; [apply ar_semantic_one|]. split; [apply adj_semantic_one, K|]. intros _. apply v_one, K.
    + assert (K' : ~ like_one n) by (apply kinds_apart; tauto).
      do 2 eexists. split; [apply ar_semantic_many; intros ->; repeat destruct K as [K|K]; destruct K; discriminate|]. split; [apply adj_semantic_many, K'|]. intros _. apply v_semantic, K'.
Qed.
End Rows.

Lemma written_good U ext0 bs deps : Forall2 (written U ext0) bs deps -> good_deps deps.
Proof.
  intros H p Hp. induction H as [|b dep bs deps Hb _ IH]; [destruct Hp|]. destruct Hp as [->|Hp]; [|exact (IH Hp)].
  inversion Hb; subst. apply Properties_ok. intros q Hq. apply in_map_iff in Hq as (v & E & _). discriminate.
Qed.
Lemma integer_form_layers f ps m form : is_wordform f -> Forall is_properties ps -> only_integer m f ps -> In (wf_props m) ps -> holds (wf_props m) R_INTEGER_FORM form ->
  value_from (layers f ps) R_INTEGER_FORM (Some form).
Proof.
  intros Wf Gp [H1 H2] Hin Hh. unfold layers. apply vf_next; [intros v; apply H1; left; reflexivity|].
  assert (G : forall l, incl l ps -> In (wf_props m) l -> value_from (l ++ [wf_props f]) R_INTEGER_FORM (Some form)).
  { induction l as [|p l IH]; intros Hi Hl; [destruct Hl|]. cbn [app]. destruct (H2 p (Hi p (or_introl eq_refl))) as [->|Hs]; [apply vf_here, Hh|].
    apply vf_next; [intros v; apply Hs; left; reflexivity|]. apply IH; [intros x Hx; apply Hi; right; exact Hx|]. destruct Hl as [->|Hl]; [|exact Hl].
    exfalso. apply (Hs R_INTEGER_FORM form); [left; reflexivity|exact Hh]. }
  apply G; [intros x Hx; apply in_rev, Hx|]. rewrite <- in_rev. exact Hin.
Qed.
Lemma given_props_in ext deps ps ms m : given ext deps ps ms -> In m ms -> In (wf_props m) ps.
Proof. induction 1 as [|name f deps ps ms Hf _ IH|p deps ps ms _ IH]; [intros []|intros [->|H]; [left; reflexivity|right; auto]|intros H; right; auto]. Qed.

Section Phrases.
Variables (U : unicode) (ext0 ext : externals) (d : dictionary) (id : str) (bs : list str) (deps : list dependency) (f : wordform) (ps : list props) (ms : list wordform)
  (calls : list Z) (cache : integer_cache) (n : Z) (m : wordform) (mode c v : prop).
Hypothesis H : counted_variable U ext0 ext d id bs deps f ps ms calls cache n m mode c v.
Lemma counted_facts : exists t form number, parse_template U new_template (variable id bs) ext0 = (t, Ok tt) /\
  (forall x, get_text U {| s_id := id; s_deps := deps |} ext d = x -> substitute U t ext d = x) /\
  numeral (Z.abs n) form number /\ value_from (layers f ps) R_INTEGER_FORM (Some form) /\ In mode (records R_DEPENDENCY_MODE) /\ In c (records R_CASE) /\
  Forall props_wf (layers f ps) /\ good_deps deps /\ is_word (wf_word f).
Proof.
  destruct H as (HU & Hid & Hw & He & Hd & Hf & Hg & Hm & Hcs & Hn & Hoi & V1 & V2 & V3).
  destruct (C66_understood U ext0 id bs deps HU Hid Hw) as (t & Hp & _ & Hs).
  destruct (C45_classified calls cache n Hcs) as (m' & iform & number & E & _ & Htm & Hnum & Hif & _). rewrite Hn in E. injection E as <-.
  destruct (base_form_good U ext d _ f He Hd Hf) as [Wf _]. assert (Gd := written_good U ext0 bs deps Hw). destruct (given_good ext _ _ _ He Gd Hg) as (Gp & _).
  assert (L := layers_wf f ps Wf Gp). destruct (wordform_parts f Wf) as (Hwd & _).
  exists t, iform, number. split; [exact Hp|]. split; [intros x; apply Hs|]. split; [exact Hnum|].
  split; [|split; [exact (value_in_records _ _ _ L V1)|split; [exact (value_in_records _ _ _ L V2)|auto]]].
  apply (integer_form_layers f ps m iform Wf Gp Hoi); [|exact Hif]. apply (given_props_in _ _ _ _ _ Hg). destruct Hm as [_ (l1 & l2 & -> & _)]. apply in_app_iff. right; left; reflexivity.
Qed.
End Phrases.

(** [noun|..]: the text is parsed, and the form that belongs to the number is printed *)
Theorem C74_noun : forall U ext0 ext d id bs deps f ps ms calls cache n m mode c v a,
  counted_variable U ext0 ext d id bs deps f ps ms calls cache n m mode c v -> w_type (wf_word f) = WT_NOUN -> value_from (layers f ps) R_ANIMALITY (Some a) ->
  exists t i k x, parse_template U new_template (variable id bs) ext0 = (t, Ok tt) /\ counted_noun (Z.abs n) a c mode k /\ slot WT_NOUN i k /\
    nth_error (w_forms (wf_word f)) i = Some x /\ shown U v x (substitute U t ext d).
Proof.
  intros U ext0 ext d id bs deps f ps ms calls cache n m mode c v a H Ht Ha.
  destruct (counted_facts _ _ _ _ _ _ _ _ _ _ _ _ _ _ _ _ _ H) as (t & form & number & Hp & Hs & Hnum & Hif & Hmo & Hca & L & Gd & Hw).
  destruct H as (HU & Hid & Hwr & He & Hd & Hf & Hg & Hm & Hcs & Hn & Hoi & V1 & V2 & V3).
  destruct (noun_row_counted (Z.abs n) form number mode c ltac:(lia) Hnum Hmo Hca a (value_in_records _ _ _ L Ha)) as (nf & num & c' & Hrow & Hcn).
  destruct (C42_noun_table U {| s_id := id; s_deps := deps |} ext d f ps ms m mode form c a nf num c' v He Hd Gd Hf Hg Ht Hm V1 Hif V2 Ha V3 Hrow) as (i & x & S1 & S2 & S3).
  exists t, i, [Some nf; Some num; Some c'], x. rewrite (Hs _ eq_refl). auto.
Qed.

Lemma attribute_slot t p1 p2 a num c g k : attribute_start t p1 p2 -> In a (records R_ANIMALITY) -> In c (records R_CASE) -> In g (records R_GENDER) ->
  attribute_key p1 p2 a num c g k -> slot t (index_of t k) k.
Proof.
  intros Hs Ha Hc Hg [o Ho]. apply index_slot. cbn in Ha, Hc, Hg.
  assert (Hq : In (t, p1, p2) [(WT_ADJECTIVE, ADJECTIVE_FORM_FULL, GRADE_POSITIVE); (WT_ADJECTIVE, ADJECTIVE_FORM_FULL, GRADE_SUPERLATIVE); (WT_PARTICIPLE, PARTICIPLE_FORM_FULL, TIME_PAST);
    (WT_PARTICIPLE, PARTICIPLE_FORM_FULL, TIME_PRESENT); (WT_PARTICIPLE, PARTICIPLE_FORM_FULL, TIME_FUTURE)]).
  { destruct Hs as [q [->| ->]|q [->|[->| ->]]]; cbn [In]; tauto. }
  clear Hs. cbn [In] in Hq. (repeat (destruct Hq as [[= <- <- <-]|Hq]; [|])); [..|destruct Hq]; (destruct Ha as [<-|[<-|[]]]); (destruct Hc as [<-|[<-|[<-|[<-|[<-|[<-|[]]]]]]]); (destruct Ho as [[-> ->]|[-> ->]]; [vm_compute; reflexivity|]);
    (repeat (destruct Hg as [<-|Hg]; [vm_compute; reflexivity|])); destruct Hg.
Qed.
Lemma adjective_number mode form c g num c' : adjective_row mode form c g num c' -> In c (records R_CASE) -> In num (records R_NUMBER) /\ In c' (records R_CASE).
Proof. intros H Hc. destruct H; (split; [cbn; auto|exact Hc || (cbn; tauto)]). Qed.
Lemma number_entry num g : In num (records R_NUMBER) -> exists o, gender_entry num g o.
Proof. cbn. intros [<-|[<-|[]]]; [exists (Some g); right; auto|exists None; left; auto]. Qed.
Lemma slot_form w i k : is_word w -> slot (w_type w) i k -> exists x, nth_error (w_forms w) i = Some x.
Proof.
  intros Hw Hi. assert (L := slot_lt _ _ _ Hi). rewrite <- (word_forms_length _ Hw) in L. destruct (nth_error (w_forms w) i) as [x|] eqn:E; [eauto|]. apply nth_error_None in E. lia.
Qed.

(** [adjective|..] and [participle|..] *)
Theorem C74_attribute : forall U ext0 ext d id bs deps f ps ms calls cache n m mode c v g1 g2 p1 p2 a g,
  counted_variable U ext0 ext d id bs deps f ps ms calls cache n m mode c v ->
  firstn 2 (schema (w_type (wf_word f))) = [g1; g2] -> value_from (layers f ps) g1 (Some p1) -> value_from (layers f ps) g2 (Some p2) -> attribute_start (w_type (wf_word f)) p1 p2 ->
  value_from (layers f ps) R_ANIMALITY (Some a) -> value_from (layers f ps) R_GENDER (Some g) ->
  exists t i k x num c', parse_template U new_template (variable id bs) ext0 = (t, Ok tt) /\ described (Z.abs n) g c mode num c' /\ attribute_key p1 p2 a num c' g k /\
    slot (w_type (wf_word f)) i k /\ nth_error (w_forms (wf_word f)) i = Some x /\ shown U v x (substitute U t ext d).
Proof.
  intros U ext0 ext d id bs deps f ps ms calls cache n m mode c v g1 g2 p1 p2 a g H Hsc Hp1 Hp2 Hst Ha Hg0.
  destruct (counted_facts _ _ _ _ _ _ _ _ _ _ _ _ _ _ _ _ _ H) as (t & form & number & Hp & Hs & Hnum & Hif & Hmo & Hca & L & Gd & Hw).
  destruct H as (HU & Hid & Hwr & He & Hd & Hf & Hg & Hm & Hcs & Hn & Hoi & V1 & V2 & V3).
  destruct (adjective_row_counted (Z.abs n) form number mode c ltac:(lia) Hnum Hmo Hca g (value_in_records _ _ _ L Hg0)) as (num & c' & Hrow & Hde & _).
  destruct (adjective_number _ _ _ _ _ _ Hrow Hca) as [Hnr Hcr]. destruct (number_entry num g Hnr) as [o Ho].
  assert (Hk := attribute p1 p2 a num c' g o Ho). set (k := [Some p1; Some p2; Some a; Some num; Some c'; o]) in *.
  assert (Hsl := attribute_slot _ _ _ _ _ _ _ _ Hst (value_in_records _ _ _ L Ha) Hcr (value_in_records _ _ _ L Hg0) Hk).
  destruct (slot_form _ _ _ Hw Hsl) as [x Hx].
  exists t, (index_of (w_type (wf_word f)) k), k, x, num, c'. rewrite (Hs _ eq_refl). split; [exact Hp|]. split; [exact Hde|]. split; [exact Hk|]. split; [exact Hsl|]. split; [exact Hx|].
  assert (Hty : w_type (wf_word f) = WT_ADJECTIVE \/ w_type (wf_word f) = WT_PARTICIPLE) by (inversion Hst; auto).
  apply (C42_adjective_like_table U {| s_id := id; s_deps := deps |} ext d f ps ms m mode form c g num c' [p1; p2; a; num; c'; g] (index_of (w_type (wf_word f)) k) k x v He Hd Gd Hf Hg);
    try assumption; [unfold adjective_like; tauto| |].
  - destruct Hty as [E|E]; rewrite E in *; cbn in Hsc; injection Hsc as <- <-; cbn [schema]; repeat (constructor; [first [exact Hp1|exact Hp2|exact Ha|exact Hg0|reflexivity]|]); constructor.
  - subst k. unfold agrees. do 5 (constructor; [right; reflexivity|]). constructor; [|constructor]. destruct Ho as [[_ ->]|[_ ->]]; auto.
Qed.

(** [pronoun|..]: the number and the case are those of a noun beside the number *)
Lemma noun_number mode form c a nf num c' : noun_row mode form c a nf num c' -> In c (records R_CASE) -> In num (records R_NUMBER) /\ In c' (records R_CASE).
Proof. intros H Hc. destruct H; (split; [cbn; auto|exact Hc || (cbn; tauto)]). Qed.
Lemma pronoun_slot a num c g o : In a (records R_ANIMALITY) -> In c (records R_CASE) -> In g (records R_GENDER) -> gender_entry num g o ->
  slot WT_PRONOUN (index_of WT_PRONOUN [Some a; Some num; Some c; o]) [Some a; Some num; Some c; o].
Proof.
  intros Ha Hc Hg Ho. apply index_slot. cbn in Ha, Hc, Hg.
  (destruct Ha as [<-|[<-|[]]]); (destruct Hc as [<-|[<-|[<-|[<-|[<-|[<-|[]]]]]]]); (destruct Ho as [[-> ->]|[-> ->]]; [vm_compute; reflexivity|]);
    (repeat (destruct Hg as [<-|Hg]; [vm_compute; reflexivity|])); destruct Hg.
Qed.
Theorem C74_pronoun : forall U ext0 ext d id bs deps f ps ms calls cache n m mode c v a g,
  counted_variable U ext0 ext d id bs deps f ps ms calls cache n m mode c v -> w_type (wf_word f) = WT_PRONOUN ->
  value_from (layers f ps) R_ANIMALITY (Some a) -> value_from (layers f ps) R_GENDER (Some g) ->
  exists t i k k' x, parse_template U new_template (variable id bs) ext0 = (t, Ok tt) /\ counted_noun (Z.abs n) a c mode k /\ pronoun_key a g k k' /\ slot WT_PRONOUN i k' /\
    nth_error (w_forms (wf_word f)) i = Some x /\ shown U v x (substitute U t ext d).
Proof.
  intros U ext0 ext d id bs deps f ps ms calls cache n m mode c v a g H Ht Ha Hgen.
  destruct (counted_facts _ _ _ _ _ _ _ _ _ _ _ _ _ _ _ _ _ H) as (t & form & number & Hp & Hs & Hnum & Hif & Hmo & Hca & L & Gd & Hw).
  destruct H as (HU & Hid & Hwr & He & Hd & Hf & Hg & Hm & Hcs & Hn & Hoi & V1 & V2 & V3).
  destruct (noun_row_counted (Z.abs n) form number mode c ltac:(lia) Hnum Hmo Hca a (value_in_records _ _ _ L Ha)) as (nf & num & c' & Hrow & Hcn).
  destruct (noun_number _ _ _ _ _ _ _ Hrow Hca) as [Hnr Hcr]. destruct (number_entry num g Hnr) as [o Ho].
  assert (Hsl := pronoun_slot a num c' g o (value_in_records _ _ _ L Ha) Hcr (value_in_records _ _ _ L Hgen) Ho).
  assert (Hsl' := Hsl). rewrite <- Ht in Hsl' at 1. destruct (slot_form _ _ _ Hw Hsl') as [x Hx].
  exists t, (index_of WT_PRONOUN [Some a; Some num; Some c'; o]), [Some nf; Some num; Some c'], [Some a; Some num; Some c'; o], x. rewrite (Hs _ eq_refl).
  split; [exact Hp|]. split; [exact Hcn|]. split; [constructor; exact Ho|]. split; [exact Hsl|]. split; [exact Hx|].
  apply (C42_noun_like_table U {| s_id := id; s_deps := deps |} ext d f ps ms m mode form c a nf num c' [a; num; c'; g] (index_of WT_PRONOUN [Some a; Some num; Some c'; o]) [Some a; Some num; Some c'; o] x v He Hd Gd Hf Hg);
    try assumption; [right; exact Ht| |].
  - rewrite Ht. cbn [schema]. repeat (constructor; [first [exact Ha|exact Hgen|reflexivity]|]). constructor.
  - unfold agrees. do 3 (constructor; [right; reflexivity|]). constructor; [|constructor]. destruct Ho as [[_ ->]|[_ ->]]; auto.
Qed.

Lemma verb_slot num person g time k : In num (records R_NUMBER) -> In person (records R_PERSON) -> In g (records R_GENDER) -> verb_key num person g time k -> slot WT_VERB (index_of WT_VERB k) k.
Proof.
  intros Hn Hp Hg H. apply index_slot. cbn in Hn, Hp, Hg. destruct H as [o Ho|time Ht].
  - destruct Ho as [[-> ->]|[-> ->]]; [vm_compute; reflexivity|]. repeat (destruct Hg as [<-|Hg]; [vm_compute; reflexivity|]). destruct Hg.
  - destruct Ht as [->| ->]; destruct Hn as [<-|[<-|[]]]; (repeat (destruct Hp as [<-|Hp]; [vm_compute; reflexivity|])); destruct Hp.
Qed.
Lemma verb_key_exists num person g time : In num (records R_NUMBER) -> In time (records R_TIME) -> exists k, verb_key num person g time k.
Proof.
  intros Hn Ht. destruct (number_entry num g Hn) as [o Ho]. cbn in Ht. destruct Ht as [<-|[<-|[<-|[]]]];
  (eexists; apply past_key; exact Ho) || (eexists; apply other_key; auto).
Qed.
(** [verb|..], in the indicative mood *)
Theorem C74_verb : forall U ext0 ext d id bs deps f ps ms calls cache n m mode v time person g,
  counted_variable U ext0 ext d id bs deps f ps ms calls cache n m mode CASE_NOMINATIVE v -> w_type (wf_word f) = WT_VERB ->
  value_from (layers f ps) R_VERB_FORM (Some VERB_FORM_INDICATIVE) -> value_from (layers f ps) R_TIME (Some time) -> value_from (layers f ps) R_PERSON (Some person) ->
  value_from (layers f ps) R_GENDER (Some g) ->
  exists t i k x num, parse_template U new_template (variable id bs) ext0 = (t, Ok tt) /\ counted_number (Z.abs n) mode num /\ verb_key num person g time k /\
    slot WT_VERB i k /\ nth_error (w_forms (wf_word f)) i = Some x /\ shown U v x (substitute U t ext d).
Proof.
  intros U ext0 ext d id bs deps f ps ms calls cache n m mode v time person g H Ht Hvf Htm Hpe Hg0.
  destruct (counted_facts _ _ _ _ _ _ _ _ _ _ _ _ _ _ _ _ _ H) as (t & form & number & Hp & Hs & Hnum & Hif & Hmo & Hca & L & Gd & Hw).
  destruct H as (HU & Hid & Hwr & He & Hd & Hf & Hg & Hm & Hcs & Hn & Hoi & V1 & V2 & V3).
  destruct (adjective_row_counted (Z.abs n) form number mode CASE_NOMINATIVE ltac:(lia) Hnum Hmo Hca g (value_in_records _ _ _ L Hg0)) as (num & c' & Hrow & _ & Hnn). specialize (Hnn eq_refl).
  destruct (adjective_number _ _ _ _ _ _ Hrow Hca) as [Hnr Hcr]. destruct (verb_key_exists num person g time Hnr (value_in_records _ _ _ L Htm)) as [k Hk].
  assert (Hsl := verb_slot _ _ _ _ _ Hnr (value_in_records _ _ _ L Hpe) (value_in_records _ _ _ L Hg0) Hk). rewrite <- Ht in Hsl.
  destruct (slot_form _ _ _ Hw Hsl) as [x Hx].
  exists t, (index_of (w_type (wf_word f)) k), k, x, num. rewrite (Hs _ eq_refl). split; [exact Hp|]. split; [exact Hnn|]. split; [exact Hk|]. split; [rewrite <- Ht; exact Hsl|]. split; [exact Hx|].
  apply (C42_adjective_like_table U {| s_id := id; s_deps := deps |} ext d f ps ms m mode form CASE_NOMINATIVE g num c' [VERB_FORM_INDICATIVE; time; num; person; g] (index_of (w_type (wf_word f)) k) k x v He Hd Gd Hf Hg);
    try assumption; [unfold adjective_like; tauto| |].
  - rewrite Ht. cbn [schema]. repeat (constructor; [first [exact Hvf|exact Htm|exact Hpe|exact Hg0|reflexivity]|]); constructor.
  - unfold agrees. destruct Hk as [o Ho|time Ht']; [destruct Ho as [[_ ->]|[_ ->]]|]; repeat (constructor; [solve [auto]|]); constructor.
Qed.

(** the tables give one answer *)
Lemma kinds_disjoint n : (0 <= n)%Z ->
  (like_one n /\ ~ two_to_four n /\ ~ ends_in_2_4 n /\ ~ many n /\ ~ round_million n) \/ (~ like_one n /\ two_to_four n /\ ~ ends_in_2_4 n /\ ~ many n /\ ~ round_million n) \/
  (~ like_one n /\ ~ two_to_four n /\ ends_in_2_4 n /\ ~ many n /\ ~ round_million n) \/ (~ like_one n /\ ~ two_to_four n /\ ~ ends_in_2_4 n /\ many n /\ ~ round_million n) \/
  (~ like_one n /\ ~ two_to_four n /\ ~ ends_in_2_4 n /\ ~ many n /\ round_million n).
Proof.
  intros Hn. destruct (Z.eq_dec n 1000000) as [->|N1]; [|destruct (Z.eq_dec n 1000000000) as [->|N2]].
  - do 4 right. unfold like_one, two_to_four, ends_in_2_4, many, round_million. change (1000000 mod 10)%Z with 0%Z. change (1000000 mod 100)%Z with 0%Z. lia.
  - do 4 right. unfold like_one, two_to_four, ends_in_2_4, many, round_million. change (1000000000 mod 10)%Z with 0%Z. change (1000000000 mod 100)%Z with 0%Z. lia.
  - assert (R : ~ round_million n) by (unfold round_million; lia). destruct (Z_lt_le_dec n 5) as [L|L].
    + assert (n = 0 \/ n = 1 \/ n = 2 \/ n = 3 \/ n = 4)%Z as [->|[->|[->|[->| ->]]]] by lia; unfold like_one, two_to_four, ends_in_2_4, many, round_million in *;
        match goal with |- context [(?x mod 10)%Z] => let a := eval compute in (x mod 10)%Z in let b := eval compute in (x mod 100)%Z in change (x mod 10)%Z with a; change (x mod 100)%Z with b end; lia.
    + assert (M := mod_10_100 n). assert (B := Z.mod_pos_bound n 100 ltac:(lia)). unfold like_one, two_to_four, ends_in_2_4, many in *. rewrite M.
      revert B R L. generalize (round_million n). intros P. clear -n. generalize (n mod 100)%Z. intros x B R L. assert (X := Z.mod_pos_bound x 10 ltac:(lia)). assert (D := Z.div_mod x 10 ltac:(lia)).
      revert X D. generalize (x mod 10)%Z, (x / 10)%Z. intros y q X D.
      destruct (Z.eq_dec y 1); [destruct (Z.eq_dec x 11); [do 3 right; left|left]|]; [| |destruct (Z_le_gt_dec 2 y); [destruct (Z_le_gt_dec y 4)|]]; [| |destruct (Z_le_gt_dec 12 x); [destruct (Z_le_gt_dec x 14); [do 3 right; left|do 2 right; left]|do 2 right; left]|do 3 right; left|do 3 right; left];
        repeat split; try exact R; lia.
Qed.
Theorem C74_unique : forall n a g c mode, (0 <= n)%Z ->
  (forall k k', counted_noun n a c mode k -> counted_noun n a c mode k' -> k' = k) /\
  (forall num c' num2 c2, described n g c mode num c' -> described n g c mode num2 c2 -> num2 = num /\ c2 = c') /\
  (forall num num2, counted_number n mode num -> counted_number n mode num2 -> num2 = num).
Proof.
  intros n a g c mode Hn. assert (K := kinds_disjoint n Hn). assert (DN : direct_case CASE_NOMINATIVE) by (left; reflexivity). assert (DA : direct_case CASE_ACCUSATIVE) by (right; reflexivity).
  split; [|split].
  - intros k k' H H'. destruct H as [k H|k H]; inversion H' as [? H2|? H2]; subst; destruct H; inversion H2; subst; try reflexivity; try tauto; try discriminate; exfalso; tauto.
  - intros num c' num2 c2 H H'. destruct H as [num c' H|H|H]; inversion H' as [? ? H2|H2|H2]; subst; try (split; reflexivity); try tauto.
    destruct H; inversion H2; subst; try (split; reflexivity); try tauto; exfalso; tauto.
  - intros num num2 H H'. destruct H; inversion H'; subst; try reflexivity; exfalso; tauto.
Qed.

(** [noun|coins] and [noun|coins|вн], [noun|coins|сзв], [noun|coins|дт,сзв]: vs are the written properties *)
Lemma records_hold vs g v : holds (Properties (map AProp vs)) g v -> In v vs /\ rel_of v = g.
Proof.
  intros H. assert (W : wf_args (map AProp vs)) by (intros q Hq; apply in_map_iff in Hq as (x & E & _); discriminate).
  apply holds_dget in H; [|apply wf_Properties, W]. rewrite dget_Properties in H by exact W. revert H. clear W. induction vs as [|x vs IH]; [discriminate|].
  cbn [map args_get]. destruct (args_get g (map AProp vs)) as [y|]; [intros [= ->]; destruct (IH eq_refl); split; [right|]; assumption|].
  cbn [arg_get]. destruct (rel_eqb (rel_of x) g) eqn:E; [|discriminate]. intros [= ->]. apply rel_eqb_ok in E. split; [left; reflexivity|exact E].
Qed.
Lemma simple_variable U ext0 ext d id name f calls cache n m vs mode c :
  unicode_ok U -> small U id -> plain U name -> In name (dkeys ext0) -> ~ In (ids vs) (dkeys ext0) -> good_externals ext -> is_dictionary U d -> base_form ext d id f ->
  In (name, m) ext -> after_calls calls cache -> snd (construct_integer cache n) = Ok m -> Forall case_or_mode vs ->
  silent (w_props (wf_word f)) [R_DEPENDENCY_MODE; R_WORD_CASE; R_INTEGER_FORM; R_CASE] -> silent (wf_props f) [R_WORD_CASE] ->
  value_from [Properties (map AProp vs); wf_props f] R_DEPENDENCY_MODE (Some mode) -> value_from [Properties (map AProp vs); wf_props f] R_CASE (Some c) ->
  exists deps ps, counted_variable U ext0 ext d id (name :: tail_text vs) deps f ps [m] calls cache n m mode c WORD_CASE_LOWER /\
    forall g o, g <> R_CASE -> g <> R_DEPENDENCY_MODE -> g <> R_NUMBER -> g <> R_INTEGER_FORM -> value_from [w_props (wf_word f); wf_props f] g o -> value_from (layers f ps) g o.
Proof.
  intros HU Hid Hnm Hin0 Hni He Hd Hf Hm Hcs Hn Hvs Hs1 Hs2 Vm Vc. set (P := Properties (map AProp vs)) in *.
  destruct (C45_classified calls cache n Hcs) as (m' & iform & number & E & _ & Htm & Hnum & Hif & _). rewrite Hn in E. injection E as <-.
  assert (Hraw := Hn). rewrite (proj1 (C47_histories calls cache n Hcs)) in Hraw.
  assert (Hint : forall g v, g <> R_NUMBER -> g <> R_INTEGER_FORM -> ~ holds (wf_props m) g v) by (intros g v N1 N2 H; destruct (integer_holds n m g v Hraw H); contradiction).
  assert (HP : forall g v, holds P g v -> g = R_CASE \/ g = R_DEPENDENCY_MODE).
  { intros g v H. apply records_hold in H as [H <-]. rewrite Forall_forall in Hvs. exact (Hvs v H). }
  assert (HPn : vs = [] -> P = []) by (intros ->; reflexivity).
  set (deps := DExt name :: match vs with [] => [] | _ => [DProps P] end). set (ps := wf_props m :: match vs with [] => [] | _ => [P] end).
  assert (L : forall g o, value_from [w_props (wf_word f); P; wf_props m; wf_props f] g o -> value_from (layers f ps) g o).
  { intros g o H. unfold layers, ps. clearbody P. destruct vs as [|x vs]; [|exact H]. rewrite (HPn eq_refl) in H. cbn [rev app].
    inversion H as [|? ? ? ? K|? ? ? ? K1 K2]; subst; [apply vf_here, K|]. apply vf_next; [exact K1|]. inversion K2; subst; [contradiction|assumption]. }
  exists deps, ps. split; [|].
  - unfold counted_variable. split; [exact HU|]. split; [exact Hid|]. split; [|split; [exact He|split; [exact Hd|split; [exact Hf|]]]].
    { constructor; [apply written_name; assumption|]. destruct vs; constructor; [apply written_properties, Hni|constructor]. }
    split. { apply given_external; [exact Hm|]. destruct vs; [constructor|]. apply given_props. constructor. }
    split. { split; [exact Htm|]. exists [], []. split; [reflexivity|constructor]. }
    split; [exact Hcs|]. split; [exact Hn|]. split.
    { split; [intros g v [<-|[]]; apply Hs1; cbn; auto|]. intros p [<-|Hp]; [left; reflexivity|]. right. assert (p = P) as -> by (destruct vs; [destruct Hp|destruct Hp as [<-|[]]; reflexivity]).
      intros g v [<-|[]] H. destruct (HP _ _ H); discriminate. }
    assert (G : forall g y, In g [R_DEPENDENCY_MODE; R_WORD_CASE; R_CASE] -> value_from [P; wf_props f] g (Some y) -> value_from (layers f ps) g (Some y)).
    { intros g y Hg H. apply L. apply vf_next; [intros v; apply Hs1; cbn in *; intuition|]. inversion H as [|? ? ? ? K|? ? ? ? K1 K2]; subst; [apply vf_here, K|].
      apply vf_next; [exact K1|]. apply vf_next; [|exact K2]. intros v. apply Hint; intros ->; cbn in Hg; intuition discriminate. }
    split; [apply G; [cbn; auto|exact Vm]|]. split; [apply G; [cbn; auto|exact Vc]|]. apply G; [cbn; auto|].
    apply vf_next; [intros v H; destruct (HP _ _ H); discriminate|]. apply vf_next; [intros v; apply Hs2; left; reflexivity|]. apply vf_default.
  - intros g o N1 N2 N3 N4 H. apply L. inversion H as [|? ? ? ? K|? ? ? ? K1 K2]; subst; [apply vf_here, K|]. apply vf_next; [exact K1|].
    apply vf_next; [intros v Hv; destruct (HP _ _ Hv); contradiction|]. apply vf_next; [intros v; apply Hint; assumption|exact K2].
Qed.
Theorem C74_written_noun : forall U ext0 ext d id name f calls cache n m vs mode c a,
  unicode_ok U -> small U id -> plain U name -> In name (dkeys ext0) -> ~ In (ids vs) (dkeys ext0) -> good_externals ext -> is_dictionary U d -> base_form ext d id f ->
  In (name, m) ext -> after_calls calls cache -> snd (construct_integer cache n) = Ok m -> Forall case_or_mode vs ->
  silent (w_props (wf_word f)) [R_DEPENDENCY_MODE; R_WORD_CASE; R_INTEGER_FORM; R_CASE] -> silent (wf_props f) [R_WORD_CASE] ->
  value_from [Properties (map AProp vs); wf_props f] R_DEPENDENCY_MODE (Some mode) -> value_from [Properties (map AProp vs); wf_props f] R_CASE (Some c) ->
  w_type (wf_word f) = WT_NOUN -> value_from [w_props (wf_word f); wf_props f] R_ANIMALITY (Some a) ->
  exists t i k x, parse_template U new_template (variable id (name :: tail_text vs)) ext0 = (t, Ok tt) /\ counted_noun (Z.abs n) a c mode k /\ slot WT_NOUN i k /\
    nth_error (w_forms (wf_word f)) i = Some x /\ substitute U t ext d = Ok x.
Proof.
  intros U ext0 ext d id name f calls cache n m vs mode c a HU Hid Hnm Hin0 Hni He Hd Hf Hm Hcs Hn Hvs Hs1 Hs2 Vm Vc Ht Ha.
  destruct (simple_variable U ext0 ext d id name f calls cache n m vs mode c) as (deps & ps & H & L); try assumption.
  destruct (C74_noun _ _ _ _ _ _ _ _ _ _ _ _ _ _ _ _ _ a H Ht) as (t & i & k & x & K1 & K2 & K3 & K4 & K5); [apply L; [discriminate..|exact Ha]|].
  exists t, i, k, x. split; [exact K1|]. split; [exact K2|]. split; [exact K3|]. split; [exact K4|]. apply K5. discriminate.
Qed.
(** [verb|n] and [verb|n|сзв] *)
Theorem C74_written_verb : forall U ext0 ext d id name f calls cache n m vs mode time person g,
  unicode_ok U -> small U id -> plain U name -> In name (dkeys ext0) -> ~ In (ids vs) (dkeys ext0) -> good_externals ext -> is_dictionary U d -> base_form ext d id f ->
  In (name, m) ext -> after_calls calls cache -> snd (construct_integer cache n) = Ok m -> Forall (fun p => rel_of p = R_DEPENDENCY_MODE) vs ->
  silent (w_props (wf_word f)) [R_DEPENDENCY_MODE; R_WORD_CASE; R_INTEGER_FORM; R_CASE] -> silent (wf_props f) [R_WORD_CASE; R_CASE] ->
  value_from [Properties (map AProp vs); wf_props f] R_DEPENDENCY_MODE (Some mode) -> w_type (wf_word f) = WT_VERB ->
  (forall h y, In (h, y) [(R_VERB_FORM, VERB_FORM_INDICATIVE); (R_TIME, time); (R_PERSON, person); (R_GENDER, g)] -> value_from [w_props (wf_word f); wf_props f] h (Some y)) ->
  exists t i k x num, parse_template U new_template (variable id (name :: tail_text vs)) ext0 = (t, Ok tt) /\ counted_number (Z.abs n) mode num /\ verb_key num person g time k /\
    slot WT_VERB i k /\ nth_error (w_forms (wf_word f)) i = Some x /\ substitute U t ext d = Ok x.
Proof.
  intros U ext0 ext d id name f calls cache n m vs mode time person g HU Hid Hnm Hin0 Hni He Hd Hf Hm Hcs Hn Hvs Hs1 Hs2 Vm Ht Hv.
  destruct (simple_variable U ext0 ext d id name f calls cache n m vs mode CASE_NOMINATIVE) as (deps & ps & H & L); try assumption.
  - eapply Forall_impl; [|exact Hvs]. intros p Hp. right. exact Hp.
  - intros h y [<-|[]]. apply Hs2. left; reflexivity.
  - apply vf_next; [intros v K; apply records_hold in K as [K1 K2]; rewrite Forall_forall in Hvs; specialize (Hvs v K1); cbn beta in Hvs; congruence|].
    apply vf_next; [intros v; apply Hs2; right; left; reflexivity|]. apply vf_default.
  - destruct (C74_verb _ _ _ _ _ _ _ _ _ _ _ _ _ _ _ _ time person g H Ht) as (t & i & k & x & num & K1 & K2 & K3 & K4 & K5 & K6); try (apply L; [discriminate..|apply Hv; cbn; tauto]).
    exists t, i, k, x, num. split; [exact K1|]. split; [exact K2|]. split; [exact K3|]. split; [exact K4|]. split; [exact K5|]. apply K6. discriminate.
Qed.
(** FINDING: beside 22, 33, 104, ... the verb is printed in the singular *)
Theorem C74_composite_verb_is_singular : forall U ext0 ext d id name f calls cache n m person g,
  unicode_ok U -> small U id -> plain U name -> In name (dkeys ext0) -> ~ In [] (dkeys ext0) -> good_externals ext -> is_dictionary U d -> base_form ext d id f ->
  In (name, m) ext -> after_calls calls cache -> snd (construct_integer cache n) = Ok m ->
  silent (w_props (wf_word f)) [R_DEPENDENCY_MODE; R_WORD_CASE; R_INTEGER_FORM; R_CASE] -> silent (wf_props f) [R_WORD_CASE; R_CASE; R_DEPENDENCY_MODE] -> w_type (wf_word f) = WT_VERB ->
  (forall h y, In (h, y) [(R_VERB_FORM, VERB_FORM_INDICATIVE); (R_TIME, TIME_PAST); (R_PERSON, person); (R_GENDER, g)] -> value_from [w_props (wf_word f); wf_props f] h (Some y)) ->
  ends_in_2_4 (Z.abs n) ->
  exists t i x, parse_template U new_template (variable id [name]) ext0 = (t, Ok tt) /\
    slot WT_VERB i [Some VERB_FORM_INDICATIVE; Some TIME_PAST; Some NUMBER_SINGULAR; None; Some g] /\ nth_error (w_forms (wf_word f)) i = Some x /\ substitute U t ext d = Ok x.
Proof.
  intros U ext0 ext d id name f calls cache n m person g HU Hid Hnm Hin0 Hni He Hd Hf Hm Hcs Hn Hs1 Hs2 Ht Hv Hk.
  destruct (C74_written_verb U ext0 ext d id name f calls cache n m [] DEPENDENCY_MODE_FULL TIME_PAST person g) as (t & i & k & x & num & K1 & K2 & K3 & K4 & K5 & K6); try assumption.
  - constructor.
  - intros h y [<-|[<-|[]]]; apply Hs2; cbn; auto.
  - apply vf_next; [intros v []|]. apply vf_next; [intros v; apply Hs2; cbn; auto|]. apply vf_default.
  - exists t, i, x. split; [exact K1|].
    assert (E : num = NUMBER_SINGULAR) by exact (proj2 (proj2 (C74_unique (Z.abs n) g g CASE_NOMINATIVE DEPENDENCY_MODE_FULL ltac:(lia))) NUMBER_SINGULAR num (v_composite _ Hk) K2).
    subst num. inversion K3 as [o Ho|? [?|?]]; subst; try discriminate. destruct Ho as [[? _]|[_ ->]]; [discriminate|]. auto.
Qed.

(** "5 красивых хомячков побежали", "22 ..": the words of PropReadme *)
Definition twenty_two : wordform := WordForm (integer_word 22) None None.
Definition dict6 : dictionary := after ru_unicode [knight].
Definition ext6 : externals := [(u "n", five); (u "m", twenty_two)].
Definition plural_bit : str := text_of bit [Some VERB_FORM_INDICATIVE; Some TIME_PAST; Some NUMBER_PLURAL; None; None].
Definition print6 (w : word) (text : str) : result str := substitute ru_unicode (fst (parse_template ru_unicode new_template text ext6)) ext6 (after ru_unicode [w]).
Example C74_case : exists f, base_form ext6 dict6 (u "рыцарь0") f /\ small ru_unicode (u "рыцарь0") /\ plain ru_unicode (u "n") /\ after_calls [] None /\ snd (construct_integer None 5) = Ok five /\
  Forall case_or_mode [CASE_ACCUSATIVE; DEPENDENCY_MODE_FULL] /\ ids [CASE_ACCUSATIVE; DEPENDENCY_MODE_FULL] = u "вн,пзв" /\
  silent (w_props (wf_word f)) [R_DEPENDENCY_MODE; R_WORD_CASE; R_INTEGER_FORM; R_CASE] /\ silent (wf_props f) [R_WORD_CASE] /\ w_type (wf_word f) = WT_NOUN /\
  value_from [w_props (wf_word f); wf_props f] R_ANIMALITY (Some ANIMALITY_ANIMATE) /\ many 5 /\ ends_in_2_4 22 /\
  print6 knight (u "[рыцарь0|n|вн,пзв]") = Ok (text_of knight [Some NOUN_FORM_COUNTABLE; Some NUMBER_PLURAL; Some CASE_GENITIVE]) /\
  print6 knight (u "[рыцарь0|n|вн,сзв]") = Ok (text_of knight [Some NOUN_FORM_NORMAL; Some NUMBER_PLURAL; Some CASE_ACCUSATIVE]) /\
  print6 knight (u "[рыцарь0|m]") = Ok (text_of knight [Some NOUN_FORM_NORMAL; Some NUMBER_SINGULAR; Some CASE_GENITIVE]) /\
  print6 handsome (u "[красивый0|m]") = Ok (text_of handsome [Some ADJECTIVE_FORM_FULL; Some GRADE_POSITIVE; Some ANIMALITY_ANIMATE; Some NUMBER_SINGULAR; Some CASE_GENITIVE; Some GENDER_MASCULINE]) /\
  print6 bit ([LBR] ++ plural_bit ++ u "|n]") = Ok plural_bit /\
  print6 bit ([LBR] ++ plural_bit ++ u "|m]") = Ok (text_of bit [Some VERB_FORM_INDICATIVE; Some TIME_PAST; Some NUMBER_SINGULAR; None; Some GENDER_MASCULINE]) /\
  print6 bit ([LBR] ++ plural_bit ++ u "|m|сзв]") = Ok plural_bit.
Proof.
  assert (B : get_word (after ru_unicode [bit]) plural_bit = Ok (WordForm bit (Some (key_props [Some VERB_FORM_INDICATIVE; Some TIME_PAST; Some NUMBER_PLURAL; None; None])) None)) by (vm_compute; reflexivity).
  eexists. split; [apply base_word; [intros H; vm_compute in H; repeat (destruct H as [[=]|H]); destruct H|vm_compute; reflexivity]|].
  split; [eapply small_text; vm_compute; reflexivity|]. split; [eapply small_text; vm_compute; reflexivity|]. split; [constructor|]. split; [exact five_constructed|].
  split; [constructor; [left; reflexivity|constructor; [right; reflexivity|constructor]]|]. split; [reflexivity|]. split; [silent_tac|]. split; [silent_tac|]. split; [reflexivity|]. split; [apply vf_here; cbn; auto 10|].
  split; [unfold many, round_million; split; [right; left; vm_compute; discriminate|lia]|]. split; [unfold ends_in_2_4; change (22 mod 10)%Z with 2%Z; change (22 mod 100)%Z with 22%Z; lia|].
  split; [vm_compute; reflexivity|]. split; [vm_compute; reflexivity|]. split; [vm_compute; reflexivity|]. split; [vm_compute; reflexivity|].
  unfold print6. split; [|split]; rewrite (substitute_known _ _ _ _ _ _ B) by (vm_compute; reflexivity); vm_compute; reflexivity.
Qed.
(** [они..|n]: a pronoun beside 5 and 22 *)
Definition he : word := {| w_type := WT_PRONOUN; w_forms := slot_texts WT_PRONOUN (u "он"); w_props := Properties [AProp PRONOUN_CATEGORY_PERSONAL] |}.
Definition dict6p : dictionary := after ru_unicode [he].
Definition print6p (text : str) : result str := substitute ru_unicode (fst (parse_template ru_unicode new_template text ext6)) ext6 dict6p.
Example C74_pronoun_case : exists f, base_form ext6 dict6p (u "он0") f /\ w_type (wf_word f) = WT_PRONOUN /\ value_from [w_props (wf_word f); wf_props f] R_ANIMALITY (Some ANIMALITY_ANIMATE) /\
  print6p (u "[он0|n]") = Ok (text_of he [Some ANIMALITY_ANIMATE; Some NUMBER_PLURAL; Some CASE_GENITIVE; None]) /\
  print6p (u "[он0|m]") = Ok (text_of he [Some ANIMALITY_ANIMATE; Some NUMBER_SINGULAR; Some CASE_GENITIVE; Some GENDER_MASCULINE]) /\
  print6p (u "[он0|m|дт]") = Ok (text_of he [Some ANIMALITY_ANIMATE; Some NUMBER_PLURAL; Some CASE_DATIVE; None]).
Proof.
  eexists. split; [apply base_word; [intros H; vm_compute in H; repeat (destruct H as [[=]|H]); destruct H|vm_compute; reflexivity]|].
  split; [reflexivity|]. split; [apply vf_next; [intros y Hy; cbn in Hy; repeat (destruct Hy as [[=]|Hy]); destruct Hy|]; apply vf_here; cbn; auto 10|].
  repeat split; vm_compute; reflexivity.
Qed.
