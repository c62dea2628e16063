(** * PropReadme: C66, C67: variables as described in the README *)
From Coq Require Import Lia.
From Verif Require Import PyBase PyFloat Relations Restrictions Logic Data Words Transformators Constructors Dictionary Templates SpecProps SpecSlots SpecDictionary
  SpecAgreement SpecTemplates SpecSubstitution SpecReadme PyBaseFacts PropsFacts SynFacts SlotFacts LookupFacts SlotTables CaseTools WordFacts DictFacts TemplateFacts SubstFacts
  AgreementFacts PropSlots PropWords PropDictionary PropSyntax PropAgreement PropSubstitution.

(** ** C66 *)
(** a variable written with names of externals and lists of properties is understood as such *)
Lemma plain_chars U x : plain U x -> ~ In BAR x /\ ~ In RBR x /\ ~ In PERCENT x.
Proof. intros (_ & _ & _ & H). repeat split; intros K; apply (H _ K); cbn; auto. Qed.
Lemma ids_trimmed U vs : unicode_ok U -> u_lower U (ids vs) = ids vs /\ trimmed U (ids vs) (ids vs).
Proof.
  intros [H1 H2]. assert (C := join_ids_chars vs). split; [apply H1, C|]. exists [], []. rewrite app_nil_r. split; [reflexivity|].
  split; [constructor|]. split; [constructor|]. rewrite Forall_forall in C. split; intros c r E; apply H2, C; fold (ids vs); rewrite E; [left; reflexivity|apply in_app_iff; right; left; reflexivity].
Qed.
Lemma identifiers_map vs : identifiers (map verbose_id vs) vs.
Proof. induction vs; simpl; constructor; assumption. Qed.
Lemma ids_property_list vs : property_list (ids vs) vs.
Proof.
  destruct vs as [|v vs].
  - exists [[]]. split; [split; [discriminate|split; [reflexivity|constructor; [intros []|constructor]]]|constructor; constructor].
  - exists (map verbose_id (v :: vs)). split; [|apply identifiers_map]. split; [discriminate|]. split; [reflexivity|].
    apply Forall_forall. intros e He. apply in_map_iff in He as (p & <- & _). apply verbose_id_no_comma.
Qed.
Lemma written_reads U ext b dep : unicode_ok U -> written U ext b dep -> reads U ext b dep.
Proof.
  intros HU [name (H1 & H2 & H3 & _) Hin|vs Hn].
  - apply reads_external; [rewrite H2; exact H3|exact Hin].
  - destruct (ids_trimmed U vs HU) as [E T]. apply (reads_properties U ext (ids vs) (ids vs) vs); [rewrite E; exact T|exact Hn|apply ids_property_list].
Qed.
Lemma written_chars U ext b dep : unicode_ok U -> written U ext b dep -> ~ In BAR b /\ ~ In RBR b /\ ~ In PERCENT b.
Proof. intros HU [name H _|vs _]; [exact (plain_chars U name H)|]. repeat split; apply join_ids_free; try reflexivity; discriminate. Qed.
Lemma join_chars c sep l : ~ In c sep -> Forall (fun x => ~ In c x) l -> ~ In c (join sep l).
Proof.
  intros Hs H. induction H as [|x l Hx Hl IH]; [intros []|]. destruct l as [|y l]; [simpl; exact Hx|]. change (join sep (x :: y :: l)) with (x ++ sep ++ join sep (y :: l)).
  rewrite !in_app_iff. tauto.
Qed.
Theorem C66_understood : forall U ext0 id bs deps, unicode_ok U -> small U id -> Forall2 (written U ext0) bs deps ->
  exists t, parse_template U new_template (variable id bs) ext0 = (t, Ok tt) /\ t_subs t = [{| s_id := id; s_deps := deps |}] /\
    forall ext d x, get_text U {| s_id := id; s_deps := deps |} ext d = x -> substitute U t ext d = x.
Proof.
  intros U ext0 id bs deps HU [Hp Hup] Hw. assert (Hpc := plain_chars U id Hp). assert (Hp' := Hp). destruct Hp' as (Hne & Hl & Ht & _).
  destruct id as [|c r]; [congruence|].
  assert (Hnb : forall y, In y [BAR; RBR; PERCENT] -> Forall (fun x => ~ In y x) ((c :: r) :: bs)).
  { intros y Hy. constructor; [destruct Hy as [<-|[<-|[<-|[]]]]; apply Hpc|]. clear -HU Hw Hy. induction Hw as [|b dep bs deps Hb _ IH]; constructor; [|exact IH].
    assert (K := written_chars U ext0 b dep HU Hb). destruct Hy as [<-|[<-|[<-|[]]]]; apply K. }
  assert (E := C30_parsed U ext0 (c :: r) bs c r deps (Hnb BAR (or_introl eq_refl)) Ht).
  rewrite (Hup c r eq_refl), Hl, app_nil_r in E. specialize (E ltac:(revert Hw; apply Forall2_impl'; intros; apply written_reads; assumption)).
  exists {| t_subs := [{| s_id := c :: r; s_deps := deps |}]; t_text := Some (u "%s") |}. split.
  - unfold variable. apply parse_one.
    + destruct bs; discriminate.
    + apply join_chars; [intros [K|[]]; discriminate|apply Hnb; right; left; reflexivity].
    + apply join_chars; [intros [K|[]]; discriminate|apply Hnb; right; right; left; reflexivity].
    + rewrite variable_is in E. exact E.
  - split; [reflexivity|]. intros ext d x Hx. unfold substitute. cbn [t_subs t_text mapM]. rewrite Hx. destruct x as [x|e]; [|reflexivity]. cbn [bind].
    change (u "%s") with [37%N; 115%N]. cbn [py_format N.eqb Pos.eqb bind]. rewrite app_nil_r. reflexivity.
Qed.

(** the form of the slot that fits is printed *)
Lemma fits_agrees f ps k c : is_wordform f -> Forall is_properties ps -> fits f ps k ->
  Forall2 (fun g x => value_from (layers f ps) g (Some x)) (schema (w_type (wf_word f))) c -> agrees c k.
Proof.
  intros Wf Gp. unfold fits, agrees. generalize (schema (w_type (wf_word f))). intros sch Hk. revert c. induction Hk as [|g o sch k Ho _ IH]; intros c Hc; inversion Hc as [|? x ? c' Hx Hc']; subst; constructor.
  - destruct o as [p|]; [right|left; reflexivity]. specialize (Ho p eq_refl). assert (K := value_from_fun _ _ _ _ (layers_wf f ps Wf Gp) Ho Hx). congruence.
  - apply IH, Hc'.
Qed.
Lemma quiet_text U s ext d f ps ms i k x v :
  good_externals ext -> is_dictionary U d -> good_deps (s_deps s) -> base_form ext d (s_id s) f -> given ext (s_deps s) ps ms ->
  (forall m q, In m ms -> transform U (wf_word f) q m = Ok q) ->
  fits f ps k -> slot (w_type (wf_word f)) i k -> nth_error (w_forms (wf_word f)) i = Some x ->
  value_from (layers f ps) R_WORD_CASE (Some v) -> shown U v x (get_text U s ext d).
Proof.
  intros He Hd Hs Hf Hg Hq Hk Hsl Hx Hv. destruct (base_form_good U ext d _ f He Hd Hf) as [Wf _]. destruct (wordform_parts f Wf) as (Hw & _).
  destruct (given_good ext _ _ _ He Hs Hg) as (Gp & _). rewrite (get_text_eq U s ext d f ps ms He Hd Hf Hg), fold_quiet by exact Hq. cbn [bind].
  assert (Gm := merged_good f ps Wf Gp).
  destruct (values_exist (merged f ps) (schema (w_type (wf_word f))) (schema_no_word_type _)) as [c Hc].
  assert (Ha : agrees c k). { apply (fits_agrees f ps k c Wf Gp Hk). revert Hc. apply Forall2_impl'. intros g y. apply merged_pget; assumption. }
  destruct (word__form_slot (wf_word f) (merged f ps) c i k Hw Gm Hc Hsl Ha) as (form & F1 & F2). rewrite Hx in F2. injection F2 as <-.
  apply get_form_shown; [exact Gm| |exact F1]. apply merged_pget; assumption.
Qed.
Theorem C37_slot : forall U s ext d f ps ms i k x v,
  good_externals ext -> is_dictionary U d -> good_deps (s_deps s) -> base_form ext d (s_id s) f -> given ext (s_deps s) ps ms ->
  w_type (wf_word f) <> WT_PREPOSITION -> (noun_like (w_type (wf_word f)) \/ adjective_like (w_type (wf_word f)) -> Forall (fun m => ~ is_integer m) ms) ->
  fits f ps k -> slot (w_type (wf_word f)) i k -> nth_error (w_forms (wf_word f)) i = Some x ->
  value_from (layers f ps) R_WORD_CASE (Some v) -> shown U v x (get_text U s ext d).
Proof.
  intros U s ext d f ps ms i k x v He Hd Hs Hf Hg Hnp Hq. apply (quiet_text U s ext d f ps ms); try assumption.
  intros m q Hm. apply C44_identity; [exact Hnp|]. intros X. specialize (Hq X). rewrite Forall_forall in Hq. exact (Hq m Hm).
Qed.

(** every form of a word can be printed: write the identifiers of its slot after the name or the word *)
Lemma key_values_mem k v : In v (key_values k) <-> In (Some v) k.
Proof.
  unfold key_values. rewrite in_flat_map. split.
  - intros ([p|] & H & Hv); [destruct Hv as [<-|[]]; exact H|destruct Hv].
  - intros H. exists (Some v). split; [exact H|left; reflexivity].
Qed.
Lemma key_values_props k : Properties (map AProp (key_values k)) = key_props k.
Proof.
  unfold key_props, Properties, update. generalize ([] : props). induction k as [|[p|] k IH]; intros q; [reflexivity| |]; simpl; apply IH.
Qed.
Lemma key_entry t i k j g o : slot t i k -> nth_error (schema t) j = Some g -> nth_error k j = Some o -> forall p, o = Some p -> rel_of p = g.
Proof.
  intros Hk Hg Ho p ->. destruct (proj1 (C07_shipped_slots t k) (ex_intro _ i Hk)) as [[_ H] _]. destruct (H j g (Some p) Hg Ho) as [_ K].
  apply in_records. exact (K p eq_refl).
Qed.
Lemma Forall2_nth {A B} (R : A -> B -> Prop) l l' : length l = length l' -> (forall i a b, nth_error l i = Some a -> nth_error l' i = Some b -> R a b) -> Forall2 R l l'.
Proof.
  revert l'. induction l as [|a l IH]; intros [|b l'] L H; try discriminate; constructor; [apply (H 0); reflexivity|]. apply IH; [simpl in L; congruence|].
  intros i x y Hx Hy. apply (H (S i)); assumption.
Qed.
Lemma Forall2_nth_inv {A B} (R : A -> B -> Prop) l l' i a b : Forall2 R l l' -> nth_error l i = Some a -> nth_error l' i = Some b -> R a b.
Proof. intros H. revert i. induction H; intros [|i] Ha Hb; simpl in *; try discriminate; [congruence|eauto]. Qed.
Theorem C66_every_form : forall U ext0 ext d id f i k x,
  unicode_ok U -> small U id -> good_externals ext -> is_dictionary U d -> base_form ext d id f ->
  slot (w_type (wf_word f)) i k -> nth_error (w_forms (wf_word f)) i = Some x ->
  compatible (w_type (wf_word f)) (w_props (wf_word f)) k -> silent (w_props (wf_word f)) [R_WORD_CASE] -> silent (wf_props f) [R_WORD_CASE] ->
  ~ In (ids (key_values k)) (dkeys ext0) ->
  exists t, parse_template U new_template (variable id [ids (key_values k)]) ext0 = (t, Ok tt) /\ substitute U t ext d = Ok x.
Proof.
  intros U ext0 ext d id f i k x HU Hid He Hd Hf Hk Hx Hc Hn1 Hn2 Hni.
  destruct (C66_understood U ext0 id [ids (key_values k)] [DProps (Properties (map AProp (key_values k)))] HU Hid) as (t & Hp & _ & Hs);
    [constructor; [apply written_properties, Hni|constructor]|].
  exists t. split; [exact Hp|]. apply Hs. clear Hs.
  set (p := Properties (map AProp (key_values k))) in *.
  assert (Hh : forall g v, holds p g v <-> In (Some v) k /\ rel_of v = g) by (intros g v; unfold p; rewrite key_values_props; apply (key_props_holds _ _ _ Hk)).
  assert (Hpp : is_properties p) by (unfold p; rewrite key_values_props; apply is_properties_key).
  assert (S : shown U WORD_CASE_LOWER x (get_text U {| s_id := id; s_deps := [DProps p] |} ext d)); [|destruct S as [_ S]; apply S; discriminate].
  apply (quiet_text U {| s_id := id; s_deps := [DProps p] |} ext d f [p] [] i k x); try assumption.
  - intros q [[= <-]|[]]. exact Hpp.
  - constructor. constructor.
  - intros m q [].
  - apply Forall2_nth; [symmetry; exact (slot_length _ _ _ Hk)|]. intros j g o Hg Ho v ->. unfold layers. cbn [rev app].
    assert (Er := key_entry _ i k j g _ Hk Hg Ho v eq_refl).
    assert (Hv : holds p g v) by (apply Hh; split; [exact (nth_error_In _ _ Ho)|exact Er]).
    destruct (wordform_parts f (proj1 (base_form_good U ext d _ f He Hd Hf))) as (Hw & _).
    destruct (dget rel_eqb g (w_props (wf_word f))) as [y|] eqn:Ed.
    + apply holds_dget in Ed; [|apply is_properties_wf, Hw]. assert (K := Forall2_nth_inv _ _ _ _ _ _ Hc Hg Ho v eq_refl y Ed). subst y. apply vf_here, Ed.
    + apply vf_next; [apply holds_none, Ed|]. apply vf_here, Hv.
  - unfold layers. cbn [rev app]. apply vf_next; [intros y; apply Hn1; left; reflexivity|]. apply vf_next.
    + intros y Hy. apply Hh in Hy as [Hy Ey]. apply In_nth_error in Hy as [j Hj]. assert (L : j < length k) by (apply nth_error_Some; congruence).
      rewrite (slot_length _ _ _ Hk) in L. apply nth_error_Some in L. destruct (nth_error (schema (w_type (wf_word f))) j) as [g|] eqn:Eg; [|congruence].
      assert (Er := key_entry _ i k j g _ Hk Eg Hj y eq_refl). rewrite Ey in Er. subst g. apply nth_error_In in Eg. destruct (w_type (wf_word f)); cbn in Eg; intuition discriminate.
    + apply vf_next; [intros y; apply Hn2; left; reflexivity|]. apply vf_default.
Qed.

(** ** C67 *)
Lemma value_in_records ps g v : Forall props_wf ps -> value_from ps g (Some v) -> In v (records g).
Proof.
  intros H K. apply (value_from_Properties ps g H) in K. apply (pget_rel _ _ _ ) in K; [exact K|].
  apply wf_Properties. intros d Hd. apply in_rev in Hd. apply in_map_iff in Hd as (q & [= <-] & Hq). rewrite Forall_forall in H. exact (H q Hq).
Qed.
(** skipping property sets that specify nothing for the group *)
Lemma vf_skip p ps g o : (forall v, ~ holds p g v) -> value_from ps g o -> value_from (p :: ps) g o.
Proof. apply vf_next. Qed.
Lemma one_external U ext d id name f m dep p i k x :
  good_externals ext -> is_dictionary U d -> base_form ext d id f -> In (name, m) ext -> is_properties p ->
  w_type (wf_word f) <> WT_PREPOSITION -> ~ is_integer m ->
  ((dep = [] /\ p = []) \/ dep = [DProps p]) ->
  Forall2 (fun g o => forall v, o = Some v -> value_from [p; wf_props m; wf_props f] g (Some v)) (schema (w_type (wf_word f))) k ->
  silent (w_props (wf_word f)) (R_WORD_CASE :: schema (w_type (wf_word f))) ->
  value_from [p; wf_props m; wf_props f] R_WORD_CASE (Some WORD_CASE_LOWER) ->
  slot (w_type (wf_word f)) i k -> nth_error (w_forms (wf_word f)) i = Some x ->
  get_text U {| s_id := id; s_deps := DExt name :: dep |} ext d = Ok x.
Proof.
  intros He Hd Hf Hm Hp Hnp Hni Hdep Hk Hsil Hwc Hsl Hx.
  assert (S : shown U WORD_CASE_LOWER x (get_text U {| s_id := id; s_deps := DExt name :: dep |} ext d)); [|apply S; discriminate].
  assert (Hps : exists ps, given ext (DExt name :: dep) ps [m] /\ good_deps (DExt name :: dep) /\ forall g o, value_from [p; wf_props m; wf_props f] g o -> (forall v, ~ holds (w_props (wf_word f)) g v) -> value_from (layers f ps) g o).
  { destruct Hdep as [[-> ->]| ->].
    - exists [wf_props m]. split; [apply given_external; [exact Hm|constructor]|]. split; [intros q [[=]|[]]|]. intros g o Hv Hn. unfold layers. cbn [rev app].
      apply vf_next; [exact Hn|]. inversion Hv as [|? ? ? ? K|? ? ? ? K1 K2]; subst; [destruct K|exact K2].
    - exists [wf_props m; p]. split; [apply given_external; [exact Hm|apply given_props; constructor]|]. split; [intros q [[=]|[[= <-]|[]]]; exact Hp|].
      intros g o Hv Hn. unfold layers. cbn [rev app]. apply vf_next; [exact Hn|exact Hv]. }
  destruct Hps as (ps & Hg & Hgd & Hl).
  apply (C37_slot U _ ext d f ps [m] i k x); try assumption.
  - intros _. constructor; [exact Hni|constructor].
  - unfold fits. assert (Hin : forall g, In g (schema (w_type (wf_word f))) -> forall v, ~ holds (w_props (wf_word f)) g v) by (intros g Hg' v; apply Hsil; right; exact Hg').
    clear -Hk Hl Hin. induction Hk as [|g o sch k Ho _ IH]; constructor.
    + intros v E. apply Hl; [apply Ho, E|apply Hin; left; reflexivity].
    + apply IH. intros g' H'. apply Hin. right; exact H'.
  - apply Hl; [exact Hwc|]. intros v. apply Hsil. left; reflexivity.
Qed.
(** [past verb|noun]: the recognised past tense is kept; number and gender are those of the noun, as far as its form specifies them *)
Theorem C67_past_verb : forall U ext0 ext d id name f m n g o,
  unicode_ok U -> small U id -> plain U name -> In name (dkeys ext0) -> good_externals ext -> is_dictionary U d -> base_form ext d id f -> In (name, m) ext ->
  w_type (wf_word f) = WT_VERB -> ~ is_integer m ->
  silent (w_props (wf_word f)) (R_WORD_CASE :: schema WT_VERB) -> silent (wf_props m) [R_VERB_FORM; R_TIME; R_WORD_CASE] -> silent (wf_props f) [R_WORD_CASE] ->
  value (wf_props f) R_VERB_FORM VERB_FORM_INDICATIVE -> value (wf_props f) R_TIME TIME_PAST ->
  value_from [wf_props m; wf_props f] R_NUMBER (Some n) -> value_from [wf_props m; wf_props f] R_GENDER (Some g) -> gender_entry n g o ->
  exists t i x, parse_template U new_template (variable id [name]) ext0 = (t, Ok tt) /\
    slot WT_VERB i [Some VERB_FORM_INDICATIVE; Some TIME_PAST; Some n; None; o] /\ nth_error (w_forms (wf_word f)) i = Some x /\ substitute U t ext d = Ok x.
Proof.
  intros U ext0 ext d id name f m n g o HU Hid Hnm Hin0 He Hd Hf Hm Ht Hni Hs1 Hs2 Hs3 Hvf Htm Hn Hg Ho.
  destruct (base_form_good U ext d _ f He Hd Hf) as [Wf _]. destruct (wordform_parts f Wf) as (Hw & Hpf & _). destruct (wordform_parts m (proj2 He _ _ Hm)) as (_ & Hpm & _).
  assert (Hwf : Forall props_wf [wf_props m; wf_props f]) by (repeat constructor; apply is_properties_wf; assumption).
  assert (Hsl : slot WT_VERB (index_of WT_VERB [Some VERB_FORM_INDICATIVE; Some TIME_PAST; Some n; None; o]) [Some VERB_FORM_INDICATIVE; Some TIME_PAST; Some n; None; o]).
  { apply index_slot. apply (value_in_records _ _ _ Hwf) in Hg. cbn in Hg. destruct Ho as [[-> ->]|[-> ->]]; [vm_compute; reflexivity|].
    repeat (destruct Hg as [<-|Hg]; [vm_compute; reflexivity|]). destruct Hg. }
  set (i := index_of _ _) in *. assert (Li : i < length (w_forms (wf_word f))) by (rewrite (word_forms_length _ Hw), Ht; exact (slot_lt _ _ _ Hsl)).
  apply nth_error_Some in Li. destruct (nth_error (w_forms (wf_word f)) i) as [x|] eqn:Hx; [|congruence].
  destruct (C66_understood U ext0 id [name] [DExt name] HU Hid) as (t & Hp & _ & Hsub); [constructor; [apply written_name; assumption|constructor]|].
  exists t, i, x. split; [exact Hp|]. split; [exact Hsl|]. split; [exact Hx|]. apply Hsub.
  assert (V : forall h y, In h [R_VERB_FORM; R_TIME; R_WORD_CASE] -> value_from [wf_props f] h (Some y) -> value_from [[]; wf_props m; wf_props f] h (Some y)).
  { intros h y Hh Hv. apply vf_next; [intros v []|]. apply vf_next; [intros v; apply Hs2, Hh|exact Hv]. }
  apply (one_external U ext d id name f m [] [] i [Some VERB_FORM_INDICATIVE; Some TIME_PAST; Some n; None; o]); try assumption; try (rewrite Ht; assumption).
  - apply wf_is_properties, wf_nil.
  - rewrite Ht. discriminate.
  - left. auto.
  - rewrite Ht. cbn [schema]. constructor; [intros v [= <-]; apply V; [cbn; auto|exact Hvf]|]. constructor; [intros v [= <-]; apply V; [cbn; auto|exact Htm]|].
    constructor; [intros v [= <-]; apply vf_next; [intros ? []|exact Hn]|]. constructor; [intros v [=]|]. constructor; [|constructor].
    intros v E. destruct Ho as [[_ ->]|[_ ->]]; [discriminate|]. injection E as <-. apply vf_next; [intros ? []|exact Hg].
  - apply V; [cbn; auto|]. apply vf_next; [intros v; apply Hs3; left; reflexivity|]. apply vf_default.
Qed.
(** [adjective|noun|case] and [adjective|noun]: gender, number and animality are those of the noun; so is the case, if the form of the noun specifies one and none is written *)
Theorem C67_adjective : forall U ext0 ext d id name f m written_case a n c g o,
  unicode_ok U -> small U id -> plain U name -> In name (dkeys ext0) -> good_externals ext -> is_dictionary U d -> base_form ext d id f -> In (name, m) ext ->
  w_type (wf_word f) = WT_ADJECTIVE -> ~ is_integer m ->
  silent (w_props (wf_word f)) (R_WORD_CASE :: schema WT_ADJECTIVE) -> silent (wf_props m) [R_ADJECTIVE_FORM; R_GRADE; R_WORD_CASE] -> silent (wf_props f) [R_WORD_CASE] ->
  value (wf_props f) R_ADJECTIVE_FORM ADJECTIVE_FORM_FULL -> value (wf_props f) R_GRADE GRADE_POSITIVE ->
  value_from [wf_props m; wf_props f] R_ANIMALITY (Some a) -> value_from [wf_props m; wf_props f] R_NUMBER (Some n) -> value_from [wf_props m; wf_props f] R_GENDER (Some g) -> gender_entry n g o ->
  match written_case with
  | Some c' => c = c' /\ In c (records R_CASE) /\ ~ In (ids [c]) (dkeys ext0)
  | None => value_from [wf_props m; wf_props f] R_CASE (Some c)
  end ->
  exists t i x, parse_template U new_template (variable id (name :: match written_case with Some c' => [ids [c']] | None => [] end)) ext0 = (t, Ok tt) /\
    slot WT_ADJECTIVE i [Some ADJECTIVE_FORM_FULL; Some GRADE_POSITIVE; Some a; Some n; Some c; o] /\ nth_error (w_forms (wf_word f)) i = Some x /\ substitute U t ext d = Ok x.
Proof.
  intros U ext0 ext d id name f m wc a n c g o HU Hid Hnm Hin0 He Hd Hf Hm Ht Hni Hs1 Hs2 Hs3 Hvf Htm Ha Hn Hg Ho Hc.
  destruct (base_form_good U ext d _ f He Hd Hf) as [Wf _]. destruct (wordform_parts f Wf) as (Hw & Hpf & _). destruct (wordform_parts m (proj2 He _ _ Hm)) as (_ & Hpm & _).
  assert (Hwf : Forall props_wf [wf_props m; wf_props f]) by (repeat constructor; apply is_properties_wf; assumption).
  set (k := [Some ADJECTIVE_FORM_FULL; Some GRADE_POSITIVE; Some a; Some n; Some c; o]).
  assert (Hcr : In c (records R_CASE)) by (destruct wc; [tauto|exact (value_in_records _ _ _ Hwf Hc)]).
  assert (Hsl : slot WT_ADJECTIVE (index_of WT_ADJECTIVE k) k).
  { apply index_slot. apply (value_in_records _ _ _ Hwf) in Hg. apply (value_in_records _ _ _ Hwf) in Ha. cbn in Hg, Ha, Hcr. subst k.
    destruct Ha as [<-|[<-|[]]]; (repeat (destruct Hcr as [<-|Hcr]; [destruct Ho as [[-> ->]|[-> ->]]; [vm_compute; reflexivity|repeat (destruct Hg as [<-|Hg]; [vm_compute; reflexivity|]); destruct Hg]|])); destruct Hcr. }
  set (i := index_of _ _) in *. assert (Li : i < length (w_forms (wf_word f))) by (rewrite (word_forms_length _ Hw), Ht; exact (slot_lt _ _ _ Hsl)).
  apply nth_error_Some in Li. destruct (nth_error (w_forms (wf_word f)) i) as [x|] eqn:Hx; [|congruence].
  set (p := match wc with Some c' => Properties [AProp c'] | None => [] end).
  set (dep := match wc with Some c' => [DProps (Properties (map AProp [c']))] | None => [] end).
  destruct (C66_understood U ext0 id (name :: match wc with Some c' => [ids [c']] | None => [] end) (DExt name :: dep) HU Hid) as (t & Hp & _ & Hsub).
  { constructor; [apply written_name; assumption|]. subst dep. destruct wc; [|constructor]. constructor; [|constructor]. destruct Hc as (-> & _ & Hc). apply written_properties, Hc. }
  exists t, i, x. split; [exact Hp|]. split; [exact Hsl|]. split; [exact Hx|]. apply Hsub.
  assert (Hpp : is_properties p) by (subst p; destruct wc; [apply Properties_ok; intros q [[=]|[]]|apply wf_is_properties, wf_nil]).
  assert (Hpo : forall h v, holds p h v -> h = R_CASE /\ v = c).
  { intros h v. subst p. destruct wc as [c'|]; [|intros []]. destruct Hc as (-> & _). apply in_records in Hcr. unfold holds, Properties, update. cbn [fold_left]. cbn.
    intros [[= <- <-]|[]]. auto. }
  assert (V : forall h y, h <> R_CASE -> value_from [wf_props m; wf_props f] h (Some y) -> value_from [p; wf_props m; wf_props f] h (Some y)).
  { intros h y Hh Hv. apply vf_next; [intros v K; apply Hpo in K; tauto|exact Hv]. }
  assert (V' : forall h y, In h [R_ADJECTIVE_FORM; R_GRADE; R_WORD_CASE] -> value_from [wf_props f] h (Some y) -> value_from [p; wf_props m; wf_props f] h (Some y)).
  { intros h y Hh Hv. apply V; [intros ->; cbn in Hh; intuition discriminate|]. apply vf_next; [intros v; apply Hs2, Hh|exact Hv]. }
  apply (one_external U ext d id name f m dep p i k); try assumption; try (rewrite Ht; assumption).
  - rewrite Ht. discriminate.
  - subst dep p. destruct wc; auto.
  - rewrite Ht. cbn [schema]. constructor; [intros v [= <-]; apply V'; [cbn; auto|exact Hvf]|]. constructor; [intros v [= <-]; apply V'; [cbn; auto|exact Htm]|].
    constructor; [intros v [= <-]; apply V; [discriminate|exact Ha]|]. constructor; [intros v [= <-]; apply V; [discriminate|exact Hn]|]. constructor.
    { intros v [= <-]. subst p. destruct wc as [c'|]; [|apply vf_next; [intros ? []|exact Hc]]. destruct Hc as (-> & _). apply vf_here. apply in_records in Hcr.
      unfold holds, Properties, update. cbn [fold_left]. cbn. rewrite Hcr. left. reflexivity. }
    constructor; [|constructor]. intros v E. destruct Ho as [[_ ->]|[_ ->]]; [discriminate|]. injection E as <-. apply V; [discriminate|exact Hg].
  - apply V'; [cbn; auto|]. apply vf_next; [intros v; apply Hs3; left; reflexivity|]. apply vf_default.
Qed.
(** the case of the noun replaces the recognised one only if the noun's form specifies it *)
Theorem C67_specified_case_wins : forall U ext0 ext d id name f m a n c g o,
  unicode_ok U -> small U id -> plain U name -> In name (dkeys ext0) -> good_externals ext -> is_dictionary U d -> base_form ext d id f -> In (name, m) ext ->
  w_type (wf_word f) = WT_ADJECTIVE -> ~ is_integer m ->
  silent (w_props (wf_word f)) (R_WORD_CASE :: schema WT_ADJECTIVE) -> silent (wf_props m) [R_ADJECTIVE_FORM; R_GRADE; R_WORD_CASE] -> silent (wf_props f) [R_WORD_CASE] ->
  value (wf_props f) R_ADJECTIVE_FORM ADJECTIVE_FORM_FULL -> value (wf_props f) R_GRADE GRADE_POSITIVE ->
  holds (wf_props m) R_ANIMALITY a -> holds (wf_props m) R_NUMBER n -> holds (wf_props m) R_GENDER g -> holds (wf_props m) R_CASE c -> gender_entry n g o ->
  exists t i x, parse_template U new_template (variable id [name]) ext0 = (t, Ok tt) /\
    slot WT_ADJECTIVE i [Some ADJECTIVE_FORM_FULL; Some GRADE_POSITIVE; Some a; Some n; Some c; o] /\ nth_error (w_forms (wf_word f)) i = Some x /\ substitute U t ext d = Ok x.
Proof.
  intros U ext0 ext d id name f m a n c g o HU Hid Hnm Hin0 He Hd Hf Hm Ht Hni Hs1 Hs2 Hs3 Hvf Htm Ha Hn Hg Hc Ho.
  apply (C67_adjective U ext0 ext d id name f m None a n c g o); try assumption; apply vf_here; assumption.
Qed.
(** FINDING: a variable without a specified case (such as WordForm(word)) leaves the recognised case, although the README says that
    [красивого|hero] gets "the nominative of hero" *)
Theorem C67_unspecified_case_stays : forall U ext0 ext d id name f m a n c g o,
  unicode_ok U -> small U id -> plain U name -> In name (dkeys ext0) -> good_externals ext -> is_dictionary U d -> base_form ext d id f -> In (name, m) ext ->
  w_type (wf_word f) = WT_ADJECTIVE -> ~ is_integer m ->
  silent (w_props (wf_word f)) (R_WORD_CASE :: schema WT_ADJECTIVE) -> silent (wf_props m) [R_ADJECTIVE_FORM; R_GRADE; R_WORD_CASE; R_NUMBER; R_CASE] -> silent (wf_props f) [R_WORD_CASE] ->
  value (wf_props f) R_ADJECTIVE_FORM ADJECTIVE_FORM_FULL -> value (wf_props f) R_GRADE GRADE_POSITIVE ->
  holds (wf_props m) R_ANIMALITY a -> holds (wf_props m) R_GENDER g -> value (wf_props f) R_NUMBER n -> value (wf_props f) R_CASE c -> gender_entry n g o ->
  exists t i x, parse_template U new_template (variable id [name]) ext0 = (t, Ok tt) /\
    slot WT_ADJECTIVE i [Some ADJECTIVE_FORM_FULL; Some GRADE_POSITIVE; Some a; Some n; Some c; o] /\ nth_error (w_forms (wf_word f)) i = Some x /\ substitute U t ext d = Ok x.
Proof.
  intros U ext0 ext d id name f m a n c g o HU Hid Hnm Hin0 He Hd Hf Hm Ht Hni Hs1 Hs2 Hs3 Hvf Htm Ha Hg Hn Hc Ho.
  apply (C67_adjective U ext0 ext d id name f m None a n c g o); try assumption; try (apply vf_here; assumption).
  - intros h v Hh. apply Hs2. cbn in *. intuition.
  - apply vf_next; [intros v; apply Hs2; cbn; auto 10|exact Hn].
  - apply vf_next; [intros v; apply Hs2; cbn; auto 10|exact Hc].
Qed.

(** examples: the words of the README *)
Definition slot_texts (t : word_type) (stem : str) : list str := map (fun i => stem ++ str_of_Z (Z.of_nat i)) (seq 0 (length (INVERTED_WORDS_CACHES t))).
Definition bit : word := {| w_type := WT_VERB; w_forms := slot_texts WT_VERB (u "укусил"); w_props := Properties [AProp ASPECT_PERFECTIVE] |}.
Definition handsome : word := {| w_type := WT_ADJECTIVE; w_forms := slot_texts WT_ADJECTIVE (u "красивый"); w_props := [] |}.
Definition knight : word := {| w_type := WT_NOUN; w_forms := slot_texts WT_NOUN (u "рыцарь"); w_props := Properties [AProp ANIMALITY_ANIMATE; AProp GENDER_MASCULINE] |}.
Definition dict4 : dictionary := after ru_unicode [handsome].
Definition dict4v : dictionary := after ru_unicode [bit].
Definition flies : wordform := WordForm knight (Some (Properties [AProp NUMBER_PLURAL; AProp CASE_NOMINATIVE])) None.
Definition ext4 : externals := [(u "hero", WordForm knight None None); (u "mob", flies)].
(** the texts of the slots *)
Definition text_of (w : word) (k : list (option prop)) : str := nth (index_of (w_type w) k) (w_forms w) [].
Definition acc_handsome : str := text_of handsome [Some ADJECTIVE_FORM_FULL; Some GRADE_POSITIVE; Some ANIMALITY_ANIMATE; Some NUMBER_SINGULAR; Some CASE_ACCUSATIVE; Some GENDER_MASCULINE].
Definition past_bit : str := text_of bit [Some VERB_FORM_INDICATIVE; Some TIME_PAST; Some NUMBER_SINGULAR; None; Some GENDER_FEMININE].
Lemma small_text x c r : x = c :: r -> u_isupper ru_unicode c = false -> u_lower ru_unicode x = x -> strip (u_isspace ru_unicode) x = x ->
  forallb (fun c => negb (existsb (N.eqb c) (u "|]%"))) x = true -> small ru_unicode x.
Proof.
  intros -> H1 H2 H3 H4. split; [|intros c' r' [= <- _]; exact H1]. split; [discriminate|]. split; [exact H2|]. split; [apply trimmed_iff; symmetry; exact H3|].
  intros y Hy Hin. rewrite forallb_forall in H4. specialize (H4 y Hy). rewrite (proj2 (existsb_exists _ _)) in H4; [discriminate|]. exists y. split; [exact Hin|apply N.eqb_refl].
Qed.
Ltac silent_tac := intros g v Hg; cbn in Hg; repeat (destruct Hg as [<-|Hg]; [intros H; cbn in H; repeat (destruct H as [[=]|H]); destruct H|]); destruct Hg.
(** [укусил..|mob] is printed in the masculine form for hero and in the plural for mob *)
Example C67_verb_case : exists f, small ru_unicode past_bit /\ plain ru_unicode (u "hero") /\ base_form ext4 dict4v past_bit f /\ w_type (wf_word f) = WT_VERB /\
  value (wf_props f) R_VERB_FORM VERB_FORM_INDICATIVE /\ value (wf_props f) R_TIME TIME_PAST /\
  value_from [wf_props (WordForm knight None None); wf_props f] R_GENDER (Some GENDER_MASCULINE) /\
  get_text ru_unicode {| s_id := past_bit; s_deps := [DExt (u "hero")] |} ext4 dict4v =
    Ok (text_of bit [Some VERB_FORM_INDICATIVE; Some TIME_PAST; Some NUMBER_SINGULAR; None; Some GENDER_MASCULINE]) /\
  get_text ru_unicode {| s_id := past_bit; s_deps := [DExt (u "mob")] |} ext4 dict4v =
    Ok (text_of bit [Some VERB_FORM_INDICATIVE; Some TIME_PAST; Some NUMBER_PLURAL; None; None]).
Proof.
  assert (B : get_word dict4v past_bit = Ok (WordForm bit (Some (key_props [Some VERB_FORM_INDICATIVE; Some TIME_PAST; Some NUMBER_SINGULAR; None; Some GENDER_FEMININE])) None)) by (vm_compute; reflexivity).
  eexists. split; [eapply small_text; vm_compute; reflexivity|]. split; [eapply small_text; vm_compute; reflexivity|].
  split; [apply base_word; [intros H; vm_compute in H; repeat (destruct H as [[=]|H]); destruct H|exact B]|].
  split; [reflexivity|]. split; [apply vf_here; cbn; auto 10|]. split; [apply vf_here; cbn; auto 10|]. split; [apply vf_here; cbn; auto 10|]. split; rewrite (get_text_known _ _ _ _ _ _ B); vm_compute; reflexivity.
Qed.
(** [красивого|hero] stays in the accusative; with the plural nominative mob it does not *)
Example C67_adjective_case : exists f, base_form ext4 dict4 acc_handsome f /\ w_type (wf_word f) = WT_ADJECTIVE /\ silent (w_props (wf_word f)) (R_WORD_CASE :: schema WT_ADJECTIVE) /\
  silent (wf_props (WordForm knight None None)) [R_ADJECTIVE_FORM; R_GRADE; R_WORD_CASE; R_NUMBER; R_CASE] /\ silent (wf_props f) [R_WORD_CASE] /\
  holds (wf_props (WordForm knight None None)) R_ANIMALITY ANIMALITY_ANIMATE /\ value (wf_props f) R_CASE CASE_ACCUSATIVE /\ holds (wf_props flies) R_CASE CASE_NOMINATIVE /\
  get_text ru_unicode {| s_id := acc_handsome; s_deps := [DExt (u "hero")] |} ext4 dict4 = Ok acc_handsome /\
  get_text ru_unicode {| s_id := acc_handsome; s_deps := [DExt (u "mob")] |} ext4 dict4 =
    Ok (text_of handsome [Some ADJECTIVE_FORM_FULL; Some GRADE_POSITIVE; Some ANIMALITY_ANIMATE; Some NUMBER_PLURAL; Some CASE_NOMINATIVE; None]).
Proof.
  assert (B : get_word dict4 acc_handsome = Ok (WordForm handsome (Some (key_props [Some ADJECTIVE_FORM_FULL; Some GRADE_POSITIVE; Some ANIMALITY_ANIMATE; Some NUMBER_SINGULAR; Some CASE_ACCUSATIVE; Some GENDER_MASCULINE])) None)) by (vm_compute; reflexivity).
  eexists. split; [apply base_word; [intros H; vm_compute in H; repeat (destruct H as [[=]|H]); destruct H|exact B]|].
  split; [reflexivity|]. split; [silent_tac|]. split; [silent_tac|]. split; [silent_tac|]. split; [cbn; auto|]. split; [apply vf_here; cbn; auto 10|].
  split; [cbn; auto|]. split; rewrite (get_text_known _ _ _ _ _ _ B); vm_compute; reflexivity.
Qed.
(** [hero|..]: each of the 18 forms *)
Example C66_case : slot WT_NOUN 10 [Some NOUN_FORM_NORMAL; Some NUMBER_PLURAL; Some CASE_INSTRUMENTAL] /\
  ids (key_values [Some NOUN_FORM_NORMAL; Some NUMBER_PLURAL; Some CASE_INSTRUMENTAL]) = u "нс,мн,тв" /\
  compatible WT_NOUN (w_props knight) [Some NOUN_FORM_NORMAL; Some NUMBER_PLURAL; Some CASE_INSTRUMENTAL] /\
  substitute ru_unicode (fst (parse_template ru_unicode new_template (u "[hero|нс,мн,тв]") ext4)) ext4 dict4 = Ok (u "рыцарь10").
Proof.
  split; [vm_compute; reflexivity|]. split; [vm_compute; reflexivity|]. split; [|vm_compute; reflexivity].
  repeat constructor; intros v _ x H; cbn in H; repeat (destruct H as [[=]|H]); destruct H.
Qed.
