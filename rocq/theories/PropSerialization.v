(** * PropSerialization: C32, templates survive serialization *)
From Coq Require Import Permutation.
From Verif Require Import PyBase Relations Restrictions Logic Data Words Transformators Constructors Dictionary Templates PyBaseFacts SpecProps PropsFacts SpecSlots SlotFacts LookupFacts WordFacts SerFacts
  SpecDictionary DictFacts SpecLists SpecAgreement AgreementFacts SpecTemplates SpecSubstitution SubstFacts TemplateFacts PropDictionary PropAgreement PropSyntax PropSubstitution.

(** ** what is printed depends on the specified values only, not on their order *)
Inductive rr {A} (R : A -> A -> Prop) : result A -> result A -> Prop :=
  | rr_ok a b : R a b -> rr R (Ok a) (Ok b)
  | rr_err e : rr R (Err e) (Err e).
Lemma rr_bind {A B} (R : A -> A -> Prop) (S : B -> B -> Prop) x y f g : rr R x y -> (forall a b, R a b -> rr S (f a) (g b)) -> rr S (bind x f) (bind y g).
Proof. intros [a b H|e] K; cbn [bind]; [apply K, H|constructor]. Qed.
Lemma rr_same {A B} (S : B -> B -> Prop) (x : result A) f g : (forall a, rr S (f a) (g a)) -> rr S (bind x f) (bind x g).
Proof. intros K. destruct x; cbn [bind]; [apply K|constructor]. Qed.
Lemma rr_eq {A} (x y : result A) : rr eq x y -> x = y.
Proof. intros [a b ->|e]; reflexivity. Qed.

Definition eqv (p q : props) : Prop := props_wf p /\ props_wf q /\ forall g, pget p g = pget q g.
Lemma eqv_refl p : props_wf p -> eqv p p.
Proof. intros H. split; [exact H|]. split; [exact H|reflexivity]. Qed.
Lemma eqv_cloneP p q l : eqv p q -> eqv (cloneP p l) (cloneP q l).
Proof.
  intros (Hp & Hq & H). split; [apply wf_cloneP, Hp|]. split; [apply wf_cloneP, Hq|]. intros g. rewrite !pget_cloneP by assumption. destruct (args_get _ _); [reflexivity|apply H].
Qed.
Lemma noun_integer_eqv p q : eqv p q -> rr eqv (noun_integer p) (noun_integer q).
Proof.
  intros H. assert (E := proj2 (proj2 H)). unfold noun_integer. rewrite <- !E. clear E.
  repeat first [apply rr_same; intros ?|constructor; apply eqv_cloneP; assumption|apply rr_err|match goal with |- rr _ (if ?b then _ else _) _ => destruct b end].
Qed.
Lemma adjective_integer_eqv p q : eqv p q -> rr eqv (adjective_integer p) (adjective_integer q).
Proof.
  intros H. assert (E := proj2 (proj2 H)). unfold adjective_integer. rewrite <- !E. clear E.
  repeat first [apply rr_same; intros ?|constructor; apply eqv_cloneP; assumption|apply rr_err|match goal with |- rr _ (if ?b then _ else _) _ => destruct b end].
Qed.
Lemma preposition_eqv U w p q m : eqv p q -> rr eqv (preposition_any U w p m) (preposition_any U w q m).
Proof.
  intros H. unfold preposition_any, consonant_preposition_any, vowels_preposition_any.
  repeat first [apply rr_same; intros ?|constructor; apply eqv_cloneP; assumption|constructor; assumption|apply rr_err|match goal with |- rr _ (if ?b then _ else _) _ => destruct b end].
Qed.
Lemma transform_eqv U w p q m : eqv p q -> rr eqv (transform U w p m) (transform U w q m).
Proof.
  intros H. unfold transform. destruct (dget _ _ _) as [[]|]; [apply noun_integer_eqv, H|apply adjective_integer_eqv, H|apply preposition_eqv, H|constructor; exact H].
Qed.
Lemma transforms_eqv U w ms : forall p q, eqv p q -> rr eqv (foldM (fun fp m => transform U w fp m) ms p) (foldM (fun fp m => transform U w fp m) ms q).
Proof. induction ms as [|m ms IH]; intros p q H; cbn [foldM]; [constructor; exact H|]. apply (rr_bind eqv); [apply transform_eqv, H|exact IH]. Qed.
Lemma mapM_ext {A B} (f g : A -> result B) l : (forall a, f a = g a) -> mapM f l = mapM g l.
Proof. intros H. induction l as [|a l IH]; cbn [mapM]; [reflexivity|]. rewrite H, IH. reflexivity. Qed.
Lemma get_form_eqv U w p q : eqv p q -> get_form U w p = get_form U w q.
Proof.
  intros (_ & _ & H). unfold get_form, word__form, is_upper. rewrite <- H.
  assert (E : get_raw_key p (schema (w_type w)) = get_raw_key q (schema (w_type w))) by (unfold get_raw_key; apply mapM_ext; intros g; rewrite H; reflexivity).
  rewrite E. reflexivity.
Qed.

(** ** the dependencies *)
Inductive same_arg : parg -> parg -> Prop := same_args p q : props_wf p -> props_wf q -> (forall g, dget rel_eqb g p = dget rel_eqb g q) -> same_arg (AProps p) (AProps q).
Lemma same_arg_refl p : props_wf p -> same_arg (AProps p) (AProps p).
Proof. intros H. constructor; auto. Qed.
Lemma same_deps_listed ext deps deps' : good_externals ext -> good_deps deps -> good_deps deps' -> Forall2 same_dep deps deps' ->
  rr (fun a b => Forall2 same_arg (fst a) (fst b) /\ snd a = snd b) (list_properties ext deps) (list_properties ext deps').
Proof.
  intros He. unfold list_properties.
  assert (G : forall acc acc', Forall2 same_arg (fst acc) (fst acc') -> snd acc = snd acc' -> good_deps deps -> good_deps deps' -> Forall2 same_dep deps deps' ->
    rr (fun a b => Forall2 same_arg (fst a) (fst b) /\ snd a = snd b) (foldM (list_properties_step ext) deps acc) (foldM (list_properties_step ext) deps' acc')).
  { revert deps'. induction deps as [|x deps IH]; intros deps' acc acc' Ha Hs G1 G2 H; inversion H as [|? y ? ys Hxy Hr]; subst; [constructor; auto|]. cbn [foldM].
    assert (G1' : good_deps deps) by (intros p Hp; apply G1; right; exact Hp). assert (G2' : good_deps ys) by (intros p Hp; apply G2; right; exact Hp).
    destruct Hxy as [name|p q Hpq]; cbn [list_properties_step].
    - destruct (dget str_eqb name ext) as [f|] eqn:E; [|constructor]. cbn [bind]. apply IH; try assumption; cbn [fst snd]; [|rewrite Hs; reflexivity].
      apply Forall2_app; [exact Ha|]. constructor; [|constructor]. apply same_arg_refl, is_properties_wf.
      apply (wordform_parts f). apply (proj2 He name). exact (dget_In _ str_eqb_ok _ _ _ E).
    - cbn [bind]. apply IH; try assumption; cbn [fst snd]. apply Forall2_app; [exact Ha|]. constructor; [|constructor].
      assert (Wp : props_wf p) by (apply is_properties_wf, G1; left; reflexivity). assert (Wq : props_wf q) by (apply is_properties_wf, G2; left; reflexivity).
      constructor; [exact Wp|exact Wq|]. apply (same_props_dget p q Wp Wq), Hpq. }
  intros G1 G2 H. apply G; [constructor|reflexivity|exact G1|exact G2|exact H].
Qed.
Lemma same_args_get g l l' : Forall2 same_arg l l' -> args_get g l = args_get g l'.
Proof.
  intros H. induction H as [|x y l l' Hxy _ IH]; [reflexivity|]. destruct Hxy as [p q _ _ E]. cbn [args_get arg_get]. rewrite IH, E. reflexivity.
Qed.

Lemma same_arg_wf l l' : Forall2 same_arg l l' -> wf_args l /\ wf_args l'.
Proof.
  intros H. induction H as [|x y l l' Hxy _ [I1 I2]]; [split; intros d []|]. destruct Hxy as [p q Hp Hq _].
  split; intros d [E|Hd]; auto; injection E as <-; assumption.
Qed.
Lemma same_clone p l l' : props_wf p -> Forall2 same_arg l l' -> eqv (clone p l) (clone p l').
Proof.
  intros Hp H. assert (H' : Forall2 same_arg (AProps p :: l) (AProps p :: l')) by (constructor; [apply same_arg_refl, Hp|exact H]).
  destruct (same_arg_wf _ _ H') as [W1 W2]. unfold clone.
  split; [apply wf_Properties, W1|]. split; [apply wf_Properties, W2|]. intros g. rewrite !pget_spec, !dget_Properties by assumption. rewrite (same_args_get g _ _ H'). reflexivity.
Qed.
Lemma get_text_same U a b ext d : good_externals ext -> is_dictionary U d -> good_deps (s_deps a) -> good_deps (s_deps b) -> same_sub a b -> get_text U a ext d = get_text U b ext d.
Proof.
  intros He Hd Ga Gb [Hid H]. unfold get_text. rewrite <- Hid. destruct (base_form_of ext d (s_id a)) as [f|e] eqn:E; cbn [bind]; [|reflexivity].
  apply rr_eq. apply (rr_bind (fun x y => Forall2 same_arg (fst x) (fst y) /\ snd x = snd y)); [apply same_deps_listed; assumption|].
  intros x y [Hx Hy]. rewrite <- Hy.
  assert (Wf : is_wordform f).
  { unfold base_form_of in E. destruct (dget str_eqb (s_id a) ext) as [f'|] eqn:Ef.
    - injection E as <-. apply (proj2 He (s_id a)), (dget_In _ str_eqb_ok), Ef.
    - exact (proj1 (dictionary_form U d _ f Hd E)). }
  destruct (wordform_parts f Wf) as (Hw & Hp & _).
  apply (rr_bind eqv).
  - apply transforms_eqv, same_clone; [apply is_properties_wf, Hp|]. apply Forall2_app; [exact Hx|]. constructor; [|constructor]. apply same_arg_refl, is_properties_wf, Hw.
  - intros p q Hpq. rewrite (get_form_eqv U (wf_word f) p q Hpq). destruct (get_form U (wf_word f) q); constructor; reflexivity.
Qed.
(** templates with the same text and the same variables print the same *)
Theorem C32_same_output : forall a b, is_template a -> is_template b -> same_template a b -> same_output a b.
Proof.
  intros a b Ha Hb [Ht H] U ext d He Hd. unfold substitute, get_undictionaried_words, is_template in *. rewrite <- Ht. split.
  - f_equal. clear Ht. induction H as [|x y l l' Hxy _ IH]; [reflexivity|]. cbn [mapM].
    rewrite (get_text_same U x y ext d He Hd (Ha x (or_introl eq_refl)) (Hb y (or_introl eq_refl)) Hxy). rewrite IH; [reflexivity|intros s Hs; apply Ha; right; exact Hs|intros s Hs; apply Hb; right; exact Hs].
  - clear Ht Ha Hb. induction H as [|x y l l' Hxy _ IH]; [reflexivity|]. cbn [flat_map]. rewrite IH, (proj1 Hxy). reflexivity.
Qed.
(** == on templates *)
Lemma list_eqb_Forall2 {A} (eqb : A -> A -> bool) (R : A -> A -> Prop) l l' : (forall x y, In x l -> In y l' -> (eqb x y = true <-> R x y)) -> (list_eqb eqb l l' = true <-> Forall2 R l l').
Proof.
  revert l'. induction l as [|x l IH]; intros [|y l'] H; cbn [list_eqb].
  - split; [constructor|reflexivity].
  - split; [discriminate|intros X; inversion X].
  - split; [discriminate|intros X; inversion X].
  - rewrite andb_true_iff, (H x y (or_introl eq_refl) (or_introl eq_refl)), IH by (intros a b Ia Ib; apply H; right; assumption).
    split; [intros [X Y]; constructor; assumption|intros X; inversion X; auto].
Qed.
Lemma str_eq_iff (a b : str) : str_eqb a b = true <-> a = b.
Proof. apply str_eqb_ok. Qed.
Lemma text_eq_iff (a b : option str) : opt_eqb str_eqb a b = true <-> a = b.
Proof. apply (opt_eqb_ok _ str_eqb_ok). Qed.
Theorem C32_equality : forall a b, is_template a -> is_template b -> (template_eqb a b = true <-> same_template a b).
Proof.
  intros a b Ha Hb. unfold template_eqb, same_template. rewrite andb_true_iff.
  rewrite (list_eqb_Forall2 substitution_eqb same_sub).
  - rewrite text_eq_iff. tauto.
  - intros x y Ix Iy. unfold substitution_eqb, same_sub. rewrite andb_true_iff. rewrite str_eq_iff.
    rewrite (list_eqb_Forall2 dep_eqb same_dep); [reflexivity|]. intros p q Ip Iq. destruct p as [n|p], q as [m|q]; cbn [dep_eqb].
    + rewrite str_eq_iff. split; [intros ->; constructor|intros X; inversion X; reflexivity].
    + split; [discriminate|intros X; inversion X].
    + split; [discriminate|intros X; inversion X].
    + rewrite props_eqb_same; [|apply (Ha x Ix); exact Ip|apply (Hb y Iy); exact Iq]. split; [intros X; constructor; exact X|intros X; inversion X; assumption].
Qed.
(** serialization, a trip through JSON, deserialization *)
Theorem C32_roundtrip : forall t, is_template t -> exists d, serialize_template t = Ok d /\
  forall d', data_trip d d' -> exists t', deserialize_template d' = Ok t' /\ is_template t' /\ same_template t' t /\ template_eqb t' t = true /\ same_output t' t.
Proof.
  intros t Ht.
  assert (D : forall x, (forall p, x = DProps p -> is_properties p) -> exists s, serialize_dep x = Ok s /\
     forall s', dep_trip s s' -> exists y, deserialize_dep s' = Ok y /\ (forall p, y = DProps p -> is_properties p) /\ same_dep y x).
  { intros [name|p] Hx; cbn [serialize_dep].
    - exists (SStr name). split; [reflexivity|]. intros s' X. inversion X; subst. exists (DExt name). split; [reflexivity|]. split; [discriminate|constructor].
    - destruct (serialize_props_total p (Hx p eq_refl)) as (d & Ed & _). rewrite Ed. exists (SDict d). split; [reflexivity|]. intros s' X. inversion X as [|? d' Hd']; subst.
      destruct (props_roundtrip p d' (Hx p eq_refl) d Ed Hd') as (q & Eq & Gq & Sq). exists (DProps q). cbn [deserialize_dep]. rewrite Eq. split; [reflexivity|].
      split; [intros r [= <-]; exact Gq|constructor; exact Sq]. }
  assert (DS : forall deps, good_deps deps -> exists l, mapM serialize_dep deps = Ok l /\
     forall l', Forall2 dep_trip l l' -> exists deps', mapM deserialize_dep l' = Ok deps' /\ good_deps deps' /\ Forall2 same_dep deps' deps).
  { induction deps as [|x deps IH]; intros G.
    - exists []. split; [reflexivity|]. intros l' X. inversion X; subst. exists []. split; [reflexivity|]. split; [intros p []|constructor].
    - destruct (D x) as (s & Es & Ds); [intros p ->; apply G; left; reflexivity|]. destruct IH as (l & El & Dl); [intros p Hp; apply G; right; exact Hp|].
      exists (s :: l). cbn [mapM]. rewrite Es, El. split; [reflexivity|]. intros l' X. inversion X as [|? s' ? l2 X1 X2]; subst.
      destruct (Ds s' X1) as (y & Ey & Gy & Sy). destruct (Dl l2 X2) as (ys & Eys & Gys & Sys). exists (y :: ys). cbn [mapM]. rewrite Ey, Eys. split; [reflexivity|].
      split; [|constructor; assumption]. intros p [E|Hp]; [apply Gy; exact E|apply Gys, Hp]. }
  assert (SS : forall subs, (forall s, In s subs -> good_deps (s_deps s)) -> exists l, mapM serialize_substitution subs = Ok l /\
     forall l', Forall2 sub_trip l l' -> exists subs', mapM deserialize_substitution l' = Ok subs' /\ (forall s, In s subs' -> good_deps (s_deps s)) /\ Forall2 same_sub subs' subs).
  { induction subs as [|x subs IH]; intros G.
    - exists []. split; [reflexivity|]. intros l' X. inversion X; subst. exists []. split; [reflexivity|]. split; [intros p []|constructor].
    - destruct (DS (s_deps x)) as (s & Es & Ds); [apply G; left; reflexivity|]. destruct IH as (l & El & Dl); [intros p Hp; apply G; right; exact Hp|].
      exists ({| sd_id := s_id x; sd_deps := s |} :: l). cbn [mapM]. unfold serialize_substitution at 1. rewrite Es, El. split; [reflexivity|]. intros l' X. inversion X as [|? s' ? l2 X1 X2]; subst.
      destruct X1 as [X0 X1]. cbn [sd_id sd_deps] in X0, X1.
      destruct (Ds _ X1) as (y & Ey & Gy & Sy). destruct (Dl l2 X2) as (ys & Eys & Gys & Sys). exists ({| s_id := sd_id s'; s_deps := y |} :: ys). cbn [mapM]. unfold deserialize_substitution at 1. rewrite Ey, Eys. split; [reflexivity|].
      split; [intros p [<-|Hp]; [exact Gy|apply Gys, Hp]|]. constructor; [|exact Sys]. split; [exact X0|exact Sy]. }
  destruct (SS (t_subs t) Ht) as (l & El & Dl). exists {| td_text := t_text t; td_subs := l |}. unfold serialize_template. rewrite El. split; [reflexivity|].
  intros d' [T1 T2]. cbn [td_text td_subs] in T1, T2. destruct (Dl _ T2) as (subs' & Es & Gs & Ss). exists {| t_subs := subs'; t_text := td_text d' |}.
  unfold deserialize_template. rewrite Es. split; [reflexivity|].
  assert (Gt : is_template {| t_subs := subs'; t_text := td_text d' |}) by exact Gs.
  assert (St : same_template {| t_subs := subs'; t_text := td_text d' |} t) by (split; [exact T1|exact Ss]).
  split; [exact Gt|]. split; [exact St|]. split; [apply C32_equality; assumption|apply C32_same_output; assumption].
Qed.
(** in particular what parse leaves, whether it raised or not *)
Theorem C32_parsed : forall U text ext, is_template (fst (parse_template U new_template text ext)).
Proof. intros U text ext. apply parsed_is_template. Qed.
(** without a trip: the data itself *)
Lemma data_trip_refl d : data_trip d d.
Proof.
  split; [reflexivity|]. induction (td_subs d) as [|s l IH]; constructor; [|exact IH]. split; [reflexivity|].
  induction (sd_deps s) as [|x r IHr]; constructor; [|exact IHr]. destruct x; constructor. apply json_trip_refl.
Qed.
(** the properties after a trip are in another order, the keys are strings *)
Definition tmpl : template := {| t_text := Some (u "%s and %s"); t_subs :=
  [{| s_id := u "hero"; s_deps := [DProps (Properties [AProp CASE_ACCUSATIVE; AProp NUMBER_PLURAL]); DProps (Properties [AProp WORD_CASE_UPPER])] |};
   {| s_id := u "монета"; s_deps := [DExt (u "n")] |}] |}.
Definition tripped (d : template_data) : template_data :=
  {| td_text := td_text d; td_subs := map (fun s => {| sd_id := sd_id s; sd_deps := map (fun x => match x with
       | SDict l => SDict (rev (map (fun kv => (match fst kv with JInt z => JStr (str_of_Z z) | k => k end, snd kv)) l)) | x => x end) (sd_deps s) |}) (td_subs d) |}.
Lemma tripped_ok d : data_trip d (tripped d).
Proof.
  split; [reflexivity|]. cbn [tripped td_subs]. induction (td_subs d) as [|s l IH]; constructor; [|exact IH]. split; [reflexivity|]. cbn [sd_deps].
  induction (sd_deps s) as [|x r IHr]; constructor; [|exact IHr]. destruct x as [n|m]; constructor. exists (rev m). split; [apply Permutation_rev|].
  rewrite <- map_rev. generalize (rev m). intros k. induction k as [|[[z|n] v] k IHk]; constructor; try exact IHk; cbn [fst snd]; (split; [|reflexivity]); [right; exists z; auto|left; reflexivity].
Qed.
Example C32_case : parse_template ru_unicode new_template (u "[Hero|вн,мн] and [монета|n]") ext2 = (tmpl, Ok tt) /\ is_template tmpl /\
  exists d t', serialize_template tmpl = Ok d /\ data_trip d (tripped d) /\ deserialize_template (tripped d) = Ok t' /\ t' <> tmpl /\ template_eqb t' tmpl = true /\
    substitute ru_unicode t' ext2 dict2 = Ok (u "Монеты and монет").
Proof.
  assert (E : parse_template ru_unicode new_template (u "[Hero|вн,мн] and [монета|n]") ext2 = (tmpl, Ok tt)) by (vm_compute; reflexivity).
  split; [exact E|]. split; [rewrite <- (f_equal fst E : _ = tmpl); apply parsed_is_template|]. clear E.
  eexists. eexists. split; [vm_compute; reflexivity|]. split; [apply tripped_ok|]. split; [vm_compute; reflexivity|]. split; [vm_compute; discriminate|]. split; vm_compute; reflexivity.
Qed.
