(** * PropCompare: C85 - comparing objects of different classes *)
From Verif Require Import PyBase Relations Words Templates Compare PyBaseFacts SpecProps PropsFacts SerFacts SpecTemplates SpecSubstitution PropProperties PropSerialization.

(** what the library's constructors can produce *)
Definition is_object (o : object) : Prop :=
  match o with OProps p => is_properties p | OWord w => is_word w | OForm f => is_wordform f | OSubst s => good_deps (s_deps s) | OTempl t => is_template t | OForeign _ => True end.
(** the classes *)
Inductive cls := CProps | CWord | CForm | CSubst | CTempl | CForeign.
Definition class_of (o : object) : cls :=
  match o with OProps _ => CProps | OWord _ => CWord | OForm _ => CForm | OSubst _ => CSubst | OTempl _ => CTempl | OForeign _ => CForeign end.
(** the same value, class by class *)
Inductive same_value : object -> object -> Prop :=
| SV_props p q : same_props p q -> same_value (OProps p) (OProps q)
| SV_word a b : w_type a = w_type b -> w_forms a = w_forms b -> same_props (w_props a) (w_props b) -> same_value (OWord a) (OWord b)
| SV_form f g : same_value (OWord (wf_word f)) (OWord (wf_word g)) -> same_props (wf_props f) (wf_props g) -> same_value (OForm f) (OForm g)
| SV_subst a b : same_sub a b -> same_value (OSubst a) (OSubst b)
| SV_templ a b : same_template a b -> same_value (OTempl a) (OTempl b)
| SV_foreign n : same_value (OForeign n) (OForeign n).
(** classes whose __eq__ checks the class of the other object *)
Definition careful (c : cls) : Prop := c = CProps \/ c = CWord.

Lemma substitution_eqb_iff a b : good_deps (s_deps a) -> good_deps (s_deps b) -> (substitution_eqb a b = true <-> same_sub a b).
Proof.
  intros Ha Hb. assert (X := C32_equality {| t_subs := [a]; t_text := None |} {| t_subs := [b]; t_text := None |}). unfold is_template, template_eqb, same_template in X. cbn [t_subs t_text list_eqb opt_eqb] in X.
  rewrite !Bool.andb_true_r in X. rewrite X; [|intros s [<-|[]]; assumption|intros s [<-|[]]; assumption]. split.
  - intros [_ F]. inversion F; assumption.
  - intro S. split; [reflexivity|]. constructor; [exact S|constructor].
Qed.

(** objects of one class: == never fails and means: the same value *)
Theorem C85_one_class : forall a b, is_object a -> is_object b -> class_of a = class_of b ->
  exists r, py_eq a b = Ok r /\ (r = true <-> same_value a b).
Proof.
  intros a b Ha Hb E. destruct a, b; try discriminate E; clear E; cbn in Ha, Hb.
  - exists (props_eqb p p0). split; [reflexivity|]. rewrite (props_eqb_same p p0 Ha Hb). split; [constructor; assumption|inversion 1; assumption].
  - exists (word_eqb w w0). split; [reflexivity|]. rewrite (word_eqb_iff w w0 Ha Hb). split; [intros (H1 & H2 & H3); constructor; assumption|inversion 1; auto].
  - exists (wordform_eqb f f0). split; [unfold py_eq, dunder_eq, py_and, wordform_eqb; cbn [attr_word attr_properties bind]; destruct (word_eqb _ _); reflexivity|].
    rewrite (C05_equality_of_wordforms f f0 Ha Hb). assert (W := proj1 (wordform_words f Ha)). assert (W' := proj1 (wordform_words f0 Hb)). rewrite (word_eqb_iff _ _ W W'). split.
    + intros ((H1 & H2 & H3) & H4). constructor; [constructor; assumption|assumption].
    + inversion 1; subst. match goal with H : same_value _ _ |- _ => inversion H; subst end. auto.
  - exists (substitution_eqb s s0). split; [unfold py_eq, dunder_eq, py_and, substitution_eqb; cbn [attr_id attr_dependencies bind]; destruct (str_eqb _ _); reflexivity|].
    rewrite (substitution_eqb_iff s s0 Ha Hb). split; [constructor; assumption|inversion 1; assumption].
  - exists (template_eqb t t0). split; [unfold py_eq, dunder_eq, py_and, template_eqb; cbn [attr_substitutions attr_template bind]; destruct (list_eqb _ _ _); reflexivity|].
    rewrite (C32_equality t t0 Ha Hb). split; [constructor; assumption|inversion 1; assumption].
  - exists (Nat.eqb n n0). split; [reflexivity|]. rewrite PeanoNat.Nat.eqb_eq. split; [intros ->; constructor|inversion 1; reflexivity].
Qed.
(** different classes: Properties and Words on the left are different from everything else; word forms, templates and substitutions
    on the left fail; a foreign object on the left leaves the answer to the right side *)
Theorem C85_two_classes : forall a b, class_of a <> class_of b ->
  py_eq a b = match class_of a with
              | CProps | CWord => Ok false
              | CForm | CSubst | CTempl => Err AttributeError
              | CForeign => match class_of b with CProps | CWord => Ok false | _ => Err AttributeError end
              end.
Proof. intros a b H. destruct a, b; try (exfalso; apply H; reflexivity); reflexivity. Qed.
(** so: == fails exactly when the classes differ and the side that answers is not a Properties or a Word *)
Theorem C85_fails_iff : forall a b, is_object a -> is_object b ->
  ((exists e, py_eq a b = Err e) <-> class_of a <> class_of b /\ ~ careful (class_of a) /\ (class_of a = CForeign -> ~ careful (class_of b))).
Proof.
  intros a b Ha Hb. assert (D : class_of a = class_of b \/ class_of a <> class_of b) by (destruct a, b; cbn; ((left; congruence) || (right; congruence))). destruct D as [D|D].
  - destruct (C85_one_class a b Ha Hb D) as (r & E & _). rewrite E. split; [intros (e & X); discriminate X|intros (X & _); contradiction].
  - rewrite (C85_two_classes a b D). unfold careful. destruct (class_of a), (class_of b);
      (split; [intros (e & X); try discriminate X; (split; [exact D|split; [intros [Y|Y]; discriminate Y|intros Y [Z|Z]; (discriminate Y || discriminate Z)]])
              |intros (_ & X & Y); first [exfalso; apply X; (left; reflexivity) || (right; reflexivity)|exfalso; apply (Y eq_refl); (left; reflexivity) || (right; reflexivity)|eexists; reflexivity]]).
Qed.
(** FINDING: the answer depends on the side: word == form is False, form == word is an AttributeError, and so is None == form *)
Theorem C85_symmetry_refuted : forall p w f n,
  py_eq (OWord w) (OForm f) = Ok false /\ py_eq (OForm f) (OWord w) = Err AttributeError /\
  py_eq (OProps p) (OForm f) = Ok false /\ py_eq (OForm f) (OProps p) = Err AttributeError /\
  py_eq (OForeign n) (OForm f) = Err AttributeError /\ py_eq (OForm f) (OForeign n) = Err AttributeError.
Proof. intros. repeat split; reflexivity. Qed.
(** but two answers never contradict each other, and True is only ever an answer between objects of one class *)
Theorem C85_consistent : forall a b r r', is_object a -> is_object b -> py_eq a b = Ok r -> py_eq b a = Ok r' -> r = r'.
Proof.
  intros a b r r' Ha Hb E E'. assert (D : class_of a = class_of b \/ class_of a <> class_of b) by (destruct a, b; cbn; ((left; congruence) || (right; congruence))). destruct D as [D|D].
  - destruct (C85_one_class a b Ha Hb D) as (x & X & I), (C85_one_class b a Hb Ha (eq_sym D)) as (y & Y & J). rewrite X in E. rewrite Y in E'. injection E as ->. injection E' as ->.
    assert (S : forall a b, same_value a b -> same_value b a).
    { assert (P : forall p q, same_props p q -> same_props q p) by (intros p q H g v; symmetry; apply H).
      assert (F : forall s s', same_sub s s' -> same_sub s' s).
      { intros s s' [H1 H2]. split; [auto|]. induction H2; constructor; [|assumption]. match goal with H : same_dep _ _ |- _ => inversion H; subst; constructor; auto end. }
      induction 1; constructor; auto. destruct H as [H1 H2]. split; [auto|]. clear H1. induction H2; constructor; auto. }
    destruct r, r'; try reflexivity; [symmetry; apply J, S, I, eq_refl|apply I, S, J, eq_refl].
  - rewrite (C85_two_classes a b D) in E. assert (D' : class_of b <> class_of a) by congruence. rewrite (C85_two_classes b a D') in E'.
    destruct (class_of a), (class_of b); try discriminate E; try discriminate E'; congruence.
Qed.
Theorem C85_true_means_one_class : forall a b, py_eq a b = Ok true -> class_of a = class_of b.
Proof. intros a b E. assert (D : class_of a = class_of b \/ class_of a <> class_of b) by (destruct a, b; cbn; ((left; congruence) || (right; congruence))). destruct D as [D|D]; [exact D|].
  rewrite (C85_two_classes a b D) in E. destruct (class_of a), (class_of b); discriminate E. Qed.
(** != is the negation of ==, and fails when == fails *)
Theorem C85_not_equal : forall a b, py_ne a b = match py_eq a b with Ok r => Ok (negb r) | Err e => Err e end.
Proof.
  intros a b. unfold py_ne, py_eq, dunder_ne. destruct (dunder_eq a b) as [[x|]|e]; cbn [bind option_map]; [reflexivity| |reflexivity].
  destruct (dunder_eq b a) as [[y|]|e]; reflexivity.
Qed.
(** hash: everything but templates and substitutions can be put into a set; equal objects have equal hashes, apart from word forms (C05) *)
Theorem C85_hash : forall a, (exists h, py_hash a = Ok h) <-> class_of a <> CSubst /\ class_of a <> CTempl.
Proof. intro a. destruct a; cbn; (split; [intros (h & E); try discriminate E; split; discriminate|intros [H1 H2]; try (eexists; reflexivity); congruence]). Qed.
Theorem C85_unhashable : forall a, class_of a = CSubst \/ class_of a = CTempl -> py_hash a = Err TypeError.
Proof. intros a [H|H]; destruct a; try discriminate H; reflexivity. Qed.
Theorem C85_equal_hash : forall a b, is_object a -> is_object b -> class_of a <> CForm -> py_eq a b = Ok true -> py_hash a = py_hash b.
Proof.
  intros a b Ha Hb N E. assert (C := C85_true_means_one_class a b E). destruct a, b; try discriminate C; cbn in *.
  - injection E as E. destruct (C04_equal_properties_agree p p0 Ha Hb E) as [-> _]. reflexivity.
  - injection E as E. rewrite (C04_equal_words_have_equal_hash w w0 Ha Hb E). reflexivity.
  - congruence.
  - reflexivity.
  - reflexivity.
  - injection E as E. apply PeanoNat.Nat.eqb_eq in E. subst. reflexivity.
Qed.

Definition case_word : word := {| w_type := WT_TEXT; w_forms := [u "x"]; w_props := Properties [] |}.
Example C85_case : is_object (OWord case_word) /\ is_object (OForm (WordForm case_word None None)) /\ is_object (OProps []) /\ is_object (OTempl new_template) /\
  py_eq (OForm (WordForm case_word None None)) (OForm (WordForm case_word (Some []) None)) = Ok true /\
  py_eq (OTempl new_template) (OTempl {| t_subs := []; t_text := Some [] |}) = Ok false /\
  py_eq (OForm (WordForm case_word None None)) (OForeign 0) = Err AttributeError /\ py_ne (OForeign 0) (OWord case_word) = Ok true /\
  py_eq (OTempl new_template) (OSubst {| s_id := u "x"; s_deps := [] |}) = Err AttributeError.
Proof.
  assert (N : is_properties []) by (apply (new_properties []); intros d []).
  assert (W : is_word case_word) by (split; [exact N|reflexivity]).
  split; [exact W|]. split; [exists case_word, None, None; split; [exact W|split; [discriminate|split; [discriminate|reflexivity]]]|]. split; [exact N|]. split; [intros s []|].
  repeat split; vm_compute; reflexivity.
Qed.
