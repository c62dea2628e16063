(** * PropText: C62 - Properties.__unicode__ *)
From Coq Require Import Lia Sorting.Sorted Permutation.
From Verif Require Import PyBase Relations Restrictions Logic Data Words Templates Text PyBaseFacts SpecProps PropsFacts SerFacts StrFacts SynFacts SpecTemplates.

(** the values in the order of the numbers of their groups *)
Definition by_group (a b : prop) : Prop := exists x y, In (x, rel_of a) property_types /\ In (y, rel_of b) property_types /\ (x < y)%Z.

Definition listed (p : props) : list prop := flat_map (fun e => match dget rel_eqb (snd e) p with Some v => [v] | None => [] end) property_types.
Lemma unicode_listed p : props_unicode p = u "(" ++ join [COMMA] (map verbose_id (listed p)) ++ u ")".
Proof.
  unfold props_unicode, listed. change (u ",") with [COMMA]. f_equal. f_equal. f_equal. induction property_types as [|e l IH]; [reflexivity|].
  cbn [flat_map]. rewrite map_app, <- IH. destruct (dget rel_eqb (snd e) p); reflexivity.
Qed.
Lemma group_numbered g : exists z, In (z, g) property_types.
Proof. destruct g; cbn; eexists; intuition reflexivity. Qed.
Lemma in_listed p v : is_properties p -> (In v (listed p) <-> exists g, holds p g v).
Proof.
  intro Hp. apply is_properties_wf in Hp. unfold listed. rewrite in_flat_map. split.
  - intros ((z & g) & _ & H). cbn in H. destruct (dget rel_eqb g p) as [w|] eqn:E; [|destruct H]. destruct H as [<-|[]]. exists g. apply holds_dget; auto.
  - intros (g & H). destruct (group_numbered g) as (z & Hz). exists (z, g). split; [exact Hz|]. cbn. apply holds_dget in H; [|exact Hp]. rewrite H. left. reflexivity.
Qed.
Lemma listed_sorted p : is_properties p -> StronglySorted by_group (listed p).
Proof.
  intro Hp. apply is_properties_wf in Hp. assert (X : StronglySorted (fun a b : Z * relation => (fst a < fst b)%Z) property_types).
  { repeat constructor. }
  unfold listed. assert (HI : incl property_types property_types) by (intro; auto). revert X HI. generalize property_types at 1 2 4. induction l as [|e l IH]; intros X HI; [constructor|].
  apply StronglySorted_inv in X. destruct X as [X1 X2]. assert (HI' : incl l property_types) by (intros x Hx; apply HI; right; exact Hx). specialize (IH X1 HI'). cbn [flat_map].
  destruct (dget rel_eqb (snd e) p) as [v|] eqn:E; [|exact IH]. cbn [app]. constructor; [exact IH|]. apply Forall_forall. intros w Hw. apply in_flat_map in Hw. destruct Hw as (e' & He' & Hw).
  destruct (dget rel_eqb (snd e') p) as [w'|] eqn:E'; [|destruct Hw]. destruct Hw as [->|[]]. apply holds_dget in E, E'; try exact Hp. apply (proj2 Hp) in E, E'.
  exists (fst e), (fst e'). rewrite E, E'. split; [|split; [|eapply Forall_forall in X2; eauto]].
  - destruct e. apply HI. left. reflexivity.
  - destruct e'. apply HI. right. exact He'.
Qed.
Lemma by_group_neq a b : by_group a b -> a <> b.
Proof.
  intros (x & y & H1 & H2 & H3) ->. assert (x = y); [|lia]. revert H1 H2. destruct (rel_of b); cbn; intros;
    repeat match goal with H : _ \/ _ |- _ => destruct H as [H|H] end; try contradiction; congruence.
Qed.
Lemma sorted_nodup l : StronglySorted by_group l -> NoDup l.
Proof. induction 1 as [|a l _ IH H]; constructor; [|exact IH]. intro Hin. eapply Forall_forall in H; [|exact Hin]. exact (by_group_neq _ _ H eq_refl). Qed.
Lemma values_nodup p : props_wf p -> NoDup (map snd p).
Proof.
  intros [H1 H2]. induction p as [|[g v] p IH]; cbn in *; [constructor|]. apply NoDup_cons_iff in H1. destruct H1 as [H1 H3]. constructor; [|apply IH; auto].
  intro H. apply in_map_iff in H. destruct H as ([g' v'] & E & Hin). cbn in E. subst v'. assert (g = g'). { rewrite <- (H2 g v (or_introl eq_refl)). apply H2. right. exact Hin. } subst g'.
  apply H1. unfold dkeys. apply in_map_iff. exists (g, v). auto.
Qed.
Lemma listed_permutation p : is_properties p -> Permutation (map snd p) (listed p).
Proof.
  intro Hp. apply NoDup_Permutation; [apply values_nodup, is_properties_wf, Hp|apply sorted_nodup, listed_sorted, Hp|]. intro v. rewrite (in_listed p v Hp). split.
  - intro H. apply in_map_iff in H. destruct H as ([g w] & <- & H). exists g. exact H.
  - intros (g & H). apply in_map_iff. exists (g, v). auto.
Qed.

(** the identifiers of exactly the specified values, comma-separated, in parentheses, in the order of the groups *)
Theorem C62_text : forall p, is_properties p -> exists vs,
  props_unicode p = u "(" ++ join [COMMA] (map verbose_id vs) ++ u ")" /\
  (forall v, In v vs <-> exists g, holds p g v) /\ StronglySorted by_group vs.
Proof. intros p Hp. exists (listed p). split; [apply unicode_listed|]. split; [intro v; apply in_listed, Hp|apply listed_sorted, Hp]. Qed.
(** it can be read back: what is between the parentheses is a property list, with the same meaning *)
Theorem C62_readable : forall p, is_properties p -> exists body q, props_unicode p = u "(" ++ body ++ u ")" /\
  parse_properties body = Ok q /\ is_properties q /\ same_props q p.
Proof.
  intros p Hp. destruct (parse_permuted p (listed p) Hp (listed_permutation p Hp)) as (q & H1 & H2 & H3). exists (join [COMMA] (map verbose_id (listed p))), q. split; [apply unicode_listed|]. auto.
Qed.
(** and so it identifies the properties: equal texts iff equal objects *)
Theorem C62_identifies : forall p q, is_properties p -> is_properties q -> (props_unicode p = props_unicode q <-> props_eqb p q = true).
Proof.
  intros p q Hp Hq. rewrite (props_eqb_same p q Hp Hq). split.
  - intro E. destruct (C62_readable p Hp) as (b & p' & E1 & P1 & _ & S1), (C62_readable q Hq) as (b' & q' & E2 & P2 & _ & S2).
    rewrite E1, E2 in E. apply app_inv_head in E. apply app_inv_tail in E. subst b'. assert (p' = q') by congruence. subst q'. intros g v. rewrite <- (S1 g v). apply S2.
  - intro S. rewrite !unicode_listed. do 2 f_equal. unfold listed. f_equal. f_equal. apply flat_map_ext. intros [z g]. cbn.
    apply is_properties_wf in Hp, Hq. rewrite (proj1 (same_props_dget p q Hp Hq) S g). reflexivity.
Qed.
Example C62_case : props_unicode (Properties [AProp NUMBER_PLURAL; AProp CASE_DATIVE; AProp WORD_CASE_UPPER]) = u "(дт,мн,загл)" /\ props_unicode [] = u "()" /\ is_properties [].
Proof. split; [vm_compute; reflexivity|]. split; [reflexivity|]. apply (new_properties []). intros d []. Qed.

(** ** str(properties) *)
(** the UTF-8 bytes of a text, from the definition of the encoding (RFC 3629): the number of a character cut into six-bit pieces *)
Inductive utf8_of : str -> list N -> Prop :=
| U0 : utf8_of [] []
| U1 a s l : (a < 128)%N -> utf8_of s l -> utf8_of (a :: s) (a :: l)
| U2 a b s l : (2 <= a < 32)%N -> (b < 64)%N -> utf8_of s l -> utf8_of ((a * 64 + b)%N :: s) ((192 + a)%N :: (128 + b)%N :: l)
| U3 a b c s l : (a < 16)%N -> (b < 64)%N -> (c < 64)%N -> (2048 <= a * 4096 + b * 64 + c)%N -> utf8_of s l ->
    utf8_of ((a * 4096 + b * 64 + c)%N :: s) ((224 + a)%N :: (128 + b)%N :: (128 + c)%N :: l).

(** identifiers are in the basic plane *)
Definition bmp (c : char) := N.ltb c 65536.
Lemma bmp_join sep l c : In c (join sep l) -> In c sep \/ exists x, In x l /\ In c x.
Proof.
  induction l as [|a l IH]; intro H; [destruct H|]. destruct l as [|b l]; [right; exists a; split; [left; reflexivity|exact H]|].
  change (join sep (a :: b :: l)) with (a ++ sep ++ join sep (b :: l)) in H. apply in_app_or in H. destruct H as [H|H]; [right; exists a; split; [left; reflexivity|exact H]|].
  apply in_app_or in H. destruct H as [H|H]; [left; exact H|]. destruct (IH H) as [H1|(x & H1 & H2)]; [left; exact H1|]. right. exists x. split; [right; exact H1|exact H2].
Qed.
Lemma bmp_id v : forallb bmp (verbose_id v) = true.
Proof. destruct v; try destruct t; vm_compute; reflexivity. Qed.
Lemma unicode_bmp p c : In c (props_unicode p) -> (c < 65536)%N.
Proof.
  rewrite unicode_listed. intro H. apply N.ltb_lt. apply in_app_or in H. destruct H as [[<-|[]]|H]; [vm_compute; reflexivity|].
  apply in_app_or in H. destruct H as [H|[<-|[]]]; [|vm_compute; reflexivity]. apply bmp_join in H. destruct H as [[<-|[]]|(x & Hx & H)]; [vm_compute; reflexivity|].
  apply in_map_iff in Hx. destruct Hx as (v & <- & _). assert (B := bmp_id v). rewrite forallb_forall in B. exact (B c H).
Qed.
Lemma encode_utf8 s : (forall c, In c s -> (c < 65536)%N) -> utf8_of s (utf8_encode s).
Proof.
  induction s as [|c s IH]; intro H; [constructor|]. assert (Hc := H c (or_introl eq_refl)). assert (IH' : utf8_of s (utf8_encode s)) by (apply IH; intros x Hx; apply H; right; exact Hx).
  unfold utf8_encode. cbn [flat_map]. fold (utf8_encode s). unfold utf8_encode_char. destruct (N.ltb_spec c 128) as [L|L]; [apply U1; assumption|].
  assert (B := N.mod_lt c 64 ltac:(lia)). assert (D := N.div_mod c 64 ltac:(lia)). destruct (N.ltb_spec c 2048) as [L'|L'].
  - replace (c :: s) with ((c / 64 * 64 + c mod 64)%N :: s) by (f_equal; lia). cbn [app]. apply U2; [|exact B|exact IH'].
    split; [apply N.div_le_lower_bound; lia|apply N.div_lt_upper_bound; lia].
  - destruct (N.ltb_spec c 65536) as [L2|L2]; [|lia]. assert (D2 := N.div_mod (c / 64) 64 ltac:(lia)). assert (B2 := N.mod_lt (c / 64) 64 ltac:(lia)).
    assert (E : (c / 64 / 64 = c / 4096)%N) by (rewrite N.div_div by lia; reflexivity). rewrite E in D2.
    assert (V : (c = c / 4096 * 4096 + (c / 64) mod 64 * 64 + c mod 64)%N) by lia.
    replace (c :: s) with ((c / 4096 * 4096 + (c / 64) mod 64 * 64 + c mod 64)%N :: s) by (f_equal; lia). cbn [app].
    apply U3; [apply N.div_lt_upper_bound; lia|exact B2|exact B|lia|exact IH'].
Qed.
Lemma cons_parts (A : Type) (a b : A) l m : a :: l = b :: m -> a = b /\ l = m.
Proof. intro E. injection E. auto. Qed.
Lemma utf8_one s s' l : utf8_of s l -> utf8_of s' l -> s = s'.
Proof.
  intro H. revert s'. assert (X : forall s' l', utf8_of s' l' -> l = l' -> s = s'); [|intros s' H'; exact (X s' l H' eq_refl)].
  induction H; intros s' l' H' E; destruct H'; try discriminate E; try reflexivity;
    repeat match goal with E : _ :: _ = _ :: _ |- _ => apply cons_parts in E; destruct E end; try (exfalso; lia);
    (apply f_equal2; [lia|eapply IHutf8_of; eassumption]).
Qed.

(** __str__ returns the UTF-8 encoding of the text of __unicode__: bytes *)
Theorem C62_bytes : forall p, exists b, props_dunder_str p = PyBytes b /\ utf8_of (props_unicode p) b.
Proof. intro p. exists (utf8_encode (props_unicode p)). split; [reflexivity|]. apply encode_utf8, unicode_bmp. Qed.
(** no two texts have the same bytes: the bytes identify the object as well *)
Theorem C62_bytes_identify : forall p q, is_properties p -> is_properties q -> (props_dunder_str p = props_dunder_str q <-> props_eqb p q = true).
Proof.
  intros p q Hp Hq. rewrite <- (C62_identifies p q Hp Hq). split.
  - unfold props_dunder_str. intro E. assert (E' : utf8_encode (props_unicode p) = utf8_encode (props_unicode q)) by (apply (f_equal (fun t => match t with PyBytes b => b | PyStr _ => [] end) E)). clear E. rename E' into E. apply (utf8_one _ _ (utf8_encode (props_unicode p))); [apply encode_utf8, unicode_bmp|rewrite E; apply encode_utf8, unicode_bmp].
  - unfold props_dunder_str. intros ->. reflexivity.
Qed.
(** a finding: bytes is not what the builtin str() accepts from __str__, so in Python 3 str(p), print(p) and '%s' % p raise TypeError for every properties object *)
Theorem C62_str_refuted : forall p, is_properties p -> builtin_str (props_dunder_str p) = Err TypeError.
Proof. reflexivity. Qed.
Example C62_bytes_case : props_dunder_str (Properties [AProp NUMBER_PLURAL]) = PyBytes [40; 208; 188; 208; 189; 41]%N.
Proof. vm_compute. reflexivity. Qed.
