(** * PropPlaces: C78: where each form stands in the list of forms *)
From Coq Require Import Lia.
From Verif Require Import PyBase PyFloat Relations Restrictions Logic Data Words SpecProps SpecSlots SpecPlaces PyBaseFacts PropsFacts SlotFacts LookupFacts WordFacts PropSlots PropWords.

Ltac split_records H := cbn in H; repeat (destruct H as [<-|H]); try (destruct H; fail); try contradiction.
Ltac values H :=
  repeat match type of H with
  | Forall2 _ (_ :: _) _ => let a := fresh "c" in let l := fresh "l" in let Ha := fresh "Hc" in let Hl := fresh "Hl" in
      inversion H as [|? a ? l Ha Hl]; subst; clear H; rename Hl into H
  | Forall2 _ [] _ => inversion H; subst; clear H
  end.
Ltac agrees_tac := repeat (apply Forall2_cons; [first [right; reflexivity|left; reflexivity]|]); apply Forall2_nil.
Ltac pick v := match goal with H : In v (records _) |- _ => split_records H end.
Ltac here := left; eexists; split; [vm_compute; reflexivity|agrees_tac].

Lemma place_slot t c i : combination (schema t) c -> place t c i ->
  (exists k, slot t i k /\ agrees c k) \/
  (t = WT_NOUN /\ exists x, c = [NOUN_FORM_COUNTABLE; NUMBER_SINGULAR; x] /\ slot WT_NOUN i [Some NOUN_FORM_NORMAL; Some NUMBER_SINGULAR; Some x]) \/
  (t = WT_VERB /\ i = 0 /\ exists time number person gender, c = [VERB_FORM_IMPERATIVE; time; number; person; gender] /\ (person = PERSON_THIRD \/ (person = PERSON_FIRST /\ number = NUMBER_SINGULAR))).
Proof.
  intros Hc Hp. unfold combination in Hc.
  destruct Hp as [nf c|c|c|a n c g i Hd|a n c g|a n c g i Hd|gr a n c g i Hd|a n c g i Hd|t n p g|n p g i Hd|t p g Ht|t p g Ht|t g|t g|t g|t n p g Hp|t a n c g i Hd|t a n c g i Hd| | | | |];
    cbn [schema] in Hc; values Hc.
  - pick nf; pick c; first [here|right; left; split; [reflexivity|]; eexists; split; [reflexivity|vm_compute; reflexivity]].
  - pick c; here.
  - pick c; here.
  - destruct Hd as [a c g|a c g]; pick a; pick c; first [here|pick g; here].
  - here.
  - destruct Hd as [a c g|a c g]; pick a; pick c; first [here|pick g; here].
  - destruct Hd as [g|g]; first [here|pick g; here].
  - destruct Hd as [a c g|a c g]; pick a; pick c; first [here|pick g; here].
  - here.
  - destruct Hd as [g|g]; first [here|pick g; here].
  - pick t; pick p; here.
  - pick t; pick p; here.
  - here.
  - here.
  - here.
  - right; right. split; [reflexivity|]. split; [reflexivity|]. exists t, n, p, g. auto.
  - destruct Hd as [a c g|a c g]; pick t; pick a; pick c; first [here|pick g; here].
  - destruct Hd as [g|g]; first [here|pick g; here].
  - here.
  - here.
  - here.
  - here.
  - here.
Qed.
(** the form that answers a request *)
Theorem C78_place : forall w p c i, is_word w -> is_properties p -> requested w p c -> place (w_type w) c i ->
  exists f, word_form w p = Ok f /\ nth_error (w_forms w) i = Some f.
Proof.
  intros w p c i Hw Hp Hr Hpl. destruct (C11_requested w p Hw Hp) as (c' & Hr' & Hc & Hu). assert (c' = c) by (symmetry; apply Hu, Hr). subst c'.
  destruct (place_slot _ _ _ Hc Hpl) as [(k & Hs & Ha)|[(Ht & x & -> & Hs)|(Ht & -> & time & number & person & gender & -> & Hb)]].
  - exact (C11_matching_slot w p c i k Hw Hp Hr Hs Ha).
  - destruct (C12_countable_singular w p x Hw Hp Ht Hr) as (j & f & Hj & Hf & Hn). exists f. split; [exact Hf|].
    assert (j = i) by exact (slot_inj _ _ _ _ Hj Hs). subst j. exact Hn.
  - destruct (C12_banned_imperative w p time number person gender Hw Hp Ht Hr Hb) as (_ & f & Hf & Hn). eauto.
Qed.
(** each combination has exactly one place, *)
Lemma declined_fun a n c g i j : declined a n c g i -> declined a n c g j -> j = i.
Proof. intros H H'. destruct H; inversion H'; reflexivity. Qed.
Lemma short_fun n g i j : short n g i -> short n g j -> j = i.
Proof. intros H H'. destruct H; inversion H'; reflexivity. Qed.
Lemma declined_total a n c g : In n (records R_NUMBER) -> exists i, declined a n c g i.
Proof. intros H. split_records H; eexists; constructor. Qed.
Lemma short_total n g : In n (records R_NUMBER) -> exists i, short n g i.
Proof. intros H. split_records H; eexists; constructor. Qed.
Lemma place_fun t c i j : place t c i -> place t c j -> j = i.
Proof.
  intros H H'. destruct H; inversion H'; subst; try reflexivity; try congruence;
    try (match goal with X : declined _ _ _ _ ?a, Y : declined _ _ _ _ ?b |- _ => rewrite (declined_fun _ _ _ _ _ _ X Y); reflexivity end);
    try (match goal with X : short _ _ ?a, Y : short _ _ ?b |- _ => rewrite (short_fun _ _ _ _ X Y); reflexivity end);
    try (match goal with X : _ \/ _ |- _ => destruct X as [X|[X X']]; congruence end).
Qed.
Theorem C78_total : forall t c, combination (schema t) c -> exists i, place t c i /\ forall j, place t c j -> j = i.
Proof.
  intros t c Hc. assert (E : exists i, place t c i); [|destruct E as [i E]; exists i; split; [exact E|intros j; apply place_fun, E]].
  unfold combination in Hc. destruct t; cbn [schema] in Hc; values Hc.
  all: match goal with
    | |- exists i, place WT_NOUN [?f; ?n; ?c] i => pick n; [eexists; constructor|]; pick f; eexists; constructor
    | |- exists i, place WT_ADJECTIVE [?f; ?d; ?a; ?n; ?c; ?g] i =>
        let Hi := fresh in let Hj := fresh in destruct (declined_total a n c g ltac:(assumption)) as [? Hi]; destruct (short_total n g ltac:(assumption)) as [? Hj];
        pick f; [pick d; eexists; constructor; exact Hi|eexists; constructor; exact Hj]
    | |- exists i, place WT_PRONOUN [?a; ?n; ?c; ?g] i => let Hi := fresh in destruct (declined_total a n c g ltac:(assumption)) as [? Hi]; eexists; constructor; exact Hi
    | |- exists i, place WT_VERB [?f; ?t; ?n; ?p; ?g] i =>
        let Hj := fresh in destruct (short_total n g ltac:(assumption)) as [? Hj];
        pick f; [eexists; constructor|pick t; [eexists; constructor; exact Hj|pick n; eexists; constructor; discriminate|pick n; eexists; constructor; discriminate]|pick n; pick p; eexists; constructor; auto]
    | |- exists i, place WT_PARTICIPLE [?f; ?t; ?a; ?n; ?c; ?g] i =>
        let Hi := fresh in let Hj := fresh in destruct (declined_total a n c g ltac:(assumption)) as [? Hi]; destruct (short_total n g ltac:(assumption)) as [? Hj];
        pick f; [eexists; constructor; exact Hi|eexists; constructor; exact Hj]
    | |- exists i, place WT_PREPOSITION [?v] i => pick v; eexists; constructor
    | _ => eexists; constructor
    end.
Qed.
Lemma slot_combination t i k : slot t i k -> exists c, combination (schema t) c /\ agrees c k.
Proof.
  intros H. exact (valid_has_combination _ _ _ _ (slot_valid t i k H)).
Qed.
(** every place in the list is the answer to some request, and there are no others *)
Theorem C78_length : forall t, slots_number t (list_length t) /\ (forall forms p, length forms = list_length t -> Word t forms p = Ok {| w_type := t; w_forms := forms; w_props := p |}) /\
  (forall i, i < list_length t <-> exists c, combination (schema t) c /\ place t c i).
Proof.
  intros t. assert (N : slots_number t (list_length t)) by (assert (E := C15_slots_number t); replace (list_length t) with (get_forms_number t); [exact E|destruct t; vm_compute; reflexivity]).
  split; [exact N|]. split; [intros forms p; apply (proj1 (C15_constructor t forms p _ N))|].
  intros i. split.
  - intros Hi. apply N in Hi as [k Hk]. destruct (slot_combination t i k Hk) as (c & Hc & Ha). destruct (C78_total t c Hc) as (j & Hj & _).
    exists c. split; [exact Hc|]. replace i with j; [exact Hj|].
    destruct (place_slot t c j Hc Hj) as [(k' & Hk' & Ha')|[(-> & x & -> & _)|(-> & -> & ti & nu & pe & ge & -> & Hb)]].
    + exact (proj1 (slot_unique t c j i k' k Hc Hk' Hk Ha' Ha)).
    + exfalso. apply nth_error_In in Hk. vm_compute in Hk. repeat (destruct Hk as [<-|Hk]; [inversion Ha as [|? ? ? ? [X|X] Y]; try discriminate; inversion Y as [|? ? ? ? [Z|Z] _]; discriminate|]). destruct Hk.
    + exfalso. apply nth_error_In in Hk. vm_compute in Hk.
      repeat (destruct Hk as [<-|Hk]; [inversion Ha as [|? ? ? ? [X|X] Y]; subst; try discriminate; inversion Y as [|? ? ? ? _ Y1]; subst; inversion Y1 as [|? ? ? ? [Z|Z] Y2]; subst; try discriminate;
        inversion Y2 as [|? ? ? ? [T|T] _]; subst; try discriminate; destruct Hb as [Hb|[Hb Hb']]; congruence|]). destruct Hk.
  - intros (c & Hc & Hp). apply N. destruct (place_slot t c i Hc Hp) as [(k & Hk & _)|[(-> & x & _ & Hk)|(-> & -> & _)]]; [eauto|eauto|]. eexists. vm_compute. reflexivity.
Qed.

(** all the forms of the noun of the README *)
Example C78_case : place WT_NOUN [NOUN_FORM_COUNTABLE; NUMBER_PLURAL; CASE_GENITIVE] 13 /\ nth_error (w_forms coin) 13 = Some (u "монет") /\
  requested coin (Properties [AProp NOUN_FORM_COUNTABLE; AProp NUMBER_PLURAL; AProp CASE_GENITIVE]) [NOUN_FORM_COUNTABLE; NUMBER_PLURAL; CASE_GENITIVE] /\
  place WT_VERB [VERB_FORM_INDICATIVE; TIME_FUTURE; NUMBER_PLURAL; PERSON_SECOND; GENDER_MASCULINE] 15 /\
  place WT_ADJECTIVE [ADJECTIVE_FORM_FULL; GRADE_SUPERLATIVE; ANIMALITY_INANIMATE; NUMBER_PLURAL; CASE_PREPOSITIONAL; GENDER_NEUTER] 96 /\
  place WT_PARTICIPLE [PARTICIPLE_FORM_SHORT; TIME_PAST; ANIMALITY_ANIMATE; NUMBER_PLURAL; CASE_NOMINATIVE; GENDER_NEUTER] 147.
Proof.
  split; [apply (noun_countable CASE_GENITIVE)|]. split; [reflexivity|]. split.
  { repeat (apply Forall2_cons; [apply vf_next; [intros v Hv; cbn in Hv; repeat (destruct Hv as [[=]|Hv]); destruct Hv|]; apply vf_here; cbn; auto 10|]). apply Forall2_nil. }
  split; [apply (verb_plural TIME_FUTURE PERSON_SECOND GENDER_MASCULINE); discriminate|].
  split; [apply adjective_superlative, (declined_plural ANIMALITY_INANIMATE CASE_PREPOSITIONAL GENDER_NEUTER)|apply participle_short, short_plural].
Qed.
