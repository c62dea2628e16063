(** * WordFacts: facts about utg/words.py: autofill, all_forms, get_form, create_test_word *)
From Coq Require Import Lia.
From Verif Require Import PyBase PyFloat Relations Restrictions Logic Data Words SpecProps SpecSlots
  PyBaseFacts PropsFacts FloatFacts NearestFacts SlotFacts LookupFacts.

Lemma mapM_zip {A B C} (g : A -> B -> C) (l1 : list A) (l2 : list B) : length l1 = length l2 ->
  mapM (fun i => a <- py_nth l1 i ;; b <- py_nth l2 i ;; Ok (g a b)) (seq 0 (length l2)) = Ok (map (fun ab => g (fst ab) (snd ab)) (combine l1 l2)).
Proof.
  revert l2. induction l1 as [|a l1 IH]; intros [|b l2] H; try discriminate; [reflexivity|]. injection H as H.
  simpl. rewrite <- seq_shift, mapM_map. specialize (IH l2 H). unfold py_nth in *. simpl. rewrite IH. reflexivity.
Qed.

(** ** autofill *)
Definition given_keys (t : word_type) (forms : list str) : list key :=
  map fst (filter (fun kf => nonempty (snd kf)) (combine (INVERTED_WORDS_CACHES t) forms)).
Lemma available_keys_eq t forms : length forms = length (INVERTED_WORDS_CACHES t) -> available_keys t forms = Ok (given_keys t forms).
Proof.
  intros H. unfold available_keys, given_keys. rewrite (mapM_zip (fun k f => if nonempty f then [k] else [])) by (symmetry; exact H).
  simpl. f_equal. induction (combine (INVERTED_WORDS_CACHES t) forms) as [|[k f] l IH]; [reflexivity|]. simpl.
  destruct (nonempty f); simpl; rewrite IH; reflexivity.
Qed.
Lemma nth_error_combine {A B} (l1 : list A) (l2 : list B) i a b :
  nth_error (combine l1 l2) i = Some (a, b) <-> nth_error l1 i = Some a /\ nth_error l2 i = Some b.
Proof.
  revert l2 i. induction l1 as [|x l1 IH]; intros [|y l2] [|i]; simpl; try (split; [discriminate|intros [? ?]; discriminate]).
  - split; [intros [= -> ->]; auto|intros [[= ->] [= ->]]; reflexivity].
  - apply IH.
Qed.
Lemma nonempty_iff f : nonempty f = true <-> f <> [].
Proof. destruct f; simpl; split; congruence. Qed.
Lemma in_given_keys t forms k : In k (given_keys t forms) <-> exists i f, slot t i k /\ nth_error forms i = Some f /\ f <> [].
Proof.
  unfold given_keys. rewrite in_map_iff. split.
  - intros ([k' f] & <- & H). apply filter_In in H as [H Hf]. apply In_nth_error in H as [i H]. apply nth_error_combine in H as [H1 H2].
    exists i, f. simpl in *. repeat split; [exact H1|exact H2|apply nonempty_iff, Hf].
  - intros (i & f & H1 & H2 & H3). exists (k, f). split; [reflexivity|]. apply filter_In. split; [|apply nonempty_iff, H3].
    apply (nth_error_In _ i). apply nth_error_combine. auto.
Qed.
(** earlier in the list of available keys = earlier slot *)
Lemma filter_split {A} (P : A -> bool) l : forall m1 x m2, filter P l = m1 ++ x :: m2 ->
  exists l1 l2, l = l1 ++ x :: l2 /\ filter P l1 = m1 /\ filter P l2 = m2.
Proof.
  induction l as [|a l IH]; intros m1 x m2 H; simpl in H; [destruct m1; discriminate|].
  destruct (P a) eqn:E.
  - destruct m1 as [|b m1]; simpl in H; injection H as <- H.
    + exists [], l. auto.
    + destruct (IH m1 x m2 H) as (l1 & l2 & -> & H1 & H2). exists (a :: l1), l2. simpl. rewrite E, H1. auto.
  - destruct (IH m1 x m2 H) as (l1 & l2 & -> & H1 & H2). exists (a :: l1), l2. simpl. rewrite E. auto.
Qed.
Lemma map_split {A B} (f : A -> B) l : forall m1 x m2, map f l = m1 ++ x :: m2 ->
  exists l1 a l2, l = l1 ++ a :: l2 /\ map f l1 = m1 /\ f a = x /\ map f l2 = m2.
Proof.
  induction l as [|a l IH]; intros m1 x m2 H; simpl in H; [destruct m1; discriminate|].
  destruct m1 as [|b m1]; simpl in H; injection H as <- H.
  - exists [], a, l. auto.
  - destruct (IH m1 x m2 H) as (l1 & a' & l2 & -> & H1 & H2 & H3). exists (a :: l1), a', l2. simpl. rewrite H1. auto.
Qed.
Lemma given_keys_split t forms m1 k m2 : given_keys t forms = m1 ++ k :: m2 ->
  exists i f, slot t i k /\ nth_error forms i = Some f /\ f <> [] /\
    forall j k' f', j < i -> slot t j k' -> nth_error forms j = Some f' -> f' <> [] -> In k' m1.
Proof.
  intros H. unfold given_keys in H. apply map_split in H as (n1 & [k0 f] & n2 & H & <- & Hk & _). simpl in Hk. subst k0.
  assert (Hin : In (k, f) (n1 ++ (k, f) :: n2)) by (apply in_app_iff; right; left; reflexivity).
  rewrite <- H in Hin. apply filter_In in Hin as [_ Hf].
  apply filter_split in H as (l1 & l2 & E & <- & _). exists (length l1), f.
  assert (Hn : nth_error (combine (INVERTED_WORDS_CACHES t) forms) (length l1) = Some (k, f)).
  { rewrite E, nth_error_app2, Nat.sub_diag by lia. reflexivity. }
  apply nth_error_combine in Hn as [H1 H2]. repeat split; [exact H1|exact H2|apply nonempty_iff, Hf|].
  intros j k' f' Hj Hs Hj' Hf'. apply in_map_iff. exists (k', f'). split; [reflexivity|]. apply filter_In. split; [|apply nonempty_iff, Hf'].
  apply (nth_error_In _ j). rewrite <- (nth_error_app1 l1 ((k, f) :: l2)) by exact Hj. rewrite <- E. apply nth_error_combine. auto.
Qed.

(** the text put into the slot i *)
Definition filled (t : word_type) (forms : list str) (i : nat) (f : str) : str :=
  if nonempty f then f
  else match nth_error (INVERTED_WORDS_CACHES t) i with
       | None => f
       | Some k => match get_nearest_key k (given_keys t forms) with
                   | None => f
                   | Some nk => match dget key_eqb nk (WORDS_CACHES t) with
                                | None => f
                                | Some j => nth j forms f
                                end
                   end
       end.
Lemma autofill_loop t forms : length forms = length (INVERTED_WORDS_CACHES t) ->
  forall m i cur, i + m = length forms -> length cur = length forms ->
  (forall j, nth_error cur j = if Nat.ltb j i then option_map (filled t forms j) (nth_error forms j) else nth_error forms j) ->
  exists cur', foldM (autofill_step t (given_keys t forms)) (seq i m) cur = Ok cur' /\ length cur' = length forms /\
    forall j, nth_error cur' j = option_map (filled t forms j) (nth_error forms j).
Proof.
  intros Hlen. induction m as [|m IH]; intros i cur Hm Hl Hcur.
  - exists cur. split; [reflexivity|]. split; [exact Hl|]. intros j. rewrite Hcur. destruct (Nat.ltb_spec j i); [reflexivity|].
    rewrite (proj2 (nth_error_None forms j)) by lia. reflexivity.
  - cbn [seq foldM]. 
    assert (Hi : exists f, nth_error forms i = Some f) by (destruct (nth_error forms i) eqn:E; [eauto|apply nth_error_None in E; lia]).
    destruct Hi as [f Hf].
    assert (Hcf : nth_error cur i = Some f) by (rewrite Hcur, Nat.ltb_irrefl; exact Hf).
    assert (G : exists cur1, autofill_step t (given_keys t forms) cur i = Ok cur1 /\ length cur1 = length forms /\
      forall j, nth_error cur1 j = if Nat.ltb j (S i) then option_map (filled t forms j) (nth_error forms j) else nth_error forms j).
    { unfold autofill_step, py_nth. rewrite Hcf. cbn [bind].
      assert (Hsame : filled t forms i f = f -> forall j, nth_error cur j = if Nat.ltb j (S i) then option_map (filled t forms j) (nth_error forms j) else nth_error forms j).
      { intros E j. rewrite Hcur. destruct (Nat.ltb_spec j i), (Nat.ltb_spec j (S i)); try lia; try reflexivity.
        assert (j = i) by lia. subst j. rewrite Hf. simpl. rewrite E. reflexivity. }
      unfold filled in Hsame. destruct (nonempty f) eqn:En; [exists cur; split; [reflexivity|split; [exact Hl|apply Hsame; reflexivity]]|].
      destruct (nth_error (INVERTED_WORDS_CACHES t) i) as [k|] eqn:Ek; [|apply nth_error_None in Ek; assert (nth_error forms i = None) by (apply nth_error_None; lia); congruence].
      cbn [bind]. destruct (get_nearest_key k (given_keys t forms)) as [nk|] eqn:Enk;
        [|exists cur; split; [reflexivity|split; [exact Hl|apply Hsame; reflexivity]]].
      assert (Hnk := Enk). apply get_nearest_key_iff, nearest_in, in_given_keys in Hnk as (s & fs & Hs & Hfs & Hne).
      assert (Hd := Hs). apply WORDS_CACHES_dget in Hd. rewrite Hd. rewrite Hd in Hsame.
      assert (Hcs : nth_error cur s = Some fs).
      { rewrite Hcur. destruct (Nat.ltb s i); [|exact Hfs]. rewrite Hfs. simpl. unfold filled. rewrite (proj2 (nonempty_iff fs) Hne). reflexivity. }
      rewrite Hcs. cbn [bind]. exists (list_set i fs cur). split; [reflexivity|]. split; [rewrite list_set_length; exact Hl|].
      intros j. rewrite list_set_nth. destruct (Nat.eqb_spec i j) as [<-|Hij].
      - rewrite (proj2 (Nat.ltb_lt i (length cur))), (proj2 (Nat.ltb_lt i (S i))) by lia. rewrite Hf. simpl. f_equal.
        unfold filled. rewrite En, Ek, Enk, Hd. symmetry. apply nth_error_nth, Hfs.
      - rewrite Hcur. destruct (Nat.ltb_spec j i), (Nat.ltb_spec j (S i)); try lia; reflexivity. }
    destruct G as (cur1 & -> & Hl1 & H1). cbn [bind]. apply IH; [lia|exact Hl1|exact H1].
Qed.
Lemma autofill_spec w : is_word w -> exists w', autofill_missed_forms w = Ok w' /\
  w_type w' = w_type w /\ w_props w' = w_props w /\ length (w_forms w') = length (w_forms w) /\
  forall j, nth_error (w_forms w') j = option_map (filled (w_type w) (w_forms w) j) (nth_error (w_forms w) j).
Proof.
  intros Hw. assert (Hl := word_forms_length w Hw). unfold autofill_missed_forms, autofill_forms. rewrite available_keys_eq by exact Hl.
  cbn [bind]. destruct (autofill_loop (w_type w) (w_forms w) Hl (length (w_forms w)) 0 (w_forms w) eq_refl eq_refl) as (forms' & -> & H1 & H2).
  { intros j. destruct (Nat.ltb_spec j 0); [lia|reflexivity]. }
  cbn [bind]. eexists. split; [reflexivity|]. simpl. auto.
Qed.
(** the source of a filled form *)
Lemma filled_source t forms i k f : length forms = length (INVERTED_WORDS_CACHES t) -> slot t i k -> nth_error forms i = Some f -> f = [] ->
  (exists j g, nth_error forms j = Some g /\ g <> []) ->
  exists j kj g, slot t j kj /\ nth_error forms j = Some g /\ g <> [] /\ filled t forms i f = g /\
    forall j' k' g', slot t j' k' -> nth_error forms j' = Some g' -> g' <> [] ->
      at_least_as_similar k kj k' /\ (j' < j -> ~ at_least_as_similar k k' kj).
Proof.
  intros Hlen Hk Hf -> (j0 & g0 & Hj0 & Hg0). unfold filled. cbn [nonempty]. unfold slot in Hk. rewrite Hk.
  destruct (get_nearest_key k (given_keys t forms)) as [nk|] eqn:Enk.
  2: { apply get_nearest_key_none in Enk. destruct (slot_exists t j0) as [k0 Hk0].
       - rewrite <- Hlen. apply nth_error_Some. congruence.
       - assert (In k0 (given_keys t forms)) by (apply in_given_keys; eauto 6). rewrite Enk in H. destruct H. }
  apply get_nearest_key_iff in Enk as (m1 & m2 & E & Hmax & Hfirst).
  assert (G := given_keys_split t forms m1 nk m2 E). destruct G as (j & g & Hs & Hg & Hne & Hbefore).
  assert (Hd := Hs). apply WORDS_CACHES_dget in Hd. rewrite Hd. exists j, nk, g.
  assert (Hkl : length k <= 20) by (rewrite (slot_length t i k Hk); pose proof (schema_short t); lia).
  split; [exact Hs|]. split; [exact Hg|]. split; [exact Hne|]. split; [apply nth_error_nth, Hg|].
  intros j' k' g' Hs' Hg' Hne'. split.
  - apply not_less_similar; [exact Hkl|]. apply Hmax. apply in_given_keys. eauto 6.
  - intros Hlt Hsim. assert (Hb : f_gt (similarity k nk) (similarity k k') = true) by (apply Hfirst; eapply Hbefore; eassumption).
    assert (Ha : at_least_as_similar k nk k') by (apply not_less_similar; [exact Hkl|]; apply Hmax, in_given_keys; eauto 6).
    assert (Heq : match_count k nk = match_count k k' /\ match_sum k nk = match_sum k k').
    { unfold at_least_as_similar in *. lia. }
    rewrite (slot_tie t i j' j k k' nk Hk Hs' Hs Hlt) in Hb; [discriminate|symmetry; apply Heq|symmetry; apply Heq].
Qed.

(** ** Properties made from a key, all_forms *)
Lemma is_properties_key k : is_properties (key_props k).
Proof. apply Properties_ok. intros d H. apply in_map_iff in H as ([p|] & [=] & _). Qed.
Lemma key_args_get k g : NoDup (map (option_map rel_of) (filter (fun o => match o with Some _ => true | None => false end) k)) ->
  forall v, args_get g (map (fun o => match o with Some p => AProp p | None => ANone end) k) = Some v <-> In (Some v) k /\ rel_of v = g.
Proof.
  induction k as [|o k IH]; intros Hnd v; simpl; [split; [discriminate|intros [[] _]]|].
  destruct o as [p|]; simpl in *.
  - inversion Hnd as [|? ? Hni Hnd']; subst. specialize (IH Hnd'). destruct (args_get g _) as [w|] eqn:E.
    + split.
      * intros [= ->]. destruct (proj1 (IH v) eq_refl). tauto.
      * intros [[[= ->]|Hin] Hg].
        -- exfalso. assert (H : In (Some w) k /\ rel_of w = g) by (apply IH; reflexivity). apply Hni. apply in_map_iff.
           destruct H as [H1 H2]. exists (Some w). split; [simpl; congruence|]. apply filter_In. split; [exact H1|reflexivity].
        -- apply IH. auto.
    + destruct (rel_eqb (rel_of p) g) eqn:Ep.
      * apply rel_eqb_ok in Ep. split; [intros [= ->]; auto|]. intros [[H|Hin] Hg]; [exact H|].
        exfalso. assert (None = Some v) by (apply IH; auto). discriminate.
      * apply (eqb_ok_neq _ rel_eqb_ok) in Ep. split; [discriminate|]. intros [[[= ->]|Hin] Hg]; [contradiction|]. apply IH; auto.
  - specialize (IH Hnd). destruct (args_get g _) as [w|] eqn:E.
    + rewrite IH. split; [tauto|]. intros [[[=]|H] Hg]. auto.
    + split; [discriminate|]. intros [[[=]|H] Hg]. apply IH; auto.
Qed.

Lemma valid_rels restr sch : forall left k, valid_after restr left sch k ->
  Forall2 (fun g o => forall p, o = Some p -> rel_of p = g) sch k.
Proof.
  induction sch as [|g sch IH]; intros left [|o k] H; try destruct H; [constructor|].
  destruct H0 as [H1 H2]. constructor; [intros p Hp; apply in_records, H1, Hp|exact (IH _ _ H2)].
Qed.
Lemma key_rels_nodup sch k : NoDup sch -> Forall2 (fun g o => forall p, o = Some p -> rel_of p = g) sch k ->
  NoDup (map (option_map rel_of) (filter (fun o => match o with Some _ => true | None => false end) k)).
Proof.
  intros Hnd H. induction H as [|g o sch k Ho H IH]; [constructor|]. inversion Hnd as [|? ? Hni Hnd']; subst.
  specialize (IH Hnd'). simpl. destruct o as [p|]; [|exact IH]. simpl. constructor; [|exact IH].
  intros Hin. apply Hni. apply in_map_iff in Hin as ([q|] & E & Hq); [|discriminate]. injection E as E.
  apply filter_In in Hq as [Hq _]. rewrite <- (Ho p eq_refl), <- E. clear -H Hq.
  induction H as [|g o sch k Ho H IH]; [destruct Hq|]. destruct Hq as [->|Hq]; [left; symmetry; apply Ho; reflexivity|right; apply IH, Hq].
Qed.
Lemma schema_nodup t : NoDup (schema t).
Proof. destruct t; repeat constructor; simpl; intuition discriminate. Qed.
Lemma key_props_holds t i k : slot t i k -> forall g v, holds (key_props k) g v <-> In (Some v) k /\ rel_of v = g.
Proof.
  intros H g v. rewrite <- holds_dget by (apply is_properties_wf, is_properties_key). unfold key_props.
  rewrite dget_Properties by (intros d Hd; apply in_map_iff in Hd as ([p|] & [=] & _)). apply key_args_get.
  apply (key_rels_nodup (schema t)); [apply schema_nodup|]. apply (valid_rels (RESTRICTIONS t) (schema t) []). apply (slot_valid t i k H).
Qed.

Lemma all_forms_eq w : is_word w ->
  all_forms w = Ok (map (fun k => WordForm w (Some (key_props k)) None) (INVERTED_WORDS_CACHES (w_type w))).
Proof.
  intros Hw. unfold all_forms. rewrite (word_forms_length w Hw). generalize (INVERTED_WORDS_CACHES (w_type w)). intros l.
  assert (H := mapM_zip (fun k (_ : key) => WordForm w (Some (key_props k)) None) l l eq_refl).
  erewrite mapM_ext_in; [rewrite H|].
  - f_equal. induction l; simpl; [reflexivity|]. rewrite <- IHl at 1; [reflexivity|].
    apply (mapM_zip (fun k (_ : key) => WordForm w (Some (key_props k)) None) l l eq_refl).
  - intros i _. simpl. destruct (py_nth l i); reflexivity.
Qed.

(** ** get_form *)
Lemma is_upper_spec p : is_properties p ->
  (holds p R_WORD_CASE WORD_CASE_UPPER -> is_upper p = Ok true) /\ (~ holds p R_WORD_CASE WORD_CASE_UPPER -> is_upper p = Ok false).
Proof.
  intros Hp. apply is_properties_wf in Hp. unfold is_upper. rewrite pget_spec. split; intros H.
  - apply holds_dget in H; [|exact Hp]. rewrite H. reflexivity.
  - destruct (dget rel_eqb R_WORD_CASE p) as [v|] eqn:E; [|reflexivity]. apply holds_dget in E; [|exact Hp].
    assert (Hr := holds_rel p _ _ Hp E). apply in_records in Hr. destruct Hr as [<-|[<-|[]]]; [reflexivity|contradiction].
Qed.
Lemma upper_dec p : is_properties p -> {holds p R_WORD_CASE WORD_CASE_UPPER} + {~ holds p R_WORD_CASE WORD_CASE_UPPER}.
Proof.
  intros Hp. destruct (opt_eqb prop_eqb (dget rel_eqb R_WORD_CASE p) (Some WORD_CASE_UPPER)) eqn:E.
  - left. apply (opt_eqb_ok _ prop_eqb_ok) in E. apply holds_dget; [apply is_properties_wf, Hp|exact E].
  - right. intros H. apply holds_dget in H; [|apply is_properties_wf, Hp]. rewrite H in E. discriminate.
Qed.
Lemma get_form_spec U w p form : is_properties p -> word__form w p = Ok form ->
  (holds p R_WORD_CASE WORD_CASE_UPPER -> get_form U w p = match form with [] => Err IndexError | c :: rest => Ok (u_upper U c ++ rest) end) /\
  (~ holds p R_WORD_CASE WORD_CASE_UPPER -> get_form U w p = Ok form).
Proof.
  intros Hp Hf. destruct (is_upper_spec p Hp) as [H1 H2]. unfold get_form. rewrite Hf. cbn [bind]. split; intros H.
  - rewrite (H1 H). reflexivity.
  - rewrite (H2 H). reflexivity.
Qed.
(** the properties stored in a word form already contain those of the word *)
Lemma merged_twice w p : is_word w -> is_properties p -> forall q, (q = w_props w \/ q = Properties [AProps p; AProps (w_props w)]) ->
  word_form w q = word__form w q.
Proof.
  intros Hw Hp q Hq. unfold word_form. apply word__form_ext. intros g _.
  assert (Hqp : is_properties q) by (destruct Hq as [->| ->]; [apply Hw|apply merged_ok; [exact Hp|apply Hw]]).
  rewrite !pget_spec, dget_Properties by (apply good_args_wf; intros d [[= <-]|[[= <-]|[]]]; [exact Hqp|apply Hw]).
  simpl. destruct (dget rel_eqb g (w_props w)) as [v|] eqn:E; [|reflexivity].
  destruct Hq as [->| ->]; [rewrite E; reflexivity|].
  rewrite dget_Properties by (apply good_args_wf; intros d [[= <-]|[[= <-]|[]]]; [exact Hp|apply Hw]). simpl. rewrite E. reflexivity.
Qed.
Lemma wordform_parts f : is_wordform f -> is_word (wf_word f) /\ is_properties (wf_props f) /\ is_properties (wf_form_props f) /\
  word__form (wf_word f) (wf_form_props f) = word_form (wf_word f) (wf_form_props f) /\
  word__form (wf_word f) (wf_props f) = word_form (wf_word f) (wf_props f).
Proof.
  intros (w & p & fp & Hw & Hp & Hfp & ->). unfold WordForm. cbn [wf_word wf_props wf_form_props].
  assert (H1 : is_properties match p with Some q => Properties [AProps q; AProps (w_props w)] | None => w_props w end).
  { destruct p as [q|]; [apply merged_ok; [apply Hp; reflexivity|]|]; apply Hw. }
  assert (H2 : word__form w match p with Some q => Properties [AProps q; AProps (w_props w)] | None => w_props w end
             = word_form w match p with Some q => Properties [AProps q; AProps (w_props w)] | None => w_props w end).
  { symmetry. destruct p as [q|]; [apply (merged_twice w q)|apply (merged_twice w (w_props w))]; auto; apply Hw. }
  split; [exact Hw|]. split; [exact H1|]. destruct fp as [q|]; [|auto].
  split; [apply merged_ok; [apply Hfp; reflexivity|apply Hw]|]. split; [|exact H2].
  symmetry. apply (merged_twice w q); auto.
Qed.

(** ** helpers for the statements *)
Fixpoint nodup_check {A} (eqb : A -> A -> bool) (l : list A) : bool :=
  match l with [] => true | a :: l' => if mem eqb a l' then false else nodup_check eqb l' end.
Lemma nodup_check_ok {A} (eqb : A -> A -> bool) : eqb_ok eqb -> forall l, nodup_check eqb l = true -> NoDup l.
Proof.
  intros H. induction l as [|a l IH]; simpl; intros E; [constructor|]. destruct (mem eqb a l) eqn:Em; [discriminate|].
  constructor; [apply (mem_false _ H), Em|apply IH, E].
Qed.
Lemma Forall2_nth {A B} (R : A -> B -> Prop) l1 l2 : length l1 = length l2 ->
  (forall i a b, nth_error l1 i = Some a -> nth_error l2 i = Some b -> R a b) -> Forall2 R l1 l2.
Proof.
  revert l2. induction l1 as [|a l1 IH]; intros [|b l2] Hl H; try discriminate; [constructor|].
  constructor; [apply (H 0); reflexivity|]. apply IH; [injection Hl; auto|]. intros i. apply (H (S i)).
Qed.
Lemma Forall2_in_r {A B} (R : A -> B -> Prop) l1 l2 b : Forall2 R l1 l2 -> In b l2 -> exists a, In a l1 /\ R a b.
Proof.
  induction 1; intros Hin; [destruct Hin|]. destruct Hin as [<-|Hin]; [eexists; split; [left; reflexivity|assumption]|].
  destruct (IHForall2 Hin) as (a & Ha & Hr). exists a. split; [right; exact Ha|exact Hr].
Qed.
Lemma slot_rels t i k : slot t i k -> Forall2 (fun g o => forall p, o = Some p -> rel_of p = g) (schema t) k.
Proof. intros H. apply (valid_rels (RESTRICTIONS t) (schema t) []). exact (slot_valid t i k H). Qed.
Lemma slot_in_schema t i k p : slot t i k -> In (Some p) k -> In (rel_of p) (schema t).
Proof.
  intros H Hin. destruct (Forall2_in_r _ _ _ _ (slot_rels t i k H) Hin) as (g & Hg & Hr). rewrite (Hr p eq_refl). exact Hg.
Qed.
Lemma schema_no_case t : ~ In R_WORD_CASE (schema t).
Proof. destruct t; simpl; intuition discriminate. Qed.
Lemma slot_no_case t i k : slot t i k -> ~ In (Some WORD_CASE_UPPER) k.
Proof. intros H Hin. apply (slot_in_schema t i k _ H) in Hin. exact (schema_no_case t Hin). Qed.
Lemma agrees_of_values (P Q : props) (k : key) : props_wf Q -> (forall g v, holds Q g v <-> In (Some v) k /\ rel_of v = g) ->
  forall sch c k', (forall g v, In g sch -> ~ holds P g v) ->
     Forall2 (fun g v => value_from [P; Q] g (Some v)) sch c ->
     Forall2 (fun g o => forall p, o = Some p -> rel_of p = g) sch k' -> (forall p, In (Some p) k' -> In (Some p) k) ->
     Forall2 (fun p o => o = None \/ o = Some p) c k'.
Proof.
  intros HQ Hh. induction sch as [|g sch IH]; intros c k' Hno H1 H2 Hin.
  - inversion H1; inversion H2; subst; constructor.
  - inversion H1 as [|? v ? c1 Hv H1']; inversion H2 as [|? o ? k1 Ho H2']; subst. constructor.
    + destruct o as [p|]; [right|left; reflexivity]. f_equal.
      assert (Hp : holds Q g p) by (apply Hh; split; [apply Hin; left; reflexivity|auto]).
      inversion Hv as [|? ? ? ? Hx|? ? ? ? Hx Hy]; subst; [exfalso; eapply Hno; [left; reflexivity|eassumption]|].
      inversion Hy as [|? ? ? ? Hz|? ? ? ? Hz Hz']; subst; [exact (holds_fun _ _ _ _ HQ Hp Hz)|destruct (Hz p Hp)].
    + apply IH; try assumption; [intros g' v' Hg; apply Hno; right; exact Hg|intros p Hp; apply Hin; right; exact Hp].
Qed.
Lemma requested_of_key w k i : is_word w -> slot (w_type w) i k -> (forall g v, In g (schema (w_type w)) -> ~ holds (w_props w) g v) ->
  exists c, requested w (key_props k) c /\ agrees c k.
Proof.
  intros Hw Hk Hno. destruct (requested_exists w (key_props k) Hw (is_properties_key k)) as [c Hc]. exists c. split; [exact Hc|].
  apply (agrees_of_values (w_props w) (key_props k) k) with (sch := schema (w_type w));
    [apply is_properties_wf, is_properties_key|apply (key_props_holds _ _ _ Hk)|exact Hno|exact Hc|exact (slot_rels _ _ _ Hk)|auto].
Qed.

(** counting characters of a set *)
Lemma count_set (V : list char) f : NoDup V -> list_sum (map (fun c => count_char c f) V) = length (filter (fun c => mem N.eqb c V) f).
Proof.
  intros Hnd. induction f as [|c f IH].
  - simpl. induction V as [|x V IHV]; [reflexivity|]. simpl. apply IHV. inversion Hnd; assumption. 
  - cbn [filter].
    assert (G : forall W, NoDup W -> list_sum (map (fun x => count_char x (c :: f)) W) = (if mem N.eqb c W then 1 else 0) + list_sum (map (fun x => count_char x f) W)).
    { clear. induction W as [|x W IHW]; intros Hnd; [reflexivity|]. inversion Hnd as [|? ? Hni Hnd']; subst. specialize (IHW Hnd').
      assert (S1 : forall a l, list_sum (a :: l) = a + list_sum l) by reflexivity. cbn [map]. rewrite !S1, IHW. clear IHW.
      unfold mem. cbn [existsb]. unfold count_char at 1 3. cbn [filter]. rewrite (N.eqb_sym x c). destruct (N.eqb_spec c x) as [->|Hn].
      - assert (E : existsb (N.eqb x) W = false) by (apply (mem_false _ N_eqb_ok); exact Hni). rewrite E. simpl. lia.
      - simpl. lia. }
    rewrite (G V Hnd), IH. destruct (mem N.eqb c V); reflexivity.
Qed.
