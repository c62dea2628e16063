(** * PropDictionary: C20-C23 *)
From Coq Require Import Lia Permutation.
From Verif Require Import PyBase PyFloat Relations Restrictions Logic Data Words Dictionary SpecProps SpecSlots SpecDictionary
  PyBaseFacts PropsFacts SlotFacts LookupFacts WordFacts SerFacts DictFacts PropSlots PropWords.

(** The histories: a list of words given to add_word one after the other; [after U ws] is the dictionary afterwards,
    whether or not some of the calls raised.  [registered U ws l]: l lists the word forms registered by this history.
    When no call raises these are all forms of all the words: *)
Theorem C20_history : forall U ws, Forall is_word ws ->
  (exists l, registered U ws l /\ forall l', registered U ws l' -> l' = l) /\
  forall d, Dictionary U ws = Ok d -> d = after U ws /\
    forall l, registered U ws l -> exists ls, Forall2 (fun w lw => all_forms w = Ok lw) ws ls /\ l = concat ls.
Proof.
  intros U ws Hw. split.
  - destruct (after_rep U ws Hw) as (l & Hl & _). exists l. split; [exact Hl|]. intros l' Hl'. exact (registered_fun U ws l' l Hl' Hl).
  - intros d Hd. apply Dictionary_ok in Hd as [-> Hok]. split; [reflexivity|]. intros l (ls & H & ->). exists ls. split; [|reflexivity].
    induction H as [|w lw ws ls Hr H IH]; [constructor|]. inversion Hw; subst. constructor.
    + apply (add_word_all U w); [assumption|apply Hok; left; reflexivity|exact Hr].
    + apply IH; [assumption|]. intros w' Hw'. apply Hok. right; exact Hw'.
Qed.
Theorem C20_has_word : forall U ws l t, Forall is_word ws -> registered U ws l ->
  (has_word (after U ws) t = true <-> exists f, In f l /\ wf_form U f = Ok t).
Proof.
  intros U ws l t Hw Hl. assert (Hr := after_rep_of U ws l Hw Hl t). unfold has_word, dmem. rewrite Hr.
  assert (Hb := best_spec U t l). destruct (best U t l) as [f|].
  - split; [|reflexivity]. intros _. destruct Hb as (Ht & l1 & l2 & E & _). exists f. split; [|exact Ht].
    rewrite E. apply in_app_iff. right; left; reflexivity.
  - split; [discriminate|]. intros (f & Hf & Ht). destruct (Hb f Hf Ht).
Qed.
(** for successful histories, in terms of the words *)
Theorem C20_has_word_iff : forall U ws d t, Forall is_word ws -> Dictionary U ws = Ok d ->
  (has_word d t = true <-> exists w lw f, In w ws /\ all_forms w = Ok lw /\ In f lw /\ wf_form U f = Ok t).
Proof.
  intros U ws d t Hw Hd. destruct (C20_history U ws Hw) as [(l & Hl & _) H]. destruct (H d Hd) as [-> Hall].
  rewrite (C20_has_word U ws l t Hw Hl). destruct (Hall l Hl) as (ls & Hls & ->). split.
  - intros (f & Hf & Ht). apply in_concat in Hf as (lw & Hlw & Hf). destruct (Forall2_in_r _ _ _ _ Hls Hlw) as (w & Hww & E). eauto 8.
  - intros (w & lw & f & Hww & E & Hf & Ht). exists f. split; [|exact Ht]. apply in_concat. exists lw. split; [|exact Hf].
    clear -Hls Hww E. induction Hls as [|w' lw' ws ls E' _ IH]; [destruct Hww|]. destruct Hww as [->|Hww]; [left; congruence|right; apply IH, Hww].
Qed.
Theorem C20_get_word : forall U ws l t f, Forall is_word ws -> registered U ws l -> get_word (after U ws) t = Ok f ->
  In f l /\ wf_form U f = Ok t /\ In (wf_word f) ws.
Proof.
  intros U ws l t f Hw Hl H. unfold get_word in H. rewrite (after_rep_of U ws l Hw Hl t) in H.
  assert (Hb := best_spec U t l). destruct (best U t l) as [f'|]; [|discriminate]. injection H as ->.
  destruct Hb as (Ht & l1 & l2 & E & _). assert (Hin : In f l) by (rewrite E; apply in_app_iff; right; left; reflexivity).
  split; [exact Hin|]. split; [exact Ht|]. destruct (registered_in U ws l f Hw Hl Hin) as (w & lw & Hww & _ & _ & -> & _). exact Hww.
Qed.
Theorem C20_unknown_text : forall d t e, get_word d t = Err e <-> e = NoWordsFoundError t /\ has_word d t = false.
Proof.
  intros d t e. unfold get_word, has_word, dmem. destruct (dget str_eqb t d).
  - split; [discriminate|intros [_ [=]]].
  - split; [intros [= <-]; auto|intros [-> _]; reflexivity].
Qed.
(** adding a word (successfully or not) never removes a text, from any dictionary *)
Theorem C20_monotone : forall U d w t, has_word d t = true -> has_word (fst (add_word U d w)) t = true.
Proof.
  intros U d w t. unfold add_word. revert d. induction (seq 0 (length (w_forms w))) as [|i is IH]; intros d H; [exact H|].
  cbn [add_forms]. destruct (py_nth _ i) as [k|]; cbn [bind]; [|exact H].
  destruct (add_form U d (WordForm w (Some (key_props k)) None)) as [d'|] eqn:E; [|exact H]. apply IH.
  unfold add_form in E. destruct (wf_form U _) as [s|]; [|discriminate]. cbn [bind] in E. unfold has_word, dmem in *.
  assert (G : forall f, dmem str_eqb t (dset str_eqb s f d) = true).
  { intros f. unfold dmem. rewrite (dget_dset _ str_eqb_ok). destruct (str_eqb s t); [reflexivity|exact H]. }
  destruct (dget str_eqb s d); [destruct (replaces _ _)|]; injection E as <-; try exact H; apply G.
Qed.
(** get_words is the set of the words of the recognised forms: each element is (identically) the word of an answer of get_word, the
    word of every answer of get_word is equal to an element, and no two elements are equal *)
Definition same_word (a b : word) : Prop := w_type a = w_type b /\ w_forms a = w_forms b /\ same_props (w_props a) (w_props b).
Lemma get_words_fold (d : dictionary) acc : (forall t f, In (t, f) d -> is_word (wf_word f)) ->
  exists new, fold_left (fun acc (kf : str * wordform) => if mem word_eqb (wf_word (snd kf)) acc then acc else acc ++ [wf_word (snd kf)]) d acc = acc ++ new /\
    (forall w, In w new -> exists t f, In (t, f) d /\ wf_word f = w) /\
    (forall t f, In (t, f) d -> mem word_eqb (wf_word f) (acc ++ new) = true) /\
    (forall l1 w l2, new = l1 ++ w :: l2 -> mem word_eqb w (acc ++ l1) = false).
Proof.
  revert acc. induction d as [|[t f] d IH]; intros acc Hd; simpl; [|assert (Hd' : forall t f, In (t, f) d -> is_word (wf_word f)) by (intros t' f' H; apply (Hd t' f'); right; exact H)].
  - exists []. rewrite app_nil_r. split; [reflexivity|]. split; [intros w []|]. split; [intros t f []|]. intros [|y l1] w l2 [=].
  - destruct (mem word_eqb (wf_word f) acc) eqn:E.
    + destruct (IH acc Hd') as (new & H1 & H2 & H3 & H4). exists new. split; [exact H1|]. split; [|split].
      * intros w Hw. destruct (H2 w Hw) as (t' & f' & H & H'). exists t', f'. auto.
      * intros t' f' [[= <- <-]|H]; [|exact (H3 t' f' H)]. unfold mem in *. rewrite existsb_app, E. reflexivity.
      * exact H4.
    + destruct (IH (acc ++ [wf_word f]) Hd') as (new & H1 & H2 & H3 & H4). exists (wf_word f :: new). rewrite <- app_assoc in H1. split; [exact H1|]. split; [|split].
      * intros w [<-|Hw]; [exists t, f; auto|]. destruct (H2 w Hw) as (t' & f' & H & H'). exists t', f'. auto.
      * intros t' f' [[= <- <-]|H]; [|specialize (H3 t' f' H); rewrite <- app_assoc in H3; exact H3].
        unfold mem in *. rewrite existsb_app. simpl. assert (Er : word_eqb (wf_word f) (wf_word f) = true) by (assert (K := Hd t f (or_introl eq_refl)); apply word_eqb_iff; [exact K|exact K|]; repeat split; auto). rewrite Er. simpl. rewrite Bool.orb_true_r. reflexivity.
      * intros [|w0 l1] w l2 [= <- ->]; [rewrite app_nil_r; exact E|]. specialize (H4 l1 w l2 eq_refl). rewrite <- app_assoc in H4. exact H4.
Qed.
Lemma after_dict U ws t f : Forall is_word ws -> In (t, f) (after U ws) -> get_word (after U ws) t = Ok f.
Proof.
  intros Hw H. destruct (after_rep U ws Hw) as (l & Hl & Hr & Hnd). apply (In_dget _ str_eqb_ok) in H; [|exact Hnd]. unfold get_word. rewrite H. reflexivity.
Qed.
Theorem C20_get_words : forall U ws, Forall is_word ws ->
  let found := get_words (after U ws) in
  (forall w, In w found -> In w ws /\ exists t f, get_word (after U ws) t = Ok f /\ wf_word f = w) /\
  (forall t f, get_word (after U ws) t = Ok f -> exists w, In w found /\ same_word w (wf_word f)) /\
  (forall l1 a l2 b l3, found = l1 ++ a :: l2 ++ b :: l3 -> ~ same_word a b).
Proof.
  intros U ws Hw found. subst found. unfold get_words. assert (Hd : forall t f, In (t, f) (after U ws) -> In (wf_word f) ws).
  { intros t f H. apply (after_dict U ws t f Hw) in H. destruct (after_rep U ws Hw) as (l & Hl & _). apply (C20_get_word U ws l t f Hw Hl H). }
  destruct (get_words_fold (after U ws) []) as (new & E & H2 & H3 & H4); [intros t f H; rewrite Forall_forall in Hw; apply Hw, (Hd t f H)|]. rewrite E. simpl app in *.
  assert (G : forall w, In w new -> In w ws /\ exists t f, get_word (after U ws) t = Ok f /\ wf_word f = w).
  { intros w H. destruct (H2 w H) as (t & f & Hin & <-). apply (after_dict U ws t f Hw) in Hin. destruct (after_rep U ws Hw) as (l & Hl & _).
    split; [apply (C20_get_word U ws l t f Hw Hl Hin)|]. exists t, f. auto. }
  rewrite Forall_forall in Hw.
  split; [exact G|]. split.
  - intros t f H. unfold get_word in H. destruct (dget str_eqb t (after U ws)) as [f'|] eqn:Ed; [|discriminate]. injection H as ->.
    apply (dget_In _ str_eqb_ok) in Ed. assert (Hm := H3 t f Ed). unfold mem in Hm. apply existsb_exists in Hm as (w & Hin & He). exists w. split; [exact Hin|].
    destruct (G w Hin) as [Hws _]. assert (Hf : In (wf_word f) ws).
    { destruct (after_rep U ws) as (l & Hl & _); [apply Forall_forall, Hw|]. apply (C20_get_word U ws l t f); [apply Forall_forall, Hw|exact Hl|].
      apply after_dict; [apply Forall_forall, Hw|exact Ed]. }
    apply word_eqb_iff in He; [|apply Hw; assumption|apply Hw; assumption]. destruct He as (A & B & C). repeat split; try congruence; apply C.
  - intros l1 a l2 b l3 -> HS. assert (Hb := H4 (l1 ++ a :: l2) b l3). rewrite <- app_assoc in Hb. specialize (Hb eq_refl). unfold mem in Hb.
    rewrite existsb_app in Hb. simpl in Hb. apply Bool.orb_false_iff in Hb as [_ Hb]. apply Bool.orb_false_iff in Hb as [Hb _].
    assert (Ha : is_word a) by (apply Hw, (G a); apply in_app_iff; right; left; reflexivity).
    assert (Hb' : is_word b) by (apply Hw, (G b); apply in_app_iff; right; right; apply in_app_iff; right; left; reflexivity).
    destruct HS as (A & B & C).
    assert (word_eqb b a = true) by (apply word_eqb_iff; [assumption|assumption|]; repeat split; try congruence; apply C). congruence.
Qed.
(** FINDING: an added word is missing when each of its texts is recognised as another word *)
Theorem C20_added_word_missing : exists ws w, Forall is_word ws /\ In w ws /\ (exists d, Dictionary ru_unicode ws = Ok d) /\
  forall w', In w' (get_words (after ru_unicode ws)) -> ~ same_word w' w.
Proof.
  set (copy := {| w_type := WT_PRONOUN; w_forms := repeat (u "монета") 48; w_props := Properties [] |}).
  exists [coin; copy], copy. split.
  { constructor; [apply coin_is_word|constructor; [|constructor]].
    apply is_word_iff; split; [apply Properties_ok; intros d H; simpl in H; repeat (destruct H as [[=]|H]); destruct H|vm_compute; reflexivity]. }
  split; [right; left; reflexivity|]. split; [eexists; vm_compute; reflexivity|]. intros w' Hin (A & _).
  assert (E : map w_type (get_words (after ru_unicode [coin; copy])) = [WT_NOUN]) by (vm_compute; reflexivity).
  apply (in_map w_type) in Hin. rewrite E in Hin. destruct Hin as [H|[]]. rewrite <- H in A. discriminate A.
Qed.
Definition dict1 : dictionary := after ru_unicode [coin; lion].
Example C20_case : Forall is_word [coin; lion] /\ (exists d, Dictionary ru_unicode [coin; lion] = Ok d) /\
  has_word dict1 (u "монет") = true /\ has_word dict1 (u "монетка") = false /\ (exists f, get_word dict1 (u "львы") = Ok f /\ wf_word f = lion) /\
  has_word dict1 [] = true.
Proof.
  split; [constructor; [apply coin_is_word|constructor; [apply C55_case|constructor]]|].
  split; [eexists; vm_compute; reflexivity|]. split; [vm_compute; reflexivity|]. split; [vm_compute; reflexivity|].
  split; [eexists; split; vm_compute; reflexivity|vm_compute; reflexivity].
Qed.

(** ** C21 *)
(** the answer is not worse than any registered form with this text, and strictly better than all earlier ones *)
Theorem C21_first_of_the_best : forall U ws l t f, Forall is_word ws -> registered U ws l -> get_word (after U ws) t = Ok f ->
  exists l1 l2, l = l1 ++ f :: l2 /\ wf_form U f = Ok t /\
    (forall b, In b l -> wf_form U b = Ok t -> ~ preferred b f) /\
    (forall b, In b l1 -> wf_form U b = Ok t -> preferred f b).
Proof.
  intros U ws l t f Hw Hl H. unfold get_word in H. rewrite (after_rep_of U ws l Hw Hl t) in H.
  assert (Hb := best_spec U t l). destruct (best U t l) as [f'|]; [|discriminate]. injection H as ->.
  destruct Hb as (Ht & l1 & l2 & E & H1 & H2). exists l1, l2. auto.
Qed.
(** "better" is a strict weak order: of two candidates one is better or they are equal in all three criteria *)
Theorem C21_order : (forall a, ~ preferred a a) /\ (forall a b c, preferred a b -> preferred b c -> preferred a c) /\
  (forall a b, preferred a b \/ preferred b a \/ level a b).
Proof. split; [exact preferred_irrefl|]. split; [exact preferred_trans|exact preferred_trichotomy]. Qed.
(** of the six slots with the text монеты the one with fewest non-default properties is recognised: genitive singular
    (one property beside the gender) *)
Example C21_case : exists f, get_word dict1 (u "монеты") = Ok f /\ holds (wf_props f) R_CASE CASE_GENITIVE /\ holds (wf_props f) R_NUMBER NUMBER_SINGULAR.
Proof. eexists. split; [vm_compute; reflexivity|]. vm_compute. auto 10. Qed.

(** ** C22 *)
Lemma registered_permutation U ws ws' l l' : Permutation ws ws' -> registered U ws l -> registered U ws' l' -> Permutation l l'.
Proof.
  intros P. revert l l'. induction P as [|w ws ws' P IH|w1 w2 ws|ws1 ws2 ws3 P1 IH1 P2 IH2]; intros l l' Hl Hl'.
  - rewrite (registered_fun U [] l l' Hl Hl'). reflexivity.
  - destruct Hl as (ls & H & ->), Hl' as (ls' & H' & ->). inversion H as [|? lw ? ls1 Hr H1]; inversion H' as [|? lw' ? ls1' Hr' H1']; subst.
    simpl. rewrite (registers_fun U w lw lw' Hr Hr'). apply Permutation_app_head. apply IH; [exists ls1; auto|exists ls1'; auto].
  - destruct Hl as (ls & H & ->), Hl' as (ls' & H' & ->).
    inversion H as [|? a ? ls1 Ha H1]; subst. inversion H1 as [|? b ? ls2 Hb H2]; subst.
    inversion H' as [|? b' ? ls1' Hb' H1']; subst. inversion H1' as [|? a' ? ls2' Ha' H2']; subst. simpl.
    rewrite (registers_fun U _ a a' Ha Ha'), (registers_fun U _ b b' Hb Hb').
    assert (E : concat ls2 = concat ls2') by (apply (registered_fun U ws); [exists ls2; auto|exists ls2'; auto]).
    rewrite E, !app_assoc. apply Permutation_app_tail, Permutation_app_comm.
  - assert (Hm : exists m, registered U ws2 m).
    { destruct Hl as (ls & H & _). clear -P1 H. assert (G : forall w, In w ws2 -> exists lw, registers U w lw).
      { intros w Hw. apply (Permutation_in w (Permutation_sym P1)) in Hw. clear P1. induction H as [|w' lw ws ls Hr _ IH]; [destruct Hw|].
        destruct Hw as [->|Hw]; [eauto|apply IH, Hw]. }
      clear -G. induction ws2 as [|w ws2 IH]; [exists [], []; split; [constructor|reflexivity]|].
      destruct (G w (or_introl eq_refl)) as [lw Hlw]. destruct IH as (m & ls & H & ->); [intros w' Hw'; apply G; right; exact Hw'|].
      exists (concat (lw :: ls)), (lw :: ls). split; [constructor; assumption|reflexivity]. }
    destruct Hm as [m Hm]. rewrite (IH1 l m Hl Hm). exact (IH2 m l' Hm Hl').
Qed.
Theorem C22_order_matters_only_for_ties : forall U ws ws', Forall is_word ws -> Permutation ws ws' ->
  (forall t, has_word (after U ws) t = has_word (after U ws') t) /\
  (forall t f, get_word (after U ws) t = Ok f -> exists f', get_word (after U ws') t = Ok f' /\ level f f').
Proof.
  intros U ws ws' Hw P. assert (Hw' : Forall is_word ws') by (rewrite Forall_forall in *; intros w H; apply Hw; exact (Permutation_in w (Permutation_sym P) H)).
  destruct (after_rep U ws Hw) as (l & Hl & _). destruct (after_rep U ws' Hw') as (l' & Hl' & _).
  assert (Pl := registered_permutation U ws ws' l l' P Hl Hl').
  assert (E : forall t, has_word (after U ws) t = has_word (after U ws') t).
  { intros t. assert (H1 := C20_has_word U ws l t Hw Hl). assert (H2 := C20_has_word U ws' l' t Hw' Hl').
    assert (G : (exists f, In f l /\ wf_form U f = Ok t) <-> (exists f, In f l' /\ wf_form U f = Ok t)).
    { split; intros (f & Hf & Ht); exists f; (split; [|exact Ht]); [exact (Permutation_in f Pl Hf)|exact (Permutation_in f (Permutation_sym Pl) Hf)]. }
    destruct (has_word (after U ws) t), (has_word (after U ws') t); try reflexivity; [symmetry; apply H2, G, H1; reflexivity|apply H1, G, H2; reflexivity]. }
  split; [exact E|]. intros t f H. assert (Hh : has_word (after U ws') t = true).
  { rewrite <- E. unfold has_word, dmem. unfold get_word in H. destruct (dget str_eqb t (after U ws)); [reflexivity|discriminate]. }
  destruct (get_word (after U ws') t) as [f'|e] eqn:H'; [|apply C20_unknown_text in H' as [_ H']; congruence].
  exists f'. split; [reflexivity|].
  destruct (C21_first_of_the_best U ws l t f Hw Hl H) as (l1 & l2 & E1 & Ht & Hm & _).
  destruct (C21_first_of_the_best U ws' l' t f' Hw' Hl' H') as (l1' & l2' & E1' & Ht' & Hm' & _).
  assert (In f l) by (rewrite E1; apply in_app_iff; right; left; reflexivity).
  assert (In f' l') by (rewrite E1'; apply in_app_iff; right; left; reflexivity).
  destruct (preferred_trichotomy f f') as [Q|[Q|Q]]; [|exfalso|exact Q].
  - exfalso. apply (Hm' f); [exact (Permutation_in f Pl H0)|exact Ht|exact Q].
  - apply (Hm f'); [exact (Permutation_in f' (Permutation_sym Pl) H1)|exact Ht'|exact Q].
Qed.
Lemma first_best_fun U t l f g : first_best U t l f -> first_best U t l g -> f = g.
Proof.
  intros (Hf & l1 & l2 & E & Hm & Hfi) (Hg & m1 & m2 & E' & Hm' & Hgi). subst l.
  assert (Hgin : In g (l1 ++ f :: l2)) by (rewrite E'; apply in_app_iff; right; left; reflexivity).
  assert (Hfin : In f (l1 ++ f :: l2)) by (apply in_app_iff; right; left; reflexivity).
  assert (N1 : ~ In g l1) by (intros H; exact (Hm' f Hfin Hf (Hfi g H Hg))).
  assert (N2 : ~ In f m1) by (intros H; exact (Hm g Hgin Hg (Hgi f H Hf))).
  clear -E' N1 N2. rename E' into E. revert m1 E N2. induction l1 as [|x l1 IH]; intros m1 E N2; destruct m1 as [|y m1]; simpl in E; injection E as E1 E2.
  - exact E1.
  - subst. destruct N2. left; reflexivity.
  - subst. destruct N1. left; reflexivity.
  - subst. apply (IH (fun H => N1 (or_intror H)) m1 E2). intros H. apply N2. right; exact H.
Qed.
(** inside of one word *)
Lemma best_of_word U ws l t f : Forall is_word ws -> registered U ws l -> first_best U t l f ->
  exists lw, registers U (wf_word f) lw /\ first_best U t lw f.
Proof.
  intros Hw (ls & H & ->) (Hf & l1 & l2 & E & Hm & Hfi).
  assert (G : exists A lw1 lw2 B w, concat ls = A ++ (lw1 ++ f :: lw2) ++ B /\ l1 = A ++ lw1 /\ In w ws /\ registers U w (lw1 ++ f :: lw2)).
  { clear Hm Hfi. revert l1 E. induction H as [|w lw ws ls Hr H IH]; intros l1 E; simpl in E; [destruct l1; discriminate|].
    inversion Hw; subst. simpl. destruct (Nat.lt_ge_cases (length l1) (length lw)) as [L|L].
    - assert (E1 : l1 = firstn (length l1) lw).
      { apply (f_equal (firstn (length l1))) in E. rewrite firstn_app, firstn_app, Nat.sub_diag in E. simpl in E. rewrite app_nil_r, firstn_all in E.
        replace (length l1 - length lw) with 0 in E by lia. simpl in E. rewrite app_nil_r in E. symmetry. exact E. }
      assert (E2 : exists lw2, lw = l1 ++ f :: lw2).
      { rewrite <- (firstn_skipn (length l1) lw) in E. rewrite <- E1 in E. rewrite <- app_assoc in E. apply app_inv_head in E.
        destruct (skipn (length l1) lw) as [|y s] eqn:Es.
        - apply (f_equal (@length wordform)) in Es. rewrite skipn_length in Es. simpl in Es. lia.
        - simpl in E. injection E as -> _. exists s. rewrite <- Es, E1 at 1. rewrite <- E1. rewrite E1 at 1. rewrite <- (firstn_skipn (length l1) lw) at 1. reflexivity. }
      destruct E2 as [lw2 E2]. exists [], l1, lw2, (concat ls), w. rewrite <- E2. repeat split; [left; reflexivity|exact Hr].
    - assert (E1 : l1 = lw ++ skipn (length lw) l1).
      { apply (f_equal (firstn (length lw))) in E. rewrite firstn_app, firstn_app, Nat.sub_diag, firstn_all in E. simpl in E. rewrite app_nil_r in E.
        replace (length lw - length l1) with 0 in E by lia. simpl in E. rewrite app_nil_r in E. rewrite E at 1. symmetry. apply firstn_skipn. }
      rewrite E1, <- app_assoc in E. apply app_inv_head in E. destruct (IH H3 _ E) as (A & lw1 & lw2 & B & w' & G1 & G2 & G3 & G4).
      exists (lw ++ A), lw1, lw2, B, w'. rewrite <- !app_assoc. split; [rewrite G1, <- !app_assoc; reflexivity|]. split; [rewrite E1, G2; reflexivity|].
      split; [right; exact G3|exact G4]. }
  destruct G as (A & lw1 & lw2 & B & w & E1 & -> & Hww & Hr). exists (lw1 ++ f :: lw2).
  assert (Ew : wf_word f = w).
  { destruct Hr as (rest & Ea & _). rewrite Forall_forall in Hw. apply (all_forms_word w _ f (Hw w Hww) Ea). apply in_app_iff. left.
    apply in_app_iff. right; left; reflexivity. }
  rewrite Ew. split; [exact Hr|]. split; [exact Hf|]. exists lw1, lw2. split; [reflexivity|]. split.
  - intros b Hb. apply Hm. rewrite E1. apply in_app_iff. right. apply in_app_iff. left; exact Hb.
  - intros b Hb. apply Hfi. apply in_app_iff. right; exact Hb.
Qed.
Theorem C22_order_irrelevant_without_twins : forall U ws ws', Forall is_word ws -> Permutation ws ws' ->
  (forall w w', In w ws -> In w' ws -> w_type w = w_type w' -> w_forms w = w_forms w' -> w = w') ->
  forall t, get_word (after U ws) t = get_word (after U ws') t.
Proof.
  intros U ws ws' Hw P Htw t. assert (Hw' : Forall is_word ws') by (rewrite Forall_forall in *; intros w H; apply Hw; exact (Permutation_in w (Permutation_sym P) H)).
  destruct (C22_order_matters_only_for_ties U ws ws' Hw P) as [Hh Hg].
  destruct (after_rep U ws Hw) as (l & Hl & _). destruct (after_rep U ws' Hw') as (l' & Hl' & _).
  destruct (get_word (after U ws) t) as [f|e] eqn:E.
  - destruct (Hg t f E) as (f' & E' & (T1 & T2 & _)). rewrite E'. f_equal.
    destruct (C20_get_word U ws l t f Hw Hl E) as (_ & _ & I1). destruct (C20_get_word U ws' l' t f' Hw' Hl' E') as (_ & _ & I2).
    assert (Ew : wf_word f = wf_word f') by (apply Htw; [exact I1|exact (Permutation_in _ (Permutation_sym P) I2)|exact T1|exact T2]).
    destruct (C21_first_of_the_best U ws l t f Hw Hl E) as (l1 & l2 & E1 & Ht & Hm & Hfi).
    destruct (C21_first_of_the_best U ws' l' t f' Hw' Hl' E') as (l1' & l2' & E1' & Ht' & Hm' & Hfi').
    destruct (best_of_word U ws l t f Hw Hl) as (lw & R1 & B1); [split; [exact Ht|]; exists l1, l2; auto|].
    destruct (best_of_word U ws' l' t f' Hw' Hl') as (lw' & R2 & B2); [split; [exact Ht'|]; exists l1', l2'; auto|].
    rewrite <- Ew in R2. rewrite <- (registers_fun U _ lw lw' R1 R2) in B2. exact (first_best_fun U t lw f f' B1 B2).
  - apply C20_unknown_text in E as [-> E]. symmetry. apply C20_unknown_text. split; [reflexivity|]. rewrite <- Hh. exact E.
Qed.
(** FINDING: words with the same type and forms and equally many non-default properties are resolved by order *)
Definition coin2 : word := {| w_type := WT_NOUN; w_forms := noun_forms; w_props := Properties [AProp ANIMALITY_INANIMATE; AProp GENDER_NEUTER] |}.
Theorem C22_order_of_twins_matters_refuted : exists ws ws' t f f', Forall is_word ws /\ Permutation ws ws' /\
  get_word (after ru_unicode ws) t = Ok f /\ get_word (after ru_unicode ws') t = Ok f' /\ wordform_eqb f f' = false.
Proof.
  exists [coin; coin2], [coin2; coin], (u "монета"). eexists. eexists.
  split; [constructor; [apply coin_is_word|constructor; [|constructor]];
    apply is_word_iff; split; [apply Properties_ok; intros d H; simpl in H; repeat (destruct H as [[=]|H]); destruct H|vm_compute; reflexivity]|].
  split; [apply perm_swap|]. split; [vm_compute; reflexivity|]. split; [vm_compute; reflexivity|]. vm_compute. reflexivity.
Qed.
Example C22_case : Permutation [coin; lion] [lion; coin] /\
  (forall w w', In w [coin; lion] -> In w' [coin; lion] -> w_type w = w_type w' -> w_forms w = w_forms w' -> w = w').
Proof.
  split; [apply perm_swap|]. intros w w' [<-|[<-|[]]] [<-|[<-|[]]] _ H; try reflexivity; discriminate.
Qed.

(** ** C23 *)
(** add_word raises only IndexError, only for a word that is forced upper case and has an empty form; and it does raise
    iff a form of such a word is looked up empty.  The result does not depend on the dictionary *)
Theorem C23_when_add_word_raises : forall U d w e, is_word w ->
  (snd (add_word U d w) = Err e <->
   e = IndexError /\ holds (w_props w) R_WORD_CASE WORD_CASE_UPPER /\
   exists lw f, all_forms w = Ok lw /\ In f lw /\ word_form w (wf_props f) = Ok []).
Proof.
  intros U d w e Hw. rewrite (add_word_result U w d []).
  destruct (add_word_spec U w [] [] Hw) as (l' & rest & Ea & (r0 & Ea' & Hok & _) & _ & Hres); [intros t; reflexivity|].
  assert (Hcase : forall f, In f (l' ++ rest) -> (holds (wf_form_props f) R_WORD_CASE WORD_CASE_UPPER <-> holds (w_props w) R_WORD_CASE WORD_CASE_UPPER)
                  /\ wf_word f = w /\ is_wordform f /\ wf_form_props f = wf_props f).
  { intros f Hf. destruct (C18_slots_in_order w Hw) as (l & El & Hlen & Hs). rewrite Ea in El. injection El as <-.
    apply In_nth_error in Hf as [i Hi]. destruct (slot_exists (w_type w) i) as [k Hk].
    { rewrite <- (word_forms_length w Hw), <- Hlen. apply nth_error_Some. congruence. }
    destruct (Hs i k Hk) as (f' & Hf' & Hwf & Hww & Hfp & Hh). rewrite Hi in Hf'. injection Hf' as <-. split; [|auto].
    rewrite Hfp, Hh. split; [|auto]. intros [H|(_ & H & _)]; [exact H|]. destruct (slot_no_case _ _ _ Hk H). }
  split.
  - intros He. destruct Hres as [[_ H]|(f & r & e' & -> & Hf & H)]; [congruence|]. rewrite H in He. injection He as ->.
    destruct (Hcase f) as (Hu & Hww & Hwf & Hfp); [apply in_app_iff; right; left; reflexivity|].
    apply (C19_error U f e Hwf) in Hf as (-> & H1 & H2). split; [reflexivity|]. split; [apply Hu, H1|].
    exists (l' ++ f :: r), f. split; [exact Ea|]. split; [apply in_app_iff; right; left; reflexivity|]. rewrite <- Hfp, <- Hww at 1. rewrite Hww at 1. rewrite <- Hww at 1. exact H2.
  - intros (-> & Hu & lw & f & El & Hf & H). rewrite Ea in El. injection El as <-.
    destruct (Hcase f Hf) as (Hu' & Hww & Hwf & Hfp).
    assert (Hfe : wf_form U f = Err IndexError) by (apply (C19_error U f IndexError Hwf); rewrite Hww, Hfp; split; [reflexivity|]; split; [rewrite <- Hfp; apply Hu', Hu|exact H]).
    destruct Hres as [[-> _]|(f' & r & e' & -> & Hf' & H')].
    + rewrite app_nil_r in Hf. destruct (Hok f Hf). congruence.
    + rewrite H'. f_equal. destruct (Hcase f') as (_ & _ & Hwf' & _); [apply in_app_iff; right; left; reflexivity|].
      apply (C19_error U f' e' Hwf') in Hf'. apply Hf'.
Qed.
Theorem C23_only_empty_upper_case : forall U d w e, is_word w -> snd (add_word U d w) = Err e ->
  e = IndexError /\ holds (w_props w) R_WORD_CASE WORD_CASE_UPPER /\ In [] (w_forms w).
Proof.
  intros U d w e Hw H. apply (C23_when_add_word_raises U d w e Hw) in H as (-> & Hu & lw & f & El & Hf & E). split; [reflexivity|]. split; [exact Hu|].
  destruct (all_forms_word w lw f Hw El Hf) as [_ Hwf]. destruct (wordform_parts f Hwf) as (_ & Hp & _).
  destruct (C10_form_total w (wf_props f) Hw Hp) as (form & H1 & H2). rewrite E in H1. injection H1 as <-. exact H2.
Qed.
(** whatever happens, what is registered is a prefix of the forms of the word - and the dictionary afterwards is the
    one of the theorems C20-C22, which speak about all histories, raising ones included *)
Theorem C23_registered_prefix : forall U ws l w, Forall is_word ws -> is_word w -> registered U ws l ->
  exists lw rest, all_forms w = Ok (lw ++ rest) /\ registered U (ws ++ [w]) (l ++ lw) /\ after U (ws ++ [w]) = fst (add_word U (after U ws) w) /\
    (snd (add_word U (after U ws) w) = Ok tt <-> rest = []).
Proof.
  intros U ws l w Hws Hw Hl. destruct (add_word_spec U w (after U ws) l Hw (after_rep_of U ws l Hws Hl)) as (lw & rest & Ea & Hreg & _ & Hres).
  exists lw, rest. split; [exact Ea|]. split.
  - destruct Hl as (ls & H & ->). exists (ls ++ [lw]). split; [apply Forall2_app; [exact H|repeat constructor; exact Hreg]|].
    rewrite concat_app. simpl. rewrite app_nil_r. reflexivity.
  - split; [apply after_snoc|]. destruct Hres as [[-> H]|(f & r & e & -> & _ & H)]; [tauto|]. rewrite H. split; discriminate.
Qed.
(** FINDING: add_word is not atomic: after an exception some forms of the word are already known *)
Definition broken : word := {| w_type := WT_NOUN; w_props := Properties [AProp WORD_CASE_UPPER];
  w_forms := [u "кот"; []; []; []; []; []; u "коты"; []; []; []; []; []; []; []; []; []; []; []] |}.
Theorem C23_not_atomic_refuted : exists w t, is_word w /\ snd (add_word ru_unicode [] w) = Err IndexError /\
  has_word [] t = false /\ has_word (fst (add_word ru_unicode [] w)) t = true.
Proof.
  exists broken, (u "Кот"). split; [apply is_word_iff; split; [apply Properties_ok; intros d H; simpl in H; repeat (destruct H as [[=]|H]); destruct H|vm_compute; reflexivity]|].
  split; [vm_compute; reflexivity|]. split; vm_compute; reflexivity.
Qed.
