(** * DictFacts: facts about utg/dictionary.py *)
From Coq Require Import Lia Permutation.
From Verif Require Import PyBase PyFloat Relations Restrictions Logic Data Words Dictionary SpecProps SpecSlots SpecDictionary
  PyBaseFacts PropsFacts SlotFacts LookupFacts WordFacts.

(** ** orders *)
Lemma lex_compare {A} (cmp : A -> A -> comparison) (lt : A -> A -> Prop) (lcmp : list A -> list A -> comparison) :
  (forall a b, cmp a b = Eq <-> a = b) -> (forall a b, cmp a b = Lt <-> lt a b) ->
  (forall a b, lcmp a b = match a, b with [], [] => Eq | [], _ :: _ => Lt | _ :: _, [] => Gt
                          | x :: a', y :: b' => match cmp x y with Eq => lcmp a' b' | c => c end end) ->
  (forall a b, lcmp a b = Eq <-> a = b) /\ (forall a b, lcmp a b = Lt <-> lex lt a b).
Proof.
  intros He Hl Hc. split.
  - induction a as [|x a IH]; intros [|y b]; rewrite Hc; try (split; [discriminate|discriminate]); [split; reflexivity|].
    destruct (cmp x y) eqn:E.
    + apply He in E. subst. rewrite IH. split; [intros ->; reflexivity|intros [= ->]; reflexivity].
    + split; [discriminate|]. intros [= -> _]. rewrite (proj2 (He y y) eq_refl) in E. discriminate.
    + split; [discriminate|]. intros [= -> _]. rewrite (proj2 (He y y) eq_refl) in E. discriminate.
  - induction a as [|x a IH]; intros [|y b]; rewrite Hc.
    + split; [discriminate|]. intros [(? & ? & [=])|(p & ? & ? & ? & ? & H & _)]. destruct p; discriminate.
    + split; [|reflexivity]. intros _. left. exists y, b. reflexivity.
    + split; [discriminate|]. intros [(? & ? & [=])|(p & ? & ? & ? & ? & _ & H & _)]. destruct p; discriminate.
    + destruct (cmp x y) eqn:E.
      * apply He in E. subst. rewrite IH. split.
        -- intros [(z & t & ->)|(p & z & z' & a' & b' & -> & -> & H)]; [left; exists z, t; reflexivity|right; exists (y :: p), z, z', a', b'; auto].
        -- intros [(z & t & [= ->])|(p & z & z' & a' & b' & H1 & H2 & H)]; [left; exists z, t; reflexivity|].
           destruct p as [|q p]; simpl in H1, H2.
           ++ injection H1 as <- <-. injection H2 as <- <-. apply Hl in H. rewrite (proj2 (He y y) eq_refl) in H. discriminate.
           ++ injection H1 as <- ->. injection H2 as ->. right. exists p, z, z', a', b'. auto.
      * split; [|reflexivity]. intros _. right. exists [], x, y, a, b. repeat split. apply Hl, E.
      * split; [discriminate|]. intros [(z & t & H)|(p & z & z' & a' & b' & H1 & H2 & H)].
        -- injection H as Hxy _. rewrite (proj2 (He x y) (eq_sym Hxy)) in E. discriminate.
        -- destruct p as [|q p]; simpl in H1, H2.
           ++ injection H1 as <- <-. injection H2 as <- <-. apply Hl in H. congruence.
           ++ injection H1 as H1 _. injection H2 as H2 _. rewrite (proj2 (He x y)) in E by congruence. discriminate.
Qed.
Lemma str_compare_spec : (forall a b, str_compare a b = Eq <-> a = b) /\ (forall a b, str_compare a b = Lt <-> text_less a b).
Proof.
  apply (lex_compare N.compare).
  - apply N.compare_eq_iff.
  - apply N.compare_lt_iff.
  - intros [|x a] [|y b]; reflexivity.
Qed.
Lemma strs_compare_spec : (forall a b, strs_compare a b = Eq <-> a = b) /\ (forall a b, strs_compare a b = Lt <-> lex text_less a b).
Proof.
  apply (lex_compare str_compare); [apply str_compare_spec|apply str_compare_spec|]. intros [|x a] [|y b]; reflexivity.
Qed.
Lemma wt_value_inj s t : wt_value s = wt_value t -> s = t.
Proof. intros H. apply wt_eqb_ok. unfold wt_eqb. rewrite H. apply Z.eqb_refl. Qed.
Lemma replaces_iff a b : replaces a b = true <-> preferred a b.
Proof.
  unfold replaces, preferred. cbv zeta. destruct (Z.ltb_spec (wt_value (w_type (wf_word a))) (wt_value (w_type (wf_word b)))) as [H|H]; [tauto|].
  rewrite Z.gtb_ltb. destruct (Z.ltb_spec (wt_value (w_type (wf_word b))) (wt_value (w_type (wf_word a)))) as [H2|H2].
  - split; [discriminate|]. intros [Hx|[Hx _]]; [lia|]. rewrite Hx in H2. lia.
  - assert (E : w_type (wf_word a) = w_type (wf_word b)) by (apply wt_value_inj; lia).
    destruct strs_compare_spec as [He Hl]. destruct (strs_compare _ _) eqn:Ec.
    + apply He in Ec. rewrite Nat.ltb_lt. split; [intros Hm; right; auto|]. intros [Hx|[_ [Hx|[_ Hx]]]]; [lia| |exact Hx].
      apply Hl in Hx. rewrite Ec in Hx. rewrite (proj2 (He _ _) eq_refl) in Hx. discriminate.
    + split; [|reflexivity]. intros _. right. split; [exact E|]. left. apply Hl, Ec.
    + split; [discriminate|]. intros [Hx|[_ [Hx|[Hx _]]]]; [lia|apply Hl in Hx; congruence|apply He in Hx; congruence].
Qed.

(** the order of candidates is a strict weak order *)
Lemma lex_irrefl {A} (lt : A -> A -> Prop) : (forall a, ~ lt a a) -> forall a, ~ lex lt a a.
Proof.
  intros H a [(x & t & E)|(p & x & y & a' & b' & -> & E & Hl)].
  - assert (L := f_equal (@length A) E). rewrite app_length in L. simpl in L. lia.
  - apply app_inv_head in E. injection E as -> _. exact (H y Hl).
Qed.
Lemma str_compare_gt a : forall b, str_compare a b = CompOpp (str_compare b a).
Proof.
  induction a as [|x a IH]; intros [|y b]; simpl; try reflexivity. rewrite (N.compare_antisym x y), IH. destruct (N.compare x y); reflexivity.
Qed.
Lemma str_compare_trans a : forall b c, str_compare a b = Lt -> str_compare b c = Lt -> str_compare a c = Lt.
Proof.
  induction a as [|x a IH]; intros [|y b] [|z c]; simpl; try discriminate; try reflexivity.
  destruct (N.compare_spec x y) as [->|H|H]; [|intros _|discriminate].
  - destruct (N.compare y z); [apply IH|reflexivity|discriminate].
  - destruct (N.compare_spec y z) as [->|H2|H2]; [intros _|intros _|discriminate].
    + rewrite (proj2 (N.compare_lt_iff _ _) H). reflexivity.
    + rewrite (proj2 (N.compare_lt_iff x z) (N.lt_trans _ _ _ H H2)). reflexivity.
Qed.
Lemma strs_compare_gt a : forall b, strs_compare a b = CompOpp (strs_compare b a).
Proof.
  induction a as [|x a IH]; intros [|y b]; simpl; try reflexivity. rewrite (str_compare_gt x y), IH. destruct (str_compare y x); reflexivity.
Qed.
Lemma strs_compare_trans a : forall b c, strs_compare a b = Lt -> strs_compare b c = Lt -> strs_compare a c = Lt.
Proof.
  destruct str_compare_spec as [He _].
  induction a as [|x a IH]; intros [|y b] [|z c]; simpl; try discriminate; try reflexivity.
  destruct (str_compare x y) eqn:E1; [|intros _|discriminate].
  - apply He in E1. subst. destruct (str_compare y z); [apply IH|reflexivity|discriminate].
  - destruct (str_compare y z) eqn:E2; [intros _|intros _|discriminate].
    + apply He in E2. subst. rewrite E1. reflexivity.
    + rewrite (str_compare_trans x y z E1 E2). reflexivity.
Qed.
Lemma preferred_trichotomy a b : preferred a b \/ preferred b a \/ level a b.
Proof.
  unfold preferred, level. destruct strs_compare_spec as [He Hl].
  destruct (Z.lt_trichotomy (wt_value (w_type (wf_word a))) (wt_value (w_type (wf_word b)))) as [H|[H|H]]; [tauto| |tauto].
  apply wt_value_inj in H. destruct (strs_compare (w_forms (wf_word a)) (w_forms (wf_word b))) eqn:E.
  - apply He in E. destruct (Nat.lt_trichotomy (manhattan_distance (wf_props a)) (manhattan_distance (wf_props b))) as [G|[G|G]]; auto 8.
  - apply Hl in E. auto 8.
  - rewrite strs_compare_gt in E. destruct (strs_compare (w_forms (wf_word b)) _) eqn:E2; try discriminate. apply Hl in E2. auto 10.
Qed.
Lemma preferred_level_l a b c : level a b -> (preferred a c <-> preferred b c).
Proof. intros (H1 & H2 & H3). unfold preferred. rewrite H1, H2, H3. reflexivity. Qed.
Lemma preferred_level_r a b c : level a b -> (preferred c a <-> preferred c b).
Proof. intros (H1 & H2 & H3). unfold preferred. rewrite H1, H2, H3. reflexivity. Qed.
Lemma preferred_trans a b c : preferred a b -> preferred b c -> preferred a c.
Proof.
  unfold preferred. destruct strs_compare_spec as [He Hl].
  intros [H|[H P]] [G|[G Q]].
  - left; lia.
  - left. rewrite <- G. exact H.
  - left. rewrite H. exact G.
  - right. split; [congruence|]. destruct P as [P|[P1 P2]], Q as [Q|[Q1 Q2]].
    + left. apply Hl. apply Hl in P, Q. exact (strs_compare_trans _ _ _ P Q).
    + left. rewrite <- Q1. exact P.
    + left. rewrite P1. exact Q.
    + right. split; [congruence|lia].
Qed.
Lemma preferred_irrefl a : ~ preferred a a.
Proof.
  destruct strs_compare_spec as [He Hl].
  intros [H|[_ [H|[_ H]]]]; [lia| |lia]. apply Hl in H. rewrite (proj2 (He _ _) eq_refl) in H. discriminate.
Qed.
Lemma level_sym a b : level a b -> level b a.
Proof. intros (H1 & H2 & H3). repeat split; symmetry; assumption. Qed.

(** ** the best candidate for a text *)
Definition has_text (U : unicode) (t : str) (f : wordform) : bool :=
  match wf_form U f with Ok t' => str_eqb t t' | Err _ => false end.
Lemma has_text_iff U t f : has_text U t f = true <-> wf_form U f = Ok t.
Proof.
  unfold has_text. destruct (wf_form U f) as [t'|e]; [|split; discriminate]. pose proof (str_eqb_ok t t') as H. rewrite H. split; [intros ->; reflexivity|intros [= ->]; reflexivity].
Qed.
Definition best_step (U : unicode) (t : str) (acc : option wordform) (f : wordform) : option wordform :=
  if has_text U t f then match acc with None => Some f | Some r => if replaces f r then Some f else Some r end else acc.
Definition best (U : unicode) (t : str) (l : list wordform) : option wordform := fold_left (best_step U t) l None.
Definition first_best (U : unicode) (t : str) (l : list wordform) (f : wordform) : Prop :=
  wf_form U f = Ok t /\
  exists l1 l2, l = l1 ++ f :: l2 /\
    (forall b, In b l -> wf_form U b = Ok t -> ~ preferred b f) /\ (forall b, In b l1 -> wf_form U b = Ok t -> preferred f b).
Lemma best_spec U t l : match best U t l with
  | Some f => first_best U t l f
  | None => forall f, In f l -> wf_form U f <> Ok t
  end.
Proof.
  induction l as [|f l IH] using rev_ind; [intros f []|].
  assert (E0 : best U t (l ++ [f]) = best_step U t (best U t l) f) by (unfold best; rewrite fold_left_app; reflexivity).
  rewrite E0. clear E0. unfold best_step. generalize dependent (best U t l). intros acc IH.
  destruct (has_text U t f) eqn:Ef.
  - apply has_text_iff in Ef. destruct acc as [r|].
    + destruct IH as (Hr & l1 & l2 & E & Hmin & Hfirst). destruct (replaces f r) eqn:Er.
      * apply replaces_iff in Er. split; [exact Ef|]. exists l, []. split; [reflexivity|].
        assert (G : forall b, In b l -> wf_form U b = Ok t -> preferred f b).
        { intros b Hb Hbt. specialize (Hmin b Hb Hbt). destruct (preferred_trichotomy r b) as [P|[P|P]]; [exact (preferred_trans _ _ _ Er P)|contradiction|].
          apply (preferred_level_r r b f P), Er. }
        split; [|exact G]. intros b Hb Hbt P. apply in_app_iff in Hb as [Hb|[<-|[]]].
        -- exact (preferred_irrefl f (preferred_trans _ _ _ (G b Hb Hbt) P)).
        -- exact (preferred_irrefl f P).
      * split; [exact Hr|]. exists l1, (l2 ++ [f]). split; [rewrite E, <- app_assoc; reflexivity|]. split; [|exact Hfirst].
        intros b Hb Hbt. apply in_app_iff in Hb as [Hb|[<-|[]]]; [apply Hmin; assumption|]. rewrite <- replaces_iff, Er. discriminate.
    + split; [exact Ef|]. exists l, []. split; [reflexivity|]. split.
      * intros b Hb Hbt. apply in_app_iff in Hb as [Hb|[<-|[]]]; [destruct (IH b Hb Hbt)|apply preferred_irrefl].
      * intros b Hb Hbt. destruct (IH b Hb Hbt).
  - assert (Hne : wf_form U f <> Ok t) by (intros H; apply has_text_iff in H; congruence).
    destruct acc as [r|].
    + destruct IH as (Hr & l1 & l2 & E & Hmin & Hfirst). split; [exact Hr|]. exists l1, (l2 ++ [f]). split; [rewrite E, <- app_assoc; reflexivity|].
      split; [|exact Hfirst]. intros b Hb Hbt. apply in_app_iff in Hb as [Hb|[<-|[]]]; [apply Hmin; assumption|contradiction].
    + intros b Hb. apply in_app_iff in Hb as [Hb|[<-|[]]]; [apply IH, Hb|exact Hne].
Qed.

(** ** the dictionary represents the list of registered forms *)
Definition rep (U : unicode) (d : dictionary) (l : list wordform) : Prop := forall t, dget str_eqb t d = best U t l.
Lemma best_snoc U t l f : best U t (l ++ [f]) = best_step U t (best U t l) f.
Proof. unfold best. rewrite fold_left_app. reflexivity. Qed.
Lemma add_form_ok U d l f t : rep U d l -> wf_form U f = Ok t -> exists d', add_form U d f = Ok d' /\ rep U d' (l ++ [f]).
Proof.
  intros Hr Hf. unfold add_form. rewrite Hf. cbn [bind].
  assert (Hother : forall s, t <> s -> has_text U s f = false).
  { intros s Hs. destruct (has_text U s f) eqn:E; [|reflexivity]. apply has_text_iff in E. congruence. }
  assert (Hthis : has_text U t f = true) by (apply has_text_iff, Hf).
  assert (Hset : forall s, dget str_eqb s (dset str_eqb t f d) = if str_eqb t s then Some f else best U s l).
  { intros s. rewrite (dget_dset _ str_eqb_ok). destruct (str_eqb t s); [reflexivity|apply Hr]. }
  rewrite (Hr t). destruct (best U t l) as [r|] eqn:E.
  - destruct (replaces f r) eqn:Er; eexists; (split; [reflexivity|]); intros s; rewrite best_snoc; unfold best_step.
    + rewrite Hset. destruct (str_eqb t s) eqn:Es.
      * apply str_eqb_ok in Es. subst. rewrite Hthis, E, Er. reflexivity.
      * apply (eqb_ok_neq _ str_eqb_ok) in Es. rewrite (Hother s Es). reflexivity.
    + rewrite (Hr s). destruct (str_eqb t s) eqn:Es.
      * apply str_eqb_ok in Es. subst. rewrite Hthis, E, Er. reflexivity.
      * apply (eqb_ok_neq _ str_eqb_ok) in Es. rewrite (Hother s Es). reflexivity.
  - eexists. split; [reflexivity|]. intros s. rewrite best_snoc. unfold best_step. rewrite Hset. destruct (str_eqb t s) eqn:Es.
    + apply str_eqb_ok in Es. subst. rewrite Hthis, E. reflexivity.
    + apply (eqb_ok_neq _ str_eqb_ok) in Es. rewrite (Hother s Es). reflexivity.
Qed.
Definition slot_form (w : word) (k : key) : wordform := WordForm w (Some (key_props k)) None.
Lemma add_forms_spec U w ks : forall n d l, (forall j k, nth_error ks j = Some k -> nth_error (INVERTED_WORDS_CACHES (w_type w)) (n + j) = Some k) ->
  rep U d l ->
  exists l' rest, map (slot_form w) ks = l' ++ rest /\ (forall f, In f l' -> exists t, wf_form U f = Ok t) /\
    rep U (fst (add_forms U d w (seq n (length ks)))) (l ++ l') /\
    ((rest = [] /\ snd (add_forms U d w (seq n (length ks))) = Ok tt) \/
     (exists f r e, rest = f :: r /\ wf_form U f = Err e /\ snd (add_forms U d w (seq n (length ks))) = Err e)).
Proof.
  induction ks as [|k ks IH]; intros n d l Hn Hr.
  - exists [], []. simpl. repeat split; auto; [intros f []|]. rewrite app_nil_r. exact Hr.
  - assert (Hk := Hn 0 k eq_refl). rewrite Nat.add_0_r in Hk. cbn [length seq add_forms].
    unfold py_nth. rewrite Hk. cbn [bind]. fold (slot_form w k). destruct (wf_form U (slot_form w k)) as [t|e] eqn:Ef.
    + destruct (add_form_ok U d l (slot_form w k) t Hr Ef) as (d' & -> & Hr').
      destruct (IH (S n) d' (l ++ [slot_form w k])) as (l' & rest & E & Hok & Hrep & Hres).
      * intros j k' Hj. specialize (Hn (S j) k' Hj). rewrite Nat.add_succ_r in Hn. exact Hn.
      * exact Hr'.
      * exists (slot_form w k :: l'), rest. cbn [map]. rewrite E. split; [reflexivity|]. split; [intros f [<-|Hf]; [eauto|apply Hok, Hf]|].
        rewrite <- app_assoc in Hrep. split; [exact Hrep|exact Hres].
    + assert (E : add_form U d (slot_form w k) = Err e) by (unfold add_form; rewrite Ef; reflexivity). rewrite E.
      exists [], (map (slot_form w) (k :: ks)). split; [reflexivity|]. split; [intros f []|]. rewrite app_nil_r. split; [exact Hr|].
      right. exists (slot_form w k), (map (slot_form w) ks), e. auto.
Qed.
Lemma add_word_spec U w d l : is_word w -> rep U d l ->
  exists l' rest, all_forms w = Ok (l' ++ rest) /\ registers U w l' /\ rep U (fst (add_word U d w)) (l ++ l') /\
    ((rest = [] /\ snd (add_word U d w) = Ok tt) \/ (exists f r e, rest = f :: r /\ wf_form U f = Err e /\ snd (add_word U d w) = Err e)).
Proof.
  intros Hw Hr. unfold add_word. rewrite (word_forms_length w Hw).
  destruct (add_forms_spec U w (INVERTED_WORDS_CACHES (w_type w)) 0 d l) as (l' & rest & E & Hok & Hrep & Hres); [intros j k H; exact H|exact Hr|].
  assert (Ea : all_forms w = Ok (l' ++ rest)) by (rewrite (all_forms_eq w Hw); f_equal; exact E).
  exists l', rest. split; [exact Ea|]. split; [|split; assumption]. exists rest. split; [exact Ea|]. split; [exact Hok|].
  destruct Hres as [[-> _]|(f & r & e & -> & He & _)]; [left; reflexivity|right; eauto 6].
Qed.

(** ** histories *)
Lemma registers_fun U w l l' : registers U w l -> registers U w l' -> l = l'.
Proof.
  intros (r & E & Hok & Hr) (r' & E' & Hok' & Hr'). rewrite E in E'. injection E' as E'.
  assert (G : forall l l' r r' : list wordform, l ++ r = l' ++ r' -> (forall f, In f l -> exists t, wf_form U f = Ok t) ->
     (forall f, In f l' -> exists t, wf_form U f = Ok t) ->
     (r = [] \/ exists f r0 e, r = f :: r0 /\ wf_form U f = Err e) ->
     (r' = [] \/ exists f r0 e, r' = f :: r0 /\ wf_form U f = Err e) -> l = l').
  { clear. induction l as [|x l IH]; intros [|y l'] r r' E H1 H2 H3 H4; [reflexivity| | |].
    - simpl in E. subst r. destruct H3 as [[=]|(f & r0 & e & [= <- _] & He)]. destruct (H2 y (or_introl eq_refl)). congruence.
    - simpl in E. subst r'. destruct H4 as [[=]|(f & r0 & e & [= <- _] & He)]. destruct (H1 x (or_introl eq_refl)). congruence.
    - simpl in E. injection E as -> E. f_equal. apply (IH l' r r' E); try assumption; intros f Hf; [apply H1|apply H2]; right; exact Hf. }
  exact (G l l' r r' E' Hok Hok' Hr Hr').
Qed.
Lemma registered_fun U ws l l' : registered U ws l -> registered U ws l' -> l = l'.
Proof.
  intros (ls & H & ->) (ls' & H' & ->). f_equal. revert ls' H'. induction H as [|w x ws ls Hx H IH]; intros ls' H'; inversion H'; subst; [reflexivity|].
  f_equal; [eapply registers_fun; eassumption|apply IH; assumption].
Qed.
Lemma add_form_nodup U d f d' : add_form U d f = Ok d' -> NoDup (dkeys d) -> NoDup (dkeys d').
Proof.
  unfold add_form. intros H Hd. destruct (wf_form U f) as [t|]; [|discriminate]. cbn [bind] in H.
  destruct (dget str_eqb t d); [destruct (replaces f w)|]; injection H as <-; auto; apply NoDup_dset; auto; exact str_eqb_ok.
Qed.
Lemma add_forms_nodup U w is : forall d, NoDup (dkeys d) -> NoDup (dkeys (fst (add_forms U d w is))).
Proof.
  induction is as [|i is IH]; intros d Hd; [exact Hd|]. cbn [add_forms].
  destruct (py_nth (INVERTED_WORDS_CACHES (w_type w)) i) as [k|]; cbn [bind]; [|exact Hd].
  destruct (add_form U d (WordForm w (Some (key_props k)) None)) as [d'|] eqn:E; [|exact Hd]. apply IH. exact (add_form_nodup _ _ _ _ E Hd).
Qed.
Lemma after_snoc U ws w : after U (ws ++ [w]) = fst (add_word U (after U ws) w).
Proof. unfold after. rewrite fold_left_app. reflexivity. Qed.
Lemma after_rep U ws : Forall is_word ws -> exists l, registered U ws l /\ rep U (after U ws) l /\ NoDup (dkeys (after U ws)).
Proof.
  induction ws as [|w ws IH] using rev_ind; intros Hw.
  - exists []. split; [exists []; split; [constructor|reflexivity]|]. split; [intros t; reflexivity|constructor].
  - apply Forall_app in Hw as [Hws Hw]. inversion Hw as [|? ? Hw1 _]; subst. destruct (IH Hws) as (l & (ls & Hls & ->) & Hrep & Hnd).
    destruct (add_word_spec U w (after U ws) (concat ls) Hw1 Hrep) as (l' & rest & _ & Hreg & Hrep' & _).
    exists (concat ls ++ l'). rewrite after_snoc. split; [|split; [exact Hrep'|apply add_forms_nodup, Hnd]].
    exists (ls ++ [l']). split; [apply Forall2_app; [exact Hls|repeat constructor; exact Hreg]|].
    rewrite concat_app. simpl. rewrite app_nil_r. reflexivity.
Qed.
Lemma after_rep_of U ws l : Forall is_word ws -> registered U ws l -> rep U (after U ws) l.
Proof. intros Hw Hl. destruct (after_rep U ws Hw) as (l' & Hl' & Hr & _). rewrite (registered_fun U ws l l' Hl Hl'). exact Hr. Qed.
Lemma all_forms_word w l f : is_word w -> all_forms w = Ok l -> In f l -> wf_word f = w /\ is_wordform f.
Proof.
  intros Hw Hl Hin. rewrite (all_forms_eq w Hw) in Hl. injection Hl as <-. apply in_map_iff in Hin as (k & <- & _).
  split; [reflexivity|]. exists w, (Some (key_props k)), None. repeat split; try (apply Hw); try discriminate. intros q [= <-]. apply is_properties_key.
Qed.
Lemma registered_in U ws l f : Forall is_word ws -> registered U ws l -> In f l ->
  exists w lw, In w ws /\ registers U w lw /\ In f lw /\ wf_word f = w /\ is_wordform f.
Proof.
  intros Hw (ls & H & ->) Hin. apply in_concat in Hin as (lw & Hlw & Hin). destruct (Forall2_in_r _ _ _ _ H Hlw) as (w & Hww & Hr).
  exists w, lw. split; [exact Hww|]. split; [exact Hr|]. split; [exact Hin|].
  destruct Hr as (rest & E & _). apply (all_forms_word w (lw ++ rest)); [rewrite Forall_forall in Hw; apply Hw, Hww|exact E|apply in_app_iff; left; exact Hin].
Qed.

(** ** the constructor *)
Lemma add_words_ok U ws : forall d d', add_words U d ws = (d', Ok tt) <->
  d' = fold_left (fun d w => fst (add_word U d w)) ws d /\
  (forall ws1 w ws2, ws = ws1 ++ w :: ws2 -> snd (add_word U (fold_left (fun d w => fst (add_word U d w)) ws1 d) w) = Ok tt).
Proof.
  induction ws as [|w ws IH]; intros d d'; simpl.
  - split; [intros [= <-]; split; [reflexivity|intros [|] ? ? [=]]|intros [-> _]; reflexivity].
  - destruct (add_word U d w) as [d1 [[]|e]] eqn:E; simpl.
    + rewrite IH. split; intros [-> H]; (split; [reflexivity|]).
      * intros [|w1 ws1] w0 ws2 Ew; simpl in Ew; injection Ew as <- Ew; simpl; [rewrite E; reflexivity|]. rewrite E. apply (H ws1 w0 ws2 Ew).
      * intros ws1 w0 ws2 Ew. specialize (H (w :: ws1) w0 ws2). simpl in H. rewrite E, Ew in H. apply H. reflexivity.
    + split; [discriminate|]. intros [_ H]. specialize (H [] w ws eq_refl). simpl in H. rewrite E in H. discriminate.
Qed.
(** whether add_word succeeds does not depend on the dictionary *)
Lemma add_form_result U d f : match add_form U d f with Ok _ => exists t, wf_form U f = Ok t | Err e => wf_form U f = Err e end.
Proof.
  unfold add_form. destruct (wf_form U f) as [t|e]; [|reflexivity]. cbn [bind].
  destruct (dget str_eqb t d); [destruct (replaces f w)|]; eauto.
Qed.
Lemma add_forms_result U w is : forall d d', snd (add_forms U d w is) = snd (add_forms U d' w is).
Proof.
  induction is as [|i is IH]; intros d d'; [reflexivity|]. cbn [add_forms].
  destruct (py_nth (INVERTED_WORDS_CACHES (w_type w)) i) as [k|e]; [|reflexivity]. cbn [bind].
  assert (H1 := add_form_result U d (WordForm w (Some (key_props k)) None)). assert (H2 := add_form_result U d' (WordForm w (Some (key_props k)) None)).
  destruct (add_form U d _), (add_form U d' _).
  - apply IH.
  - destruct H1. congruence.
  - destruct H2. congruence.
  - cbn [snd]. congruence.
Qed.
Lemma add_word_result U w d d' : snd (add_word U d w) = snd (add_word U d' w).
Proof. apply add_forms_result. Qed.
Lemma Dictionary_ok U ws d : Dictionary U ws = Ok d <-> d = after U ws /\ forall w, In w ws -> snd (add_word U [] w) = Ok tt.
Proof.
  unfold Dictionary. destruct (add_words U [] ws) as [d' [[]|e]] eqn:E.
  - apply add_words_ok in E as [-> H]. fold (after U ws). split.
    + intros [= <-]. split; [reflexivity|]. intros w Hw. apply in_split in Hw as (ws1 & ws2 & Ew). rewrite <- (H ws1 w ws2 Ew). apply add_word_result.
    + intros [-> _]. reflexivity.
  - split; [discriminate|]. intros [-> H]. exfalso.
    assert (G : add_words U [] ws = (after U ws, Ok tt)).
    { apply add_words_ok. split; [reflexivity|]. intros ws1 w ws2 ->. rewrite <- (H w); [apply add_word_result|]. apply in_app_iff. right; left; reflexivity. }
    congruence.
Qed.
Lemma add_word_all U w : is_word w -> snd (add_word U [] w) = Ok tt -> forall l, registers U w l -> all_forms w = Ok l.
Proof.
  intros Hw H l Hl. destruct (add_word_spec U w [] [] Hw) as (l' & rest & E & Hreg & _ & Hres); [intros t; reflexivity|].
  rewrite (registers_fun U w l l' Hl Hreg). destruct Hres as [[-> _]|(f & r & e & _ & _ & He)]; [rewrite app_nil_r in E; exact E|congruence].
Qed.
