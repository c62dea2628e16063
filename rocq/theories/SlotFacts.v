(** * SlotFacts: keys, slots, raw caches (utg/logic.py) for arbitrary schemas and restrictions *)
From Coq Require Import Lia Permutation Sorted.
From Verif Require Import PyBase Relations Restrictions Logic Data Words PyBaseFacts SpecSlots.

(** ** keys_generator *)
Lemma restricts_iff restr o g : restricts restr o g = true <-> exists p, o = Some p /\ restricted_by restr p g.
Proof.
  unfold restricts, restricted_by. destruct o as [p|].
  - destruct (dget prop_eqb p restr) as [gs|] eqn:E.
    + rewrite (mem_iff _ rel_eqb_ok). split.
      * intros H. exists p. split; [reflexivity|]. exists gs. auto.
      * intros (q & [= <-] & gs' & Hg & Hin). rewrite E in Hg. injection Hg as <-. exact Hin.
    + split; [discriminate|]. intros (q & [= <-] & gs' & Hg & _). congruence.
  - split; [discriminate|]. intros (q & [=] & _).
Qed.
Lemma existsb_restricts restr left g : existsb (fun used => restricts restr used g) left = true <->
  exists p, In (Some p) left /\ restricted_by restr p g.
Proof.
  rewrite existsb_exists. split.
  - intros (o & Hin & H). apply restricts_iff in H as (p & -> & H). exists p. auto.
  - intros (p & Hin & H). exists (Some p). split; [exact Hin|]. apply restricts_iff. exists p. auto.
Qed.

(** validity of the right part of a key after [left] *)
Fixpoint valid_after (restr : restr_table) (left : key) (sch : list relation) (k : key) : Prop :=
  match sch, k with
  | [], [] => True
  | g :: sch', o :: k' =>
      (o = None <-> exists p, In (Some p) left /\ restricted_by restr p g) /\
      (forall p, o = Some p -> In p (records g)) /\
      valid_after restr (left ++ [o]) sch' k'
  | _, _ => False
  end.
Lemma keys_generator_valid restr sch : forall left k, In k (keys_generator left sch restr) <-> valid_after restr left sch k.
Proof.
  induction sch as [|g sch IH]; intros left k; simpl.
  - destruct k as [|o k]; (split; [|tauto || intros []]); intros H; [exact I|destruct H as [[=]|[]]].
  - destruct (existsb _ left) eqn:E.
    + pose proof (proj1 (existsb_restricts restr left g) E) as He. rewrite in_map_iff. split.
      * intros (k' & <- & Hk). apply IH in Hk. split; [split; auto|]. split; [discriminate|exact Hk].
      * destruct k as [|o k]; [intros []|]. intros (H1 & _ & H3). apply proj2 in H1. rewrite (H1 He) in *.
        exists k. split; [reflexivity|]. apply IH, H3.
    + assert (He : ~ exists p, In (Some p) left /\ restricted_by restr p g).
      { intros H. apply existsb_restricts in H. congruence. }
      rewrite in_flat_map. split.
      * intros (r & Hr & Hk). apply in_map_iff in Hk as (k' & <- & Hk). apply IH in Hk.
        split; [split; [discriminate|intros H; contradiction]|]. split; [intros p [= <-]; exact Hr|exact Hk].
      * destruct k as [|o k]; [intros []|]. intros (H1 & H2 & H3). destruct o as [p|].
        -- exists p. split; [apply H2; reflexivity|]. apply in_map_iff. exists k. split; [reflexivity|]. apply IH, H3.
        -- exfalso. apply He, H1. reflexivity.
Qed.
Lemma in_nth_error {A} (l : list A) a : In a l <-> exists i, nth_error l i = Some a.
Proof.
  split; [apply In_nth_error|]. intros [i H]. apply nth_error_In in H. exact H.
Qed.
Lemma valid_after_slot restr sch : forall left k, valid_after restr left sch k <->
  length k = length sch /\
  forall i g o, nth_error sch i = Some g -> nth_error k i = Some o ->
    (o = None <-> exists j p, j < length left + i /\ nth_error (left ++ k) j = Some (Some p) /\ restricted_by restr p g) /\
    (forall p, o = Some p -> In p (records g)).
Proof.
  assert (Hhead : forall left o (k : key) restr g, (exists p, In (Some p) left /\ restricted_by restr p g) <->
    exists j p, j < length left + 0 /\ nth_error (left ++ o :: k) j = Some (Some p) /\ restricted_by restr p g).
  { intros left o k restr' g. split.
    - intros (p & Hin & H). apply in_nth_error in Hin as [j Hj]. exists j, p. assert (j < length left) by (apply nth_error_Some; congruence).
      split; [lia|]. rewrite nth_error_app1 by assumption. auto.
    - intros (j & p & Hj & Hn & H). exists p. split; [|exact H]. rewrite nth_error_app1 in Hn by lia. apply nth_error_In in Hn. exact Hn. }
  induction sch as [|g sch IH]; intros left k; destruct k as [|o k]; simpl.
  - split; [|tauto]. intros _. split; [reflexivity|]. intros [|i]; discriminate.
  - split; [intros []|intros [[=] _]].
  - split; [intros []|intros [[=] _]].
  - rewrite IH, (Hhead left o k restr g). split.
    + intros (H1 & H2 & H3 & H4). split; [congruence|]. intros [|i] g' o' Hg Ho; simpl in Hg, Ho.
      * injection Hg as <-. injection Ho as <-. split; [exact H1|exact H2].
      * specialize (H4 i g' o' Hg Ho). rewrite app_length, <- app_assoc in H4. simpl in H4.
        replace (length left + 1 + i) with (length left + S i) in H4 by lia. exact H4.
    + intros (H1 & H2). split; [|split; [|split]].
      * apply (H2 0 g o eq_refl eq_refl).
      * apply (H2 0 g o eq_refl eq_refl).
      * congruence.
      * intros i g' o' Hg Ho. specialize (H2 (S i) g' o' Hg Ho). rewrite app_length, <- app_assoc. simpl.
        replace (length left + 1 + i) with (length left + S i) by lia. exact H2.
Qed.
Lemma keys_generator_spec restr sch k : In k (keys_generator [] sch restr) <-> slot_key restr sch k.
Proof. rewrite keys_generator_valid, valid_after_slot. reflexivity. Qed.

Lemma part_in_key_iff part k : part_in_key part k = true <-> forall p, In p part -> In (Some p) k.
Proof.
  unfold part_in_key. rewrite forallb_forall. split; intros H p Hp.
  - apply (mem_iff _ (opt_eqb_ok _ prop_eqb_ok)), H, Hp.
  - apply (mem_iff _ (opt_eqb_ok _ prop_eqb_ok)), H, Hp.
Qed.
Lemma banned_iff parts k : existsb (fun part => part_in_key part k) parts = true <-> banned parts k.
Proof.
  rewrite existsb_exists. unfold banned. split; intros (part & H1 & H2); exists part; (split; [exact H1|]); apply part_in_key_iff; exact H2.
Qed.
Lemma restricted_keys_spec sch restr parts k :
  In k (restricted_keys_generator sch restr parts) <-> slot_key restr sch k /\ ~ banned parts k.
Proof.
  unfold restricted_keys_generator. rewrite filter_In, keys_generator_spec, negb_true_iff.
  rewrite <- banned_iff. destruct (existsb _ parts); intuition congruence.
Qed.

(** ** order, no repetitions *)
Inductive all_ordered {A} (R : A -> A -> Prop) : list A -> Prop :=
  | ao_nil : all_ordered R []
  | ao_cons a l : Forall (R a) l -> all_ordered R l -> all_ordered R (a :: l).
Lemma ao_app {A} (R : A -> A -> Prop) l1 l2 : all_ordered R l1 -> all_ordered R l2 ->
  (forall a b, In a l1 -> In b l2 -> R a b) -> all_ordered R (l1 ++ l2).
Proof.
  induction l1 as [|a l1 IH]; intros H1 H2 H; simpl; [exact H2|]. inversion H1 as [|? ? Hf Hl]; subst. constructor.
  - apply Forall_app. split; [exact Hf|]. apply Forall_forall. intros b Hb. apply H; [left; reflexivity|exact Hb].
  - apply IH; [exact Hl|exact H2|]. intros x y Hx Hy. apply H; [right; exact Hx|exact Hy].
Qed.
Lemma ao_map {A B} (R : A -> A -> Prop) (S : B -> B -> Prop) (f : A -> B) l :
  (forall a b, R a b -> S (f a) (f b)) -> all_ordered R l -> all_ordered S (map f l).
Proof.
  intros Hf. induction 1 as [|a l Ha _ IH]; simpl; constructor; [|exact IH].
  apply Forall_forall. intros b Hb. apply in_map_iff in Hb as (x & <- & Hx). rewrite Forall_forall in Ha. apply Hf, Ha, Hx.
Qed.
Lemma ao_filter {A} (R : A -> A -> Prop) (f : A -> bool) l : all_ordered R l -> all_ordered R (filter f l).
Proof.
  induction 1 as [|a l Ha _ IH]; simpl; [constructor|]. destruct (f a); [|exact IH]. constructor; [|exact IH].
  rewrite Forall_forall in *. intros b Hb. apply filter_In in Hb as [Hb _]. apply Ha, Hb.
Qed.
Lemma ao_nth {A} (R : A -> A -> Prop) l i j a b : all_ordered R l -> i < j -> nth_error l i = Some a -> nth_error l j = Some b -> R a b.
Proof.
  intros H. revert i j. induction H as [|x l Hx _ IH]; intros [|i] [|j] Hij Ha Hb; simpl in *; try discriminate; try lia.
  - injection Ha as <-. rewrite Forall_forall in Hx. apply Hx. apply nth_error_In in Hb. exact Hb.
  - apply (IH i j); [lia|exact Ha|exact Hb].
Qed.
Lemma ao_nodup {A} (R : A -> A -> Prop) l : (forall a, ~ R a a) -> all_ordered R l -> NoDup l.
Proof.
  intros Hirr. induction 1 as [|a l Ha _ IH]; constructor; [|exact IH]. intros Hin. rewrite Forall_forall in Ha. exact (Hirr a (Ha a Hin)).
Qed.
Lemma key_before_cons sch g o a b : key_before sch a b -> key_before (g :: sch) (o :: a) (o :: b).
Proof. intros (i & g' & x & y & H1 & H2 & H3 & H4 & H5). exists (S i), g', x, y. simpl. rewrite H1. auto. Qed.
Lemma flat_map_ordered {A B} (R : A -> A -> Prop) (S : B -> B -> Prop) (f : A -> list B) l :
  all_ordered R l -> (forall a, In a l -> all_ordered S (f a)) -> (forall a b x y, R a b -> In a l -> In b l -> In x (f a) -> In y (f b) -> S x y) ->
  all_ordered S (flat_map f l).
Proof.
  induction 1 as [|a l Ha _ IH]; intros Hf HR; simpl; [constructor|]. apply ao_app.
  - apply Hf. left; reflexivity.
  - apply IH; [intros x Hx; apply Hf; right; exact Hx|]. intros x y bx by_ Hxy Hx Hy. apply HR; [exact Hxy|right; exact Hx|right; exact Hy].
  - intros x y Hx Hy. apply in_flat_map in Hy as (b & Hb & Hy). rewrite Forall_forall in Ha.
    apply (HR a b x y (Ha b Hb)); [left; reflexivity|right; exact Hb|exact Hx|exact Hy].
Qed.
Lemma before_ordered {A} (l : list A) : all_ordered (before l) l.
Proof.
  assert (G : forall pre l : list A, all_ordered (before (pre ++ l)) l).
  { intros pre l0. revert pre. induction l0 as [|a l0 IH]; intros pre; constructor.
    - apply Forall_forall. intros b Hb. apply in_split in Hb as (l2 & l3 & ->). exists pre, l2, l3. reflexivity.
    - replace (pre ++ a :: l0) with ((pre ++ [a]) ++ l0) by (rewrite <- app_assoc; reflexivity). apply IH. }
  apply (G []).
Qed.
Lemma keys_generator_ordered restr sch : forall left, all_ordered (key_before sch) (keys_generator left sch restr).
Proof.
  induction sch as [|g sch IH]; intros left; simpl; [repeat constructor|].
  destruct (existsb _ left).
  - apply (ao_map (key_before sch)); [|apply IH]. intros a b. apply key_before_cons.
  - apply (flat_map_ordered (before (records g))); [apply before_ordered| |].
    + intros r _. apply (ao_map (key_before sch)); [|apply IH]. intros a b. apply key_before_cons.
    + intros a b x y Hab _ _ Hx Hy. apply in_map_iff in Hx as (x' & <- & _), Hy as (y' & <- & _).
      exists 0, g, a, b. simpl. auto.
Qed.
Lemma before_irrefl g x : ~ before (records g) x x.
Proof.
  intros (l1 & l2 & l3 & H). assert (Hn := records_nodup g). rewrite H in Hn. apply NoDup_remove_2 in Hn.
  apply Hn. apply in_app_iff. right. apply in_app_iff. right. left. reflexivity.
Qed.
Lemma key_before_irrefl sch k : ~ key_before sch k k.
Proof. intros (i & g & x & y & _ & _ & H1 & H2 & H3). assert (x = y) by congruence. subst. exact (before_irrefl g y H3). Qed.
Lemma restricted_keys_ordered sch restr parts : all_ordered (key_before sch) (restricted_keys_generator sch restr parts).
Proof. apply ao_filter, keys_generator_ordered. Qed.
Lemma restricted_keys_nodup sch restr parts : NoDup (restricted_keys_generator sch restr parts).
Proof. apply (ao_nodup _ _ (key_before_irrefl sch)), restricted_keys_ordered. Qed.

(** ** get_cache *)
Definition swap {A B} (x : A * B) : B * A := (snd x, fst x).
Lemma enumerate_cache_gen (ks : list (nat * key)) : forall acc, NoDup (dkeys acc ++ map snd ks) ->
  fold_left (fun cache ik => dset key_eqb (snd ik) (fst ik) cache) ks acc = acc ++ map swap ks.
Proof.
  induction ks as [|[i k] ks IH]; intros acc H; simpl; [rewrite app_nil_r; reflexivity|].
  simpl in H. rewrite (dset_new _ key_eqb_ok).
  2: { apply NoDup_remove_2 in H. intros H'. apply H, in_app_iff. left; exact H'. }
  rewrite IH; rewrite ?dkeys_app, <- ?app_assoc; [reflexivity|exact H].
Qed.
Lemma map_snd_enumerate {A} (l : list A) : map snd (enumerate l) = l.
Proof.
  unfold enumerate. generalize 0. induction l as [|a l IH]; intros n; simpl; [reflexivity|]. rewrite IH. reflexivity.
Qed.
Lemma map_fst_enumerate {A} (l : list A) : map fst (enumerate l) = seq 0 (length l).
Proof.
  unfold enumerate. generalize 0. induction l as [|a l IH]; intros n; simpl; [reflexivity|]. rewrite IH. reflexivity.
Qed.
Lemma get_cache_eq sch restr parts : get_cache sch restr parts =
  (map swap (enumerate (restricted_keys_generator sch restr parts)), restricted_keys_generator sch restr parts).
Proof.
  unfold get_cache. rewrite enumerate_cache_gen; [reflexivity|]. simpl. rewrite map_snd_enumerate. apply restricted_keys_nodup.
Qed.
Lemma cache_keys sch restr parts : dkeys (fst (get_cache sch restr parts)) = snd (get_cache sch restr parts).
Proof. rewrite get_cache_eq. simpl. unfold dkeys. rewrite map_map. simpl. apply map_snd_enumerate. Qed.
Lemma cache_dget sch restr parts k i :
  dget key_eqb k (fst (get_cache sch restr parts)) = Some i <-> nth_error (snd (get_cache sch restr parts)) i = Some k.
Proof.
  rewrite (dget_Some_iff _ key_eqb_ok).
  - rewrite get_cache_eq. simpl. rewrite in_map_iff. rewrite <- in_enumerate. split.
    + intros ([j k'] & [= <- <-] & H). exact H.
    + intros H. exists (i, k). auto.
  - rewrite cache_keys, get_cache_eq. apply restricted_keys_nodup.
Qed.
Lemma cache_length sch restr parts : length (fst (get_cache sch restr parts)) = length (snd (get_cache sch restr parts)).
Proof. rewrite get_cache_eq. simpl. rewrite map_length. apply enumerate_length. Qed.

(** ** combinations *)
Lemma agrees_unrestricted restr sch : forall left c, combination sch c ->
  exists k, valid_after restr left sch k /\ agrees c k /\ forall k', valid_after restr left sch k' -> agrees c k' -> k' = k.
Proof.
  induction sch as [|g sch IH]; intros left c Hc; inversion Hc as [|? p ? c' Hp Hc']; subst.
  - exists []. split; [exact I|]. split; [constructor|]. intros [|] H _; [reflexivity|destruct H].
  - destruct (existsb (fun used => restricts restr used g) left) eqn:E.
    + pose proof (proj1 (existsb_restricts restr left g) E) as He.
      destruct (IH (left ++ [None]) c' Hc') as (k & Hv & Ha & Hu). exists (None :: k). split; [|split].
      * split; [split; auto|]. split; [discriminate|exact Hv].
      * constructor; auto.
      * intros [|o k'] Hv' Ha'; [destruct Hv'|]. destruct Hv' as (H1 & _ & H3). apply proj2 in H1. rewrite (H1 He) in *.
        f_equal. apply Hu; [exact H3|]. inversion Ha'; assumption.
    + assert (He : ~ exists p, In (Some p) left /\ restricted_by restr p g).
      { intros H. apply existsb_restricts in H. congruence. }
      destruct (IH (left ++ [Some p]) c' Hc') as (k & Hv & Ha & Hu). exists (Some p :: k). split; [|split].
      * split; [split; [discriminate|intros H; contradiction]|]. split; [intros q [= <-]; exact Hp|exact Hv].
      * constructor; auto.
      * intros [|o k'] Hv' Ha'; [destruct Hv'|]. destruct Hv' as (H1 & _ & H3). inversion Ha' as [|? ? ? ? Ho Hk]; subst.
        destruct Ho as [->| ->]; [exfalso; apply He, H1; reflexivity|]. f_equal. apply Hu; assumption.
Qed.
Lemma unrestricted_key_unique restr sch c : combination sch c ->
  exists k, In k (keys_generator [] sch restr) /\ agrees c k /\
            forall k', In k' (keys_generator [] sch restr) -> agrees c k' -> k' = k.
Proof.
  intros Hc. destruct (agrees_unrestricted restr sch [] c Hc) as (k & H1 & H2 & H3). exists k.
  split; [apply keys_generator_valid, H1|]. split; [exact H2|]. intros k' H. apply keys_generator_valid in H. apply H3, H.
Qed.

(** ** raw caches *)
Lemma full_keys_spec sch k : In k (full_keys_generator sch) <-> exists c, combination sch c /\ k = map Some c.
Proof.
  revert k. induction sch as [|g sch IH]; intros k; simpl.
  - split.
    + intros [<-|[]]. exists []. split; [constructor|reflexivity].
    + intros (c & Hc & ->). inversion Hc; subst. left; reflexivity.
  - rewrite in_flat_map. split.
    + intros (p & Hp & Hk). apply in_map_iff in Hk as (k' & <- & Hk). apply IH in Hk as (c & Hc & ->).
      exists (p :: c). split; [constructor; assumption|reflexivity].
    + intros (c & Hc & ->). inversion Hc as [|? p ? c' Hp Hc']; subst. exists p. split; [exact Hp|].
      simpl. apply in_map_iff. exists (map Some c'). split; [reflexivity|]. apply IH. exists c'. auto.
Qed.
Lemma raw_keys_spec restr sch : forall left k, valid_after restr left sch k ->
  forall r, In r (raw_keys_generator k sch) <-> exists c, combination sch c /\ agrees c k /\ r = map Some c.
Proof.
  induction sch as [|g sch IH]; intros left [|o k] Hv r; try destruct Hv; simpl.
  - split.
    + intros [<-|[]]. exists []. repeat split; constructor.
    + intros (c & Hc & _ & ->). inversion Hc; subst. left; reflexivity.
  - rename H into H1. destruct H0 as [H2 H3]. destruct o as [p|].
    + rewrite in_map_iff. split.
      * intros (k' & <- & Hk). apply (IH _ k H3) in Hk as (c & Hc & Ha & ->). exists (p :: c).
        split; [constructor; [apply H2; reflexivity|exact Hc]|]. split; [constructor; auto|reflexivity].
      * intros (c & Hc & Ha & ->). inversion Ha as [|q ? c' ? Ho Ha']; subst. inversion Hc as [|? ? ? ? _ Hc']; subst.
        destruct Ho as [[=]|[= ->]]. exists (map Some c'). split; [reflexivity|]. apply (IH _ k H3). exists c'. auto.
    + rewrite in_flat_map. split.
      * intros (p & Hp & Hr). apply in_map_iff in Hr as (k' & <- & Hk). apply (IH _ k H3) in Hk as (c & Hc & Ha & ->).
        exists (p :: c). split; [constructor; assumption|]. split; [constructor; auto|reflexivity].
      * intros (c & Hc & Ha & ->). inversion Ha as [|q ? c' ? Ho Ha']; subst. inversion Hc as [|? ? ? ? Hq Hc']; subst.
        exists q. split; [exact Hq|]. simpl. apply in_map_iff. exists (map Some c'). split; [reflexivity|]. apply (IH _ k H3). exists c'. auto.
Qed.

(** phase 1: [dset] of the same value for many keys *)
Lemma dset_many (raws : list key) (i : nat) : forall cache r,
  dget key_eqb r (fold_left (fun c raw => dset key_eqb raw i c) raws cache) =
  if mem key_eqb r raws then Some i else dget key_eqb r cache.
Proof.
  induction raws as [|a raws IH]; intros cache r; simpl; [reflexivity|]. rewrite IH, (dget_dset _ key_eqb_ok).
  destruct (mem key_eqb r raws) eqn:E; [rewrite orb_true_r; reflexivity|]. rewrite orb_false_r, (eqb_ok_sym _ key_eqb_ok). reflexivity.
Qed.
Lemma Some_inj_map (c c' : list prop) : map Some c = map Some c' -> c = c'.
Proof.
  revert c'. induction c as [|x c IH]; intros [|y c']; simpl; try discriminate; [reflexivity|]. intros [= -> H]. f_equal. apply IH, H.
Qed.

Section RawCache.
  Context (sch : list relation) (restr : restr_table) (parts : list (list prop)).
  Let keys := restricted_keys_generator sch restr parts.
  Lemma keys_valid k : In k keys -> valid_after restr [] sch k.
  Proof. unfold keys, restricted_keys_generator. intros H. apply filter_In in H as [H _]. apply keys_generator_valid, H. Qed.
  Lemma keys_unique c k k' : combination sch c -> In k keys -> In k' keys -> agrees c k -> agrees c k' -> k = k'.
  Proof.
    intros Hc Hk Hk' Ha Ha'. destruct (agrees_unrestricted restr sch [] c Hc) as (k0 & _ & _ & Hu).
    rewrite (Hu k (keys_valid k Hk) Ha). symmetry. apply Hu; [apply keys_valid, Hk'|exact Ha'].
  Qed.
  Definition phase1_fold (iks : list (nat * key)) (cache : dict key nat) : dict key nat :=
    fold_left (fun cache ik => fold_left (fun cache' raw => dset key_eqb raw (fst ik) cache') (raw_keys_generator (snd ik) sch) cache) iks cache.
  Lemma phase1_nodup : forall iks cache, NoDup (dkeys cache) -> NoDup (dkeys (phase1_fold iks cache)).
  Proof.
    induction iks as [|[i k] iks IH]; intros cache H; simpl; [exact H|]. apply IH.
    generalize (raw_keys_generator k sch). intros raws. revert cache H. induction raws as [|r raws IHr]; intros cache H; simpl; [exact H|].
    apply IHr. apply (NoDup_dset _ key_eqb_ok), H.
  Qed.
  Lemma phase1_get : forall iks cache r,
    (forall i k i' k' , In (i, k) iks -> In (i', k') iks -> In r (raw_keys_generator k sch) -> In r (raw_keys_generator k' sch) -> i = i') ->
    forall i, dget key_eqb r (phase1_fold iks cache) = Some i <->
      (exists k, In (i, k) iks /\ In r (raw_keys_generator k sch)) \/
      ((forall j k, In (j, k) iks -> ~ In r (raw_keys_generator k sch)) /\ dget key_eqb r cache = Some i).
  Proof.
    induction iks as [|[i0 k0] iks IH]; intros cache r Hu i; simpl.
    - split; [intros H; right; split; [intros ? ? []|exact H]|]. intros [(k & [] & _)|[_ H]]. exact H.
    - rewrite IH by (intros; eapply Hu; [right; eassumption|right; eassumption|eassumption|eassumption]). rewrite dset_many. simpl.
      destruct (mem key_eqb r (raw_keys_generator k0 sch)) eqn:E.
      + apply (mem_iff _ key_eqb_ok) in E. split.
        * intros [(k & Hk & Hr)|[Hn [= <-]]]; [left; exists k; auto|]. left. exists k0. auto.
        * intros [(k & [[= <- <-]|Hk] & Hr)|[Hn _]].
          -- destruct (existsb (fun jk => mem key_eqb r (raw_keys_generator (snd jk) sch)) iks) eqn:Ex.
             ++ apply existsb_exists in Ex as ([j k'] & Hin & Hm). apply (mem_iff _ key_eqb_ok) in Hm. simpl in Hm.
                left. exists k'. split; [|exact Hm]. rewrite (Hu i0 k0 j k' (or_introl eq_refl) (or_intror Hin) E Hm). exact Hin.
             ++ right. split; [|reflexivity]. intros j k' Hin Hr'. assert (C : existsb (fun jk => mem key_eqb r (raw_keys_generator (snd jk) sch)) iks = true).
                { apply existsb_exists. exists (j, k'). split; [exact Hin|]. apply (mem_iff _ key_eqb_ok), Hr'. } congruence.
          -- left. exists k. auto.
          -- exfalso. apply (Hn i0 k0); auto.
      + assert (E' : ~ In r (raw_keys_generator k0 sch)) by (apply (mem_false _ key_eqb_ok), E). split.
        * intros [(k & Hk & Hr)|[Hn H]]; [left; exists k; auto|]. right. split; [|exact H].
          intros j k [[= <- <-]|Hin]; [exact E'|apply (Hn j k Hin)].
        * intros [(k & [[= <- <-]|Hk] & Hr)|[Hn H]]; [contradiction|left; exists k; auto|].
          right. split; [|exact H]. intros j k Hin. apply (Hn j k). auto.
  Qed.
  (** phase 1 knows exactly the combinations that belong to a slot *)
  Lemma phase1_spec r i : dget key_eqb r (raw_cache_phase1 keys sch) = Some i <->
    exists c k, combination sch c /\ r = map Some c /\ nth_error keys i = Some k /\ agrees c k.
  Proof.
    change (raw_cache_phase1 keys sch) with (phase1_fold (enumerate keys) []).
    assert (Hr : forall i k, In (i, k) (enumerate keys) -> forall r, In r (raw_keys_generator k sch) <->
                   exists c, combination sch c /\ agrees c k /\ r = map Some c).
    { intros j k Hin. apply in_enumerate in Hin. apply (raw_keys_spec restr sch []). apply keys_valid. apply nth_error_In in Hin. exact Hin. }
    rewrite phase1_get.
    - split.
      + intros [(k & Hk & H)|[_ [=]]]. apply (Hr i k Hk) in H as (c & Hc & Ha & ->). exists c, k.
        apply in_enumerate in Hk. auto.
      + intros (c & k & Hc & -> & Hk & Ha). left. exists k. apply in_enumerate in Hk. split; [exact Hk|]. apply (Hr i k Hk). exists c. auto.
    - intros j k j' k' Hj Hj' H H'. apply (Hr j k Hj) in H as (c & Hc & Ha & ->). apply (Hr j' k' Hj') in H' as (c' & Hc' & Ha' & E).
      apply Some_inj_map in E. subst c'. apply in_enumerate in Hj, Hj'.
      assert (k = k') by (apply (keys_unique c); try assumption; eapply nth_error_In; eassumption). subst.
      apply (nodup_index keys j j' k'); [apply restricted_keys_nodup|assumption|assumption].
  Qed.
End RawCache.
