(** * PyBaseFacts: lemmas about PyBase (strings, results, dicts, lists) and about the generated tables *)
From Coq Require Import Lia Permutation.
From Verif Require Import PyBase Relations Logic Words.

(** ** boolean equalities *)
Definition eqb_ok {A} (eqb : A -> A -> bool) : Prop := forall a b, eqb a b = true <-> a = b.

Lemma eqb_ok_refl {A} (eqb : A -> A -> bool) : eqb_ok eqb -> forall a, eqb a a = true.
Proof. intros H a. apply H. reflexivity. Qed.
Lemma eqb_ok_neq {A} (eqb : A -> A -> bool) : eqb_ok eqb -> forall a b, a <> b <-> eqb a b = false.
Proof.
  intros H a b. destruct (eqb a b) eqn:E.
  - split; [|discriminate]. intros Hn. apply H in E. contradiction.
  - split; [reflexivity|]. intros _ Heq. apply H in Heq. congruence.
Qed.
Lemma eqb_ok_dec {A} (eqb : A -> A -> bool) : eqb_ok eqb -> forall a b : A, {a = b} + {a <> b}.
Proof.
  intros H a b. destruct (eqb a b) eqn:E; [left; apply H, E|right]. intros ->.
  rewrite (eqb_ok_refl _ H) in E. discriminate.
Defined.
Lemma eqb_ok_sym {A} (eqb : A -> A -> bool) : eqb_ok eqb -> forall a b, eqb a b = eqb b a.
Proof.
  intros H a b. destruct (eqb a b) eqn:E1, (eqb b a) eqn:E2; try reflexivity.
  - apply H in E1. subst. rewrite (eqb_ok_refl _ H) in E2. discriminate.
  - apply H in E2. subst. rewrite (eqb_ok_refl _ H) in E1. discriminate.
Qed.

Lemma list_eqb_ok {A} (eqb : A -> A -> bool) : eqb_ok eqb -> eqb_ok (list_eqb eqb).
Proof.
  intros H a. induction a as [|x a IH]; intros [|y b]; simpl; split; intros E; try discriminate; try reflexivity.
  - apply andb_true_iff in E as [E1 E2]. apply H in E1. apply IH in E2. subst. reflexivity.
  - injection E as -> ->. rewrite (eqb_ok_refl _ H). simpl. apply IH. reflexivity.
Qed.
Lemma opt_eqb_ok {A} (eqb : A -> A -> bool) : eqb_ok eqb -> eqb_ok (opt_eqb eqb).
Proof.
  intros H [x|] [y|]; simpl; split; intros E; try discriminate; try reflexivity.
  - apply H in E. subst. reflexivity.
  - injection E as ->. apply (eqb_ok_refl _ H).
Qed.
Lemma N_eqb_ok : eqb_ok N.eqb.
Proof. intros a b. apply N.eqb_eq. Qed.
Lemma Z_eqb_ok : eqb_ok Z.eqb.
Proof. intros a b. apply Z.eqb_eq. Qed.
Lemma str_eqb_ok : eqb_ok str_eqb.
Proof. exact (list_eqb_ok N.eqb N_eqb_ok). Qed.
Lemma rel_eqb_ok : eqb_ok rel_eqb.
Proof.
  intros a b. unfold rel_eqb. rewrite N.eqb_eq. split; [|intros ->; reflexivity].
  destruct a, b; simpl; intros E; try discriminate; reflexivity.
Qed.
Lemma wt_eqb_ok : eqb_ok wt_eqb.
Proof.
  intros a b. unfold wt_eqb. rewrite Z.eqb_eq. split; [|intros ->; reflexivity].
  destruct a, b; simpl; intros E; try discriminate; reflexivity.
Qed.
Lemma prop_eqb_ok : eqb_ok prop_eqb.
Proof.
  intros a b. unfold prop_eqb. split.
  2: { intros ->. rewrite (eqb_ok_refl _ rel_eqb_ok), Z.eqb_refl. reflexivity. }
  intros E. apply andb_true_iff in E as [E1 E2]. apply rel_eqb_ok in E1. apply Z.eqb_eq in E2.
  destruct a; destruct b; simpl in E1; try discriminate E1; simpl in E2; try discriminate E2; try reflexivity;
    repeat match goal with t : word_type |- _ => destruct t end; simpl in E2; try discriminate E2; reflexivity.
Qed.
Lemma key_eqb_ok : eqb_ok key_eqb.
Proof. exact (list_eqb_ok _ (opt_eqb_ok _ prop_eqb_ok)). Qed.
Lemma jkey_eqb_ok : eqb_ok jkey_eqb.
Proof.
  intros [x|x] [y|y]; simpl; split; intros E; try discriminate.
  - apply Z.eqb_eq in E. subst. reflexivity.
  - injection E as ->. apply Z.eqb_refl.
  - apply str_eqb_ok in E. subst. reflexivity.
  - injection E as ->. apply (eqb_ok_refl _ str_eqb_ok).
Qed.

Lemma mem_iff {A} (eqb : A -> A -> bool) : eqb_ok eqb -> forall a l, mem eqb a l = true <-> In a l.
Proof.
  intros H a l. unfold mem. rewrite existsb_exists. split.
  - intros (x & Hx & E). apply H in E. subst. exact Hx.
  - intros Hx. exists a. split; [exact Hx|apply (eqb_ok_refl _ H)].
Qed.
Lemma mem_false {A} (eqb : A -> A -> bool) : eqb_ok eqb -> forall a l, mem eqb a l = false <-> ~ In a l.
Proof.
  intros H a l. rewrite <- (mem_iff eqb H). destruct (mem eqb a l); split; intros; congruence.
Qed.

(** ** dict *)
Section DictFacts.
  Context {K V : Type} (eqb : K -> K -> bool) (Heqb : eqb_ok eqb).
  Implicit Types (d : dict K V) (k : K) (v : V).

  Lemma dget_In d k v : dget eqb k d = Some v -> In (k, v) d.
  Proof using Heqb.
    induction d as [|[k' v'] d IH]; simpl; [discriminate|].
    destruct (eqb k k') eqn:E.
    - intros [= ->]. apply Heqb in E. subst. left; reflexivity.
    - intros H. right. apply IH, H.
  Qed.
  Lemma dget_None d k : dget eqb k d = None <-> ~ In k (dkeys d).
  Proof using Heqb.
    induction d as [|[k' v'] d IH]; simpl; [split; [intros _ []|reflexivity]|].
    destruct (eqb k k') eqn:E.
    - apply Heqb in E. subst. split; [discriminate|]. intros H. exfalso. apply H. left; reflexivity.
    - rewrite IH. apply (eqb_ok_neq _ Heqb) in E. split.
      + intros H [H'|H']; [congruence|contradiction].
      + intros H H'. apply H. right; exact H'.
  Qed.
  Lemma In_dget d k v : NoDup (dkeys d) -> In (k, v) d -> dget eqb k d = Some v.
  Proof using Heqb.
    induction d as [|[k' v'] d IH]; simpl; intros Hnd Hin; [contradiction|].
    inversion Hnd as [|? ? Hni Hnd']; subst.
    destruct Hin as [Hin|Hin].
    - injection Hin as -> ->. rewrite (eqb_ok_refl _ Heqb). reflexivity.
    - destruct (eqb k k') eqn:E; [|apply IH; assumption].
      apply Heqb in E. subst. exfalso. apply Hni. apply in_map_iff. exists (k', v). split; [reflexivity|exact Hin].
  Qed.
  Lemma dget_Some_iff d k v : NoDup (dkeys d) -> (dget eqb k d = Some v <-> In (k, v) d).
  Proof using Heqb. intros H. split; [apply dget_In|apply In_dget, H]. Qed.
  Lemma dmem_iff d k : dmem eqb k d = true <-> In k (dkeys d).
  Proof using Heqb.
    unfold dmem. destruct (dget eqb k d) eqn:E.
    - split; [|reflexivity]. intros _. apply dget_In in E. apply in_map_iff. exists (k, v). split; [reflexivity|exact E].
    - split; [discriminate|]. intros H. apply dget_None in E. contradiction.
  Qed.
  Lemma dmem_false d k : dmem eqb k d = false <-> ~ In k (dkeys d).
  Proof using Heqb. rewrite <- dmem_iff. destruct (dmem eqb k d); split; congruence. Qed.
  Lemma dget_dset_same d k v : dget eqb k (dset eqb k v d) = Some v.
  Proof using Heqb.
    induction d as [|[k' v'] d IH]; simpl; [rewrite (eqb_ok_refl _ Heqb); reflexivity|].
    destruct (eqb k k') eqn:E; simpl; rewrite ?E; [reflexivity|exact IH].
  Qed.
  Lemma dget_dset_other d k k' v : k <> k' -> dget eqb k' (dset eqb k v d) = dget eqb k' d.
  Proof using Heqb.
    intros Hn. induction d as [|[k0 v0] d IH]; simpl.
    - apply (eqb_ok_neq _ Heqb) in Hn. rewrite (eqb_ok_sym _ Heqb), Hn. reflexivity.
    - destruct (eqb k k0) eqn:E; simpl.
      + apply Heqb in E. subst. apply (eqb_ok_neq _ Heqb) in Hn. rewrite (eqb_ok_sym _ Heqb), Hn. reflexivity.
      + destruct (eqb k' k0); [reflexivity|exact IH].
  Qed.
  Lemma dget_dset d k k' v : dget eqb k' (dset eqb k v d) = if eqb k k' then Some v else dget eqb k' d.
  Proof using Heqb.
    destruct (eqb k k') eqn:E.
    - apply Heqb in E. subst. apply dget_dset_same.
    - apply dget_dset_other. apply (eqb_ok_neq _ Heqb), E.
  Qed.
  Lemma dkeys_dset_in d k v : In k (dkeys d) -> dkeys (dset eqb k v d) = dkeys d.
  Proof using Heqb.
    induction d as [|[k0 v0] d IH]; simpl; [intros []|]. intros H.
    destruct (eqb k k0) eqn:E; simpl; [reflexivity|].
    f_equal. apply IH. destruct H as [H|H]; [|exact H]. subst. rewrite (eqb_ok_refl _ Heqb) in E. discriminate.
  Qed.
  Lemma dset_new d k v : ~ In k (dkeys d) -> dset eqb k v d = d ++ [(k, v)].
  Proof using Heqb.
    induction d as [|[k0 v0] d IH]; simpl; [reflexivity|]. intros H.
    destruct (eqb k k0) eqn:E; [apply Heqb in E; subst; exfalso; apply H; left; reflexivity|].
    rewrite IH; [reflexivity|]. intros H'. apply H. right; exact H'.
  Qed.
  Lemma dkeys_app d d' : dkeys (d ++ d') = dkeys d ++ dkeys d'.
  Proof using. apply map_app. Qed.
  Lemma dkeys_dset d k v : dkeys (dset eqb k v d) = if dmem eqb k d then dkeys d else dkeys d ++ [k].
  Proof using Heqb.
    destruct (dmem eqb k d) eqn:E.
    - apply dmem_iff in E. apply dkeys_dset_in, E.
    - apply dmem_false in E. rewrite dset_new by exact E. apply dkeys_app.
  Qed.
  Lemma in_dkeys_dset d k v k' : In k' (dkeys (dset eqb k v d)) <-> k' = k \/ In k' (dkeys d).
  Proof using Heqb.
    rewrite dkeys_dset. destruct (dmem eqb k d) eqn:E.
    - apply dmem_iff in E. split; [right; assumption|]. intros [->|H]; assumption.
    - rewrite in_app_iff. simpl. split; intros H; [destruct H as [H|[H|[]]]|destruct H as [H|H]]; subst; auto.
  Qed.
  Lemma NoDup_app_one {A} (l : list A) a : NoDup l -> ~ In a l -> NoDup (l ++ [a]).
  Proof using.
    intros H1 H2. induction l as [|x l IH]; simpl; [constructor; [intros []|constructor]|].
    inversion H1; subst. constructor.
    - rewrite in_app_iff. simpl. intros [H|[H|[]]]; [contradiction|]. subst. apply H2. left; reflexivity.
    - apply IH; [assumption|]. intros H. apply H2. right; exact H.
  Qed.
  Lemma NoDup_dset d k v : NoDup (dkeys d) -> NoDup (dkeys (dset eqb k v d)).
  Proof using Heqb.
    intros H. rewrite dkeys_dset. destruct (dmem eqb k d) eqn:E; [exact H|].
    apply NoDup_app_one; [exact H|]. apply dmem_false, E.
  Qed.
  Lemma in_dset d k v k' v' : In (k', v') (dset eqb k v d) -> (k' = k /\ v' = v) \/ In (k', v') d.
  Proof using Heqb.
    induction d as [|[k0 v0] d IH]; simpl.
    - intros [[= <- <-]|[]]. left; auto.
    - destruct (eqb k k0) eqn:E; simpl.
      + apply Heqb in E. subst. intros [[= <- <-]|H]; [left; auto|right; right; exact H].
      + intros [H|H]; [right; left; exact H|]. destruct (IH H) as [H'|H']; [left; exact H'|right; right; exact H'].
  Qed.
  Lemma NoDup_dupdate d d' : NoDup (dkeys d) -> NoDup (dkeys (dupdate eqb d d')).
  Proof using Heqb.
    unfold dupdate. revert d. induction d' as [|[k v] d' IH]; intros d H; simpl; [exact H|].
    apply IH. apply NoDup_dset, H.
  Qed.
  Lemma dget_dupdate d d' k : NoDup (dkeys d') ->
    dget eqb k (dupdate eqb d d') = match dget eqb k d' with Some v => Some v | None => dget eqb k d end.
  Proof using Heqb.
    unfold dupdate. revert d. induction d' as [|[k0 v0] d' IH]; intros d H; simpl; [reflexivity|].
    simpl in H. inversion H as [|? ? Hni Hnd]; subst.
    rewrite IH by exact Hnd. rewrite dget_dset. simpl.
    rewrite (eqb_ok_sym _ Heqb k0 k). destruct (eqb k k0) eqn:E; [|reflexivity].
    apply Heqb in E. subst. apply dget_None in Hni. rewrite Hni. reflexivity.
  Qed.
  Lemma dget_map_fst_in d k : In k (dkeys d) -> exists v, dget eqb k d = Some v.
  Proof using Heqb.
    intros H. destruct (dget eqb k d) eqn:E; [exists v; reflexivity|]. apply dget_None in E. contradiction.
  Qed.
  Lemma dget_app d d' k : dget eqb k (d ++ d') = match dget eqb k d with Some v => Some v | None => dget eqb k d' end.
  Proof using.
    induction d as [|[k0 v0] d IH]; simpl; [reflexivity|]. destruct (eqb k k0); [reflexivity|exact IH].
  Qed.
  (** two dicts with the same lookups, no repeated keys and the same key order are equal *)
  Lemma dict_ext d d' : NoDup (dkeys d) -> dkeys d = dkeys d' ->
    (forall k, dget eqb k d = dget eqb k d') -> d = d'.
  Proof using Heqb.
    revert d'. induction d as [|[k v] d IH]; intros [|[k' v'] d'] Hnd Hk Hg; simpl in *; try discriminate; [reflexivity|].
    injection Hk as <- Hk. inversion Hnd as [|? ? Hni Hnd']; subst.
    assert (Hv := Hg k). rewrite (eqb_ok_refl _ Heqb) in Hv. injection Hv as <-. f_equal.
    apply IH; [assumption|assumption|]. intros k1. specialize (Hg k1).
    destruct (eqb k1 k) eqn:E; [|exact Hg].
    apply Heqb in E. subst. transitivity (@None V); [|symmetry]; apply dget_None; [|rewrite <- Hk]; exact Hni.
  Qed.
End DictFacts.

(** ** results *)
Lemma bind_ok {A B} (m : result A) (f : A -> result B) b :
  bind m f = Ok b <-> exists a, m = Ok a /\ f a = Ok b.
Proof.
  destruct m as [a|e]; simpl; split.
  - intros H. exists a. auto.
  - intros (a' & [= <-] & H). exact H.
  - discriminate.
  - intros (a' & [=] & _).
Qed.
Lemma bind_err {A B} (m : result A) (f : A -> result B) e :
  bind m f = Err e <-> m = Err e \/ exists a, m = Ok a /\ f a = Err e.
Proof.
  destruct m as [a|e']; simpl; split.
  - intros H. right. exists a. auto.
  - intros [[=]|(a' & [= <-] & H)]. exact H.
  - intros [= ->]. left; reflexivity.
  - intros [[= ->]|(a' & [=] & _)]. reflexivity.
Qed.

Lemma mapM_ok {A B} (f : A -> result B) l bs :
  mapM f l = Ok bs <-> Forall2 (fun a b => f a = Ok b) l bs.
Proof.
  revert bs. induction l as [|a l IH]; intros bs; simpl.
  - split; [intros [= <-]; constructor|]. intros H. inversion H. reflexivity.
  - rewrite bind_ok. split.
    + intros (b & Hb & H). apply bind_ok in H as (bs' & Hbs & [= <-]). constructor; [exact Hb|]. apply IH, Hbs.
    + intros H. inversion H as [|? b ? bs' Hb Hbs]; subst. exists b. split; [exact Hb|]. apply IH in Hbs. rewrite Hbs. reflexivity.
Qed.
Lemma mapM_map_ok {A B} (f : A -> B) l : mapM (fun a => Ok (f a)) l = Ok (map f l).
Proof. induction l as [|a l IH]; simpl; [reflexivity|]. rewrite IH. reflexivity. Qed.
Lemma mapM_length {A B} (f : A -> result B) l bs : mapM f l = Ok bs -> length bs = length l.
Proof. intros H. apply mapM_ok in H. induction H; simpl; congruence. Qed.
Lemma mapM_err {A B} (f : A -> result B) l e :
  mapM f l = Err e <-> exists l1 a l2, l = l1 ++ a :: l2 /\ f a = Err e /\ Forall (fun x => exists b, f x = Ok b) l1.
Proof.
  induction l as [|a l IH]; simpl.
  - split; [discriminate|]. intros (l1 & a & l2 & H & _). destruct l1; discriminate.
  - rewrite bind_err. split.
    + intros [H|(b & Hb & H)].
      * exists [], a, l. auto.
      * apply bind_err in H as [H|(bs & _ & [=])]. apply IH in H as (l1 & a' & l2 & -> & He & Hl).
        exists (a :: l1), a', l2. repeat split; [exact He|]. constructor; [exists b; exact Hb|exact Hl].
    + intros (l1 & a' & l2 & Heq & He & Hl). destruct l1 as [|x l1]; simpl in Heq; injection Heq as -> ->.
      * left; exact He.
      * right. inversion Hl as [|? ? [b Hb] Hl']; subst. exists b. split; [exact Hb|]. apply bind_err. left.
        apply IH. exists l1, a', l2. auto.
Qed.
Lemma mapM_total {A B} (f : A -> result B) l :
  (forall a, In a l -> exists b, f a = Ok b) -> exists bs, mapM f l = Ok bs.
Proof.
  induction l as [|a l IH]; intros H; simpl; [exists []; reflexivity|].
  destruct (H a (or_introl eq_refl)) as [b Hb]. destruct IH as [bs Hbs]; [intros x Hx; apply H; right; exact Hx|].
  exists (b :: bs). rewrite Hb. simpl. rewrite Hbs. reflexivity.
Qed.
Lemma mapM_app {A B} (f : A -> result B) l1 l2 :
  mapM f (l1 ++ l2) = (b1 <- mapM f l1 ;; b2 <- mapM f l2 ;; Ok (b1 ++ b2)).
Proof.
  induction l1 as [|a l1 IH]; simpl.
  - destruct (mapM f l2); reflexivity.
  - destruct (f a); simpl; [|reflexivity]. rewrite IH. destruct (mapM f l1); simpl; [|reflexivity].
    destruct (mapM f l2); reflexivity.
Qed.
Lemma mapM_ext_in {A B} (f g : A -> result B) l : (forall a, In a l -> f a = g a) -> mapM f l = mapM g l.
Proof.
  induction l as [|a l IH]; intros H; simpl; [reflexivity|].
  rewrite (H a (or_introl eq_refl)), IH; [reflexivity|]. intros x Hx. apply H. right; exact Hx.
Qed.
Lemma mapM_map {A B C} (g : A -> B) (f : B -> result C) l : mapM f (map g l) = mapM (fun a => f (g a)) l.
Proof. induction l as [|a l IH]; simpl; [reflexivity|]. rewrite IH. reflexivity. Qed.

Lemma foldM_app {A B} (f : A -> B -> result A) l1 l2 a :
  foldM f (l1 ++ l2) a = (a' <- foldM f l1 a ;; foldM f l2 a').
Proof.
  revert a. induction l1 as [|b l1 IH]; intros a; simpl; [reflexivity|].
  destruct (f a b); simpl; [apply IH|reflexivity].
Qed.
Lemma foldM_inv {A B} (P : A -> Prop) (f : A -> B -> result A) l a a' :
  P a -> (forall x b y, P x -> In b l -> f x b = Ok y -> P y) -> foldM f l a = Ok a' -> P a'.
Proof.
  revert a. induction l as [|b l IH]; intros a Ha Hstep; simpl; [intros [= <-]; exact Ha|].
  intros H. apply bind_ok in H as (x & Hx & H). apply (IH x); [|intros; eapply Hstep; eauto; right; assumption|exact H].
  apply (Hstep a b x Ha (or_introl eq_refl) Hx).
Qed.
Lemma foldM_total {A B} (P : A -> Prop) (f : A -> B -> result A) l a :
  P a -> (forall x b, P x -> In b l -> exists y, f x b = Ok y /\ P y) -> exists a', foldM f l a = Ok a' /\ P a'.
Proof.
  revert a. induction l as [|b l IH]; intros a Ha Hstep; simpl; [exists a; auto|].
  destruct (Hstep a b Ha (or_introl eq_refl)) as (y & Hy & HP). rewrite Hy. simpl.
  apply IH; [exact HP|]. intros x b' Hx Hb'. apply Hstep; [exact Hx|right; exact Hb'].
Qed.

(** ** lists *)
Lemma py_nth_ok {A} (l : list A) i a : py_nth l i = Ok a <-> nth_error l i = Some a.
Proof. unfold py_nth. destruct (nth_error l i); split; congruence. Qed.
Lemma py_nth_lt {A} (l : list A) i : i < length l -> exists a, py_nth l i = Ok a /\ In a l.
Proof.
  intros H. destruct (nth_error l i) eqn:E.
  - exists a. split; [apply py_nth_ok, E|]. apply (nth_error_In _ _ E).
  - apply nth_error_None in E. lia.
Qed.
Lemma list_set_length {A} (l : list A) i x : length (list_set i x l) = length l.
Proof. revert i. induction l as [|a l IH]; intros [|i]; simpl; auto. Qed.
Lemma list_set_nth {A} (l : list A) i x j :
  nth_error (list_set i x l) j = if Nat.eqb i j then (if Nat.ltb j (length l) then Some x else None) else nth_error l j.
Proof.
  revert i j. induction l as [|a l IH]; intros i j.
  - destruct i, j; simpl; try reflexivity; destruct (Nat.eqb i j); reflexivity.
  - destruct i as [|i], j as [|j]; simpl; try reflexivity.
    rewrite IH. reflexivity.
Qed.
Lemma nth_error_ext {A} (l l' : list A) : (forall i, nth_error l i = nth_error l' i) -> l = l'.
Proof.
  revert l'. induction l as [|a l IH]; intros [|a' l'] H; [reflexivity|..].
  - specialize (H 0). discriminate H.
  - specialize (H 0). discriminate H.
  - f_equal; [specialize (H 0); simpl in H; congruence|]. apply IH. intros i. exact (H (S i)).
Qed.
Lemma enumerate_length {A} (l : list A) : length (enumerate l) = length l.
Proof. unfold enumerate. rewrite combine_length, seq_length. lia. Qed.
Lemma nth_error_combine_seq {A} (l : list A) s i :
  nth_error (combine (seq s (length l)) l) i = option_map (fun a => (s + i, a)) (nth_error l i).
Proof.
  revert s i. induction l as [|a l IH]; intros s [|i]; simpl; try reflexivity.
  - rewrite Nat.add_0_r. reflexivity.
  - rewrite IH. destruct (nth_error l i); simpl; [|reflexivity]. do 2 f_equal. lia.
Qed.
Lemma enumerate_nth {A} (l : list A) i : nth_error (enumerate l) i = option_map (fun a => (i, a)) (nth_error l i).
Proof. apply nth_error_combine_seq. Qed.
Lemma in_enumerate {A} (l : list A) i a : In (i, a) (enumerate l) <-> nth_error l i = Some a.
Proof.
  split.
  - intros H. apply In_nth_error in H as [j Hj]. rewrite enumerate_nth in Hj. destruct (nth_error l j) eqn:E; [|discriminate].
    simpl in Hj. injection Hj as <- <-. exact E.
  - intros H. apply nth_error_In with (n := i). rewrite enumerate_nth, H. reflexivity.
Qed.
Lemma enumerate_snoc {A} (l : list A) a : enumerate (l ++ [a]) = enumerate l ++ [(length l, a)].
Proof.
  unfold enumerate. rewrite app_length. simpl. rewrite Nat.add_1_r, seq_S.
  assert (G : forall n, combine (seq n (length l) ++ [n + length l]) (l ++ [a]) =
                        combine (seq n (length l)) l ++ [(n + length l, a)]).
  { induction l as [|x l IH]; intros n; simpl; [reflexivity|].
    f_equal. replace (n + S (length l)) with (S n + length l) by lia. apply IH. }
  apply (G 0).
Qed.
Lemma nodup_index {A} (l : list A) i j a : NoDup l -> nth_error l i = Some a -> nth_error l j = Some a -> i = j.
Proof.
  intros Hnd Hi Hj. apply (NoDup_nth_error l); [exact Hnd|apply nth_error_Some; congruence|congruence].
Qed.

(** ** finite tables of Relations.v *)
Lemma in_records p r : In p (records r) <-> rel_of p = r.
Proof.
  split.
  - destruct r; simpl; intros H; repeat (destruct H as [H|H]; [subst; reflexivity|]); destruct H.
  - intros <-. destruct p; simpl; repeat (left; reflexivity || right); try destruct t; simpl; auto 20.
Qed.
Lemma records_nodup r : NoDup (records r).
Proof. destruct r; simpl; repeat constructor; simpl; intuition discriminate. Qed.
Lemma records_nonempty r : records r <> [].
Proof. destruct r; discriminate. Qed.
Lemma in_all_relations r : In r all_relations.
Proof. destruct r; simpl; auto 25. Qed.
Lemma in_all_word_types t : In t all_word_types.
Proof. destruct t; simpl; auto 10. Qed.
Lemma in_all_prop (P : prop -> bool) : forallb P (flat_map records all_relations) = true -> forall p, P p = true.
Proof.
  intros H p. rewrite forallb_forall in H. apply H. apply in_flat_map. exists (rel_of p).
  split; [apply in_all_relations|apply in_records; reflexivity].
Qed.
Lemma all_word_types_forallb (P : word_type -> bool) : forallb P all_word_types = true -> forall t, P t = true.
Proof. intros H t. rewrite forallb_forall in H. apply H, in_all_word_types. Qed.
