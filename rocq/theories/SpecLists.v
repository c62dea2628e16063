(** * SpecLists: vocabulary for statements about filtered lists and sizes of sets *)
From Coq Require Import Lia.
From Verif Require Import PyBase.

(** [selected P l r]: r are the results (second components) of the elements of l satisfying P, in order, with
    multiplicity *)
Inductive selected {A B} (P : A -> Prop) (f : A -> B) : list A -> list B -> Prop :=
  | sel_nil : selected P f [] []
  | sel_take a l r : P a -> selected P f l r -> selected P f (a :: l) (f a :: r)
  | sel_skip a l r : ~ P a -> selected P f l r -> selected P f (a :: l) r.
(** the set (given as a list of its elements, in any order) has n elements *)
Definition set_size {A} (s : list A) (n : nat) : Prop := exists l, NoDup l /\ (forall x, In x l <-> In x s) /\ length l = n.

Lemma selected_filter {A B} (P : A -> Prop) (f : A -> B) (b : A -> bool) l :
  (forall a, In a l -> (b a = true <-> P a)) -> selected P f l (map f (filter b l)).
Proof.
  induction l as [|a l IH]; intros H; simpl; [constructor|].
  assert (Ha := H a (or_introl eq_refl)). assert (IH' := IH (fun x Hx => H x (or_intror Hx))).
  destruct (b a) eqn:E; simpl; [apply sel_take; [apply Ha; reflexivity|exact IH']|apply sel_skip; [|exact IH']]. intros Hp. apply Ha in Hp. discriminate.
Qed.
Lemma selected_fun {A B} (P : A -> Prop) (f : A -> B) l r r' : selected P f l r -> selected P f l r' -> r = r'.
Proof.
  intros H. revert r'. induction H as [|a l r Ha H IH|a l r Ha H IH]; intros r' H'; inversion H'; subst; try contradiction; auto.
  f_equal. auto.
Qed.
Lemma selected_in {A B} (P : A -> Prop) (f : A -> B) l r : selected P f l r -> forall b, In b r <-> exists a, In a l /\ P a /\ f a = b.
Proof.
  induction 1 as [|a l r Ha H IH|a l r Ha H IH]; intros b; simpl.
  - split; [intros []|intros (a & [] & _)].
  - rewrite IH. split; [intros [<-|(x & H1 & H2)]; eauto|]. intros (x & [<-|H1] & H2 & H3); [left; exact H3|right; eauto].
  - rewrite IH. split; [intros (x & H1 & H2); eauto|]. intros (x & [<-|H1] & H2 & H3); [contradiction|eauto].
Qed.
Lemma set_size_fun {A} (s : list A) n m : set_size s n -> set_size s m -> n = m.
Proof.
  intros (l & H1 & H2 & <-) (l' & H1' & H2' & <-). apply Nat.le_antisymm; apply NoDup_incl_length; try assumption; intros x Hx; [apply H2', H2, Hx|apply H2, H2', Hx].
Qed.
