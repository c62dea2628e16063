(** * StrFacts: split, join, strip, comparison of strings *)
From Coq Require Import Lia.
From Verif Require Import PyBase PyBaseFacts.

Lemma split_on_nonempty sep s : split_on sep s <> [].
Proof. induction s as [|c s IH]; simpl; [discriminate|]. destruct (N.eqb c sep); [discriminate|]. destruct (split_on sep s); discriminate. Qed.
Lemma split_on_app_sep sep a s : ~ In sep a -> split_on sep (a ++ sep :: s) = a :: split_on sep s.
Proof.
  induction a as [|c a IH]; intros H; simpl; [rewrite N.eqb_refl; reflexivity|].
  destruct (N.eqb_spec c sep) as [->|Hn]; [exfalso; apply H; left; reflexivity|].
  rewrite IH; [reflexivity|]. intros H'. apply H. right; exact H'.
Qed.
Lemma split_on_none sep a : ~ In sep a -> split_on sep a = [a].
Proof.
  induction a as [|c a IH]; intros H; simpl; [reflexivity|].
  destruct (N.eqb_spec c sep) as [->|Hn]; [exfalso; apply H; left; reflexivity|].
  rewrite IH; [reflexivity|]. intros H'. apply H. right; exact H'.
Qed.
Lemma split_join sep l : l <> [] -> Forall (fun a => ~ In sep a) l -> split_on sep (join [sep] l) = l.
Proof.
  induction l as [|a l IH]; intros Hne H; [contradiction|]. inversion H as [|? ? Ha Hl]; subst.
  destruct l as [|b l]; [apply split_on_none, Ha|].
  change (join [sep] (a :: b :: l)) with (a ++ sep :: join [sep] (b :: l)).
  rewrite split_on_app_sep by exact Ha. f_equal. apply IH; [discriminate|exact Hl].
Qed.
Lemma join_split sep s : join [sep] (split_on sep s) = s.
Proof.
  induction s as [|c s IH]; [reflexivity|]. cbn [split_on].
  assert (Hne := split_on_nonempty sep s).
  destruct (N.eqb_spec c sep) as [->|Hn].
  - destruct (split_on sep s) as [|p ps]; [contradiction|].
    change (join [sep] ([] :: p :: ps)) with (sep :: join [sep] (p :: ps)). rewrite IH. reflexivity.
  - destruct (split_on sep s) as [|p ps]; [contradiction|].
    destruct ps as [|q ps]; simpl in IH |- *; rewrite <- IH; reflexivity.
Qed.
Lemma split_on_no_sep sep s : Forall (fun a => ~ In sep a) (split_on sep s).
Proof.
  induction s as [|c s IH]; simpl; [constructor; [intros []|constructor]|].
  destruct (N.eqb_spec c sep) as [->|Hn]; [constructor; [intros []|exact IH]|].
  destruct (split_on sep s) as [|p ps] eqn:E; [exfalso; apply (split_on_nonempty sep s E)|].
  inversion IH; subst. constructor; [|assumption]. intros [H|H]; [congruence|contradiction].
Qed.

(** strip *)
Lemma lstrip_suffix isspace s : exists a, s = a ++ lstrip isspace s /\ Forall (fun c => isspace c = true) a.
Proof.
  induction s as [|c s IH]; simpl; [exists []; auto|]. destruct (isspace c) eqn:E.
  - destruct IH as (a & Ha & HF). exists (c :: a). split; [simpl; congruence|]. constructor; assumption.
  - exists []. auto.
Qed.
Lemma lstrip_head isspace s c r : lstrip isspace s = c :: r -> isspace c = false.
Proof.
  induction s as [|x s IH]; simpl; [discriminate|]. destruct (isspace x) eqn:E; [apply IH|]. intros [= <- <-]. exact E.
Qed.
Lemma lstrip_all isspace s : Forall (fun c => isspace c = true) s -> lstrip isspace s = [].
Proof. induction 1 as [|c s Hc _ IH]; simpl; [reflexivity|]. rewrite Hc. exact IH. Qed.
Lemma lstrip_nil isspace s : lstrip isspace s = [] -> Forall (fun c => isspace c = true) s.
Proof.
  intros H. destruct (lstrip_suffix isspace s) as (a & Ha & HF). rewrite H, app_nil_r in Ha. subst. exact HF.
Qed.
Lemma lstrip_app_space isspace a s : Forall (fun c => isspace c = true) a -> lstrip isspace (a ++ s) = lstrip isspace s.
Proof. induction 1 as [|c a Hc _ IH]; simpl; [reflexivity|]. rewrite Hc. exact IH. Qed.
Lemma lstrip_nonspace isspace c s : isspace c = false -> lstrip isspace (c :: s) = c :: s.
Proof. intros H. simpl. rewrite H. reflexivity. Qed.

(** [s.strip()] is the unique middle part: blanks, then a text without blanks at its ends, then blanks *)
Definition no_blank_ends (isspace : char -> bool) (m : str) : Prop :=
  (forall c r, m = c :: r -> isspace c = false) /\ (forall r c, m = r ++ [c] -> isspace c = false).

Lemma strip_spec isspace s : exists a b, s = a ++ strip isspace s ++ b /\
  Forall (fun c => isspace c = true) a /\ Forall (fun c => isspace c = true) b /\ no_blank_ends isspace (strip isspace s).
Proof.
  unfold strip. destruct (lstrip_suffix isspace s) as (a & Ha & HFa).
  set (l := lstrip isspace s) in *. destruct (lstrip_suffix isspace (rev l)) as (b & Hb & HFb).
  set (m := lstrip isspace (rev l)) in *.
  assert (Hl : l = rev m ++ rev b) by (rewrite <- rev_app_distr, <- Hb, rev_involutive; reflexivity).
  exists a, (rev b). split; [rewrite <- Hl; exact Ha|]. split; [exact HFa|]. split; [apply Forall_rev, HFb|].
  split.
  - intros c r E. destruct l as [|x l'] eqn:El.
    + destruct (rev m); discriminate.
    + rewrite E in Hl. injection Hl as -> _. apply (lstrip_head isspace s c l'). exact El.
  - intros r c E. apply (f_equal (@rev _)) in E. rewrite rev_involutive, rev_app_distr in E. simpl in E.
    apply (lstrip_head isspace (rev l) c (rev r)). exact E.
Qed.
Lemma strip_unique isspace a m b : Forall (fun c => isspace c = true) a -> Forall (fun c => isspace c = true) b ->
  no_blank_ends isspace m -> strip isspace (a ++ m ++ b) = m.
Proof.
  intros Ha Hb [H1 H2]. unfold strip. rewrite lstrip_app_space by exact Ha.
  destruct m as [|c m].
  - simpl. rewrite (lstrip_all isspace b Hb). reflexivity.
  - simpl. rewrite (H1 c m eq_refl). change (c :: m ++ b) with ((c :: m) ++ b). rewrite rev_app_distr.
    rewrite lstrip_app_space by (apply Forall_rev, Hb).
    destruct (rev (c :: m)) as [|x r] eqn:E; [apply (f_equal (@rev _)) in E; rewrite rev_involutive in E; discriminate|].
    assert (Em : c :: m = rev r ++ [x]) by (rewrite <- (rev_involutive (c :: m)), E; reflexivity).
    rewrite lstrip_nonspace by (apply (H2 (rev r) x), Em). rewrite Em. reflexivity.
Qed.
Lemma strip_id isspace m : no_blank_ends isspace m -> strip isspace m = m.
Proof. intros H. assert (E := strip_unique isspace [] m [] (Forall_nil _) (Forall_nil _) H). simpl in E. rewrite app_nil_r in E. exact E. Qed.
Lemma strip_no_space isspace m : Forall (fun c => isspace c = false) m -> strip isspace m = m.
Proof.
  intros H. apply strip_id. rewrite Forall_forall in H. split; intros; apply H; subst; [left; reflexivity|].
  apply in_app_iff. right; left; reflexivity.
Qed.
Lemma strip_nil isspace s : strip isspace s = [] <-> Forall (fun c => isspace c = true) s.
Proof.
  split.
  - intros H. destruct (strip_spec isspace s) as (a & b & Hs & Ha & Hb & _). rewrite H in Hs. simpl in Hs. subst.
    apply Forall_app; auto.
  - intros H. unfold strip. rewrite (lstrip_all _ _ H). reflexivity.
Qed.

(** comparison *)
Lemma str_compare_refl a : str_compare a a = Eq.
Proof. induction a as [|x a IH]; simpl; [reflexivity|]. rewrite N.compare_refl. exact IH. Qed.
Lemma str_compare_eq a b : str_compare a b = Eq <-> a = b.
Proof.
  split; [|intros ->; apply str_compare_refl].
  revert b. induction a as [|x a IH]; intros [|y b]; simpl; try discriminate; [reflexivity|].
  destruct (N.compare x y) eqn:E; try discriminate. apply N.compare_eq in E. subst. intros H. f_equal. apply IH, H.
Qed.
Lemma str_compare_antisym a b : str_compare b a = CompOpp (str_compare a b).
Proof.
  revert b. induction a as [|x a IH]; intros [|y b]; simpl; try reflexivity.
  rewrite (N.compare_antisym x y). destruct (N.compare x y); simpl; [apply IH|reflexivity|reflexivity].
Qed.
Lemma str_compare_lt_trans a b c : str_compare a b = Lt -> str_compare b c = Lt -> str_compare a c = Lt.
Proof.
  revert b c. induction a as [|x a IH]; intros [|y b] [|z c]; simpl; try discriminate; try reflexivity.
  destruct (N.compare_spec x y) as [->|H1|H1]; try discriminate.
  - destruct (N.compare y z); try discriminate; [apply IH|reflexivity].
  - intros _. destruct (N.compare_spec y z) as [->|H2|H2]; try discriminate; intros _.
    + rewrite (proj2 (N.compare_lt_iff x z) H1). reflexivity.
    + rewrite (proj2 (N.compare_lt_iff x z)); [reflexivity|lia].
Qed.
Lemma strs_compare_refl a : strs_compare a a = Eq.
Proof. induction a as [|x a IH]; simpl; [reflexivity|]. rewrite str_compare_refl. exact IH. Qed.
Lemma strs_compare_eq a b : strs_compare a b = Eq <-> a = b.
Proof.
  split; [|intros ->; apply strs_compare_refl].
  revert b. induction a as [|x a IH]; intros [|y b]; simpl; try discriminate; [reflexivity|].
  destruct (str_compare x y) eqn:E; try discriminate. apply str_compare_eq in E. subst. intros H. f_equal. apply IH, H.
Qed.
Lemma strs_compare_antisym a b : strs_compare b a = CompOpp (strs_compare a b).
Proof.
  revert b. induction a as [|x a IH]; intros [|y b]; simpl; try reflexivity.
  rewrite (str_compare_antisym x y). destruct (str_compare x y); simpl; [apply IH|reflexivity|reflexivity].
Qed.
Lemma strs_compare_lt_trans a b c : strs_compare a b = Lt -> strs_compare b c = Lt -> strs_compare a c = Lt.
Proof.
  revert b c. induction a as [|x a IH]; intros [|y b] [|z c]; simpl; try discriminate; try reflexivity.
  destruct (str_compare x y) eqn:E1; try discriminate.
  - apply str_compare_eq in E1. subst. destruct (str_compare y z); try discriminate; [apply IH|reflexivity].
  - intros _. destruct (str_compare y z) eqn:E2; try discriminate; intros _.
    + apply str_compare_eq in E2. subst. rewrite E1. reflexivity.
    + rewrite (str_compare_lt_trans _ _ _ E1 E2). reflexivity.
Qed.
