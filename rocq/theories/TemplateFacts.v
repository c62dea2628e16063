(** * TemplateFacts: parsing and formatting of templates *)
From Coq Require Import Lia.
From Verif Require Import PyBase Relations Logic Words Templates PyBaseFacts SpecProps PropsFacts StrFacts SynFacts SpecTemplates.

Lemma take_until_spec c s : let (a, b) := take_until c s in s = a ++ b /\ ~ In c a /\ (b = [] \/ exists r, b = c :: r).
Proof.
  induction s as [|x s IH]; simpl; [auto|]. destruct (N.eqb_spec x c) as [->|H]; [split; [reflexivity|split; [intros []|eauto]]|].
  destruct (take_until c s) as [a b]. destruct IH as (-> & H1 & H2). split; [reflexivity|]. split; [intros [->|G]; auto|exact H2].
Qed.
Lemma split_unique {c : char} a b a' b' : ~ In c a -> ~ In c a' -> a ++ c :: b = a' ++ c :: b' -> a = a' /\ b = b'.
Proof.
  revert a'. induction a as [|x a IH]; intros [|y a'] H H' E; inversion E; subst.
  - auto.
  - exfalso. apply H'. left; reflexivity.
  - exfalso. apply H. left; reflexivity.
  - destruct (IH a') as [-> ->]; auto; intros G; [apply H|apply H']; right; exact G.
Qed.
Lemma match_variable_some s v rest : match_variable s = Some (v, rest) <-> is_variable v /\ s = v ++ rest.
Proof.
  unfold match_variable. split.
  - destruct s as [|c s]; [discriminate|]. destruct (N.eqb_spec c LBR) as [->|]; [|discriminate].
    assert (H := take_until_spec RBR s). destruct (take_until RBR s) as [[|x a] [|y b]]; try discriminate.
    intros [= <- <-]. destruct H as (-> & H1 & [H2|[r H2]]); [discriminate|]. injection H2 as -> ->.
    split; [exists (x :: a); split; [reflexivity|]; split; [discriminate|exact H1]|]. simpl. rewrite <- app_assoc. reflexivity.
  - intros [(x & -> & H1 & H2) ->]. simpl. rewrite <- app_assoc. simpl.
    assert (H := take_until_spec RBR (x ++ RBR :: rest)). destruct (take_until RBR (x ++ RBR :: rest)) as [a b].
    destruct H as (E & Ha & [->|[r ->]]).
    + rewrite app_nil_r in E. exfalso. apply Ha. rewrite <- E. apply in_or_app. right. left. reflexivity.
    + destruct (split_unique _ _ _ _ H2 Ha E) as [<- <-]. destruct x; [congruence|]. reflexivity.
Qed.
Lemma match_variable_none s : match_variable s = None <-> forall v rest, is_variable v -> s <> v ++ rest.
Proof.
  destruct (match_variable s) as [[v r]|] eqn:E.
  - apply match_variable_some in E as [H1 H2]. split; [discriminate|]. intros H. destruct (H v r H1 H2).
  - split; [|reflexivity]. intros _ v r H1 H2. assert (G : match_variable s = Some (v, r)) by (apply match_variable_some; auto). congruence.
Qed.
Lemma variable_nonempty v : is_variable v -> v <> [].
Proof. intros (x & -> & _). discriminate. Qed.
Lemma variable_unique v v' a b : is_variable v -> is_variable v' -> v ++ a = v' ++ b -> v = v' /\ a = b.
Proof.
  intros H H' E. assert (G := proj2 (match_variable_some (v ++ a) v a) (conj H eq_refl)).
  assert (G' := proj2 (match_variable_some (v ++ a) v' b) (conj H' E)). split; congruence.
Qed.
Lemma variable_head v : is_variable v -> exists c r, v = LBR :: c :: r /\ c <> RBR.
Proof.
  intros (x & -> & H1 & H2). destruct x as [|c x]; [congruence|]. exists c, (x ++ [RBR]). split; [reflexivity|]. intros ->. apply H2. left; reflexivity.
Qed.

(** ** closed literals: every '[' is followed by ']' *)
Definition closed (l : str) : Prop := forall a b, l = a ++ LBR :: b -> exists b', b = RBR :: b'.
Lemma closed_app a b : closed a -> closed b -> closed (a ++ b).
Proof.
  intros Ha Hb. induction a as [|c a IH]; [exact Hb|]. simpl. intros x y E. destruct x as [|d x]; simpl in E; injection E as E1 E2.
  - destruct (Ha [] a) as [b' Eb]; [simpl; congruence|]. subst a y. eexists. reflexivity.
  - eapply IH; [|exact E2]. intros p q Eq. apply (Ha (c :: p) q). simpl. congruence.
Qed.
Lemma closed_tail c l : closed (c :: l) -> closed l.
Proof. intros H a b E. apply (H (c :: a) b). simpl. congruence. Qed.
Lemma app_length_split {A} (a b a' b' : list A) : a ++ b = a' ++ b' -> length a <= length a' -> exists m, a' = a ++ m /\ b = m ++ b'.
Proof.
  revert a'. induction a as [|x a IH]; intros a' E L; [exists a'; auto|]. destruct a' as [|y a']; [simpl in L; lia|]. simpl in E, L. injection E as -> E.
  destruct (IH a' E) as (m & -> & ->); [lia|]. exists m. auto.
Qed.
Lemma leftmost_closed l v text : is_variable v ->
  (forall a v' b, is_variable v' -> l ++ v ++ text = a ++ v' ++ b -> length l <= length a) -> closed l.
Proof.
  intros (x & -> & Hx & Hn) H a b ->. destruct b as [|c b].
  - exfalso. assert (G := H a (LBR :: (LBR :: x) ++ [RBR]) text). rewrite app_length in G. cbn [length] in G.
    assert (L : length a + 1 <= length a); [apply G|lia].
    + exists (LBR :: x). split; [reflexivity|]. split; [discriminate|]. intros [E|E]; [discriminate|auto].
    + rewrite <- !app_assoc. reflexivity.
  - destruct (N.eq_dec c RBR) as [->|Hc]; [exists b; reflexivity|exfalso].
    (* the run from c up to the first ']' *)
    assert (T := take_until_spec RBR ((c :: b) ++ (LBR :: x ++ [RBR]) ++ text)). destruct (take_until RBR _) as [r s].
    destruct T as (E & Hr & Hs). destruct Hs as [->|[r' ->]].
    { rewrite app_nil_r in E. apply Hr. rewrite <- E. apply in_or_app. right. apply in_or_app. left. right. apply in_or_app. right. left. reflexivity. }
    assert (G := H a (LBR :: r ++ [RBR]) r'). rewrite app_length in G. cbn [length] in G.
    assert (L : length a + S (S (length b)) <= length a); [apply G|lia].
    + exists r. split; [reflexivity|]. split; [|exact Hr]. intros ->. simpl in E. injection E as E _. contradiction.
    + rewrite <- !app_assoc. f_equal. change ((LBR :: c :: b) ++ (LBR :: x ++ [RBR]) ++ text) with (LBR :: ((c :: b) ++ (LBR :: x ++ [RBR]) ++ text)).
      rewrite E. simpl. rewrite <- app_assoc. reflexivity.
Qed.
Lemma closed_leftmost l v text : closed l ->
  (forall a v' b, is_variable v' -> l ++ v ++ text = a ++ v' ++ b -> length l <= length a).
Proof.
  intros Hc a v' b Hv E. destruct (Nat.le_gt_cases (length l) (length a)) as [|L]; [assumption|exfalso].
  symmetry in E. destruct (app_length_split _ _ _ _ E) as (m & -> & Em); [lia|]. rewrite app_length in L.
  destruct m as [|c m]; [simpl in L; lia|]. destruct (variable_head v' Hv) as (d & r & -> & Hd). simpl in Em. injection Em as <- Em.
  destruct (Hc a m eq_refl) as [m' ->]. simpl in Em. injection Em as E' _. contradiction.
Qed.
Lemma cuts_closed l v text ls vs : is_variable v -> closed l -> cuts text ls vs -> cuts (l ++ v ++ text) (l :: ls) (v :: vs).
Proof. intros H1 H2 H3. constructor; [exact H1|apply closed_leftmost, H2|exact H3]. Qed.

(** ** existence and uniqueness of the decomposition *)
Lemma cuts_exists_n n text : length text <= n -> exists ls vs, cuts text ls vs.
Proof.
  revert text. induction n as [|n IH]; intros text L.
  - destruct text as [|c t]; [|simpl in L; lia]. exists [[]], []. constructor. intros a v b Hv E.
    destruct (variable_head v Hv) as (d & r & -> & _). destruct a; discriminate.
  - destruct (match_variable text) as [[v rest]|] eqn:E.
    + apply match_variable_some in E as [Hv ->]. rewrite app_length in L. assert (length v <> 0) by (destruct v; [destruct (variable_nonempty _ Hv eq_refl)|discriminate]).
      destruct (IH rest) as (ls & vs & H1); [lia|]. exists ([] :: ls), (v :: vs). apply (cuts_closed [] v rest); [exact Hv| |exact H1]. intros a b Ea. destruct a; discriminate.
    + assert (Hno := proj1 (match_variable_none text) E). destruct text as [|c text].
      { destruct (IH [] ltac:(simpl; lia)) as (ls & vs & H). eauto. }
      destruct (IH text) as (ls & vs & H); [simpl in L; lia|]. inversion H as [l Hl|l v t ls' vs' Hv Hleft Ht]; subst.
      * exists [c :: text], []. constructor. intros a v b Hv Ea. destruct a as [|d a]; simpl in Ea.
        { exact (Hno v b Hv Ea). } injection Ea as -> Ea. exact (Hl a v b Hv Ea).
      * exists ((c :: l) :: ls'), (v :: vs'). change (c :: l ++ v ++ t) with ((c :: l) ++ v ++ t). constructor; [exact Hv| |exact Ht].
        intros a v' b Hv' Ea. destruct a as [|d a]; [destruct (Hno v' b Hv' Ea)|]. simpl in Ea. injection Ea as -> Ea. simpl. apply le_n_S. exact (Hleft a v' b Hv' Ea).
Qed.
Lemma cuts_exists text : exists ls vs, cuts text ls vs.
Proof. exact (cuts_exists_n _ text (le_n _)). Qed.
Lemma cuts_unique text ls vs ls' vs' : cuts text ls vs -> cuts text ls' vs' -> ls = ls' /\ vs = vs'.
Proof.
  intros H. revert ls' vs'. induction H as [l Hl|l v t ls vs Hv Hleft Ht IH]; intros ls' vs' H'.
  - inversion H' as [l' Hl'|l' v' t' ls'' vs'' Hv' Hleft' Ht']; subst; [auto|]. destruct (Hl l' v' t' Hv' eq_refl).
  - remember (l ++ v ++ t) as text eqn:E. destruct H' as [l' Hl'|l' v' t' ls' vs' Hv' Hleft' Ht'].
    + destruct (Hl' l v t Hv E).
    + assert (L1 := Hleft _ _ _ Hv' eq_refl). assert (L2 := Hleft' _ _ _ Hv E).
      destruct (app_length_split _ _ _ _ E L2) as (m & -> & Em). rewrite app_length in L1. destruct m as [|c m]; [|simpl in L1; lia].
      simpl in Em. destruct (variable_unique _ _ _ _ Hv' Hv Em) as [-> ->]. destruct (IH _ _ Ht') as [-> ->]. rewrite app_nil_r. auto.
Qed.
Lemma cuts_lengths text ls vs : cuts text ls vs -> length ls = S (length vs).
Proof. induction 1; simpl; congruence. Qed.
Lemma cuts_text text ls vs : cuts text ls vs -> weave ls vs = text.
Proof. induction 1; simpl; congruence. Qed.

(** ** findall *)
Lemma findall_literal l v text fuel : closed l -> is_variable v -> length (l ++ v ++ text) <= fuel ->
  exists fuel', length text <= fuel' /\ findall fuel (l ++ v ++ text) = v :: findall fuel' text.
Proof.
  revert fuel. induction l as [|c l IH]; intros fuel Hc Hv L.
  - simpl in L |- *. assert (N := variable_nonempty _ Hv). destruct fuel as [|fuel]; [destruct v; [congruence|simpl in L; lia]|]. cbn [findall].
    rewrite (proj2 (match_variable_some (v ++ text) v text) (conj Hv eq_refl)). exists fuel. split; [|reflexivity].
    rewrite app_length in L. destruct v; [congruence|simpl in L; lia].
  - destruct fuel as [|fuel]; [simpl in L; lia|]. cbn [findall].
    assert (E : match_variable ((c :: l) ++ v ++ text) = None).
    { apply match_variable_none. intros v' b Hv' E. assert (G := closed_leftmost _ v text Hc [] v' b Hv' E). simpl in G. lia. }
    rewrite E. cbn [app]. apply IH; [exact (closed_tail _ _ Hc)|exact Hv|simpl in L; lia].
Qed.
Lemma findall_none l fuel : (forall a v b, is_variable v -> l <> a ++ v ++ b) -> findall fuel l = [].
Proof.
  revert l. induction fuel as [|fuel IH]; intros l H; [reflexivity|]. cbn [findall].
  rewrite (proj2 (match_variable_none l)) by (intros v r Hv E; exact (H [] v r Hv E)). destruct l as [|c l]; [reflexivity|]. apply IH.
  intros a v b Hv E. apply (H (c :: a) v b Hv). simpl. congruence.
Qed.
Lemma findall_cuts text ls vs : cuts text ls vs -> forall fuel, length text <= fuel -> findall fuel text = vs.
Proof.
  induction 1 as [l Hl|l v t ls vs Hv Hleft Ht IH]; intros fuel L; [apply findall_none, Hl|].
  destruct (findall_literal l v t fuel (leftmost_closed _ _ _ Hv Hleft) Hv L) as (fuel' & L' & ->). f_equal. apply IH, L'.
Qed.
Lemma find_variables_cuts text ls vs : cuts text ls vs -> find_variables text = vs.
Proof. intros H. apply (findall_cuts _ _ _ H). reflexivity. Qed.

(** ** escaping *)
Lemma escape_app a b : escape (a ++ b) = escape a ++ escape b.
Proof. apply flat_map_app. Qed.
Lemma escape_cons c s : escape (c :: s) = (if N.eqb c PERCENT then [PERCENT; PERCENT] else [c]) ++ escape s.
Proof. unfold escape, replace_char. cbn [flat_map]. destruct (N.eqb c PERCENT); reflexivity. Qed.
Lemma escape_doubled s : doubled s (escape s).
Proof.
  induction s as [|c s IH]; [constructor|]. rewrite escape_cons. destruct (N.eqb_spec c PERCENT) as [->|H]; [apply dbl_percent, IH|apply dbl_other; assumption].
Qed.
Lemma doubled_fun s a b : doubled s a -> doubled s b -> a = b.
Proof. intros H. revert b. induction H; intros b Hb; inversion Hb; subst; try congruence; f_equal; auto. f_equal. auto. Qed.
Lemma doubled_escape s a : doubled s a <-> a = escape s.
Proof. split; [intros H; exact (doubled_fun _ _ _ H (escape_doubled s))|intros ->; apply escape_doubled]. Qed.
Lemma escape_id s : ~ In PERCENT s -> escape s = s.
Proof.
  induction s as [|c s IH]; intros H; [reflexivity|]. rewrite escape_cons. destruct (N.eqb_spec c PERCENT) as [->|Hc]; [destruct H; left; reflexivity|].
  simpl. rewrite IH; [reflexivity|]. intros G. apply H. right; exact G.
Qed.
Lemma in_escape c s : In c (escape s) <-> In c s.
Proof.
  induction s as [|d s IH]; [reflexivity|]. rewrite escape_cons. simpl. rewrite in_app_iff, IH. destruct (N.eqb_spec d PERCENT) as [->|H]; simpl; tauto.
Qed.
Lemma escape_nil s : escape s = [] <-> s = [].
Proof. destruct s as [|c s]; [tauto|]. rewrite escape_cons. destruct (N.eqb c PERCENT); simpl; split; discriminate. Qed.
Lemma escape_split t a c b : c <> PERCENT -> escape t = a ++ c :: b -> exists a0 b0, t = a0 ++ c :: b0 /\ a = escape a0 /\ b = escape b0.
Proof.
  intros Hc. revert a. induction t as [|d t IH]; intros a E; [destruct a; discriminate|]. rewrite escape_cons in E.
  destruct (N.eqb_spec d PERCENT) as [->|Hd].
  - destruct a as [|x a]; simpl in E; [congruence|]. injection E as <- E. destruct a as [|y a]; simpl in E; [congruence|]. injection E as <- E.
    destruct (IH _ E) as (a0 & b0 & -> & -> & ->). exists (PERCENT :: a0), b0. rewrite escape_cons. auto.
  - destruct a as [|x a]; simpl in E; injection E as <- E.
    + exists [], t. subst b. auto.
    + destruct (IH _ E) as (a0 & b0 & -> & -> & ->). exists (d :: a0), b0. rewrite escape_cons. destruct (N.eqb_spec d PERCENT); [contradiction|auto].
Qed.
Lemma escape_variable v : is_variable v -> is_variable (escape v).
Proof.
  intros (x & -> & H1 & H2). exists (escape x). split; [|split; [rewrite escape_nil; exact H1|rewrite in_escape; exact H2]].
  rewrite escape_cons, escape_app. reflexivity.
Qed.
Lemma escape_closed l : closed l -> closed (escape l).
Proof.
  intros H a b E. apply escape_split in E as (a0 & b0 & -> & -> & ->); [|discriminate]. destruct (H a0 b0 eq_refl) as [b' ->]. exists (escape b').
  rewrite escape_cons. reflexivity.
Qed.
Lemma escape_cuts text ls vs : cuts text ls vs -> cuts (escape text) (map escape ls) (map escape vs).
Proof.
  induction 1 as [l Hl|l v t ls vs Hv Hleft Ht IH].
  - simpl. constructor. intros a v b (x & -> & H1 & H2) E. cbn [app] in E. apply escape_split in E as (a0 & b0 & -> & -> & E); [|discriminate].
    rewrite <- app_assoc in E. simpl in E. symmetry in E. apply escape_split in E as (x0 & b1 & -> & -> & ->); [|discriminate].
    apply (Hl a0 (LBR :: x0 ++ [RBR]) b1).
    + exists x0. split; [reflexivity|]. split; [intros ->; apply H1; reflexivity|rewrite <- in_escape; exact H2].
    + simpl. rewrite <- app_assoc. reflexivity.
  - rewrite !escape_app. simpl. apply cuts_closed; [apply escape_variable, Hv|apply escape_closed, (leftmost_closed _ _ _ Hv Hleft)|exact IH].
Qed.

(** ** the parsing loop *)
Lemma replace_first_at p v r t : closed p -> is_variable v -> replace_first v r (p ++ v ++ t) = p ++ r ++ t.
Proof.
  intros Hp Hv. destruct (variable_head v Hv) as (d & w & Ev & Hd). induction p as [|c p IH].
  - simpl. assert (S : forall a b, starts_with a (a ++ b) = true) by (induction a; intros b; simpl; [reflexivity|rewrite N.eqb_refl; simpl; apply IHa]).
    assert (G : replace_first v r (v ++ t) = if starts_with v (v ++ t) then r ++ skipn (length v) (v ++ t) else match v ++ t with [] => [] | c :: s' => c :: replace_first v r s' end) by (destruct (v ++ t); reflexivity).
    rewrite G, S, skipn_app, skipn_all, Nat.sub_diag. reflexivity.
  - assert (E : starts_with v ((c :: p) ++ v ++ t) = false).
    { rewrite Ev. cbn [app starts_with]. destruct (N.eqb_spec LBR c) as [<-|]; [|reflexivity]. destruct (Hp [] p eq_refl) as [p' ->]. cbn [app andb starts_with].
      destruct (N.eqb_spec d RBR); [contradiction|reflexivity]. }
    cbn [app]. cbn [app] in E. cbn [replace_first]. rewrite E, IH; [reflexivity|exact (closed_tail _ _ Hp)].
Qed.
Definition PS : str := u "%s".
Lemma closed_PS : closed PS.
Proof. intros a b E. destruct a as [|? [|? [|? ?]]]; discriminate. Qed.
Lemma parse_loop_cuts U ext text ls vs : cuts text ls vs -> forall p subs, closed p ->
  (forall new, Forall2 (fun v s => parse_substitution U v ext = Ok s) vs new ->
     parse_loop U ext vs (p ++ text) subs = (subs ++ new, Ok (p ++ weave ls (map (fun _ => PS) vs)))) /\
  (forall vs1 v vs2 new e, vs = vs1 ++ v :: vs2 -> Forall2 (fun v s => parse_substitution U v ext = Ok s) vs1 new ->
     parse_substitution U v ext = Err e -> parse_loop U ext vs (p ++ text) subs = (subs ++ new, Err e)).
Proof.
  induction 1 as [l Hl|l v t ls vs Hv Hleft Ht IH]; intros p subs Hp.
  - split; [intros new H; inversion H; subst; simpl; rewrite app_nil_r; reflexivity|]. intros vs1 v vs2 new e E. destruct vs1; discriminate.
  - assert (Hl := leftmost_closed _ _ _ Hv Hleft).
    assert (R : replace_first v (u "%s") (p ++ l ++ v ++ t) = (p ++ l ++ PS) ++ t).
    { rewrite app_assoc, replace_first_at; [|apply closed_app; assumption|exact Hv]. rewrite <- !app_assoc. reflexivity. }
    assert (Hp' : closed (p ++ l ++ PS)) by (apply closed_app; [exact Hp|apply closed_app; [exact Hl|apply closed_PS]]).
    split.
    + intros new H. inversion H as [|? s ? new' Hs Hn]; subst. cbn [parse_loop]. rewrite Hs, R.
      rewrite (proj1 (IH _ (subs ++ [s]) Hp') new' Hn). cbn [map weave]. rewrite <- !app_assoc. reflexivity.
    + intros vs1 v' vs2 new e E H He. destruct vs1 as [|v1 vs1]; simpl in E; injection E as -> ->.
      * inversion H; subst. cbn [parse_loop]. rewrite He, app_nil_r. reflexivity.
      * inversion H as [|? s ? new' Hs Hn]; subst. cbn [parse_loop]. rewrite Hs, R.
        rewrite (proj2 (IH _ (subs ++ [s]) Hp') vs1 v' vs2 new' e eq_refl Hn He). rewrite <- app_assoc. reflexivity.
Qed.

(** ** formatting *)
Lemma py_format_escape l fmt args : py_format (escape l ++ fmt) args = (r <- py_format fmt args ;; Ok (l ++ r)).
Proof.
  induction l as [|c l IH]; [simpl; destruct (py_format fmt args); reflexivity|]. rewrite escape_cons. destruct (N.eqb_spec c PERCENT) as [->|H].
  - cbn [app]. cbn [py_format]. change (N.eqb PERCENT 37) with true. cbv iota. rewrite IH. destruct (py_format fmt args); reflexivity.
  - cbn [app]. cbn [py_format]. destruct (N.eqb_spec c 37) as [->|_]; [exfalso; apply H; reflexivity|]. rewrite IH. destruct (py_format fmt args); reflexivity.
Qed.
Lemma py_format_ps fmt args : py_format (PS ++ fmt) args = match args with [] => Err TypeError | a :: args' => r <- py_format fmt args' ;; Ok (a ++ r) end.
Proof. reflexivity. Qed.
Lemma py_format_weave ls (vs : list str) : length ls = S (length vs) -> forall texts,
  py_format (weave (map escape ls) (map (fun _ => PS) vs)) texts =
  if Nat.eqb (length texts) (length vs) then Ok (weave ls texts) else Err TypeError.
Proof.
  revert ls. induction vs as [|v vs IH]; intros [|l ls] L texts; try discriminate; simpl in L; injection L as L.
  - destruct ls; [|discriminate]. simpl. assert (G := py_format_escape l [] texts). rewrite app_nil_r in G. rewrite G.
    destruct texts; simpl; [rewrite app_nil_r; reflexivity|reflexivity].
  - cbn [map weave]. rewrite py_format_escape, py_format_ps. destruct texts as [|x texts]; [reflexivity|]. rewrite (IH ls L). cbn [length Nat.eqb].
    destruct (Nat.eqb (length texts) (length vs)); reflexivity.
Qed.

(** ** checking a decomposition by computation (for examples) *)
Fixpoint closedb (l : str) : bool :=
  match l with
  | [] => true
  | c :: l' => (negb (N.eqb c LBR) || match l' with d :: _ => N.eqb d RBR | [] => false end) && closedb l'
  end.
Lemma closedb_ok l : closedb l = true -> closed l.
Proof.
  induction l as [|c l IH]; intros H a b E; [destruct a; discriminate|]. cbn [closedb] in H. apply andb_true_iff in H as [H1 H2].
  destruct a as [|x a]; simpl in E; injection E as E1 E2; [|exact (IH H2 a b E2)]. subst. rewrite N.eqb_refl in H1. simpl in H1.
  destruct b as [|d b]; [discriminate|]. apply N.eqb_eq in H1. subst. eauto.
Qed.
Lemma no_variables_ok l : find_variables l = [] -> cuts l [l] [].
Proof.
  intros H. destruct (cuts_exists l) as (ls & vs & Hc). rewrite (find_variables_cuts _ _ _ Hc) in H. subst vs. inversion Hc; subst. exact Hc.
Qed.
Lemma cuts_step l v text rest ls vs : text = l ++ v ++ rest -> closedb l = true -> match_variable v = Some (v, []) -> cuts rest ls vs -> cuts text (l :: ls) (v :: vs).
Proof.
  intros -> H1 H2 H3. apply cuts_closed; [|apply closedb_ok, H1|exact H3]. apply match_variable_some in H2. apply H2.
Qed.
