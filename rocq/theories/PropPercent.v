(** * PropPercent: C92 - what a template with any text prints *)
From Verif Require Import PyBase PyBaseFacts Printable Percent SpecPercent.
From Coq Require Import Lia.

Lemma is_dec_digit c : is_dec c = true <-> a_digit c.
Proof. unfold is_dec, a_digit. rewrite andb_true_iff, !N.leb_le. reflexivity. Qed.
Lemma mem_In c l : mem N.eqb c l = true <-> In c l.
Proof.
  unfold mem. rewrite existsb_exists. split.
  - intros (x & H & E). apply N.eqb_eq in E. subst. exact H.
  - intros H. exists c. split; [exact H|apply N.eqb_refl].
Qed.
Lemma flag_spec c : is_flag c = true <-> a_flag c.
Proof.
  unfold is_flag, a_flag. rewrite mem_In. change (u "-+ #0") with [45; 43; 32; 35; 48]%N. reflexivity.
Qed.
Lemma size_spec c : is_size c = true <-> In c (u "hlL").
Proof. unfold is_size. rewrite mem_In. change (u "hlL") with [104; 108; 76]%N. reflexivity. Qed.

(** ** the directive, character by character *)
Inductive follows : dstate -> directive -> str -> dstate -> directive -> Prop :=
  | f_here st d : follows st d [] st d
  | f_more st d c st' d' mid st'' d'' : directive_step st d c = D_more st' d' -> follows st' d' mid st'' d'' -> follows st d (c :: mid) st'' d''.

Lemma directive_ok : forall fmt st d args out, py_directive st d fmt args = Ok out ->
  exists mid c rest st' d' x r, fmt = mid ++ c :: rest /\ follows st d mid st' d' /\ directive_step st' d' c = D_convert /\
    convert d' c args = Ok x /\ py_format rest (snd x) = Ok r /\ out = fst x ++ r.
Proof.
  induction fmt as [|c fmt IH]; intros st d args out H; cbn [py_directive] in H; [discriminate|].
  destruct (directive_step st d c) as [st' d'|e|] eqn:E; [|discriminate|].
  - destruct (IH _ _ _ _ H) as (mid & c' & rest & st2 & d2 & x & r & -> & F & D & C & P & O).
    exists (c :: mid), c', rest, st2, d2, x, r. split; [reflexivity|]. split; [exact (f_more _ _ _ _ _ _ _ _ E F)|]. auto.
  - destruct (convert d c args) as [x|] eqn:C; [|discriminate]. cbn [bind] in H.
    destruct (py_format fmt (snd x)) as [r|] eqn:P; [|discriminate]. cbn [bind] in H. injection H as <-.
    exists [], c, fmt, st, d, x, r. split; [reflexivity|]. split; [constructor|]. auto.
Qed.
Lemma directive_follow : forall mid fmt st d st' d' args, follows st d mid st' d' -> py_directive st d (mid ++ fmt) args = py_directive st' d' fmt args.
Proof.
  induction mid as [|c mid IH]; intros fmt st d st' d' args F; inversion F; subst; [reflexivity|].
  cbn [app py_directive]. rewrite H3. apply IH. assumption.
Qed.

(** what one character does *)
Lemma step_size d c : directive_step D_size d c = D_convert.
Proof. reflexivity. Qed.
Ltac step_cases := unfold directive_step;
  repeat match goal with |- context [if ?b then _ else _] => let E := fresh "E" in destruct b eqn:E end; try discriminate.

Lemma follows_size d mid st' d' : follows D_size d mid st' d' -> mid = [] /\ st' = D_size /\ d' = d.
Proof. intros F. inversion F; subst; [auto|]. discriminate. Qed.
Definition set_prec d n := {| d_left := d_left d; d_width := d_width d; d_prec := Some n |}.
Definition set_width d n := {| d_left := d_left d; d_width := n; d_prec := d_prec d |}.
Definition set_left d b := {| d_left := b; d_width := d_width d; d_prec := d_prec d |}.

Lemma step_prec st p d c st' d' : st = D_dot \/ st = D_prec -> d_prec d = Some p -> directive_step st d c = D_more st' d' ->
  (a_digit c /\ (10 * p + (c - 48) < 2 ^ 31)%N /\ st' = D_prec /\ d' = set_prec d (10 * p + (c - 48))) \/
  (In c (u "hlL") /\ st' = D_size /\ d' = d).
Proof.
  intros S P H. revert H. unfold directive_step. rewrite P.
  assert (Hst : (match st with D_start => N.eqb c 40 | _ => false end) = false) by (destruct S; subst; reflexivity). rewrite Hst.
  assert (Hb : (match st with D_start | D_flags => true | _ => false end) = false) by (destruct S; subst; reflexivity). rewrite Hb.
  assert (Hw : (match st with D_start | D_flags | D_width => true | _ => false end) = false) by (destruct S; subst; reflexivity). rewrite Hw.
  assert (Hp : (match st with D_dot | D_prec => true | _ => false end) = true) by (destruct S; subst; reflexivity). rewrite Hp.
  assert (Hs : (match st with D_size => false | _ => is_size c end) = is_size c) by (destruct S; subst; reflexivity). rewrite Hs.
  cbn [andb]. destruct (match st with D_start | D_flags | D_dot => N.eqb c 42 | _ => false end); [discriminate|].
  destruct (is_dec c) eqn:E.
  - cbn zeta. destruct (N.leb _ MAX_PREC) eqn:L; [|discriminate]. intros H. injection H as <- <-. left. apply is_dec_digit in E.
    apply N.leb_le in L. unfold MAX_PREC in L. split; [exact E|]. split; [change (2 ^ 31)%N with 2147483648%N; lia|]. split; reflexivity.
  - destruct (is_size c) eqn:Z; [|discriminate]. intros H. injection H as <- <-. right. apply size_spec in Z. auto.
Qed.
Lemma follows_prec : forall mid st d ds p st' d', st = D_dot \/ st = D_prec -> d_prec d = Some p -> denotes ds p -> (p < 2 ^ 31)%N -> follows st d mid st' d' ->
  exists ds' p' s, mid = ds' ++ s /\ denotes (ds ++ ds') p' /\ (p' < 2 ^ 31)%N /\ a_size s /\ d' = set_prec d p'.
Proof.
  induction mid as [|c mid IH]; intros st d ds p st' d' S P D L F; inversion F; subst.
  - exists [], p, []. rewrite (app_nil_r ds). split; [reflexivity|]. split; [exact D|]. split; [exact L|]. split; [constructor|].
    destruct d'. cbn in P. subst. reflexivity.
  - destruct (step_prec _ _ _ _ _ _ S P H3) as [(C & B & -> & ->)|(C & -> & ->)].
    + destruct (IH D_prec (set_prec d (10 * p + (c - 48))) (ds ++ [c]) (10 * p + (c - 48))%N st' d') as (ds' & p' & s & -> & D' & L' & Z & ->); auto.
      { constructor; assumption. }
      exists (c :: ds'), p', s. rewrite <- app_assoc in D'. split; [reflexivity|]. auto.
    + apply follows_size in H6. destruct H6 as (-> & -> & ->). exists [], p, [c]. rewrite (app_nil_r ds). split; [reflexivity|]. split; [exact D|].
      split; [exact L|]. split; [constructor; exact C|]. destruct d. cbn in P. subst. reflexivity.
Qed.
(** the part behind the width *)
Lemma tail_point d mid st' d' c : directive_step D_width d c = D_more D_dot (set_prec d 0) -> c = 46%N -> follows D_dot (set_prec d 0) mid st' d' ->
  exists p s q, c :: mid = p ++ s /\ a_precision p q /\ a_size s /\ d' = {| d_left := d_left d; d_width := d_width d; d_prec := q |}.
Proof.
  intros _ -> F. destruct (follows_prec mid D_dot (set_prec d 0) [] 0%N st' d') as (ds & p & s & -> & D & L & Z & ->); auto; try constructor.
  exists (46%N :: ds), s, (Some p). split; [reflexivity|]. split; [constructor; assumption|]. auto.
Qed.

(** the width and what follows it *)
Definition asked (d : directive) (q : option N) (n : N) : directive := {| d_left := d_left d; d_width := n; d_prec := q |}.
Lemma step_width st d c st' d' : st = D_start \/ st = D_flags \/ st = D_width -> d_prec d = None -> directive_step st d c = D_more st' d' ->
  (st <> D_width /\ a_flag c /\ st' = D_flags /\ d' = set_left d (d_left d || N.eqb c 45)) \/
  (a_digit c /\ (st <> D_width -> c <> 48%N) /\ (10 * d_width d + (c - 48) < 2 ^ 63)%N /\ st' = D_width /\ d' = set_width d (10 * d_width d + (c - 48))) \/
  (c = 46%N /\ st' = D_dot /\ d' = set_prec d 0) \/
  (In c (u "hlL") /\ st' = D_size /\ d' = d).
Proof.
  intros S P H. revert H. unfold directive_step.
  assert (Hw : (match st with D_start | D_flags | D_width => true | _ => false end) = true) by (destruct S as [|[]]; subst; reflexivity). rewrite Hw.
  assert (Hs : (match st with D_size => false | _ => is_size c end) = is_size c) by (destruct S as [|[]]; subst; reflexivity). rewrite Hs.
  assert (Hp : (match st with D_dot | D_prec => true | _ => false end) = false) by (destruct S as [|[]]; subst; reflexivity). rewrite Hp.
  destruct (match st with D_start => N.eqb c 40 | _ => false end); [discriminate|].
  destruct ((match st with D_start | D_flags => true | _ => false end) && is_flag c) eqn:B.
  { apply andb_true_iff in B. destruct B as [B1 B2]. intros H. injection H as <- <-. left. apply flag_spec in B2.
    split; [intros ->; discriminate|]. auto. }
  destruct (match st with D_start | D_flags | D_dot => N.eqb c 42 | _ => false end); [discriminate|]. cbn [andb].
  destruct (is_dec c) eqn:E.
  { cbn zeta. destruct (N.leb _ MAX_WIDTH) eqn:L; [|discriminate]. intros H. injection H as <- <-. right. left. apply is_dec_digit in E.
    apply N.leb_le in L. unfold MAX_WIDTH in L. split; [exact E|]. split; [|split; [change (2 ^ 63)%N with 9223372036854775808%N; lia|split; reflexivity]].
    intros W ->. assert (G : (match st with D_start | D_flags => true | _ => false end) = true) by (destruct S as [|[]]; subst; try reflexivity; exfalso; apply W; reflexivity).
    rewrite G in B. discriminate. }
  destruct (N.eqb c 46) eqn:Q.
  { apply N.eqb_eq in Q. intros H. injection H as <- <-. right. right. left. split; [exact Q|]. split; reflexivity. }
  destruct (is_size c) eqn:Z; [|discriminate]. intros H. injection H as <- <-. right. right. right. apply size_spec in Z. auto.
Qed.

Lemma follows_dot mid d st' d' : follows D_dot (set_prec d 0) mid st' d' ->
  exists p q s, 46%N :: mid = p ++ s /\ a_precision p q /\ a_size s /\ d' = asked d q (d_width d).
Proof.
  intros F. destruct (follows_prec mid D_dot (set_prec d 0) [] 0%N st' d') as (ds & p & s & -> & D & L & Z & ->); auto; try constructor.
  exists (46%N :: ds), (Some p), s. split; [reflexivity|]. split; [constructor; assumption|]. auto.
Qed.
Lemma asked_none d : d_prec d = None -> d = asked d None (d_width d).
Proof. destruct d. cbn. intros ->. reflexivity. Qed.
Lemma follows_width : forall mid d ds st' d', d_prec d = None -> denotes ds (d_width d) -> (d_width d < 2 ^ 63)%N -> follows D_width d mid st' d' ->
  exists ds' n p q s, mid = ds' ++ p ++ s /\ denotes (ds ++ ds') n /\ (n < 2 ^ 63)%N /\ a_precision p q /\ a_size s /\ d' = asked d q n.
Proof.
  induction mid as [|c mid IH]; intros d ds st' d' P D L F; inversion F; subst.
  - exists [], (d_width d'), [], None, []. rewrite (app_nil_r ds). split; [reflexivity|]. split; [exact D|]. split; [exact L|]. split; [constructor|].
    split; [constructor|]. apply asked_none. exact P.
  - destruct (step_width D_width d c st'0 d'0) as [(W & _)|[(C & _ & B & -> & ->)|[(-> & -> & ->)|(C & -> & ->)]]]; auto.
    + exfalso. apply W. reflexivity.
    + destruct (IH (set_width d (10 * d_width d + (c - 48))) (ds ++ [c]) st' d') as (ds' & n & p & q & s & -> & D' & L' & A & Z & ->); auto.
      { cbn. constructor; assumption. }
      exists (c :: ds'), n, p, q, s. rewrite <- app_assoc in D'. split; [reflexivity|]. auto.
    + apply follows_dot in H6. destruct H6 as (p & q & s & E & A & Z & ->). exists [], (d_width d), p, q, s. rewrite (app_nil_r ds).
      split; [exact E|]. auto.
    + apply follows_size in H6. destruct H6 as (-> & -> & ->). exists [], (d_width d), [], None, [c]. rewrite (app_nil_r ds). split; [reflexivity|].
      split; [exact D|]. split; [exact L|]. split; [constructor|]. split; [constructor; exact C|]. apply asked_none. exact P.
Qed.
Lemma follows_flags : forall mid st d fl st' d', st = D_start \/ st = D_flags -> d_prec d = None -> d_width d = 0%N ->
  Forall a_flag fl -> (d_left d = true <-> In 45%N fl) -> follows st d mid st' d' ->
  exists fl' w n p q s b, mid = fl' ++ w ++ p ++ s /\ Forall a_flag (fl ++ fl') /\ (b = true <-> In 45%N (fl ++ fl')) /\
    a_width w n /\ a_precision p q /\ a_size s /\ d' = {| d_left := b; d_width := n; d_prec := q |}.
Proof.
  induction mid as [|c mid IH]; intros st d fl st' d' S P W FL LF F; inversion F; subst.
  - exists [], [], 0%N, [], None, [], (d_left d'). rewrite (app_nil_r fl). split; [reflexivity|]. split; [exact FL|]. split; [exact LF|].
    split; [constructor|]. split; [constructor|]. split; [constructor|]. destruct d'. cbn in *. subst. reflexivity.
  - assert (S' : st <> D_width) by (destruct S; subst; discriminate).
    destruct (step_width st d c st'0 d'0) as [(_ & C & -> & ->)|[(C & C0 & B & -> & ->)|[(-> & -> & ->)|(C & -> & ->)]]]; auto.
    + destruct S; auto.
    + destruct (IH D_flags (set_left d (d_left d || N.eqb c 45)) (fl ++ [c]) st' d') as (fl' & w & n & p & q & s & b & -> & A1 & A2 & R); auto.
      { apply Forall_app. split; [exact FL|]. constructor; [exact C|constructor]. }
      { cbn. rewrite orb_true_iff, in_app_iff, LF, N.eqb_eq. cbn. intuition. }
      exists (c :: fl'), w, n, p, q, s, b. rewrite <- app_assoc in A1, A2. split; [reflexivity|]. auto.
    + destruct (follows_width mid (set_width d (10 * d_width d + (c - 48))) [c] st' d') as (ds & n & p & q & s & -> & D & L & A & Z & ->); auto.
      { cbn. rewrite W. apply (den_more [] 0%N c); [constructor|exact C]. }
      exists [], (c :: ds), n, p, q, s, (d_left d). rewrite (app_nil_r fl). split; [reflexivity|]. split; [exact FL|]. split; [exact LF|].
      split; [|auto]. constructor; [apply C0; exact S'|exact D|exact L].
    + apply follows_dot in H6. destruct H6 as (p & q & s & E & A & Z & ->). exists [], [], 0%N, p, q, s, (d_left d). rewrite (app_nil_r fl).
      split; [exact E|]. split; [exact FL|]. split; [exact LF|]. split; [constructor|]. unfold asked. rewrite W. auto.
    + apply follows_size in H6. destruct H6 as (-> & -> & ->). exists [], [], 0%N, [], None, [c], (d_left d). rewrite (app_nil_r fl). split; [reflexivity|].
      split; [exact FL|]. split; [exact LF|]. split; [constructor|]. split; [constructor|]. split; [constructor; exact C|]. destruct d. cbn in *. subst. reflexivity.
Qed.
Lemma follows_asks mid st' d' : follows D_start plain_directive mid st' d' -> asks (d_left d') (d_width d') (d_prec d') mid.
Proof.
  intros F. destruct (follows_flags mid D_start plain_directive [] st' d') as (fl & w & n & p & q & s & b & -> & A1 & A2 & A3 & A4 & A5 & ->); auto.
  - cbn. split; [discriminate|intros []].
  - cbn [app d_left d_width d_prec] in *. constructor; assumption.
Qed.

(** ** the other direction *)
Lemma follows_app a : forall b st d st1 d1 st2 d2, follows st d a st1 d1 -> follows st1 d1 b st2 d2 -> follows st d (a ++ b) st2 d2.
Proof.
  induction a as [|c a IH]; intros b st d st1 d1 st2 d2 F G; inversion F; subst; [exact G|]. econstructor; [eassumption|]. eapply IH; eassumption.
Qed.
Definition opening (st : dstate) : Prop := st = D_start \/ st = D_flags.
Lemma follow_flags : forall fl st d, opening st -> Forall a_flag fl ->
  exists st' b, opening st' /\ follows st d fl st' (set_left d b) /\ (b = true <-> d_left d = true \/ In 45%N fl).
Proof.
  induction fl as [|c fl IH]; intros st d S FL.
  - exists st, (d_left d). split; [exact S|]. split; [destruct d; constructor|]. cbn. tauto.
  - inversion FL; subst. destruct (IH D_flags (set_left d (d_left d || N.eqb c 45))) as (st' & b & O & F & B); [right; reflexivity|assumption|].
    exists st', b. split; [exact O|]. split.
    + apply (f_more _ _ _ D_flags (set_left d (d_left d || N.eqb c 45))); [|exact F].
      assert (H3 := H1). apply flag_spec in H3. unfold directive_step. destruct S; subst st.
      * assert (E : N.eqb c 40 = false) by (apply N.eqb_neq; intros ->; discriminate). rewrite E, H3. reflexivity.
      * rewrite H3. reflexivity.
    + rewrite B. cbn. rewrite orb_true_iff, N.eqb_eq. intuition.
Qed.
Lemma digit_no_flag c : a_digit c -> c <> 48%N -> is_flag c = false.
Proof.
  intros [A B] N0. destruct (is_flag c) eqn:E; [|reflexivity]. apply flag_spec in E. cbn in E. exfalso.
  destruct E as [E|[E|[E|[E|[E|[]]]]]]; subst; try lia; exact (N0 eq_refl).
Qed.
Lemma step_digit st d c n : opening st \/ st = D_width -> a_digit c -> (opening st -> c <> 48%N) ->
  n = (10 * d_width d + (c - 48))%N -> (n < 2 ^ 63)%N -> directive_step st d c = D_more D_width (set_width d n).
Proof.
  intros S C C0 -> L. unfold directive_step.
  assert (E40 : N.eqb c 40 = false) by (apply N.eqb_neq; destruct C; lia).
  assert (E42 : N.eqb c 42 = false) by (apply N.eqb_neq; destruct C; lia).
  assert (E1 : (match st with D_start => N.eqb c 40 | _ => false end) = false) by (destruct st; auto).
  assert (E2 : (match st with D_start | D_flags | D_dot => N.eqb c 42 | _ => false end) = false) by (destruct st; auto).
  assert (E3 : (match st with D_start | D_flags => true | _ => false end) && is_flag c = false).
  { destruct S as [S|S]; [|subst; reflexivity]. rewrite (digit_no_flag c C (C0 S)). apply andb_false_r. }
  assert (E4 : (match st with D_start | D_flags | D_width => true | _ => false end) = true) by (destruct S as [[]|]; subst; reflexivity).
  rewrite E1, E3, E2, E4. assert (D := C). apply is_dec_digit in D. rewrite D. cbn [andb]. cbn zeta.
  assert (G : N.leb (10 * d_width d + (c - 48)) MAX_WIDTH = true).
  { apply N.leb_le. unfold MAX_WIDTH. change (2 ^ 63)%N with 9223372036854775808%N in L. lia. }
  rewrite G. reflexivity.
Qed.
Lemma follow_width st d : opening st -> d_width d = 0%N -> forall ds n, denotes ds n -> ds <> [] -> hd 0%N ds <> 48%N -> (n < 2 ^ 63)%N ->
  follows st d ds D_width (set_width d n).
Proof.
  intros S W ds n D. induction D as [|ds n c D IH C]; intros NE H0 L; [exfalso; apply NE; reflexivity|].
  destruct ds as [|x ds].
  - inversion D; subst; [|exfalso; eapply app_cons_not_nil; symmetry; eassumption]. cbn [app]. apply (f_more _ _ _ D_width (set_width d (10 * 0 + (c - 48)))); [|constructor].
    apply step_digit; auto. rewrite W. reflexivity.
  - apply (follows_app (x :: ds) [c] st d D_width (set_width d n)).
    + apply IH; [discriminate|exact H0|lia].
    + apply (f_more _ _ _ D_width (set_width d (10 * n + (c - 48)))); [|constructor].
      apply (step_digit D_width (set_width d n)); auto. intros [O|O]; discriminate.
Qed.
Lemma step_pdigit st d c p n : st = D_dot \/ st = D_prec -> a_digit c -> d_prec d = Some p -> n = (10 * p + (c - 48))%N -> (n < 2 ^ 31)%N ->
  directive_step st d c = D_more D_prec (set_prec d n).
Proof.
  intros S C P -> L. unfold directive_step. rewrite P.
  assert (E42 : N.eqb c 42 = false) by (apply N.eqb_neq; destruct C; lia).
  assert (D := C). apply is_dec_digit in D.
  assert (G : N.leb (10 * p + (c - 48)) MAX_PREC = true).
  { apply N.leb_le. unfold MAX_PREC. change (2 ^ 31)%N with 2147483648%N in L. lia. }
  destruct S; subst; cbn [andb]; rewrite ?E42, D; cbn [andb]; cbn zeta; rewrite G; reflexivity.
Qed.
Lemma follow_prec d : forall ds n, denotes ds n -> (n < 2 ^ 31)%N -> exists st', (st' = D_dot \/ st' = D_prec) /\ follows D_dot (set_prec d 0) ds st' (set_prec d n).
Proof.
  intros ds n D. induction D as [|ds n c D IH C]; intros L.
  - exists D_dot. split; [auto|constructor].
  - destruct IH as (st' & S & F); [lia|]. exists D_prec. split; [auto|].
    apply (follows_app ds [c] _ _ _ _ _ _ F). apply (f_more _ _ _ D_prec (set_prec d (10 * n + (c - 48)))); [|constructor].
    apply (step_pdigit st' (set_prec d n) c n); auto.
Qed.
Lemma follow_size st d s : st <> D_size -> a_size s -> exists st', follows st d s st' d.
Proof.
  intros N Z. destruct Z as [|c Z]; [exists st; constructor|]. exists D_size. apply (f_more _ _ _ D_size d); [|constructor].
  cbn in Z. destruct Z as [<-|[<-|[<-|[]]]]; destruct st; try reflexivity; exfalso; apply N; reflexivity.
Qed.
Lemma follow_point st d : opening st \/ st = D_width -> directive_step st d 46%N = D_more D_dot (set_prec d 0).
Proof. intros [[]|]; subst; reflexivity. Qed.
Lemma follow_asks left width prec mid : asks left width prec mid ->
  exists st', follows D_start plain_directive mid st' {| d_left := left; d_width := width; d_prec := prec |}.
Proof.
  intros [fl w p s FL B W P Z].
  destruct (follow_flags fl D_start plain_directive) as (st1 & b & O & F & B'); [left; reflexivity|exact FL|].
  assert (b = left) as ->.
  { cbn [d_left plain_directive] in B'. destruct b, left; try reflexivity; exfalso.
    - assert (In 45%N fl) by (destruct (proj1 B' eq_refl); [discriminate|assumption]). apply B in H. discriminate.
    - assert (In 45%N fl) by (apply B; reflexivity). assert (false = true) by (apply B'; auto). discriminate. }
  assert (exists st2, (opening st2 \/ st2 = D_width) /\ follows D_start plain_directive (fl ++ w) st2 {| d_left := left; d_width := width; d_prec := None |}) as (st2 & O2 & F2).
  { destruct W as [|c ds n C D L].
    - rewrite app_nil_r. exists st1. split; [auto|exact F].
    - exists D_width. split; [auto|]. apply (follows_app _ _ _ _ _ _ _ _ F). apply (follow_width st1 (set_left plain_directive left)); auto; discriminate. }
  assert (exists st3, st3 <> D_size /\ follows D_start plain_directive ((fl ++ w) ++ p) st3 {| d_left := left; d_width := width; d_prec := prec |}) as (st3 & O3 & F3).
  { destruct P as [|ds n D L].
    - rewrite app_nil_r. exists st2. split; [destruct O2 as [[]|]; subst; discriminate|exact F2].
    - destruct (follow_prec {| d_left := left; d_width := width; d_prec := None |} ds n D L) as (st' & S & G). exists st'.
      split; [destruct S; subst; discriminate|]. apply (follows_app _ _ _ _ _ _ _ _ F2). econstructor; [apply follow_point; exact O2|exact G]. }
  destruct (follow_size st3 {| d_left := left; d_width := width; d_prec := prec |} s O3 Z) as (st4 & F4). exists st4.
  rewrite !app_assoc. exact (follows_app _ _ _ _ _ _ _ _ F3 F4).
Qed.

(** ** the argument *)
Lemma repeat_blank (l : str) : Forall (fun c => c = 32%N) l -> l = repeat 32%N (length l).
Proof. induction 1; cbn; [reflexivity|]. congruence. Qed.
Lemma field_spec left width t f : field left width t f <->
  f = (let blanks := repeat 32%N (N.to_nat width - length t) in if left then t ++ blanks else blanks ++ t).
Proof.
  split.
  - intros [blanks t' A B]. cbv zeta. assert (G : blanks = repeat 32%N (N.to_nat width - length t')).
    { rewrite (repeat_blank _ A). f_equal. apply (f_equal N.to_nat) in B. rewrite Nat2N.id, N2Nat.inj_sub, Nat2N.id in B. exact B. }
    rewrite <- G. reflexivity.
  - intros ->. cbv zeta. constructor; [|rewrite repeat_length; unfold str, char in *; lia]. apply Forall_forall. intros x H. apply repeat_spec in H. exact H.
Qed.
Lemma cut_spec p t s : cut_to p t s <-> s = match p with Some n => firstn (N.to_nat n) t | None => t end.
Proof.
  split.
  - intros [t'|n a b <-|n t' L]; [reflexivity| |].
    + rewrite Nat2N.id, firstn_app, Nat.sub_diag, firstn_O, app_nil_r, firstn_all. reflexivity.
    + rewrite firstn_all2; [reflexivity|lia].
  - intros ->. destruct p as [n|]; [|constructor]. destruct (N.ltb_spec (N.of_nat (length t)) n) as [L|L].
    + rewrite firstn_all2; [|lia]. constructor. exact L.
    + rewrite <- (firstn_skipn (N.to_nat n) t) at 1. constructor. rewrite firstn_length. lia.
Qed.
Lemma fit_spec d c t f : fit d c t = f <-> field (d_left d) (d_width d) (match d_prec d with Some p => if N.eqb c 99 then t else firstn (N.to_nat p) t | None => t end) f.
Proof. rewrite field_spec. unfold fit. cbv zeta. split; congruence. Qed.

Lemma shown_fit d c a t : convert_arg c a = Ok t ->
  exists s, shown py_repr py_ascii c (d_prec d) a s /\ field (d_left d) (d_width d) s (fit d c t).
Proof.
  unfold convert_arg. intros H. eexists. split; [|apply fit_spec; reflexivity].
  destruct (N.eqb_spec c 115) as [->|_]; [injection H as <-; change (N.eqb 115 99) with false; cbv iota; constructor; apply cut_spec; reflexivity|].
  destruct (N.eqb_spec c 114) as [->|_]; [injection H as <-; change (N.eqb 114 99) with false; cbv iota; constructor; apply cut_spec; reflexivity|].
  destruct (N.eqb_spec c 97) as [->|_]; [injection H as <-; change (N.eqb 97 99) with false; cbv iota; constructor; apply cut_spec; reflexivity|].
  destruct (N.eqb_spec c 99) as [->|_]; [|destruct (mem N.eqb c _); discriminate].
  destruct a as [|x [|y a]]; try discriminate. injection H as <-. destruct (d_prec d); constructor.
Qed.
Lemma shown_convert d c a s f : shown py_repr py_ascii c (d_prec d) a s -> field (d_left d) (d_width d) s f ->
  exists t, convert_arg c a = Ok t /\ fit d c t = f.
Proof.
  intros S F. inversion S; subst.
  - apply cut_spec in H. subst s. exists a. split; [reflexivity|]. apply fit_spec. exact F.
  - apply cut_spec in H. subst s. exists (py_repr a). split; [reflexivity|]. apply fit_spec. exact F.
  - apply cut_spec in H. subst s. exists (py_ascii a). split; [reflexivity|]. apply fit_spec. exact F.
  - exists [c0]. split; [reflexivity|]. apply fit_spec. destruct (d_prec d); exact F.
Qed.
Lemma shown_step rp asc c p a s st d : shown rp asc c p a s -> directive_step st d c = D_convert /\ c <> 37%N.
Proof. intros S. inversion S; subst; (split; [destruct st; reflexivity|discriminate]). Qed.

(** the answer at once to %s is the answer of the general rule *)
Lemma fast_path (fmt : str) args : py_directive D_start plain_directive (115%N :: fmt) args =
  match args with [] => Err TypeError | a :: args' => r <- py_format fmt args' ;; Ok (a ++ r) end.
Proof.
  cbn [py_directive]. change (directive_step D_start plain_directive 115%N) with D_convert. cbv iota. destruct args as [|a args]; [reflexivity|].
  cbn. destruct (py_format fmt args); [|reflexivity]. cbn. rewrite ?app_nil_r. unfold fit. cbn. reflexivity.
Qed.
(** hence the operator reads like this *)
Lemma format_percent (c : char) (fmt : str) args : c <> 37%N -> py_format (37%N :: c :: fmt) args = py_directive D_start plain_directive (c :: fmt) args.
Proof.
  intros H. cbn [py_format]. change (N.eqb 37 37) with true. cbv iota. destruct (N.eqb_spec c 37) as [E|_]; [exfalso; exact (H E)|].
  destruct (N.eqb_spec c 115) as [->|_]; [|reflexivity]. symmetry. apply fast_path.
Qed.

(** ** C92 *)
Lemma app_len_lt {A} (a b : list A) c : length b < length (a ++ c :: b).
Proof. rewrite app_length. cbn. lia. Qed.

(** the [%] operator prints exactly what the specification says *)
Theorem C92_percent : forall format args text, py_format format args = Ok text <-> printed py_repr py_ascii format args text.
Proof.
  intros format args text. split.
  - assert (G : forall n format args text, length format <= n -> py_format format args = Ok text -> printed py_repr py_ascii format args text).
    { induction n as [|n IH]; intros fmt as_ out L H.
      - destruct fmt; [|cbn in L; lia]. destruct as_; [|discriminate]. injection H as <-. constructor.
      - destruct fmt as [|c fmt]; [destruct as_; [injection H as <-; constructor|discriminate]|]. cbn [length] in L.
        destruct (N.eq_dec c 37) as [->|C].
        + destruct fmt as [|c fmt]; [discriminate|]. cbn [length] in L. destruct (N.eq_dec c 37) as [->|C].
          * cbn [py_format] in H. change (N.eqb 37 37) with true in H. cbv iota in H. destruct (py_format fmt as_) as [r|] eqn:E; [|discriminate].
            cbn [bind] in H. injection H as <-. apply printed_percent. apply IH; [lia|exact E].
          * apply (eq_trans (eq_sym (format_percent c fmt as_ C))) in H. destruct (directive_ok _ _ _ _ _ H) as (mid & k & rest & st' & d' & x & r & E & F & D & V & P & ->).
            rewrite E. unfold convert in V. destruct as_ as [|a as_]; [discriminate|]. destruct (convert_arg k a) as [t|] eqn:K; [|discriminate].
            cbn [bind] in V. injection V as <-. cbn [fst snd] in *. destruct (shown_fit d' k a t K) as (s & S & Fd).
            apply (printed_argument _ _ (d_left d') (d_width d') (d_prec d') mid k a s (fit d' k t) rest as_ r); auto.
            { apply (follows_asks _ _ _ F). }
            apply IH; [|exact P]. assert (Q := app_len_lt mid rest k). rewrite <- E in Q. cbn [length] in Q. lia.
        + cbn [py_format] in H. destruct (N.eqb_spec c 37) as [E|_]; [exfalso; exact (C E)|]. destruct (py_format fmt as_) as [r|] eqn:E; [|discriminate].
          cbn [bind] in H. injection H as <-. apply printed_char; [exact C|]. apply IH; [lia|exact E]. }
    apply (G (length format)). lia.
  - intros H. induction H as [|c fmt as_ out C H IH|fmt as_ out H IH|left width prec mid k a s f fmt as_ out A S F H IH].
    + reflexivity.
    + cbn [py_format]. destruct (N.eqb_spec c 37) as [E|_]; [exfalso; exact (C E)|]. rewrite IH. reflexivity.
    + cbn [py_format]. change (N.eqb 37 37) with true. cbv iota. rewrite IH. reflexivity.
    + destruct (follow_asks _ _ _ _ A) as (st' & G).
      assert (X : forall x y, mid ++ k :: fmt = x :: y -> x <> 37%N).
      { intros x y E. inversion G; subst.
        - injection E as <- <-. exact (proj2 (shown_step _ _ _ _ _ _ D_start plain_directive S)).
        - cbn [app] in E. injection E as -> _. intros ->. discriminate. }
      destruct (mid ++ k :: fmt) as [|x y] eqn:E; [exfalso; eapply app_cons_not_nil; symmetry; exact E|].
      apply (eq_trans (format_percent x y (a :: as_) (X x y eq_refl))). rewrite <- E. rewrite (directive_follow _ _ _ _ _ _ _ G). cbn [py_directive].
      destruct (shown_step _ _ _ _ _ _ st' {| d_left := left; d_width := width; d_prec := prec |} S) as [D _]. rewrite D.
      destruct (shown_convert {| d_left := left; d_width := width; d_prec := prec |} k a s f S F) as (t & K & T).
      unfold convert. rewrite K. cbn [bind fst snd]. rewrite IH, T. reflexivity.
Qed.
Theorem C92_one_text : forall format args a b, printed py_repr py_ascii format args a -> printed py_repr py_ascii format args b -> a = b.
Proof. intros f x a b A B. apply C92_percent in A. apply C92_percent in B. congruence. Qed.

(** otherwise it raises TypeError or ValueError *)
Lemma step_error st d c e : directive_step st d c = D_stop e -> e = TypeError \/ e = ValueError.
Proof.
  unfold directive_step. cbv zeta. intros H.
  repeat match type of H with (if ?b then _ else _) = _ => destruct b end; try discriminate; injection H as <-; auto.
Qed.
Lemma convert_error d c args e : convert d c args = Err e -> e = TypeError \/ e = ValueError.
Proof.
  unfold convert, convert_arg. destruct args as [|a args]; [intros H; injection H as <-; auto|].
  intros H. repeat match type of H with context [if ?b then _ else _] => destruct b end; cbn [bind] in H; try discriminate; injection H as <-; auto.
Qed.
Theorem C92_percent_errors : forall format args e, py_format format args = Err e -> e = TypeError \/ e = ValueError.
Proof.
  intros format. assert (G : forall n fmt, length fmt <= n ->
    (forall args e, py_format fmt args = Err e -> e = TypeError \/ e = ValueError) /\
    (forall st d args e, py_directive st d fmt args = Err e -> e = TypeError \/ e = ValueError)).
  { induction n as [|n IH]; intros fmt L.
    - destruct fmt; [|cbn in L; lia]. split; [intros [|a args] e H; [discriminate|injection H as <-; auto]|intros st d args e H; injection H as <-; auto].
    - destruct fmt as [|c fmt]; [split; [intros [|a args] e H; [discriminate|injection H as <-; auto]|intros st d args e H; injection H as <-; auto]|].
      cbn [length] in L. assert (D : forall st d args e, py_directive st d (c :: fmt) args = Err e -> e = TypeError \/ e = ValueError).
      { intros st d args e H. cbn [py_directive] in H. destruct (directive_step st d c) as [st' d'|x|] eqn:E.
        - exact (proj2 (IH fmt ltac:(lia)) _ _ _ _ H).
        - injection H as <-. exact (step_error _ _ _ _ E).
        - destruct (convert d c args) as [x|x] eqn:V; cbn [bind] in H; [|injection H as <-; exact (convert_error _ _ _ _ V)].
          destruct (py_format fmt (snd x)) eqn:P; [discriminate|]. cbn [bind] in H. injection H as <-. exact (proj1 (IH fmt ltac:(lia)) _ _ P). }
      split; [|exact D]. intros args e H. destruct (N.eq_dec c 37) as [->|C].
      + destruct fmt as [|c fmt]; [injection H as <-; auto|]. cbn [length] in L. destruct (N.eq_dec c 37) as [->|C].
        * cbn [py_format] in H. change (N.eqb 37 37) with true in H. cbv iota in H. destruct (py_format fmt args) eqn:P; [discriminate|].
          cbn [bind] in H. injection H as <-. exact (proj1 (IH fmt ltac:(lia)) _ _ P).
        * apply (eq_trans (eq_sym (format_percent c fmt args C))) in H. exact (proj2 (IH (c :: fmt) ltac:(cbn; lia)) _ _ _ _ H).
      + cbn [py_format] in H. destruct (N.eqb_spec c 37) as [E|_]; [exfalso; exact (C E)|]. destruct (py_format fmt args) eqn:P; [discriminate|].
        cbn [bind] in H. injection H as <-. exact (proj1 (IH fmt ltac:(lia)) _ _ P). }
  exact (proj1 (G (length format) format (le_n _))).
Qed.

(** ** repr(x) and ascii(x) are literals that stand for x *)
Lemma hex_digit_spec n : (n < 16)%N -> a_hex_digit (hex_digit n) n.
Proof.
  intros H. unfold hex_digit. destruct (N.ltb_spec n 10).
  - left. split; [split; lia|lia].
  - right. split; lia.
Qed.
Lemma hex_length k : forall n, length (hex k n) = k.
Proof. induction k; intros n; [reflexivity|]. cbn [hex]. rewrite app_length, IHk. cbn. lia. Qed.
Lemma land15 n : N.land n 15 = (n mod 16)%N.
Proof. exact (N.land_ones n 4). Qed.
Lemma shiftr4 n : N.shiftr n 4 = (n / 16)%N.
Proof. exact (N.shiftr_div_pow2 n 4). Qed.
Lemma hex_spec k : forall n, (n < 16 ^ N.of_nat k)%N -> hex_denotes (hex k n) n.
Proof.
  induction k as [|k IH]; intros n H.
  - cbn in H. assert (n = 0%N) as -> by lia. constructor.
  - cbn [hex]. rewrite shiftr4, land15. rewrite (N.div_mod' n 16) at 3. constructor.
    + apply IH. apply N.div_lt_upper_bound; [lia|]. rewrite Nat2N.inj_succ, N.pow_succ_r' in H. exact H.
    + apply hex_digit_spec. apply N.mod_lt. lia.
Qed.
(** the characters that repr shows *)
Definition shown_by_repr (c : char) : Prop := printable c = true.
Definition shown_by_ascii (c : char) : Prop := printable c = true /\ (c < 128)%N.
(** what Python has: code points below 0x110000 *)
Definition code_point (c : char) : Prop := (c < 1114112)%N.
Lemma reads_escaped r q c body s : by_number r q c -> code_point c -> reads r q body s -> reads r q (escaped c ++ body) (c :: s).
Proof.
  intros B H R. unfold code_point in H. unfold escaped. destruct (N.leb_spec c 255); [|destruct (N.leb_spec c 65535)].
  - exact (reads_x r q (hex 2 c) c body s B ltac:(change (2 ^ 8)%N with 256%N; lia) (hex_length 2 c) (hex_spec 2 c ltac:(cbn; lia)) R).
  - exact (reads_u r q (hex 4 c) c body s B ltac:(change (2 ^ 8)%N with 256%N; change (2 ^ 16)%N with 65536%N; lia) (hex_length 4 c) (hex_spec 4 c ltac:(cbn; lia)) R).
  - exact (reads_U r q (hex 8 c) c body s B ltac:(change (2 ^ 16)%N with 65536%N; lia) (hex_length 8 c) (hex_spec 8 c ltac:(cbn; lia)) R).
Qed.
(** a character of a literal, after [f] (nothing for repr, escapes for ascii) *)
Lemma reads_char (r : char -> Prop) (f : str -> str) q c body s :
  (forall t, Forall (fun x => x < 128)%N t -> f t = t) -> (q < 128)%N -> code_point c ->
  (printable c = true -> (r c /\ f [c] = [c]) \/ (~ r c /\ f [c] = escaped c)) -> (r c -> printable c = true) ->
  Forall (fun x => x < 128)%N (escaped c) ->
  reads r q body s -> reads r q (f (repr_char q c) ++ body) (c :: s).
Proof.
  intros F Hq H Sh Rp A R. unfold repr_char.
  destruct (N.eqb_spec c q) as [->|Q]; [cbn [orb]; rewrite F; [exact (reads_quote r q body s R)|repeat constructor; lia]|]. cbn [orb].
  destruct (N.eqb_spec c 92) as [->|B]; [rewrite F; [exact (reads_backslash r q body s R)|repeat constructor; lia]|].
  destruct (N.eqb_spec c 9) as [->|B9]; [rewrite F; [exact (reads_tab r q body s R)|repeat constructor; lia]|].
  destruct (N.eqb_spec c 10) as [->|B10]; [rewrite F; [exact (reads_newline r q body s R)|repeat constructor; lia]|].
  destruct (N.eqb_spec c 13) as [->|B13]; [rewrite F; [exact (reads_return r q body s R)|repeat constructor; lia]|].
  assert (NI : ~ In c [q; 92; 9; 10; 13]%N) by (intros [E|[E|[E|[E|[E|[]]]]]]; congruence).
  destruct (printable c) eqn:P.
  - destruct (Sh eq_refl) as [[Y ->]|[Y ->]].
    + exact (reads_itself r q c body s Y NI R).
    + apply reads_escaped; [split; assumption|exact H|exact R].
  - rewrite (F _ A). apply reads_escaped; [|exact H|exact R]. split; [|exact NI]. intros Y. apply Rp in Y. discriminate.
Qed.
Lemma hex_ascii k : forall n, Forall (fun c => c < 128)%N (hex k n).
Proof.
  induction k; intros n; cbn [hex]; [constructor|]. apply Forall_app. split; [apply IHk|]. constructor; [|constructor].
  rewrite land15. assert (n mod 16 < 16)%N by (apply N.mod_lt; lia). unfold hex_digit. destruct (N.ltb (n mod 16) 10) eqn:E; [apply N.ltb_lt in E|]; lia.
Qed.
Lemma escaped_ascii c : Forall (fun c => c < 128)%N (escaped c).
Proof.
  unfold escaped. destruct (N.leb c 255); [|destruct (N.leb c 65535)]; (apply Forall_app; split; [repeat constructor; lia|apply hex_ascii]).
Qed.
Lemma quote_spec s : let q := if mem N.eqb 39%N s && negb (mem N.eqb 34%N s) then 34%N else 39%N in quoted s q.
Proof.
  cbv zeta. unfold quoted. destruct (mem N.eqb 39%N s) eqn:A; destruct (mem N.eqb 34%N s) eqn:B; cbn [andb negb].
  - right. split; [reflexivity|]. intros _. apply mem_In. exact B.
  - left. split; [reflexivity|]. split; [apply mem_In; exact A|]. intros I. apply mem_In in I. congruence.
  - right. split; [reflexivity|]. intros I. apply mem_In in I. congruence.
  - right. split; [reflexivity|]. intros I. apply mem_In in I. congruence.
Qed.
Lemma quoted_lt s q : quoted s q -> (q < 128)%N.
Proof. intros [[-> _]|[-> _]]; lia. Qed.

Theorem C92_repr : forall s, Forall code_point s -> exists q body, quoted s q /\ py_repr s = q :: body ++ [q] /\ reads shown_by_repr q body s.
Proof.
  intros s H. unfold py_repr. assert (Q := quote_spec s). cbv zeta in Q |- *. remember (if _ && _ then 34%N else 39%N) as q eqn:E. clear E.
  exists q, (flat_map (repr_char q) s). split; [exact Q|]. split; [reflexivity|]. apply quoted_lt in Q.
  induction H as [|c s C H IH]; [constructor|]. cbn [flat_map]. apply (reads_char shown_by_repr (fun t => t) q c); auto.
  apply escaped_ascii.
Qed.

Definition only_ascii : str -> str := flat_map (fun c => if N.ltb c 128 then [c] else escaped c).
Lemma only_ascii_app a b : only_ascii (a ++ b) = only_ascii a ++ only_ascii b.
Proof. apply flat_map_app. Qed.
Lemma only_ascii_id s : Forall (fun c => c < 128)%N s -> only_ascii s = s.
Proof. induction 1 as [|c s C _ IH]; [reflexivity|]. cbn. apply N.ltb_lt in C. rewrite C, IH. reflexivity. Qed.
Lemma only_ascii_ascii s : Forall (fun c => c < 128)%N (only_ascii s).
Proof.
  unfold only_ascii. apply Forall_forall. intros x H. apply in_flat_map in H. destruct H as (c & _ & H). destruct (N.ltb c 128) eqn:E.
  - destruct H as [<-|[]]. apply N.ltb_lt. exact E.
  - exact (proj1 (Forall_forall _ _) (escaped_ascii c) x H).
Qed.
Theorem C92_ascii : forall s, Forall code_point s -> Forall (fun c => c < 128)%N (py_ascii s) /\
  exists q body, quoted s q /\ py_ascii s = q :: body ++ [q] /\ reads shown_by_ascii q body s.
Proof.
  intros s H. split; [apply only_ascii_ascii|]. change (py_ascii s) with (only_ascii (py_repr s)). unfold py_repr.
  assert (Q := quote_spec s). cbv zeta in Q |- *. remember (if _ && _ then 34%N else 39%N) as q eqn:E. clear E.
  exists q, (only_ascii (flat_map (repr_char q) s)). split; [exact Q|]. apply quoted_lt in Q. split.
  - change (q :: flat_map (repr_char q) s ++ [q]) with ([q] ++ flat_map (repr_char q) s ++ [q]). rewrite !only_ascii_app.
    rewrite (only_ascii_id [q]); [reflexivity|]. constructor; [exact Q|constructor].
  - induction H as [|c s C H IH]; [constructor|]. cbn [flat_map]. rewrite only_ascii_app. apply (reads_char shown_by_ascii only_ascii q c); auto.
    + intros t. apply only_ascii_id.
    + intros P. unfold shown_by_ascii, only_ascii. cbn. destruct (N.ltb_spec c 128); [left; auto|right]. split; [intros [_ X]; lia|apply app_nil_r].
    + intros [P _]. exact P.
    + apply escaped_ascii.
Qed.

(** the literal is determined by the text *)
Lemma hex_digit_unique c1 c2 n : a_hex_digit c1 n -> a_hex_digit c2 n -> c1 = c2.
Proof. unfold a_hex_digit, a_digit. intros. lia. Qed.
Lemma hex_digit_lt c n : a_hex_digit c n -> (n < 16)%N.
Proof. unfold a_hex_digit, a_digit. intros. lia. Qed.
Lemma hex_unique : forall a n, hex_denotes a n -> forall b, hex_denotes b n -> length a = length b -> a = b.
Proof.
  induction 1 as [|ds n c k D IH C]; intros b H L.
  - destruct b; [reflexivity|discriminate].
  - remember (16 * n + k)%N as m eqn:M in H. destruct H as [|ds' n' c' k' D' C'].
    + rewrite app_length in L. cbn in L. lia.
    + assert (K := hex_digit_lt _ _ C). assert (K' := hex_digit_lt _ _ C'). assert (n' = n) as -> by lia. assert (k' = k) as -> by lia.
      rewrite !app_length in L. cbn in L. rewrite (IH ds' D'); [|lia]. rewrite (hex_digit_unique _ _ _ C C'). reflexivity.
Qed.
Theorem C92_literal_unique : forall readable q s a b, ~ In q [92; 9; 10; 13]%N -> reads readable q a s -> reads readable q b s -> a = b.
Proof.
  intros r q s a b Q R. revert b. induction R; intros b R'; inversion R'; subst; try reflexivity; try (f_equal; auto; fail);
    try (repeat match goal with
         | H : by_number _ _ _ |- _ => destruct H as [? ?]
         end; exfalso; cbn [In] in *; tauto);
    try (change (2 ^ 8)%N with 256%N in *; change (2 ^ 16)%N with 65536%N in *; exfalso; lia).
  all: try (match goal with H1 : hex_denotes ?x ?n, H2 : hex_denotes ?y ?n |- _ => assert (x = y) as -> by (apply (hex_unique x n H1 y H2); congruence) end; f_equal; f_equal; auto).
  all: f_equal; f_equal; auto.
Qed.
(** which characters are shown: ASCII without controls, Cyrillic; no control character *)
Theorem C92_printable : (forall c, (32 <= c <= 126)%N -> printable c = true) /\ (forall c, (1024 <= c <= 1327)%N -> printable c = true) /\
  (forall c, (c < 32 \/ 127 <= c <= 160)%N -> printable c = false).
Proof.
  assert (G : forall (f : N -> bool) a n, forallb f (map (fun i => a + N.of_nat i)%N (seq 0 n)) = true -> forall c, (a <= c < a + N.of_nat n)%N -> f c = true).
  { intros f a n H c C. rewrite forallb_forall in H. apply H. apply in_map_iff. exists (N.to_nat (c - a)). split; [lia|]. apply in_seq. lia. }
  split; [|split].
  - intros c C. apply (G printable 32%N 95); [vm_compute; reflexivity|lia].
  - intros c C. apply (G printable 1024%N 304); [vm_compute; reflexivity|lia].
  - intros c [C|C]; apply negb_true_iff.
    + apply (G (fun c => negb (printable c)) 0%N 32); [vm_compute; reflexivity|lia].
    + apply (G (fun c => negb (printable c)) 127%N 34); [vm_compute; reflexivity|lia].
Qed.

(** texts with a quote, with characters that are not shown, with characters beyond the Basic Multilingual Plane; the directives together *)
Example C92_literals_case : py_repr (u "it's") = u """it's""" /\ py_repr [1084; 10; 92; 127]%N = u "'м\n\\\x7f'" /\
  py_ascii [1084; 128512]%N = u "'\u043c\U0001f600'" /\ Forall code_point [1084; 128512]%N /\
  py_format (u "%-+5s|%05.2hr|%c%%") [u "да"; u "нет"; u "!"] = Ok (u "да   |   'н|!%").
Proof.
  split; [vm_compute; reflexivity|]. split; [vm_compute; reflexivity|]. split; [vm_compute; reflexivity|]. split; [repeat constructor|vm_compute; reflexivity].
Qed.
