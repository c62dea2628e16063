(** * PropSyntax: C27-C31, C33, C39 - the syntax of templates *)
From Coq Require Import Lia.
From Verif Require Import PyBase Relations Restrictions Logic Data Words Dictionary Templates PyBaseFacts SpecProps PropsFacts StrFacts SynFacts SpecTemplates TemplateFacts.

Lemma Forall2_doubled l l' : Forall2 doubled l l' <-> l' = map escape l.
Proof.
  split.
  - induction 1 as [|a b l l' H _ IH]; [reflexivity|]. simpl. apply doubled_escape in H. congruence.
  - intros ->. induction l; constructor; [apply escape_doubled|assumption].
Qed.
Lemma parse_template_cuts U t text ext ls vs : cuts text ls vs ->
  (forall new, Forall2 (fun v s => parse_substitution U v ext = Ok s) (map escape vs) new ->
     parse_template U t text ext = ({| t_subs := t_subs t ++ new; t_text := Some (weave (map escape ls) (map (fun _ => PS) vs)) |}, Ok tt)) /\
  (forall vs1 v vs2 new e, map escape vs = vs1 ++ v :: vs2 -> Forall2 (fun v s => parse_substitution U v ext = Ok s) vs1 new ->
     parse_substitution U v ext = Err e -> parse_template U t text ext = ({| t_subs := t_subs t ++ new; t_text := t_text t |}, Err e)).
Proof.
  intros H. apply escape_cuts in H. unfold parse_template. rewrite (find_variables_cuts _ _ _ H).
  destruct (parse_loop_cuts U ext _ _ _ H [] (t_subs t)) as [H1 H2]; [intros a b E; destruct a; discriminate|]. cbn [app] in H1, H2. split.
  - intros new Hn. rewrite (H1 new Hn), map_map. reflexivity.
  - intros vs1 v vs2 new e E Hn He. rewrite (H2 vs1 v vs2 new e E Hn He). reflexivity.
Qed.
(** either all variables parse, or there is a first one that does not *)
Lemma first_failure {A B} (f : A -> result B) l :
  (exists bs, Forall2 (fun a b => f a = Ok b) l bs) \/
  (exists l1 a l2 bs e, l = l1 ++ a :: l2 /\ Forall2 (fun a b => f a = Ok b) l1 bs /\ f a = Err e).
Proof.
  induction l as [|a l IH]; [left; exists []; constructor|]. destruct (f a) as [b|e] eqn:E.
  - destruct IH as [[bs H]|(l1 & x & l2 & bs & e & -> & H1 & H2)].
    + left. exists (b :: bs). constructor; assumption.
    + right. exists (a :: l1), x, l2, (b :: bs), e. split; [reflexivity|]. split; [constructor; assumption|exact H2].
  - right. exists [], a, l, [], e. split; [reflexivity|]. split; [constructor|exact E].
Qed.

(** ** C27 *)
Theorem C27_decomposition : forall text, exists literals variables, cuts text literals variables /\
  weave literals variables = text /\ length literals = S (length variables) /\
  forall literals' variables', cuts text literals' variables' -> literals' = literals /\ variables' = variables.
Proof.
  intros text. destruct (cuts_exists text) as (ls & vs & H). exists ls, vs. split; [exact H|]. split; [apply cuts_text, H|]. split; [apply (cuts_lengths _ _ _ H)|].
  intros ls' vs' H'. apply (cuts_unique _ _ _ _ _ H' H).
Qed.
Theorem C27_parse : forall U ext text literals variables literals2 variables2 subs,
  cuts text literals variables -> Forall2 doubled literals literals2 -> Forall2 doubled variables variables2 ->
  Forall2 (fun v s => parse_substitution U v ext = Ok s) variables2 subs ->
  parse_template U new_template text ext =
    ({| t_subs := subs; t_text := Some (weave literals2 (map (fun _ => u "%s") variables)) |}, Ok tt).
Proof.
  intros U ext text ls vs ls2 vs2 subs H Hl Hv Hs. apply Forall2_doubled in Hl, Hv. subst. exact (proj1 (parse_template_cuts U new_template text ext ls vs H) subs Hs).
Qed.
(** the first variable that does not parse makes parse raise its error; the substitutions before it stay in the object *)
Theorem C27_parse_error : forall U ext text literals variables variables2 before v rest subs e,
  cuts text literals variables -> Forall2 doubled variables variables2 -> variables2 = before ++ v :: rest ->
  Forall2 (fun v s => parse_substitution U v ext = Ok s) before subs -> parse_substitution U v ext = Err e ->
  parse_template U new_template text ext = ({| t_subs := subs; t_text := None |}, Err e).
Proof.
  intros U ext text ls vs vs2 pre v rest subs e H Hv E Hs He. apply Forall2_doubled in Hv. subst vs2.
  exact (proj2 (parse_template_cuts U new_template text ext ls vs H) _ _ _ _ _ E Hs He).
Qed.
Definition text1 : str := u "[] 100% [[a] and ] [b|мн] [a] [".
Example C27_case : cuts text1 [u "[] 100% "; u " and ] "; u " "; u " ["] [u "[[a]"; u "[b|мн]"; u "[a]"] /\
  let (t, r) := parse_template ru_unicode new_template text1 [] in r = Ok tt /\ t_text t = Some (u "[] 100%% %s and ] %s %s [") /\
  map s_id (t_subs t) = [u "[a"; u "b"; u "a"].
Proof.
  split; [|vm_compute; auto].
  eapply cuts_step; [|reflexivity|reflexivity|]; [vm_compute; reflexivity|]. eapply cuts_step; [|reflexivity|reflexivity|]; [vm_compute; reflexivity|].
  eapply cuts_step; [|reflexivity|reflexivity|]; [vm_compute; reflexivity|]. apply no_variables_ok. vm_compute. reflexivity.
Qed.

(** ** C28 *)
Lemma parse_ok_inv U t text ext t' ls vs : cuts text ls vs -> parse_template U t text ext = (t', Ok tt) ->
  exists new, Forall2 (fun v s => parse_substitution U v ext = Ok s) (map escape vs) new /\
    t' = {| t_subs := t_subs t ++ new; t_text := Some (weave (map escape ls) (map (fun _ => PS) vs)) |}.
Proof.
  intros H E. destruct (parse_template_cuts U t text ext ls vs H) as [H1 H2].
  destruct (first_failure (fun v => parse_substitution U v ext) (map escape vs)) as [[new Hn]|(v1 & v & v2 & new & e & Ev & Hn & He)].
  - exists new. split; [exact Hn|]. rewrite (H1 new Hn) in E. congruence.
  - rewrite (H2 _ _ _ _ _ Ev Hn He) in E. discriminate.
Qed.
Lemma Forall2_length' {A B} (R : A -> B -> Prop) l l' : Forall2 R l l' -> length l' = length l.
Proof. induction 1; simpl; congruence. Qed.
Theorem C28_literals_verbatim : forall U ext text t literals variables,
  parse_template U new_template text ext = (t, Ok tt) -> cuts text literals variables ->
  length (t_subs t) = length variables /\
  forall U' ext' d texts, Forall2 (fun s x => get_text U' s ext' d = Ok x) (t_subs t) texts ->
    substitute U' t ext' d = Ok (weave literals texts).
Proof.
  intros U ext text t ls vs Hp Hc. destruct (parse_ok_inv U new_template text ext t ls vs Hc Hp) as (new & Hn & ->). cbn [t_subs new_template app] in *.
  assert (L := Forall2_length' _ _ _ Hn). rewrite map_length in L. split; [exact L|].
  intros U' ext' d texts Ht. unfold substitute. cbn [t_subs t_text]. rewrite (proj2 (mapM_ok _ _ _) Ht). cbn [bind].
  rewrite (py_format_weave _ _ (cuts_lengths _ _ _ Hc)). rewrite (Forall2_length' _ _ _ Ht), L, Nat.eqb_refl. reflexivity.
Qed.
(** if a substitution fails, the error of the first failing one is raised *)
Theorem C28_first_error : forall U t ext d before s after e,
  t_subs t = before ++ s :: after -> (forall s', In s' before -> exists x, get_text U s' ext d = Ok x) ->
  get_text U s ext d = Err e -> substitute U t ext d = Err e.
Proof.
  intros U t ext d pre s post e E Hpre He. unfold substitute. apply bind_err. left. apply mapM_err. exists pre, s, post. split; [exact E|]. split; [exact He|].
  apply Forall_forall. exact Hpre.
Qed.
(** the formatting itself never fails *)
Theorem C28_no_other_error : forall U ext text t U' ext' d e,
  parse_template U new_template text ext = (t, Ok tt) -> substitute U' t ext' d = Err e ->
  exists s, In s (t_subs t) /\ get_text U' s ext' d = Err e.
Proof.
  intros U ext text t U' ext' d e Hp He. destruct (cuts_exists text) as (ls & vs & Hc).
  destruct (first_failure (fun s => get_text U' s ext' d) (t_subs t)) as [[xs Hx]|(l1 & s & l2 & xs & e' & E & Hx & He')].
  - rewrite (proj2 (C28_literals_verbatim U ext text t ls vs Hp Hc) _ _ _ _ Hx) in He. discriminate.
  - exists s. split; [rewrite E; apply in_or_app; right; left; reflexivity|]. rewrite <- He. rewrite He'. symmetry.
    apply (C28_first_error U' t ext' d l1 s l2 e' E); [|exact He']. intros s' Hs'. clear -Hx Hs'. induction Hx as [|a b l l' Hab _ IH]; [destruct Hs'|]. destruct Hs' as [<-|H]; eauto.
Qed.

(** ** C29 *)
Definition nth_parsed (U : unicode) (ext : externals) (text : str) (i : nat) (v : str) (s : substitution) : Prop :=
  exists t literals variables, parse_template U new_template text ext = (t, Ok tt) /\ cuts text literals variables /\
    nth_error variables i = Some v /\ nth_error (t_subs t) i = Some s.
Lemma nth_parsed_escape U ext text i v s : nth_parsed U ext text i v s -> is_variable v /\ parse_substitution U (escape v) ext = Ok s.
Proof.
  intros (t & ls & vs & Hp & Hc & Hv & Hs). destruct (parse_ok_inv U new_template text ext t ls vs Hc Hp) as (new & Hn & ->). cbn [t_subs new_template app] in *.
  split.
  - clear -Hc Hv. revert i Hv. induction Hc as [|l v0 t' ls vs Hv0 _ _ IH]; intros [|i] Hi; try discriminate; simpl in Hi; [congruence|eauto].
  - clear -Hn Hv Hs. revert new i Hn Hv Hs. induction vs as [|v0 vs IH]; intros new [|i] Hn Hv Hs; simpl in Hv; try discriminate; inversion Hn; subst; simpl in Hs.
    + injection Hv as ->. injection Hs as ->. assumption.
    + eapply IH; eassumption.
Qed.
Theorem C29_without_percent : forall U ext text i v s, nth_parsed U ext text i v s -> ~ In PERCENT v -> parse_substitution U v ext = Ok s.
Proof. intros U ext text i v s H Hn. apply nth_parsed_escape in H as [_ H]. rewrite escape_id in H by exact Hn. exact H. Qed.
Lemma count_app c a b : count_char c (a ++ b) = count_char c a + count_char c b.
Proof. unfold count_char. rewrite filter_app, app_length. reflexivity. Qed.
Lemma count_none c a : ~ In c a -> count_char c a = 0.
Proof.
  intros H. unfold count_char. induction a as [|x a IH]; [reflexivity|]. simpl. destruct (N.eqb_spec c x) as [->|]; [destruct H; left; reflexivity|].
  apply IH. intros G. apply H. right; exact G.
Qed.
Lemma count_some c a : In c a -> 0 < count_char c a.
Proof.
  intros H. apply in_split in H as (x & y & ->). rewrite count_app. unfold count_char at 2. simpl. rewrite N.eqb_refl. simpl. lia.
Qed.
Lemma count_escape a : count_char PERCENT (escape a) = 2 * count_char PERCENT a.
Proof.
  induction a as [|c a IH]; [reflexivity|]. rewrite escape_cons, count_app, IH. change (c :: a) with ([c] ++ a). rewrite (count_app PERCENT [c] a).
  destruct (N.eqb_spec c PERCENT) as [->|H].
  - change (count_char PERCENT [PERCENT; PERCENT]) with 2. change (count_char PERCENT [PERCENT]) with 1. lia.
  - rewrite (count_none PERCENT [c]); [lia|]. intros [->|[]]. apply H. reflexivity.
Qed.
Lemma count_strip U a : u_isspace U PERCENT = false -> count_char PERCENT (strip (u_isspace U) a) = count_char PERCENT a.
Proof.
  intros Hs. destruct (strip_spec (u_isspace U) a) as (x & y & E & Hx & Hy & _). rewrite E at 2. rewrite !count_app.
  rewrite (count_none _ x), (count_none _ y); [lia|..]; intros H; [rewrite Forall_forall in Hy; specialize (Hy _ H)|rewrite Forall_forall in Hx; specialize (Hx _ H)]; congruence.
Qed.
Lemma split_escape x : split_on BAR (escape x) = map escape (split_on BAR x).
Proof.
  assert (G : forall l, l <> [] -> escape (join [BAR] l) = join [BAR] (map escape l)).
  { induction l as [|a [|b l] IH]; intros H; [congruence|reflexivity|].
    change (join [BAR] (a :: b :: l)) with (a ++ [BAR] ++ join [BAR] (b :: l)). rewrite !escape_app, IH by discriminate. reflexivity. }
  rewrite <- (join_split BAR x) at 1. rewrite G by apply split_on_nonempty. apply split_join.
  - intros E. apply map_eq_nil in E. destruct (split_on_nonempty BAR x E).
  - assert (H := split_on_no_sep BAR x). apply Forall_forall. intros a Ha. apply in_map_iff in Ha as (b & <- & Hb). rewrite in_escape. rewrite Forall_forall in H. apply H, Hb.
Qed.
Lemma variable_split a bs : no_bar a bs -> split_on BAR (unbracket (variable a bs)) = a :: bs.
Proof. intros H. apply split_variable; [discriminate|exact H]. Qed.
Lemma variable_is a bs : variable a bs = LBR :: join [BAR] (a :: bs) ++ [RBR].
Proof. reflexivity. Qed.
Lemma escape_variable_parts a bs : escape (variable a bs) = LBR :: escape (join [BAR] (a :: bs)) ++ [RBR].
Proof. rewrite variable_is, escape_cons, escape_app. reflexivity. Qed.
Theorem C29_percent_doubled : forall U ext text i a bs s,
  lower_keeps_percents U -> u_isspace U PERCENT = false -> no_bar a bs ->
  nth_parsed U ext text i (variable a bs) s -> count_char PERCENT (s_id s) = 2 * count_char PERCENT a.
Proof.
  intros U ext text i a bs s Hl Hs Hb H. apply nth_parsed_escape in H as [_ H]. rewrite escape_variable_parts in H.
  assert (E : split_on BAR (escape (join [BAR] (a :: bs))) = escape a :: map escape bs).
  { rewrite split_escape, split_join; [reflexivity|discriminate|exact Hb]. }
  destruct a as [|c a].
  { unfold parse_substitution in H. rewrite unbracket_spec, E in H. discriminate. }
  rewrite (parse_substitution_parts U ext _ _ _ E) in H by (rewrite escape_nil; discriminate). apply bind_ok in H as (deps & _ & H).
  destruct (strip (u_isspace U) (escape (c :: a))) as [|d r] eqn:Er; [discriminate|]. injection H as <-. cbn [s_id].
  rewrite Hl, <- Er, count_strip, count_escape by exact Hs. reflexivity.
Qed.
(** so the identifier of a variable written with a percent sign is never the (lower-cased, trimmed) text that was written *)
Theorem C29_not_the_written_name : forall U ext text i a bs s name,
  lower_keeps_percents U -> u_isspace U PERCENT = false -> no_bar a bs -> In PERCENT a -> trimmed U a name ->
  nth_parsed U ext text i (variable a bs) s -> s_id s <> u_lower U name.
Proof.
  intros U ext text i a bs s name Hl Hs Hb Hin (x & y & E & Hx & Hy & _) H Heq. assert (C := C29_percent_doubled U ext text i a bs s Hl Hs Hb H).
  rewrite Heq, Hl in C. assert (P := count_some _ _ Hin). rewrite E, !count_app in C, P.
  rewrite (count_none _ x), (count_none _ y) in C, P; [lia|..]; intros G;
    solve [rewrite Forall_forall in Hy; specialize (Hy _ G); congruence|rewrite Forall_forall in Hx; specialize (Hx _ G); congruence].
Qed.
Lemma ru_lower_percent : lower_keeps_percents ru_unicode.
Proof.
  intros s. simpl. induction s as [|c s IH]; [reflexivity|]. change (map ru_lower_char (c :: s)) with ([ru_lower_char c] ++ map ru_lower_char s).
  change (c :: s) with ([c] ++ s). rewrite !count_app, IH. f_equal. unfold count_char. cbn [filter].
  assert (E : N.eqb PERCENT (ru_lower_char c) = N.eqb PERCENT c).
  { apply Bool.eq_iff_eq_true. rewrite !N.eqb_eq. unfold ru_lower_char, PERCENT.
    destruct (N.leb_spec 65 c), (N.leb_spec c 90), (N.leb_spec 1040 c), (N.leb_spec c 1071), (N.eqb_spec c 1025); cbn [andb]; lia. }
  rewrite E. destruct (N.eqb PERCENT c); reflexivity.
Qed.
Example C29_case : lower_keeps_percents ru_unicode /\ u_isspace ru_unicode PERCENT = false /\ no_bar (u "100%") [] /\
  exists s, nth_parsed ru_unicode [] (u "на [100%] больше") 0 (variable (u "100%") []) s /\ s_id s = u "100%%".
Proof.
  split; [exact ru_lower_percent|]. split; [reflexivity|]. split; [constructor; [|constructor]; vm_compute; intuition discriminate|].
  exists {| s_id := u "100%%"; s_deps := [] |}. split; [|reflexivity].
  exists {| t_subs := [{| s_id := u "100%%"; s_deps := [] |}]; t_text := Some (u "на %s больше") |}, [u "на "; u " больше"], [u "[100%]"].
  split; [vm_compute; reflexivity|]. split; [|split; reflexivity].
  eapply cuts_step with (rest := u " больше"); [vm_compute; reflexivity|reflexivity|reflexivity|]. apply no_variables_ok. reflexivity.
Qed.

(** ** C30 *)
Lemma trimmed_iff U s t : trimmed U s t <-> t = strip (u_isspace U) s.
Proof.
  split.
  - intros (x & y & -> & Hx & Hy & H1 & H2). symmetry. apply strip_unique; [exact Hx|exact Hy|]. split; [exact H1|]. intros r c E. exact (H2 c r E).
  - intros ->. destruct (strip_spec (u_isspace U) s) as (x & y & E & Hx & Hy & H1 & H2). exists x, y. split; [exact E|]. split; [exact Hx|]. split; [exact Hy|]. split; [exact H1|].
    intros c r. exact (H2 r c).
Qed.
Lemma comma_list_iff s l : comma_list s l <-> l = split_on COMMA s.
Proof.
  split.
  - intros (H1 & -> & H2). symmetry. apply split_join; assumption.
  - intros ->. split; [apply split_on_nonempty|]. split; [symmetry; apply join_split|apply split_on_no_sep].
Qed.
Lemma identifiers_mapM l vs : identifiers l vs -> exists gs, mapM parse_properties_slug l = Ok gs /\ concat gs = map AProp vs.
Proof.
  induction 1 as [|l vs _ (gs & IH1 & IH2)|v l vs _ (gs & IH1 & IH2)]; [exists []; auto|..].
  - exists ([] :: gs). simpl. rewrite IH1. auto.
  - exists ([AProp v] :: gs). cbn [mapM]. rewrite IH1. unfold parse_properties_slug. assert (H := verbose_id_nonempty v). destruct (verbose_id v) eqn:E; [congruence|].
    rewrite <- E, verbose_lookup. simpl. rewrite IH2. auto.
Qed.
Lemma slug_error x : x <> [] -> (forall v, x <> verbose_id v) -> parse_properties_slug x = Err (UnknownVerboseIdError x).
Proof.
  intros H1 H2. unfold parse_properties_slug. destruct x as [|c x]; [congruence|]. destruct (dget str_eqb (c :: x) VERBOSE_TO_PROPERTIES) as [p|] eqn:E; [|reflexivity].
  apply verbose_table_iff in E. destruct (H2 p E).
Qed.
Lemma slugs_cases l : (exists vs, identifiers l vs) \/
  (exists l1 x l2 vs, l = l1 ++ x :: l2 /\ identifiers l1 vs /\ x <> [] /\ forall v, x <> verbose_id v).
Proof.
  induction l as [|x l IH]; [left; exists []; constructor|].
  assert (Hx : x = [] \/ (exists v, x = verbose_id v) \/ (x <> [] /\ forall v, x <> verbose_id v)).
  { destruct x as [|c x]; [auto|]. destruct (dget str_eqb (c :: x) VERBOSE_TO_PROPERTIES) as [p|] eqn:E.
    - apply verbose_table_iff in E. right. left. eauto.
    - right. right. split; [discriminate|]. intros v Ev. apply verbose_table_iff in Ev. congruence. }
  destruct Hx as [->|[[v ->]|[H1 H2]]].
  - destruct IH as [[vs H]|(l1 & y & l2 & vs & -> & H & Hy)]; [left; exists vs; constructor; exact H|]. right. exists ([] :: l1), y, l2, vs. split; [reflexivity|]. split; [constructor; exact H|exact Hy].
  - destruct IH as [[vs H]|(l1 & y & l2 & vs & -> & H & Hy)]; [left; exists (v :: vs); constructor; exact H|]. right. exists (verbose_id v :: l1), y, l2, (v :: vs). split; [reflexivity|]. split; [constructor; exact H|exact Hy].
  - right. exists [], x, l, []. split; [reflexivity|]. split; [constructor|auto].
Qed.
Lemma parse_properties_ok s vs : property_list s vs -> parse_properties s = Ok (Properties (map AProp vs)).
Proof.
  intros (l & Hl & Hi). apply comma_list_iff in Hl. subst l. destruct (identifiers_mapM _ _ Hi) as (gs & H1 & H2). unfold parse_properties. rewrite H1. simpl. rewrite H2. reflexivity.
Qed.
Lemma parse_properties_err s x : unknown_element s x -> parse_properties s = Err (UnknownVerboseIdError x).
Proof.
  intros (l1 & l2 & vs & Hl & Hi & H1 & H2). apply comma_list_iff in Hl. unfold parse_properties. rewrite <- Hl. destruct (identifiers_mapM _ _ Hi) as (gs & G & _).
  rewrite mapM_app, G. cbn [bind mapM]. rewrite (slug_error x H1 H2). reflexivity.
Qed.
Lemma property_list_cases s : (exists vs, property_list s vs) \/ (exists x, unknown_element s x).
Proof.
  destruct (slugs_cases (split_on COMMA s)) as [[vs H]|(l1 & x & l2 & vs & E & H1 & H2 & H3)].
  - left. exists vs, (split_on COMMA s). split; [apply comma_list_iff; reflexivity|exact H].
  - right. exists x, l1, l2, vs. split; [apply comma_list_iff; symmetry; exact E|auto].
Qed.
Lemma parse_dependency_ok U ext b dep : reads U ext b dep -> parse_dependency U ext b = Ok dep.
Proof.
  intros [name Ht Hin|s vs Ht Hn Hp]; apply trimmed_iff in Ht; subst; unfold parse_dependency.
  - rewrite (proj2 (dmem_iff _ str_eqb_ok _ _) Hin). reflexivity.
  - rewrite (proj2 (dmem_false _ str_eqb_ok _ _) Hn), (parse_properties_ok _ _ Hp). reflexivity.
Qed.
Lemma parse_dependency_err U ext b x : unreadable U ext b x -> parse_dependency U ext b = Err (UnknownVerboseIdError x).
Proof.
  intros (s & Ht & Hn & Hu). apply trimmed_iff in Ht. subst. unfold parse_dependency. rewrite (proj2 (dmem_false _ str_eqb_ok _ _) Hn), (parse_properties_err _ _ Hu). reflexivity.
Qed.
Lemma dependency_cases U ext b : (exists dep, reads U ext b dep) \/ (exists x, unreadable U ext b x).
Proof.
  destruct (dmem str_eqb (strip (u_isspace U) (u_lower U b)) ext) eqn:E.
  - apply (dmem_iff _ str_eqb_ok) in E. left. eexists. eapply reads_external; [apply trimmed_iff; reflexivity|exact E].
  - apply (dmem_false _ str_eqb_ok) in E. destruct (property_list_cases (strip (u_isspace U) (u_lower U b))) as [[vs H]|[x H]].
    + left. eexists. eapply reads_properties; [apply trimmed_iff; reflexivity|exact E|exact H].
    + right. exists x. eexists. split; [apply trimmed_iff; reflexivity|]. auto.
Qed.
Lemma parse_dependency_ok_iff U ext b dep : parse_dependency U ext b = Ok dep <-> reads U ext b dep.
Proof.
  split; [|apply parse_dependency_ok]. intros H. destruct (dependency_cases U ext b) as [[dep' G]|[x G]].
  - assert (E := parse_dependency_ok _ _ _ _ G). congruence.
  - rewrite (parse_dependency_err _ _ _ _ G) in H. discriminate.
Qed.
Lemma parse_dependency_err_iff U ext b e : parse_dependency U ext b = Err e <-> exists x, unreadable U ext b x /\ e = UnknownVerboseIdError x.
Proof.
  split; [|intros (x & H & ->); apply parse_dependency_err, H]. intros H. destruct (dependency_cases U ext b) as [[dep' G]|[x G]].
  - rewrite (parse_dependency_ok _ _ _ _ G) in H. discriminate.
  - exists x. split; [exact G|]. rewrite (parse_dependency_err _ _ _ _ G) in H. congruence.
Qed.
Lemma mapM_reads U ext bs deps : mapM (parse_dependency U ext) bs = Ok deps <-> Forall2 (reads U ext) bs deps.
Proof.
  rewrite mapM_ok. split; induction 1 as [|a b l l' Hab _ IH]; constructor; auto; apply parse_dependency_ok_iff; exact Hab.
Qed.
(** every variable consists of an identifier part and dependency parts *)
Theorem C30_every_variable : forall v, is_variable v -> exists a bs, v = variable a bs /\ no_bar a bs.
Proof.
  intros v (x & -> & _ & _). assert (N := split_on_nonempty BAR x). destruct (split_on BAR x) as [|a bs] eqn:E; [congruence|]. exists a, bs. split.
  - rewrite variable_is, <- E, join_split. reflexivity.
  - unfold no_bar. rewrite <- E. apply split_on_no_sep.
Qed.
Theorem C30_parsed : forall U ext a bs c r deps, no_bar a bs -> trimmed U a (c :: r) -> Forall2 (reads U ext) bs deps ->
  parse_substitution U (variable a bs) ext =
    Ok {| s_id := u_lower U (c :: r);
          s_deps := deps ++ (if u_isupper U c then [DProps (Properties [AProp WORD_CASE_UPPER])] else []) |}.
Proof.
  intros U ext a bs c r deps Hb Ht Hd. rewrite variable_is, (parse_substitution_parts U ext _ a bs).
  - rewrite (proj2 (mapM_reads _ _ _ _) Hd). cbn [bind]. apply trimmed_iff in Ht. rewrite <- Ht. reflexivity.
  - apply split_join; [discriminate|exact Hb].
  - intros ->. apply trimmed_iff in Ht. discriminate.
Qed.
Theorem C30_errors : forall U ext a bs e, no_bar a bs ->
  (parse_substitution U (variable a bs) ext = Err e <->
   (a = [] /\ e = WrongDependencyFormatError (variable a bs)) \/
   (a <> [] /\ exists before b rest deps x, bs = before ++ b :: rest /\ Forall2 (reads U ext) before deps /\ unreadable U ext b x /\
      e = UnknownVerboseIdError x) \/
   (a <> [] /\ trimmed U a [] /\ (exists deps, Forall2 (reads U ext) bs deps) /\ e = IndexError)).
Proof.
  intros U ext a bs e Hb. destruct a as [|c0 a0].
  - assert (E : parse_substitution U (variable [] bs) ext = Err (WrongDependencyFormatError (variable [] bs))).
    { unfold parse_substitution. rewrite (variable_split _ _ Hb). reflexivity. }
    rewrite E. split; [intros [= <-]; left; auto|]. intros [[_ ->]|[[H _]|[H _]]]; [reflexivity|congruence|congruence].
  - set (a := c0 :: a0) in *. assert (Ha : a <> []) by discriminate. rewrite variable_is at 1. rewrite (parse_substitution_parts U ext _ a bs) by (try apply split_join; try discriminate; exact Hb).
    assert (Et := proj2 (trimmed_iff U a _) eq_refl). rewrite bind_err. split.
    + intros [H|(deps & Hd & H)].
      * right. left. split; [exact Ha|]. apply mapM_err in H as (l1 & b & l2 & E & He & Hok). apply parse_dependency_err_iff in He as (x & Hu & ->).
        assert (G : exists deps, Forall2 (reads U ext) l1 deps).
        { clear -Hok. induction Hok as [|y l [d Hd] _ [ds IH]]; [exists []; constructor|]. exists (d :: ds). constructor; [apply parse_dependency_ok_iff, Hd|exact IH]. }
        destruct G as [deps G]. exists l1, b, l2, deps, x. auto.
      * right. right. split; [exact Ha|]. destruct (strip (u_isspace U) a) as [|c r] eqn:Es; [|discriminate]. injection H as <-. split; [exact Et|].
        split; [|reflexivity]. exists deps. apply mapM_reads, Hd.
    + intros [[H _]|[[_ (l1 & b & l2 & deps & x & E & Hd & Hu & ->)]|[_ (Ht & (deps & Hd) & ->)]]].
      * congruence.
      * left. apply mapM_err. exists l1, b, l2. split; [exact E|]. split; [apply parse_dependency_err, Hu|]. clear -Hd. induction Hd; constructor; eauto using parse_dependency_ok.
      * right. exists deps. split; [apply mapM_reads, Hd|]. apply trimmed_iff in Ht. rewrite <- Ht. reflexivity.
Qed.
(** FINDING: an identifier of blanks is an IndexError, not WrongDependencyFormatError *)
Example C30_case : no_bar (u " Coin ") [u "мн "] /\
  parse_substitution ru_unicode (variable (u " Coin ") [u "Мн "; []]) [] =
    Ok {| s_id := u "coin"; s_deps := [DProps (Properties [AProp NUMBER_PLURAL]); DProps []; DProps (Properties [AProp WORD_CASE_UPPER])] |} /\
  parse_substitution ru_unicode (u "[ |мн]") [] = Err IndexError /\
  parse_substitution ru_unicode (u "[|мн]") [] = Err (WrongDependencyFormatError (u "[|мн]")) /\
  parse_substitution ru_unicode (u "[a|мн,zz|yy]") [] = Err (UnknownVerboseIdError (u "zz")).
Proof. split; [constructor; [vm_compute; intuition discriminate|constructor; [vm_compute; intuition discriminate|constructor]]|]. vm_compute. auto. Qed.

(** ** C31 *)
Lemma identifiers_in l vs x : identifiers l vs -> In x l -> x = [] \/ exists v, x = verbose_id v.
Proof. induction 1 as [|l vs _ IH|v l vs _ IH]; intros H; [destruct H|..]; (destruct H as [<-|H]; [eauto|auto]). Qed.
Theorem C31_blank_in_list : forall U ext a bs b s elements x c, unicode_ok U -> no_bar a bs -> a <> [] ->
  In b bs -> trimmed U (u_lower U b) s -> ~ In s (dkeys ext) -> comma_list s elements -> In x elements -> In c x -> u_isspace U c = true ->
  exists y, parse_substitution U (variable a bs) ext = Err (UnknownVerboseIdError y).
Proof.
  intros U ext a bs b s l x c [_ HU] Hb Ha Hin Ht Hn Hl Hx Hc Hs.
  assert (Hunk : forall dep, ~ reads U ext b dep).
  { intros dep [name Ht' Hi|s' vs Ht' Hn' (l' & Hl' & Hids)]; apply trimmed_iff in Ht, Ht'; subst; [auto|]. apply comma_list_iff in Hl, Hl'. subst.
    destruct (identifiers_in _ _ _ Hids Hx) as [->|[v ->]]; [destruct Hc|]. assert (G := verbose_id_chars v). rewrite Forall_forall in G.
    rewrite (HU c (or_introl (G c Hc))) in Hs. discriminate. }
  destruct (first_failure (parse_dependency U ext) bs) as [[deps Hd]|(l1 & b' & l2 & deps & e & E & Hd & He)].
  - exfalso. clear -Hin Hd Hunk. induction Hd as [|y d l l' H _ IH]; [destruct Hin|]. destruct Hin as [->|Hin]; [|auto]. apply (Hunk d), parse_dependency_ok_iff, H.
  - apply parse_dependency_err_iff in He as (y & Hu & ->). exists y. apply C30_errors; [exact Hb|]. right. left. split; [exact Ha|].
    exists l1, b', l2, deps, y. split; [exact E|]. split; [|auto]. apply mapM_reads, mapM_ok, Hd.
Qed.
Theorem C31_outer_blanks : forall U ext a pre b post x y, no_bar a (pre ++ b :: post) -> no_bar a (pre ++ (x ++ b ++ y) :: post) ->
  Forall (fun c => u_isspace U c = true) x -> Forall (fun c => u_isspace U c = true) y ->
  u_lower U (x ++ b ++ y) = x ++ u_lower U b ++ y -> a <> [] ->
  parse_substitution U (variable a (pre ++ (x ++ b ++ y) :: post)) ext = parse_substitution U (variable a (pre ++ b :: post)) ext.
Proof.
  intros U ext a pre b post x y H1 H2 Hx Hy Hl Ha. rewrite !variable_is.
  rewrite (parse_substitution_parts U ext _ a (pre ++ (x ++ b ++ y) :: post)) by (try apply split_join; try discriminate; assumption).
  rewrite (parse_substitution_parts U ext _ a (pre ++ b :: post)) by (try apply split_join; try discriminate; assumption).
  rewrite !mapM_app. cbn [mapM]. assert (E : parse_dependency U ext (x ++ b ++ y) = parse_dependency U ext b); [|rewrite E; reflexivity].
  unfold parse_dependency. rewrite Hl. assert (Es : strip (u_isspace U) (x ++ u_lower U b ++ y) = strip (u_isspace U) (u_lower U b)); [|rewrite Es; reflexivity].
  destruct (strip_spec (u_isspace U) (u_lower U b)) as (x' & y' & E & Hx' & Hy' & Hm). rewrite E at 1. rewrite <- app_assoc.
  replace (x ++ x' ++ (strip (u_isspace U) (u_lower U b) ++ y') ++ y) with ((x ++ x') ++ strip (u_isspace U) (u_lower U b) ++ (y' ++ y)) by (rewrite <- !app_assoc; reflexivity).
  apply strip_unique; [apply Forall_app; auto|apply Forall_app; auto|exact Hm].
Qed.
Example C31_case : parse_substitution ru_unicode (variable (u "coin") [u "им, мн"]) [] = Err (UnknownVerboseIdError (u " мн")) /\
  parse_substitution ru_unicode (variable (u "coin") [u " им,мн "]) [] = parse_substitution ru_unicode (variable (u "coin") [u "им,мн"]) [] /\
  comma_list (u "им, мн") [u "им"; u " мн"].
Proof.
  split; [vm_compute; reflexivity|]. split; [vm_compute; reflexivity|]. apply comma_list_iff. vm_compute. reflexivity.
Qed.

(** ** C33 *)
(** what parse appends to the substitutions, and its outcome, depend on its arguments only; the old substitutions are kept *)
Theorem C33_old_substitutions_kept : forall U t text ext t' r, parse_template U t text ext = (t', r) ->
  exists new, parse_template U new_template text ext = ({| t_subs := new; t_text := match r with Ok _ => t_text t' | Err _ => None end |}, r) /\
    t_subs t' = t_subs t ++ new /\ (forall e, r = Err e -> t_text t' = t_text t).
Proof.
  intros U t text ext t' r E. destruct (cuts_exists text) as (ls & vs & Hc).
  destruct (parse_template_cuts U t text ext ls vs Hc) as [H1 H2]. destruct (parse_template_cuts U new_template text ext ls vs Hc) as [N1 N2].
  destruct (first_failure (fun v => parse_substitution U v ext) (map escape vs)) as [[new Hn]|(v1 & v & v2 & new & e & Ev & Hn & He)]; exists new.
  - rewrite (H1 new Hn) in E. injection E as <- <-. rewrite (N1 new Hn). split; [reflexivity|]. split; [reflexivity|discriminate].
  - rewrite (H2 _ _ _ _ _ Ev Hn He) in E. injection E as <- <-. rewrite (N2 _ _ _ _ _ Ev Hn He). auto.
Qed.
(** FINDING: so after a second parse substitute fails, when nothing else does *)
Theorem C33_second_parse_breaks : forall U t text ext t' U' ext' d, t_subs t <> [] -> parse_template U t text ext = (t', Ok tt) ->
  (forall s, In s (t_subs t') -> exists x, get_text U' s ext' d = Ok x) -> substitute U' t' ext' d = Err TypeError.
Proof.
  intros U t text ext t' U' ext' d Ht Hp Hok. destruct (cuts_exists text) as (ls & vs & Hc).
  destruct (parse_ok_inv U t text ext t' ls vs Hc Hp) as (new & Hn & ->). unfold substitute. cbn [t_subs t_text] in *.
  destruct (mapM_total (fun s => get_text U' s ext' d) (t_subs t ++ new) Hok) as [texts Hx]. rewrite Hx. cbn [bind].
  rewrite (py_format_weave _ _ (cuts_lengths _ _ _ Hc)). apply mapM_length in Hx. rewrite Hx, app_length.
  apply Forall2_length' in Hn. rewrite map_length in Hn. rewrite Hn. destruct (t_subs t); [congruence|].
  destruct (Nat.eqb_spec (length (s :: l) + length vs) (length vs)) as [E|]; [simpl in E; lia|reflexivity].
Qed.
Example C33_case : let t := fst (parse_template ru_unicode new_template (u "[a]") []) in
  let (t', r) := parse_template ru_unicode t (u "x [b|мн] y") [] in r = Ok tt /\ map s_id (t_subs t') = [u "a"; u "b"].
Proof. vm_compute. auto. Qed.

(** ** C39 *)
Lemma lower_strip U s : lower_ok U -> u_lower U (strip (u_isspace U) (u_lower U s)) = strip (u_isspace U) (u_lower U s).
Proof.
  intros [H1 H2]. destruct (strip_spec (u_isspace U) (u_lower U s)) as (x & y & E & _). assert (F := H1 s). rewrite E in F at 1. rewrite E in F at 2.
  apply H2 in F as [_ F]. apply H2 in F as [F _]. exact F.
Qed.
Theorem C39_lower_cased : forall U ext v s, lower_ok U -> is_variable v -> parse_substitution U v ext = Ok s ->
  u_lower U (s_id s) = s_id s /\ forall name, In (DExt name) (s_deps s) -> u_lower U name = name.
Proof.
  intros U ext v s HU Hv H. destruct (C30_every_variable v Hv) as (a & bs & -> & Hb). destruct a as [|c0 a0].
  { assert (E := proj2 (C30_errors U ext [] bs _ Hb) (or_introl (conj eq_refl eq_refl))). congruence. }
  rewrite variable_is, (parse_substitution_parts U ext _ (c0 :: a0) bs) in H by (try apply split_join; try discriminate; exact Hb).
  apply bind_ok in H as (deps & Hd & H). destruct (strip (u_isspace U) (c0 :: a0)) as [|c r]; [discriminate|]. injection H as <-. cbn [s_id s_deps]. split; [apply HU|].
  intros name Hin. apply in_app_or in Hin as [Hin|Hin]; [|destruct (u_isupper U c); [destruct Hin as [[=]|[]]|destruct Hin]].
  apply mapM_reads in Hd. clear -Hd Hin HU. induction Hd as [|b d l l' Hr _ IH]; [destruct Hin|]. destruct Hin as [->|Hin]; [|auto].
  inversion Hr as [n Ht Hi|]; subst. apply trimmed_iff in Ht. subst. apply lower_strip, HU.
Qed.
(** FINDING: a name with capital letters is never referred to *)
Theorem C39_capitals_unreachable : forall U ext text t name s, lower_ok U -> u_lower U name <> name ->
  parse_template U new_template text ext = (t, Ok tt) -> In s (t_subs t) -> s_id s <> name /\ ~ In (DExt name) (s_deps s).
Proof.
  intros U ext text t name s HU Hn Hp Hs. destruct (cuts_exists text) as (ls & vs & Hc).
  destruct (parse_ok_inv U new_template text ext t ls vs Hc Hp) as (new & Hnew & ->). cbn [t_subs new_template app] in Hs.
  assert (G : exists v, is_variable v /\ parse_substitution U v ext = Ok s).
  { assert (Hall : Forall is_variable (map escape vs)).
    { clear -Hc. induction Hc as [|l v t ls vs Hv _ _ IH]; [constructor|]. constructor; [apply escape_variable, Hv|exact IH]. }
    clear -Hnew Hs Hall. induction Hnew as [|v s' l l' H _ IH]; [destruct Hs|]. inversion Hall; subst. destruct Hs as [->|Hs]; eauto. }
  destruct G as (v & Hv & H). destruct (C39_lower_cased U ext v s HU Hv H) as [E1 E2]. split; [intros <-; auto|]. intros Hin. apply Hn, E2, Hin.
Qed.
(** a lower-case, trimmed name without delimiters is found, as an identifier and as a dependency *)
(** a template made of one variable *)
Lemma parse_one U ext x s : x <> [] -> ~ In RBR x -> ~ In PERCENT x -> parse_substitution U (LBR :: x ++ [RBR]) ext = Ok s ->
  parse_template U new_template ([LBR] ++ x ++ [RBR]) ext = ({| t_subs := [s]; t_text := Some (u "%s") |}, Ok tt).
Proof.
  intros H1 H2 H3 Hs. assert (Hv : is_variable ([LBR] ++ x ++ [RBR])) by (exists x; auto).
  assert (Hc : cuts ([LBR] ++ x ++ [RBR]) [[]; []] [[LBR] ++ x ++ [RBR]]).
  { replace ([LBR] ++ x ++ [RBR]) with ([] ++ ([LBR] ++ x ++ [RBR]) ++ []) at 1 by (rewrite app_nil_r; reflexivity).
    apply cuts_closed; [exact Hv|intros p q E; destruct p; discriminate|]. apply no_variables_ok. reflexivity. }
  assert (E := proj1 (parse_template_cuts U new_template _ ext _ _ Hc) [s]). rewrite E; [reflexivity|]. constructor; [|constructor].
  rewrite escape_id; [exact Hs|]. intros H. cbn [app] in H. destruct H as [H|H]; [discriminate|]. apply in_app_or in H as [H|[H|[]]]; [auto|discriminate].
Qed.
Theorem C39_reachable : forall U ext name, name <> [] -> u_lower U name = name -> trimmed U name name ->
  (forall c, In c name -> ~ In c (u "|]%")) ->
  exists s, parse_template U new_template ([LBR] ++ name ++ [RBR]) ext = ({| t_subs := [s]; t_text := Some (u "%s") |}, Ok tt) /\ s_id s = name /\
    (In name (dkeys ext) -> exists s', parse_template U new_template ([LBR] ++ name ++ [BAR] ++ name ++ [RBR]) ext =
       ({| t_subs := [s']; t_text := Some (u "%s") |}, Ok tt) /\ s_id s' = name /\ In (DExt name) (s_deps s')).
Proof.
  intros U ext name Hne Hl Ht Hd.
  assert (Hbar : ~ In BAR name) by (intros H; apply (Hd _ H); left; reflexivity).
  assert (Hrbr : ~ In RBR name) by (intros H; apply (Hd _ H); right; left; reflexivity).
  assert (Hper : ~ In PERCENT name) by (intros H; apply (Hd _ H); right; right; left; reflexivity).
  assert (P := parse_one U ext).
  destruct name as [|c r]; [congruence|]. set (name := c :: r) in *.
  eexists. split; [|split].
  - apply P; [exact Hne|exact Hrbr|exact Hper|]. assert (E := C30_parsed U ext name [] c r [] ltac:(constructor; [exact Hbar|constructor]) Ht ltac:(constructor)). exact E.
  - exact Hl.
  - intros Hin. eexists. split; [|split].
    + change ([LBR] ++ name ++ [BAR] ++ name ++ [RBR]) with ([LBR] ++ name ++ ([BAR] ++ name) ++ [RBR]). rewrite (app_assoc name). apply P.
      * discriminate.
      * rewrite !in_app_iff. simpl. intros [H|[[H|[]]|H]]; [exact (Hrbr H)|discriminate|exact (Hrbr H)].
      * rewrite !in_app_iff. simpl. intros [H|[[H|[]]|H]]; [exact (Hper H)|discriminate|exact (Hper H)].
      * assert (E := C30_parsed U ext name [name] c r [DExt name] ltac:(constructor; [exact Hbar|constructor; [exact Hbar|constructor]]) Ht).
        rewrite variable_is in E. cbn [join] in E. change (LBR :: (name ++ [BAR] ++ name) ++ [RBR]) with (LBR :: (name ++ [BAR] ++ name) ++ [RBR]). apply E.
        constructor; [|constructor]. apply reads_external; [rewrite Hl; exact Ht|exact Hin].
    + exact Hl.
    + left. reflexivity.
Qed.
Lemma app_inv_length {A} (a b a' b' : list A) : a ++ b = a' ++ b' -> length a = length a' -> a = a' /\ b = b'.
Proof.
  intros E L. destruct (app_length_split _ _ _ _ E) as (m & -> & ->); [lia|]. rewrite app_length in L. destruct m; [rewrite app_nil_r; auto|simpl in L; lia].
Qed.
Lemma ru_lower_ok : lower_ok ru_unicode.
Proof.
  assert (I : forall c, ru_lower_char (ru_lower_char c) = ru_lower_char c).
  { intros c. unfold ru_lower_char.
    destruct (N.leb_spec 65 c), (N.leb_spec c 90), (N.leb_spec 1040 c), (N.leb_spec c 1071), (N.eqb_spec c 1025); cbn [andb];
    repeat match goal with |- context [N.leb ?a ?b] => destruct (N.leb_spec a b) | |- context [N.eqb ?a ?b] => destruct (N.eqb_spec a b) end; cbn [andb]; lia. }
  split.
  - intros s. simpl. rewrite map_map. apply map_ext. exact I.
  - intros a b. simpl. rewrite map_app. split.
    + intros E. apply app_inv_length in E; [exact E|apply map_length].
    + intros [-> ->]. reflexivity.
Qed.
Example C39_case : lower_ok ru_unicode /\ u_lower ru_unicode (u "Герой") <> u "Герой" /\
  u_lower ru_unicode (u "герой") = u "герой" /\ trimmed ru_unicode (u "герой") (u "герой").
Proof.
  split; [exact ru_lower_ok|]. split; [vm_compute; discriminate|]. split; [vm_compute; reflexivity|]. apply trimmed_iff. vm_compute. reflexivity.
Qed.
