(** * PropLexicon: C24-C26.  Keys K, templates T, restrictions R are arbitrary types; keqb and reqb are equality. *)
From Coq Require Import Lia.
From Verif Require Import PyBase Lexicon PyBaseFacts WordFacts SpecLists.

Section Statements.
  Context {K T R : Type} (keqb : K -> K -> bool) (reqb : R -> R -> bool).
  Hypothesis (keqb_ok : eqb_ok keqb) (reqb_ok : eqb_ok reqb).

  (** a history of add_template(key, template, restrictions) calls on a new lexicon *)
  Definition call : Type := (K * T) * list R.
  Definition lex_after (h : list call) : lexicon K T R :=
    fold_left (fun l (c : call) => add_template keqb l (fst (fst c)) (snd (fst c)) (snd c)) h empty_lexicon.
  (** added under the key, with restrictions inside of the given ones *)
  Definition admissible (key : K) (restrictions : list R) (c : call) : Prop := fst (fst c) = key /\ incl (snd c) restrictions.
  (** ... and no admissible call has more restrictions *)
  Definition nearest_call (h : list call) (key : K) (restrictions : list R) (c : call) : Prop :=
    admissible key restrictions c /\
    forall c' n n', In c' h -> admissible key restrictions c' -> set_size (snd c) n -> set_size (snd c') n' -> n' <= n.

  Lemma add_template_get (l : lexicon K T R) k t r k' : dget keqb k' (add_template keqb l k t r) =
    if keqb k k' then Some (match dget keqb k l with Some ts => ts | None => [] end ++ [(t, r)]) else dget keqb k' l.
  Proof.
    unfold add_template, dmem. destruct (dget keqb k l) as [ts|] eqn:E.
    - rewrite E, (dget_dset _ keqb_ok). reflexivity.
    - rewrite (dget_dset_same _ keqb_ok), (dget_dset _ keqb_ok). destruct (keqb k k') eqn:Ek; [reflexivity|].
      rewrite (dget_dset _ keqb_ok), Ek. reflexivity.
  Qed.
  Lemma lex_after_snoc h c : lex_after (h ++ [c]) = add_template keqb (lex_after h) (fst (fst c)) (snd (fst c)) (snd c).
  Proof. unfold lex_after. rewrite fold_left_app. reflexivity. Qed.
  Definition under (key : K) (c : call) : bool := keqb (fst (fst c)) key.
  Lemma lex_after_get h key : dget keqb key (lex_after h) =
    match filter (under key) h with [] => None | l => Some (map (fun c : call => (snd (fst c), snd c)) l) end.
  Proof.
    induction h as [|c h IH] using rev_ind; [reflexivity|].
    rewrite lex_after_snoc, add_template_get, filter_app. cbn [filter]. destruct (keqb (fst (fst c)) key) eqn:E.
    - unfold under at 2. rewrite E. apply keqb_ok in E. rewrite E, IH. destruct (filter (under key) h) as [|x l]; [reflexivity|].
      change ((x :: l) ++ [c]) with (x :: (l ++ [c])). simpl. rewrite map_app. reflexivity.
    - unfold under at 2. rewrite E, app_nil_r. exact IH.
  Qed.
  Lemma lex_after_entries h key : entries keqb (lex_after h) key = map (fun c : call => (snd (fst c), snd c)) (filter (under key) h).
  Proof. unfold entries. rewrite lex_after_get. destruct (filter (under key) h); reflexivity. Qed.
  Lemma issubset_iff a b : issubset reqb a b = true <-> incl a b.
  Proof. unfold issubset, incl. rewrite forallb_forall. split; intros H x Hx; apply (mem_iff _ reqb_ok), H, Hx. Qed.
  Lemma map_filter_comm {A B} (f : A -> B) (p : B -> bool) l : filter p (map f l) = map f (filter (fun a => p (f a)) l).
  Proof. induction l as [|a l IH]; simpl; [reflexivity|]. destruct (p (f a)); simpl; rewrite IH; reflexivity. Qed.
  Lemma filter_filter {A} (p q : A -> bool) l : filter p (filter q l) = filter (fun a => q a && p a) l.
  Proof. induction l as [|a l IH]; simpl; [reflexivity|]. destruct (q a); simpl; [destruct (p a); rewrite IH; reflexivity|exact IH]. Qed.

  (** ** C24 *)
  Theorem C24_get_templates : forall h key restrictions,
    selected (admissible key restrictions) (fun c => snd (fst c)) h (get_templates keqb reqb (lex_after h) key restrictions).
  Proof.
    intros h key restrictions. unfold get_templates. rewrite lex_after_entries, map_filter_comm, map_map, filter_filter.
    cbn [fst snd]. apply selected_filter. intros c _. unfold under, admissible. rewrite andb_true_iff, issubset_iff, (keqb_ok _ _). reflexivity.
  Qed.
  Theorem C24_has_key : forall h key, has_key keqb (lex_after h) key = true <-> exists c, In c h /\ fst (fst c) = key.
  Proof.
    intros h key. unfold has_key, dmem. rewrite lex_after_get. assert (H : forall c, In c (filter (under key) h) <-> In c h /\ fst (fst c) = key).
    { intros c. rewrite filter_In. unfold under. rewrite (keqb_ok _ _). reflexivity. }
    destruct (filter (under key) h) as [|c l].
    - split; [discriminate|]. intros (c & H1 & H2). destruct (proj2 (H c) (conj H1 H2)).
    - split; [|reflexivity]. intros _. exists c. apply H. left; reflexivity.
  Qed.
  (** adding under one key does not change the answers for another *)
  Theorem C24_keys_independent : forall h c key restrictions, fst (fst c) <> key ->
    get_templates keqb reqb (lex_after (h ++ [c])) key restrictions = get_templates keqb reqb (lex_after h) key restrictions /\
    has_key keqb (lex_after (h ++ [c])) key = has_key keqb (lex_after h) key.
  Proof.
    intros h c key restrictions Hn. assert (E : dget keqb key (lex_after (h ++ [c])) = dget keqb key (lex_after h)).
    { rewrite lex_after_snoc, add_template_get. rewrite (proj1 (eqb_ok_neq _ keqb_ok _ _) Hn). reflexivity. }
    unfold get_templates, entries, has_key, dmem. rewrite E. auto.
  Qed.

  (** ** C25 *)
  Lemma distinct_spec (a : list R) : NoDup (distinct reqb a) /\ forall x, In x (distinct reqb a) <-> In x a.
  Proof.
    induction a as [|x a [IH1 IH2]]; simpl; [split; [constructor|tauto]|]. destruct (mem reqb x a) eqn:E.
    - apply (mem_iff _ reqb_ok) in E. split; [exact IH1|]. intros y. rewrite IH2. split; [auto|]. intros [<-|H]; [exact E|exact H].
    - apply (mem_false _ reqb_ok) in E. split; [constructor; [rewrite IH2; exact E|exact IH1]|]. intros y. simpl. rewrite IH2. tauto.
  Qed.
  Lemma len_intersection_size a b : incl a b -> set_size a (len_intersection reqb a b).
  Proof.
    intros H. unfold len_intersection. destruct (distinct_spec (filter (fun x => mem reqb x b) a)) as [H1 H2].
    eexists. split; [exact H1|]. split; [|reflexivity]. intros x. rewrite H2, filter_In, (mem_iff _ reqb_ok). split; [tauto|]. intros Hx. auto.
  Qed.
  Lemma nearest_fold rs (es : list (T * list R)) : 
    fold_left (nearest_templates_step reqb rs) es ([], (-1)%Z) =
    (map (fun tr => (fst tr, Z.of_nat (len_intersection reqb (snd tr) rs))) (filter (fun tr => issubset reqb (snd tr) rs) es),
     fold_right Z.max (-1)%Z (map (fun tr => Z.of_nat (len_intersection reqb (snd tr) rs)) (filter (fun tr => issubset reqb (snd tr) rs) es))).
  Proof.
    induction es as [|[t r] es IH] using rev_ind; [reflexivity|]. rewrite fold_left_app, IH. cbn [fold_left]. unfold nearest_templates_step.
    cbn [fst snd]. rewrite filter_app. cbn [filter fst snd]. destruct (issubset reqb r rs); cbn [negb].
    - rewrite !map_app, fold_right_app. cbn [map fold_right fst snd]. f_equal.
      assert (G : forall l x, fold_right Z.max (Z.max x (-1)) l = Z.max x (fold_right Z.max (-1)%Z l)).
      { induction l as [|y l IHl]; intros x; simpl; [reflexivity|]. rewrite IHl. lia. }
      rewrite G. destruct (Z.ltb_spec (fold_right Z.max (-1)%Z (map (fun tr : T * list R => Z.of_nat (len_intersection reqb (snd tr) rs)) (filter (fun tr : T * list R => issubset reqb (snd tr) rs) es))) (Z.of_nat (len_intersection reqb r rs))); lia.
    - rewrite app_nil_r. reflexivity.
  Qed.
  Lemma fold_max_spec l : (forall x, In x l -> (0 <= x)%Z) -> (forall x, In x l -> (x <= fold_right Z.max (-1) l)%Z) /\ (l <> [] -> In (fold_right Z.max (-1)%Z l) l).
  Proof.
    induction l as [|y l IH]; intros Hp; simpl; [split; [intros x []|congruence]|].
    destruct IH as [IH1 IH2]; [intros x Hx; apply Hp; right; exact Hx|]. split.
    - intros x [<-|H]; [lia|]. specialize (IH1 x H). lia.
    - intros _. specialize (Hp y (or_introl eq_refl)). destruct l as [|z l]; [left; simpl; lia|].
      specialize (IH2 ltac:(discriminate)). destruct (Z.max_spec y (fold_right Z.max (-1)%Z (z :: l))) as [[_ ->]|[_ ->]]; [right; exact IH2|left; reflexivity].
  Qed.
  Theorem C25_nearest_templates : forall h key restrictions,
    selected (nearest_call h key restrictions) (fun c => snd (fst c)) h (get_nearest_templates keqb reqb (lex_after h) key restrictions).
  Proof.
    intros h key rs. unfold get_nearest_templates. rewrite nearest_fold. cbn [fst snd].
    rewrite lex_after_entries, map_filter_comm, !map_filter_comm, !map_map, !filter_filter. cbn [fst snd].
    set (best := fold_right Z.max (-1)%Z _). apply selected_filter. intros c Hc.
    assert (Hadm : forall c, (under key c && issubset reqb (snd c) rs)%bool = true <-> admissible key rs c).
    { intros c'. unfold under, admissible. rewrite andb_true_iff, issubset_iff, (keqb_ok _ _). reflexivity. }
    assert (Hbest := fold_max_spec (map (fun c : call => Z.of_nat (len_intersection reqb (snd c) rs)) (filter (fun a => under key a && issubset reqb (snd a) rs) h))).
    fold best in Hbest. destruct Hbest as [Hge Hin]; [intros x Hx; apply in_map_iff in Hx as (y & <- & _); lia|].
    rewrite andb_assoc, andb_true_iff, Hadm, Z.eqb_eq. unfold nearest_call. split.
    - intros [Ha E]. split; [exact Ha|]. intros c' n n' Hc' Ha' Hn Hn'.
      rewrite (set_size_fun _ _ _ Hn (len_intersection_size _ _ (proj2 Ha))), (set_size_fun _ _ _ Hn' (len_intersection_size _ _ (proj2 Ha'))).
      assert (Z.of_nat (len_intersection reqb (snd c') rs) <= best)%Z; [|lia]. apply Hge. apply in_map_iff. exists c'. split; [reflexivity|].
      apply filter_In. split; [exact Hc'|apply Hadm, Ha'].
    - intros [Ha Hmax]. split; [exact Ha|].
      assert (Hne : map (fun c : call => Z.of_nat (len_intersection reqb (snd c) rs)) (filter (fun a => under key a && issubset reqb (snd a) rs) h) <> []).
      { intros E. apply map_eq_nil in E. assert (G : In c (filter (fun a => under key a && issubset reqb (snd a) rs) h)) by (apply filter_In; split; [exact Hc|apply Hadm, Ha]).
        rewrite E in G. destruct G. }
      specialize (Hin Hne). apply in_map_iff in Hin as (c' & E & Hc'). apply filter_In in Hc' as [Hc' Ha']. apply Hadm in Ha'.
      assert (L := Hmax c' _ _ Hc' Ha' (len_intersection_size _ _ (proj2 Ha)) (len_intersection_size _ _ (proj2 Ha'))).
      assert (Z.of_nat (len_intersection reqb (snd c) rs) <= best)%Z; [|lia]. apply Hge. apply in_map_iff. exists c. split; [reflexivity|].
      apply filter_In. split; [exact Hc|apply Hadm, Ha].
  Qed.
  Lemma exists_max (l : list call) : l <> [] -> (forall c, In c l -> exists n, set_size (snd c) n) ->
    exists c, In c l /\ forall c' n n', In c' l -> set_size (snd c) n -> set_size (snd c') n' -> n' <= n.
  Proof.
    induction l as [|c l IH]; intros Hne Hsz; [congruence|]. destruct (Hsz c (or_introl eq_refl)) as [n Hn].
    destruct l as [|c2 l].
    - exists c. split; [left; reflexivity|]. intros c' m m' [<-|[]] H H'. rewrite (set_size_fun _ _ _ H H'). lia.
    - destruct IH as (cm & Hcm & Hmax); [discriminate|intros x Hx; apply Hsz; right; exact Hx|]. destruct (Hsz cm (or_intror Hcm)) as [nm Hnm].
      destruct (Nat.le_gt_cases nm n) as [L|L].
      + exists c. split; [left; reflexivity|]. intros c' m m' [<-|H'] Hm Hm'; [rewrite (set_size_fun _ _ _ Hm Hm'); lia|].
        rewrite (set_size_fun _ _ _ Hm Hn). specialize (Hmax c' nm m' H' Hnm Hm'). lia.
      + exists cm. split; [right; exact Hcm|]. intros c' m m' [<-|H'] Hm Hm'; [|exact (Hmax c' m m' H' Hm Hm')].
        rewrite (set_size_fun _ _ _ Hm Hnm), (set_size_fun _ _ _ Hm' Hn). lia.
  Qed.
  Theorem C25_candidates_exist : forall h key restrictions,
    get_nearest_templates keqb reqb (lex_after h) key restrictions = [] <-> (forall c, In c h -> ~ admissible key restrictions c).
  Proof.
    intros h key rs. assert (H := selected_in _ _ _ _ (C25_nearest_templates h key rs)). split.
    - intros E c Hc Ha. rewrite E in H.
      set (l := filter (fun a : call => under key a && issubset reqb (snd a) rs) h).
      assert (Hadm : forall c, In c l <-> In c h /\ admissible key rs c).
      { intros c'. unfold l. rewrite filter_In. unfold under, admissible. rewrite andb_true_iff, issubset_iff, (keqb_ok _ _). reflexivity. }
      destruct (exists_max l) as (cm & Hcm & Hmax).
      + intros El. assert (In c l) by (apply Hadm; auto). rewrite El in H0. destruct H0.
      + intros c' Hc'. eexists. apply (len_intersection_size _ rs). apply Hadm in Hc'. apply Hc'.
      + apply (H (snd (fst cm))). apply Hadm in Hcm as [Hc1 Hc2]. exists cm. split; [exact Hc1|]. split; [|reflexivity]. split; [exact Hc2|].
        intros c' n n' Hc' Ha' Hn Hn'. apply (Hmax c' n n'); [apply Hadm; auto|exact Hn|exact Hn'].
    - intros Hno. destruct (get_nearest_templates keqb reqb (lex_after h) key rs) as [|t l]; [reflexivity|].
      destruct (proj1 (H t) (or_introl eq_refl)) as (c & Hc & [Ha _] & _). destruct (Hno c Hc Ha).
  Qed.

  (** ** C26 *)
  Lemma choice_spec {A} rnd (l : list A) : l <> [] -> exists a, choice rnd l = Ok a /\ In a l.
  Proof.
    intros H. unfold choice. destruct (py_nth_lt l (Nat.modulo rnd (length l))) as (a & Ha & Hin); [|eauto].
    apply Nat.mod_upper_bound. destruct l; [congruence|discriminate].
  Qed.
  Lemma choice_all {A} (l : list A) a : In a l -> exists rnd, choice rnd l = Ok a.
  Proof.
    intros H. apply In_nth_error in H as [i Hi]. exists i. unfold choice. rewrite Nat.mod_small; [apply py_nth_ok, Hi|].
    apply nth_error_Some. congruence.
  Qed.
  (** both selections: [candidates] is get_templates resp. the nearest templates of C25 *)
  Definition selection (rnd : nat) (nearest : bool) (h : list call) (key : K) (restrictions : list R) : result T :=
    if nearest then get_random_nearest_template keqb reqb rnd (lex_after h) key restrictions
    else get_random_template keqb reqb rnd (lex_after h) key restrictions.
  Definition qualifies (nearest : bool) (h : list call) (key : K) (restrictions : list R) (c : call) : Prop :=
    if nearest then nearest_call h key restrictions c else admissible key restrictions c.
  Theorem C26_selection : forall nearest h key restrictions,
    (forall rnd t, selection rnd nearest h key restrictions = Ok t ->
       exists c, In c h /\ qualifies nearest h key restrictions c /\ snd (fst c) = t) /\
    (forall c, In c h -> qualifies nearest h key restrictions c -> exists rnd, selection rnd nearest h key restrictions = Ok (snd (fst c))).
  Proof.
    intros nearest h key rs.
    assert (G : forall rnd, selection rnd nearest h key rs =
      if negb (has_key keqb (lex_after h) key) then Err UnknownLexiconKeyError
      else match (if nearest then get_nearest_templates keqb reqb (lex_after h) key rs else get_templates keqb reqb (lex_after h) key rs) with
           | [] => Err NoTemplatesWithSpecifiedRestrictions
           | candidates => choice rnd candidates
           end) by (intros rnd; destruct nearest; reflexivity).
    assert (Hin : forall t, In t (if nearest then get_nearest_templates keqb reqb (lex_after h) key rs else get_templates keqb reqb (lex_after h) key rs) <->
      exists c, In c h /\ qualifies nearest h key rs c /\ snd (fst c) = t).
    { intros t. destruct nearest; [apply (selected_in _ _ _ _ (C25_nearest_templates h key rs))|apply (selected_in _ _ _ _ (C24_get_templates h key rs))]. }
    set (cands := if nearest then _ else _) in *. split.
    - intros rnd t H. rewrite G in H. destruct (negb _); [discriminate|]. apply Hin.
      destruct cands as [|t0 l] eqn:E; [discriminate|]. destruct (choice_spec rnd (t0 :: l)) as (a & Ha & Hl); [discriminate|]. rewrite H in Ha. injection Ha as ->. exact Hl.
    - intros c Hc Hq. assert (Ht : In (snd (fst c)) cands) by (apply Hin; eauto). destruct (choice_all cands _ Ht) as [rnd Hr].
      exists rnd. rewrite G. assert (Hk : has_key keqb (lex_after h) key = true).
      { apply C24_has_key. exists c. split; [exact Hc|]. destruct nearest; [apply Hq|apply Hq]. }
      rewrite Hk. simpl. destruct cands; [destruct Ht|exact Hr].
  Qed.
  Lemma positions {A} (l : list A) : forall pre, map (fun i => py_nth (pre ++ l) i) (seq (length pre) (length l)) = map Ok l.
  Proof.
    induction l as [|a l IH]; intros pre; [reflexivity|]. cbn [length seq map]. f_equal.
    - apply py_nth_ok. rewrite nth_error_app2, Nat.sub_diag by lia. reflexivity.
    - specialize (IH (pre ++ [a])). rewrite app_length, Nat.add_comm in IH. cbn [length Nat.add] in IH. rewrite <- app_assoc in IH. exact IH.
  Qed.
  (** the random generator picks a position; all positions are equally likely outcomes, so a template is chosen in proportion
      to the number of qualifying calls that added it *)
  Theorem C26_uniform : forall nearest h key restrictions candidates,
    selected (qualifies nearest h key restrictions) (fun c => snd (fst c)) h candidates -> candidates <> [] ->
    map (fun rnd => selection rnd nearest h key restrictions) (seq 0 (length candidates)) = map Ok candidates /\
    forall rnd, selection rnd nearest h key restrictions = selection (rnd mod length candidates) nearest h key restrictions.
  Proof.
    intros nearest h key rs cands Hs Hne.
    assert (E : cands = if nearest then get_nearest_templates keqb reqb (lex_after h) key rs else get_templates keqb reqb (lex_after h) key rs).
    { destruct nearest; [apply (selected_fun _ _ _ _ _ Hs (C25_nearest_templates h key rs))|apply (selected_fun _ _ _ _ _ Hs (C24_get_templates h key rs))]. }
    assert (Hk : has_key keqb (lex_after h) key = true).
    { destruct cands as [|t l]; [contradiction|].
      destruct (proj1 (selected_in _ _ _ _ Hs t) (or_introl eq_refl)) as (c & Hc & Hq & _). apply C24_has_key. exists c. split; [exact Hc|].
      destruct nearest; apply Hq. }
    assert (G : forall rnd, selection rnd nearest h key rs = choice rnd cands).
    { intros rnd. transitivity (if negb (has_key keqb (lex_after h) key) then Err UnknownLexiconKeyError
      else match (if nearest then get_nearest_templates keqb reqb (lex_after h) key rs else get_templates keqb reqb (lex_after h) key rs) with
           | [] => Err NoTemplatesWithSpecifiedRestrictions
           | candidates => choice rnd candidates
           end); [destruct nearest; reflexivity|]. rewrite Hk, <- E. destruct cands; [contradiction|reflexivity]. }
    assert (Hl : length cands <> 0) by (destruct cands; [contradiction|discriminate]). split.
    - rewrite (map_ext _ (fun rnd => choice rnd cands) G). unfold choice.
      rewrite (map_ext_in _ (fun i => py_nth cands i)) by (intros i Hi; apply in_seq in Hi; rewrite Nat.mod_small by lia; reflexivity).
      exact (positions cands []).
    - intros rnd. rewrite !G. unfold choice. rewrite Nat.mod_mod by exact Hl. reflexivity.
  Qed.
  Theorem C26_errors : forall rnd nearest h key restrictions e,
    selection rnd nearest h key restrictions = Err e <->
    (e = UnknownLexiconKeyError /\ forall c, In c h -> fst (fst c) <> key) \/
    (e = NoTemplatesWithSpecifiedRestrictions /\ (exists c, In c h /\ fst (fst c) = key) /\ forall c, In c h -> ~ admissible key restrictions c).
  Proof.
    intros rnd nearest h key rs e.
    assert (Hk := C24_has_key h key).
    assert (Hn : (if nearest then get_nearest_templates keqb reqb (lex_after h) key rs else get_templates keqb reqb (lex_after h) key rs) = [] <->
                 forall c, In c h -> ~ admissible key rs c).
    { destruct nearest; [apply C25_candidates_exist|]. assert (H := selected_in _ _ _ _ (C24_get_templates h key rs)). split.
      - intros E c Hc Ha. rewrite E in H. apply (H (snd (fst c))). eauto.
      - intros Hno. destruct (get_templates _ _ _ _ _) as [|t l]; [reflexivity|]. destruct (proj1 (H t) (or_introl eq_refl)) as (c & Hc & Ha & _). destruct (Hno c Hc Ha). }
    assert (G : selection rnd nearest h key rs =
      if negb (has_key keqb (lex_after h) key) then Err UnknownLexiconKeyError
      else match (if nearest then get_nearest_templates keqb reqb (lex_after h) key rs else get_templates keqb reqb (lex_after h) key rs) with
           | [] => Err NoTemplatesWithSpecifiedRestrictions
           | candidates => choice rnd candidates
           end) by (destruct nearest; reflexivity).
    rewrite G. clear G. set (cands := if nearest then _ else _) in *. destruct (has_key keqb (lex_after h) key); simpl.
    - assert (Hex := proj1 Hk eq_refl). destruct cands as [|t l].
      + split; [intros [= <-]; right; split; [reflexivity|split; [exact Hex|apply Hn; reflexivity]]|].
        intros [[_ H]|[-> _]]; [|reflexivity]. destruct Hex as (c & Hc & E). destruct (H c Hc E).
      + destruct (choice_spec rnd (t :: l)) as (a & -> & _); [discriminate|]. split; [discriminate|].
        intros [[_ H]|(_ & _ & H)]; [destruct Hex as (c & Hc & E); destruct (H c Hc E)|]. apply Hn in H. discriminate.
    - split; [intros [= <-]; left; split; [reflexivity|]|].
      + intros c Hc E. assert (false = true) by (apply Hk; eauto). discriminate.
      + intros [[-> _]|(_ & (c & Hc & E) & _)]; [reflexivity|]. assert (false = true) by (apply Hk; eauto). discriminate.
  Qed.
End Statements.

(** non-vacuity: keys, templates and restrictions are numbers *)
Definition calls1 : list (@call nat nat nat) := [((1, 10), [5; 6]); ((2, 11), []); ((1, 12), [5]); ((1, 13), [6; 5]); ((1, 14), [7]); ((1, 12), [5])].
Example C24_case : get_templates Nat.eqb Nat.eqb (lex_after Nat.eqb calls1) 1 [5; 6] = [10; 12; 13; 12] /\
  has_key Nat.eqb (lex_after Nat.eqb calls1) 3 = false.
Proof. vm_compute. auto. Qed.
Example C25_case : get_nearest_templates Nat.eqb Nat.eqb (lex_after Nat.eqb calls1) 1 [6; 5; 8] = [10; 13] /\
  get_nearest_templates Nat.eqb Nat.eqb (lex_after Nat.eqb calls1) 1 [5] = [12; 12].
Proof. vm_compute. auto. Qed.
Example C26_case : eqb_ok Nat.eqb /\ selection Nat.eqb Nat.eqb 1 true calls1 1 [5; 6] = Ok 13 /\ selection Nat.eqb Nat.eqb 1 false calls1 2 [5; 6] = Ok 11 /\
  selection Nat.eqb Nat.eqb 0 true calls1 1 [8] = Err NoTemplatesWithSpecifiedRestrictions /\ selection Nat.eqb Nat.eqb 0 true calls1 4 [8] = Err UnknownLexiconKeyError.
Proof. split; [exact Nat.eqb_eq|]. vm_compute. auto. Qed.
(** template 12 was added twice under key 1 *)
Example C26_uniform_case : exists candidates, selected (qualifies false calls1 1 [5; 6]) (fun c => snd (fst c)) calls1 candidates /\ candidates = [10; 12; 13; 12].
Proof.
  eexists. split; [|reflexivity]. assert (S := C24_get_templates Nat.eqb Nat.eqb Nat.eqb_eq Nat.eqb_eq calls1 1 [5; 6]).
  rewrite (proj1 C24_case) in S. exact S.
Qed.
