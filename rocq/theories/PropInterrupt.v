(** * PropInterrupt: C87, calls that are interrupted *)
From Coq Require Import Lia.
From Verif Require Import PyBase PyBaseFacts Relations Logic Data Words Constructors Dictionary Lexicon Templates Lazy Concurrent TemplateThreads Interrupt
  SpecProps PropsFacts SpecSlots LookupFacts SlotFacts SpecDictionary SpecTemplates SpecIntegers WordFacts DictFacts LexThreadFacts InterruptFacts SpecInterrupt TemplateFacts SubstFacts CaseTools PropWords PropSlots PropDictionary PropSyntax PropIntegers PropLazy.

(** ** the dictionary *)
(** a load that was interrupted any number of times, at any points, and is then repeated gives exactly what an undisturbed load gives, outcome included *)
Theorem C87_load_again : forall U ws d crashes, Forall is_word ws -> add_words U (attempts U ws d crashes) ws = add_words U d ws.
Proof.
  intros U ws d crashes Hw. unfold attempts. revert d. induction crashes as [|n crashes IH]; intros d; [reflexivity|]. cbn [fold_left]. rewrite IH.
  rewrite !(add_words_regs U ws Hw). destruct (loaded_part U ws d n Hw) as (P & Q & E & H). rewrite E. apply regs_resume, H.
Qed.
(** the same for one word *)
Theorem C87_add_word_again : forall U w d crashes, is_word w -> add_word U (attempts U [w] d crashes) w = add_word U d w.
Proof.
  intros U w d crashes Hw. assert (H := C87_load_again U [w] d crashes (Forall_cons w Hw (Forall_nil _))). cbn [add_words] in H.
  destruct (add_word U (attempts U [w] d crashes) w) as [d1 [[]|e1]], (add_word U d w) as [d2 [[]|e2]]; congruence.
Qed.
(** what a caller sees of the interrupted load: an entry is an old one or a form of one of the words, under its own text; nothing is forgotten; nothing is known
    that the whole load would not know; the entry of the whole load is the same one or a better one *)
Theorem C87_meanwhile : forall U ws d n, Forall is_word ws -> let D := interrupted_load U ws d n in
  (forall t f, get_word D t = Ok f -> get_word d t = Ok f \/ (wf_form U f = Ok t /\ exists w l, In w ws /\ all_forms w = Ok l /\ In f l)) /\
  (forall t f, get_word d t = Ok f -> exists f', get_word D t = Ok f' /\ (f' = f \/ preferred f' f)) /\
  (forall t f, get_word D t = Ok f -> exists f', get_word (fst (add_words U d ws)) t = Ok f' /\ (f' = f \/ preferred f' f)).
Proof.
  intros U ws d n Hw D. destruct (loaded_part U ws d n Hw) as (P & Q & E & H). fold D in H.
  assert (G : forall (x : dictionary) t f, get_word x t = Ok f <-> dget str_eqb t x = Some f) by (intros x t f; unfold get_word; destruct (dget str_eqb t x); split; congruence).
  split; [|split].
  - intros t f Hf. apply G in Hf. destruct (regs_origin U P d D _ t f H Hf) as [H1|[H1 H2]]; [left; apply G, H1|]. right. split; [exact H2|].
    assert (Hin : In f (all_the_forms ws)) by (rewrite E; apply in_or_app; auto). unfold all_the_forms in Hin. apply in_concat in Hin as (l & Hl & Hf'). apply in_map_iff in Hl as (w & <- & Hw').
    exists w, (word_forms w). split; [exact Hw'|]. split; [|exact Hf']. apply all_forms_eq. rewrite Forall_forall in Hw. apply Hw, Hw'.
  - intros t f Hf. apply G in Hf. destruct (regs_better U P d D _ t f H Hf) as (f' & H1 & H2). exists f'. split; [apply G, H1|exact H2].
  - intros t f Hf. apply G in Hf. rewrite (add_words_regs U ws Hw), E, <- (regs_resume U d P Q D H). destruct (regs U D (P ++ Q)) as [D' r] eqn:R. destruct (regs_better U _ D D' r t f R Hf) as (f' & H1 & H2).
    exists f'. split; [apply G, H1|exact H2].
Qed.

(** ** the lexicon *)
Section Lexicon.
  Context {K T R : Type} (keqb : K -> K -> bool) (reqb : R -> R -> bool) (keqb_ok : eqb_ok keqb) (reqb_ok : eqb_ok reqb).
  Lemma created_entries (l : lexicon K T R) key k : entries keqb (created keqb l key) k = entries keqb l k.
  Proof.
    unfold created. destruct (dmem keqb key l) eqn:E; [reflexivity|]. unfold entries. rewrite (dget_dset _ keqb_ok). destruct (keqb key k) eqn:Ek; [|reflexivity].
    apply keqb_ok in Ek. subst k. unfold dmem in E. destruct (dget keqb key l); [discriminate|reflexivity].
  Qed.
  (** the template has been added, or no answer has changed, no other key has appeared and the repeated call completes the work *)
  Theorem C87_template : forall (l : lexicon K T R) key template restrictions n, let l' := interrupted_add keqb l (key, template, restrictions) n in
    l' = add_template keqb l key template restrictions \/
    (same_templates keqb reqb l' l /\ (forall k, k <> key -> has_key keqb l' k = has_key keqb l k) /\ (has_key keqb l key = true -> l' = l) /\
     add_template keqb l' key template restrictions = add_template keqb l key template restrictions).
  Proof.
    intros l key template restrictions n l'.
    assert (Hc : l' = created keqb l key -> same_templates keqb reqb l' l /\ (forall k, k <> key -> has_key keqb l' k = has_key keqb l k) /\ (has_key keqb l key = true -> l' = l) /\
      add_template keqb l' key template restrictions = add_template keqb l key template restrictions).
    { intros ->. split; [|split; [|split]].
      - intros k rs. unfold get_templates, get_nearest_templates. rewrite !created_entries. auto.
      - intros k Hk. unfold has_key, created. destruct (dmem keqb key l); [reflexivity|]. unfold dmem. rewrite (dget_dset_other _ keqb_ok); [reflexivity|congruence].
      - unfold has_key, created. intros ->. reflexivity.
      - apply (add_created keqb keqb_ok). }
    destruct (interrupted_add_cases keqb keqb_ok l (key, template, restrictions) n) as [H|[H|H]]; fold l' in H; [|right; apply Hc, H|left; exact H].
    right. rewrite H. split; [intros k rs; auto|]. auto.
  Qed.
  (** there is a crash point where a new key is known but has no templates: the error of the random choice is another one than before the call *)
  Theorem C87_key_without_templates : forall (l : lexicon K T R) key template restrictions, has_key keqb l key = false ->
    exists n, let l' := interrupted_add keqb l (key, template, restrictions) n in
      has_key keqb l' key = true /\
      forall rnd rs, get_random_template keqb reqb rnd l' key rs = Err NoTemplatesWithSpecifiedRestrictions /\ get_random_template keqb reqb rnd l key rs = Err UnknownLexiconKeyError.
  Proof.
    intros l key template restrictions H. exists 2. cbn zeta. unfold has_key in *.
    assert (E : interrupted_add keqb l (key, template, restrictions) 2 = dset keqb key [] l).
    { assert (S1 : at_step keqb (lx_of l) (AT_test (key, template, restrictions)) = (lx_of l, AT_create (key, template, restrictions))).
      { unfold at_step. cbn [lc_key fst]. rewrite (dmem_of keqb l key), H. reflexivity. }
      unfold interrupted_add. rewrite !moved_S. cbn zeta. change (moved (at_step keqb) 0 (lx_of l) (AT_test (key, template, restrictions))) with (lx_of l, AT_test (key, template, restrictions)).
      cbn [fst snd]. rewrite S1. cbn [fst snd at_step lc_key].
      rewrite view_dset, app_nth2, Nat.sub_diag by lia. cbn [nth]. f_equal. rewrite <- (view_of l) at 3. unfold lx_view. cbn [lx_lists lx_data]. apply map_ext. intros [k r]. cbn [fst snd]. f_equal. apply nth_app_nil. }
    rewrite E. assert (Hm : dmem keqb key (dset keqb key ([] : list (T * list R)) l) = true) by (unfold dmem; rewrite (dget_dset_same _ keqb_ok); reflexivity). split; [exact Hm|].
    intros rnd rs. unfold get_random_template. rewrite Hm, H. cbn [negb]. unfold get_templates, entries. rewrite (dget_dset_same _ keqb_ok). auto.
  Qed.
  (** ... and one where the template is already there although the call has not returned: the repeated call adds it once more *)
  Theorem C87_template_twice : forall (l : lexicon K T R) key template restrictions rs, (forall x, In x restrictions -> In x rs) ->
    exists n, get_templates keqb reqb (add_template keqb (interrupted_add keqb l (key, template, restrictions) n) key template restrictions) key rs =
      get_templates keqb reqb l key rs ++ [template; template].
  Proof.
    intros l key template restrictions rs Hs. exists 4. rewrite (add_ends keqb keqb_ok) by lia. cbn [lc_key fst snd].
    assert (Hsub : issubset reqb restrictions rs = true). { unfold issubset. apply forallb_forall. intros x Hx. apply (mem_iff reqb reqb_ok), Hs, Hx. }
    assert (E : forall l0 : lexicon K T R, entries keqb (add_template keqb l0 key template restrictions) key = entries keqb l0 key ++ [(template, restrictions)]).
    { intros l0. rewrite <- (add_created keqb keqb_ok), <- (created_entries l0 key). unfold add_template.
      assert (Hm : dmem keqb key (created keqb l0 key) = true) by (unfold created; destruct (dmem keqb key l0) eqn:E; [exact E|unfold dmem; rewrite (dget_dset_same _ keqb_ok); reflexivity]).
      rewrite Hm. unfold entries, dmem in *. destruct (dget keqb key (created keqb l0 key)); [|discriminate]. rewrite (dget_dset_same _ keqb_ok). reflexivity. }
    unfold get_templates. rewrite !E, !filter_app, !map_app. cbn [filter snd]. rewrite Hsub. cbn [map fst]. rewrite <- app_assoc. reflexivity.
  Qed.
End Lexicon.

(** ** parse *)
Lemma loop_extends U ext vs : forall tx subs, exists more, fst (parse_loop U ext vs tx subs) = subs ++ more.
Proof.
  induction vs as [|v vs IH]; intros tx subs; cbn [parse_loop]; [exists []; rewrite app_nil_r; reflexivity|].
  destruct (parse_substitution U v ext) as [s|e]; [|exists []; rewrite app_nil_r; reflexivity]. destruct (IH (replace_first v (u "%s") tx) (subs ++ [s])) as [more E]. exists (s :: more). rewrite E, <- app_assoc. reflexivity.
Qed.
Lemma no_text t : t_text t = None -> useless t.
Proof. intros H U ext d x. unfold substitute. rewrite H. destruct (mapM _ _); cbn [bind]; discriminate. Qed.
(** the object of an interrupted parse is finished, or it has got some of the variables and never gives a text *)
Theorem C87_parse : forall U text ext n, let t := interrupted_parse U new_template text ext n in let full := parse_template U new_template text ext in
  full = (t, Ok tt) \/ (t_text t = None /\ useless t /\ exists more, t_subs (fst full) = t_subs t ++ more).
Proof.
  intros U text ext n t full. destruct (parsing_moved U new_template text ext n) as (more & Hm & H). fold t in Hm, H. fold full in H.
  destruct (snd (moved _ _ _ _)) as [ext' vs tx|[[]|e]| | | | | | | |]; try contradiction.
  - destruct H as (-> & Ht & H). right. split; [exact Ht|]. split; [apply no_text, Ht|]. destruct (loop_extends U ext vs tx (t_subs t)) as [m E]. exists m. rewrite H.
    destruct (parse_loop U ext vs tx (t_subs t)) as [subs [x|e]]; exact E.
  - left. exact H.
  - right. assert (Ht : t_text t = None).
    { unfold full, parse_template in H. destruct (parse_loop U ext _ _ _) as [subs [x|e']]; [discriminate|]. injection H as <- _. reflexivity. }
    split; [exact Ht|]. split; [apply no_text, Ht|]. exists []. rewrite H, app_nil_r. reflexivity.
Qed.
(** parsing once more with the same object does not help when a variable had been read: whatever text is parsed, the object never gives a text; when none had been
    read the object is as good as new *)
Theorem C87_parse_again : forall U text ext n text2 ext2, let t := interrupted_parse U new_template text ext n in
  parse_template U new_template text ext <> (t, Ok tt) ->
  (t_subs t <> [] -> useless (fst (parse_template U t text2 ext2))) /\
  (t_subs t = [] -> parse_template U t text2 ext2 = parse_template U new_template text2 ext2).
Proof.
  intros U text ext n text2 ext2 t Hne. destruct (C87_parse U text ext n) as [H|(Ht & _ & _)]; [contradiction|]. fold t in Ht. split.
  - intros Hs. destruct (parse_template U t text2 ext2) as [t2 [[]|e]] eqn:E; cbn [fst].
    + intros U' ext' d x Hx. assert (Hb := C33_second_parse_breaks U t text2 ext2 t2 U' ext' d Hs E). unfold substitute in *.
      destruct (mapM (fun s => get_text U' s ext' d) (t_subs t2)) as [texts|e] eqn:Em; [|discriminate]. 
      rewrite Hb in Hx; [discriminate|]. intros s Hin. clear -Em Hin. revert texts Em. induction (t_subs t2) as [|y l IH]; intros texts Em; [destruct Hin|]. cbn [mapM bind] in Em. destruct (get_text U' y ext' d) as [z|] eqn:Ey; [|discriminate]. cbn [bind] in Em.
      destruct Hin as [<-|Hin]; [eauto|]. destruct (mapM _ l) as [zs|]; [|discriminate]. exact (IH Hin zs eq_refl).
    + apply no_text. unfold parse_template in E. destruct (parse_loop U ext2 _ _ _) as [subs [x|e']]; [discriminate|]. injection E as <- _. exact Ht.
  - intros Hs. destruct t as [subs tx]. cbn [t_subs t_text] in *. subst. reflexivity.
Qed.

(** ** autofill_missed_forms *)
(** an interrupted call has filled the first forms as the whole call would, and has not touched the others *)
Theorem C87_autofill : forall w n, is_word w -> exists w1 w2, interrupted_autofill w n = Ok w1 /\ autofill_missed_forms w = Ok w2 /\
  is_word w1 /\ w_type w1 = w_type w /\ w_props w1 = w_props w /\
  (forall i, i < n -> nth_error (w_forms w1) i = nth_error (w_forms w2) i) /\ (forall i, n <= i -> nth_error (w_forms w1) i = nth_error (w_forms w) i).
Proof.
  intros w n Hw. destruct (interrupted_autofill_spec w n Hw) as (w1 & E1 & T1 & P1 & L1 & N1). destruct (autofill_spec w Hw) as (w2 & E2 & T2 & P2 & L2 & N2).
  exists w1, w2. split; [exact E1|]. split; [exact E2|]. split; [apply is_word_iff; rewrite T1, P1, L1; apply is_word_iff; exact Hw|]. split; [exact T1|]. split; [exact P1|].
  split; intros i Hi; rewrite N1; destruct (Nat.ltb_spec i n); try lia; [symmetry; apply N2|reflexivity].
Qed.
Lemma autofill_texts w w' i f : is_word w -> autofill_missed_forms w = Ok w' -> (exists j g, nth_error (w_forms w) j = Some g /\ g <> []) -> nth_error (w_forms w') i = Some f ->
  f <> [] /\ In f (w_forms w).
Proof.
  intros Hw E Hex Hi. assert (Hf : f <> []) by (intros ->; apply (C17_no_gaps_left w w' Hw E Hex); eapply nth_error_In; exact Hi). split; [exact Hf|].
  destruct (C17_keeps w Hw) as (w1 & E1 & _ & _ & _ & L & Keep). rewrite E in E1. injection E1 as <-.
  destruct (nth_error (w_forms w) i) as [g|] eqn:Eg.
  - destruct g as [|c g]; [|assert (X := Keep i (c :: g) Eg ltac:(discriminate)); rewrite Hi in X; injection X as ->; eapply nth_error_In; exact Eg].
    destruct (slot_exists (w_type w) i) as [k Hk]; [rewrite <- (word_forms_length w Hw); apply nth_error_Some; congruence|].
    destruct (C17_source w w' i k Hw E Hk Eg Hex) as (j & kj & g & _ & Hj & _ & Hj' & _). rewrite Hi in Hj'. injection Hj' as ->. eapply nth_error_In; exact Hj.
  - exfalso. apply nth_error_None in Eg. assert (X : i < length (w_forms w')) by (apply nth_error_Some; congruence). lia.
Qed.
(** the repeated call fills all gaps; the given texts are kept and no other texts appear *)
Theorem C87_autofill_again : forall w n w1, is_word w -> interrupted_autofill w n = Ok w1 -> (exists j g, nth_error (w_forms w) j = Some g /\ g <> []) ->
  exists w2, autofill_missed_forms w1 = Ok w2 /\ (forall i f, nth_error (w_forms w) i = Some f -> f <> [] -> nth_error (w_forms w2) i = Some f) /\
    forall f, In f (w_forms w2) -> f <> [] /\ In f (w_forms w).
Proof.
  intros w n w1 Hw E Hex. destruct (C87_autofill w n Hw) as (w1' & wf & E1 & Ef & Hw1 & T1 & P1 & Hlo & Hhi). rewrite E in E1. injection E1 as <-.
  destruct (C17_keeps w Hw) as (wf' & Ef' & _ & _ & _ & _ & Kf). rewrite Ef in Ef'. injection Ef' as <-.
  destruct (C17_keeps w1 Hw1) as (w2 & E2 & _ & _ & _ & _ & K2).
  assert (Keep : forall i f, nth_error (w_forms w) i = Some f -> f <> [] -> nth_error (w_forms w1) i = Some f).
  { intros i f Hf Hn. destruct (Nat.lt_ge_cases i n) as [Hi|Hi]; [rewrite (Hlo i Hi); apply Kf; assumption|rewrite (Hhi i Hi); exact Hf]. }
  exists w2. split; [exact E2|]. split; [intros i f Hf Hn; apply K2; [apply Keep; assumption|exact Hn]|].
  intros f Hf. apply In_nth_error in Hf as [i Hi]. destruct Hex as (j & g & Hj & Hg). destruct (autofill_texts w1 w2 i f Hw1 E2) as [A B]; [exists j, g; auto|exact Hi|].
  split; [exact A|]. apply In_nth_error in B as [i' Hi']. destruct (Nat.lt_ge_cases i' n) as [Hl|Hl].
  - rewrite (Hlo i' Hl) in Hi'. exact (proj2 (autofill_texts w wf i' f Hw Ef (ex_intro _ j (ex_intro _ g (conj Hj Hg))) Hi')).
  - rewrite (Hhi i' Hl) in Hi'. eapply nth_error_In; exact Hi'.
Qed.
(** but they need not be at the same places: with both nominatives given, an interrupted and repeated call takes the singular for the plural *)
Definition two_nominatives : word := {| w_type := WT_NOUN; w_forms := [u "монета"; []; []; []; []; []; u "монеты"; []; []; []; []; []; []; []; []; []; []; []]; w_props := [] |}.
Theorem C87_autofill_differs : exists n w1 w2 w3, is_word two_nominatives /\ interrupted_autofill two_nominatives n = Ok w1 /\ autofill_missed_forms w1 = Ok w2 /\
  autofill_missed_forms two_nominatives = Ok w3 /\ nth_error (w_forms w3) 7 = Some (u "монеты") /\ nth_error (w_forms w2) 7 = Some (u "монета").
Proof.
  destruct (interrupted_autofill two_nominatives 2) as [w1|] eqn:E1; [|vm_compute in E1; discriminate].
  destruct (autofill_missed_forms w1) as [w2|] eqn:E2; [|vm_compute in E1; injection E1 as <-; vm_compute in E2; discriminate].
  destruct (autofill_missed_forms two_nominatives) as [w3|] eqn:E3; [|vm_compute in E3; discriminate].
  exists 2, w1, w2, w3. split; [apply is_word_iff; split; [apply wf_is_properties, wf_nil|vm_compute; reflexivity]|]. split; [exact E1|]. split; [exact E2|]. split; [reflexivity|].
  vm_compute in E1. injection E1 as <-. vm_compute in E2. injection E2 as <-. vm_compute in E3. injection E3 as <-. split; reflexivity.
Qed.

(** ** construct_integer: the half-built global is never used *)
Lemma integers_left_ok c : integers_left c -> cache_ok c.
Proof.
  induction 1 as [|c number n _ IH]; [left; reflexivity|]. unfold interrupted_integer.
  apply (moved_invariant ci_step (fun c pc => cache_ok c /\ PropIntegers.pc_ok c pc)); [|split; [exact IH|exact I]].
  intros s pc [H1 H2]. assert (S := ci_step_ok s pc H1 H2). cbn zeta in S. tauto.
Qed.
Theorem C87_integer : forall c number, integers_left c -> snd (construct_integer c number) = construct_integer_raw number.
Proof. intros c number H. apply construct_integer_ok, integers_left_ok, H. Qed.

(** ** lazy properties: a read after any interrupted reads and deletions gives the value *)
Section LazyProperty.
  Context {O V : Type} (func : O -> result V).
  Lemma attribute_left_ok o attr : attribute_left func o attr -> attr_ok func o attr.
  Proof.
    induction 1 as [|attr n _ IH|attr n _ IH]; [discriminate| |]; unfold interrupted_get, interrupted_del;
      (apply (moved_invariant (lz_step func o) (fun a pc => attr_ok func o a /\ PropLazy.pc_ok func o pc)); [|split; [exact IH|exact I]];
       intros s pc [H1 H2]; assert (S := lz_step_ok func o s pc H1 H2); tauto).
  Qed.
  Theorem C87_lazy : forall o attr calls, attribute_left func o attr -> snd (lazy_get func {| lo_state := o; lo_attr := attr; lo_calls := calls |}) = func o.
  Proof.
    intros o attr calls H. apply attribute_left_ok in H. unfold lazy_get. cbn [lo_attr lo_state]. destruct attr as [v|]; [symmetry; apply H; reflexivity|]. destruct (func o); reflexivity.
  Qed.
End LazyProperty.

(** ** a call that is given enough steps is the whole call *)
Theorem C87_uninterrupted :
  (forall U ws d, Forall is_word ws -> exists N, forall n, N <= n -> interrupted_load U ws d n = fst (add_words U d ws)) /\
  (forall K T R (keqb : K -> K -> bool) (l : lexicon K T R) key template restrictions n, eqb_ok keqb -> 4 <= n ->
     interrupted_add keqb l (key, template, restrictions) n = add_template keqb l key template restrictions) /\
  (forall U t text ext, exists N, forall n, N <= n -> interrupted_parse U t text ext n = fst (parse_template U t text ext)) /\
  (forall w n, is_word w -> length (w_forms w) <= n -> interrupted_autofill w n = autofill_missed_forms w) /\
  (forall c number n, integers_left c -> 5 <= n -> interrupted_integer c number n = fst (construct_integer c number)) /\
  (forall O V (func : O -> result V) o attr n calls, 4 <= n -> interrupted_get func o attr n = lo_attr (fst (lazy_get func {| lo_state := o; lo_attr := attr; lo_calls := calls |})) /\
     interrupted_del func o attr n = None).
Proof.
  split; [|split; [|split; [|split; [|split]]]].
  - intros U ws d Hw. exists (ld_left (ld_start ws)). intros n Hn. apply load_ends; assumption.
  - intros K T R keqb l key template restrictions n Hk Hn. apply (add_ends keqb Hk), Hn.
  - intros U t text ext. exists (S (length (find_variables (escape text)))). intros n Hn. apply parse_ends. lia.
  - intros w n Hw Hn. unfold interrupted_autofill, autofill_missed_forms, autofill_forms. rewrite firstn_all2 by (rewrite seq_length; exact Hn). destruct (available_keys (w_type w) (w_forms w)); reflexivity.
  - intros c number n Hc Hn. unfold interrupted_integer. replace n with ((n - 5) + 5) by lia. generalize (n - 5). intros m. clear n Hn.
    assert (E : forall k, moved ci_step (k + 5) c (CI_start number) = (fst (construct_integer c number), CI_done number (snd (construct_integer c number)))).
    { induction k as [|k IH].
      - unfold moved, construct_integer. cbn [Nat.add Nat.iter nat_rect fst snd ci_step]. destruct (in_cache_range number) eqn:Er; [|reflexivity]. cbn [fst snd ci_step].
        destruct c as [l|]; [reflexivity|]. cbn [fst snd ci_step]. destruct build_integer_cache as [l|e]; reflexivity.
      - cbn [Nat.add]. rewrite moved_S, IH. reflexivity. }
    rewrite E. reflexivity.
  - intros O V func o attr n calls Hn. replace n with ((n - 4) + 4) by lia. generalize (n - 4). intros m. clear n Hn. unfold interrupted_get, interrupted_del. split.
    + assert (E : forall k, exists r, moved (lz_step func o) (k + 4) attr G_hasattr = (lo_attr (fst (lazy_get func {| lo_state := o; lo_attr := attr; lo_calls := calls |})), G_done r)).
      { induction k as [|k [r IH]].
        - unfold moved, lazy_get. cbn [Nat.add Nat.iter nat_rect fst snd lz_step lo_attr lo_state]. destruct attr as [v|]; cbn [fst snd lz_step lo_attr]; [eauto|]. destruct (func o) as [v|e]; cbn [fst snd lz_step lo_attr]; eauto.
        - cbn [Nat.add]. rewrite moved_S, IH. cbn [fst snd lz_step]. eauto. }
      destruct (E m) as [r ->]. reflexivity.
    + assert (E : forall k, exists r, moved (lz_step func o) (k + 4) attr D_hasattr = (None, D_done r)).
      { induction k as [|k [r IH]].
        - unfold moved. cbn [Nat.add Nat.iter nat_rect fst snd lz_step]. destruct attr as [v|]; cbn [fst snd lz_step]; eauto.
        - cbn [Nat.add]. rewrite moved_S, IH. cbn [fst snd lz_step]. eauto. }
      destruct (E m) as [r ->]. reflexivity.
Qed.

(** ** a concrete case: loads of two words broken off after 7 and after 20 steps; a parse broken off after one variable; the global after an interrupted building *)
Example C87_case : Forall is_word [coin; lion] /\
  attempts ru_unicode [coin; lion] [] [7; 20] <> fst (add_words ru_unicode [] [coin; lion]) /\ attempts ru_unicode [coin; lion] [] [7; 20] <> [] /\
  snd (add_words ru_unicode [] [coin; lion]) = Ok tt /\
  (let t := interrupted_parse ru_unicode new_template (u "[a] и [b]") [] 1 in map s_id (t_subs t) = [u "a"] /\ parse_template ru_unicode new_template (u "[a] и [b]") [] <> (t, Ok tt)) /\
  integers_left (interrupted_integer None 7 3) /\ interrupted_integer None 7 3 = None /\
  (exists w1, interrupted_autofill two_nominatives 3 = Ok w1 /\ w1 <> two_nominatives /\ In [] (w_forms w1)) /\
  interrupted_add N.eqb [] (1%N, u "x", [2%N]) 2 = [(1%N, [])].
Proof.
  split; [constructor; [apply coin_is_word|constructor; [apply C55_case|constructor]]|].
  assert (L1 : length (attempts ru_unicode [coin; lion] [] [7; 20]) = 7) by (vm_compute; reflexivity).
  assert (L2 : length (fst (add_words ru_unicode [] [coin; lion])) = 16) by (vm_compute; reflexivity).
  split; [intros E; rewrite E, L2 in L1; discriminate L1|]. split; [intros E; rewrite E in L1; discriminate L1|]. split; [vm_compute; reflexivity|].
  split; [split; [vm_compute; reflexivity|]; intros E; assert (X := f_equal (fun p => length (t_subs (fst p))) E); vm_compute in X; discriminate|].
  split; [apply IL_call, IL_import|]. split.
  { unfold interrupted_integer. rewrite !moved_S. cbv zeta. exact (eq_refl None). }
  split; [|vm_compute; reflexivity].
  destruct (interrupted_autofill two_nominatives 3) as [w1|] eqn:E; [|vm_compute in E; discriminate]. exists w1. split; [reflexivity|]. vm_compute in E. injection E as <-.
  split; [intros E; assert (X := f_equal (fun w => nth_error (w_forms w) 1) E); vm_compute in X; discriminate|]. cbn. auto 12.
Qed.
