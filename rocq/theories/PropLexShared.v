(** * PropLexShared: C84, the restrictions of a lexicon are shared with the caller *)
From Verif Require Import PyBase PyBaseFacts Words Lexicon LexShared SpecLexShared WordFacts PropLexicon.
From Coq Require Import Lia.

Section Shared.
  Context {K T R : Type} (keqb : K -> K -> bool) (reqb : R -> R -> bool).
  Hypothesis (keqb_ok : eqb_ok keqb).
  Notation action := (sh_action K T R).

  Lemma after_snoc (h : list action) a : sh_after keqb (h ++ [a]) = sh_act keqb (sh_after keqb h) a.
  Proof. unfold sh_after. rewrite fold_left_app. reflexivity. Qed.
  Lemma made_snoc (h : list action) a : sets_made (h ++ [a]) = sets_made h + match a with NewSet _ => 1 | _ => 0 end.
  Proof. induction h as [|b h IH]; [destruct a; reflexivity|]. cbn [app sets_made]. destruct b; rewrite IH; reflexivity. Qed.
  Lemma set_len (i : nat) (x : list R) l : length (list_set i x l) = length l.
  Proof. revert i. induction l as [|y l IH]; intros [|i]; cbn [list_set length]; auto. Qed.
  Lemma set_same (i : nat) (x : list R) l : i < length l -> nth_error (list_set i x l) i = Some x.
  Proof. revert i. induction l as [|y l IH]; intros [|i] H; cbn [list_set length nth_error] in *; try lia; auto. apply IH. lia. Qed.
  Lemma set_other (i j : nat) (x : list R) l : i <> j -> nth_error (list_set i x l) j = nth_error l j.
  Proof. revert i j. induction l as [|y l IH]; intros [|i] [|j] H; cbn [list_set nth_error]; try reflexivity; [congruence|]. apply IH. congruence. Qed.
  Lemma made_length (h : list action) : length (sh_sets (sh_after keqb h)) = sets_made h.
  Proof.
    induction h as [|a h IH] using rev_ind; [reflexivity|]. rewrite after_snoc, made_snoc. destruct a; cbn [sh_act sh_sets].
    - rewrite app_length. cbn [length]. lia.
    - rewrite set_len. lia.
    - lia.
  Qed.
  Lemma elements_iff (h : list action) : forall i l, elements_of h i l <-> nth_error (sh_sets (sh_after keqb h)) i = Some l.
  Proof.
    induction h as [|a h IH] using rev_ind; intros i l.
    - split; [intros H; inversion H as [h' ? E|h' ? ? ? ? E|h' ? ? ? ? ? E]; destruct h'; discriminate|destruct i; discriminate].
    - rewrite after_snoc. split.
      + intros H. inversion H as [h' l0 E E1 E2|h' i0 l0 l1 H0 E E1 E2|h' i0 l0 a0 H0 Hn E E1 E2]; subst; apply app_inj_tail in E as [-> <-]; cbn [sh_act sh_sets].
        * rewrite nth_error_app2; rewrite made_length; [|lia]. rewrite Nat.sub_diag. reflexivity.
        * apply IH in H0. apply set_same. apply nth_error_Some. congruence.
        * apply IH in H0. destruct a0 as [e|j e|k t r]; cbn [sh_act sh_sets].
          -- rewrite nth_error_app1; [exact H0|]. apply nth_error_Some. congruence.
          -- rewrite set_other; [exact H0|]. intros ->. apply (Hn e). reflexivity.
          -- exact H0.
      + destruct a as [e|j e|k t r]; cbn [sh_act sh_sets]; intros H.
        * destruct (Nat.lt_ge_cases i (length (sh_sets (sh_after keqb h)))) as [L|L].
          -- rewrite nth_error_app1 in H by exact L. apply elements_kept; [apply IH, H|discriminate].
          -- rewrite nth_error_app2 in H by exact L. destruct (i - length (sh_sets (sh_after keqb h))) as [|n] eqn:En; [|destruct n; discriminate].
             injection H as <-. replace i with (sets_made h) by (rewrite <- made_length; lia). apply elements_made.
        * destruct (Nat.eq_dec j i) as [->|Hj].
          -- assert (L : i < length (sh_sets (sh_after keqb h))). { rewrite <- (set_len i e). apply nth_error_Some. congruence. }
             rewrite set_same in H by exact L. injection H as <-. apply nth_error_Some in L. destruct (nth_error (sh_sets (sh_after keqb h)) i) as [l0|] eqn:E0; [|contradiction].
             apply (elements_changed h i l0). apply IH, E0.
          -- rewrite set_other in H by exact Hj. apply elements_kept; [apply IH, H|intros l' [= E _]; congruence].
        * apply elements_kept; [apply IH, H|discriminate].
  Qed.
  Lemma given_contents (h : list action) r l : given_restrictions h r l -> sh_contents (sh_after keqb h) r = l.
  Proof. destruct r as [i|]; cbn [given_restrictions sh_contents]; [|auto]. intros H. apply elements_iff in H. apply nth_error_nth, H. Qed.

  (** the entries as values, the sets being s *)
  Definition valued (s : shared K T R) : lexicon K T R := map (fun kv => (fst kv, map (fun tr => (fst tr, sh_contents s (snd tr))) (snd kv))) (sh_data s).
  Lemma dget_map {A B} (g : A -> B) (d : dict K A) k : dget keqb k (map (fun kv => (fst kv, g (snd kv))) d) = option_map g (dget keqb k d).
  Proof. induction d as [|[k' v] d IH]; [reflexivity|]. cbn [map dget fst snd]. destruct (keqb k k'); [reflexivity|exact IH]. Qed.
  Lemma valued_get s k : dget keqb k (valued s) = option_map (map (fun tr => (fst tr, sh_contents s (snd tr)))) (dget keqb k (sh_data s)).
  Proof. apply dget_map. Qed.
  Lemma valued_entries s k : entries keqb (valued s) k = map (fun tr => (fst tr, sh_contents s (snd tr))) (sh_entries keqb s k).
  Proof. unfold entries, sh_entries. rewrite valued_get. destruct (dget keqb k (sh_data s)); reflexivity. Qed.
  Lemma filter_mapped {A B} (f : A -> B) (p : B -> bool) l : filter p (map f l) = map f (filter (fun a => p (f a)) l).
  Proof. induction l as [|a l IH]; cbn [map filter]; [reflexivity|]. destruct (p (f a)); cbn [map]; rewrite IH; reflexivity. Qed.
  Lemma valued_like s : answers_like keqb reqb s (valued s).
  Proof.
    assert (Hk : forall key, dmem keqb key (sh_data s) = dmem keqb key (valued s)).
    { intros key. unfold dmem. rewrite valued_get. destruct (dget keqb key (sh_data s)); reflexivity. }
    assert (Ht : forall key rs, sh_get_templates keqb reqb s key rs = get_templates keqb reqb (valued s) key rs).
    { intros key rs. unfold get_templates. rewrite valued_entries, filter_mapped, map_map. reflexivity. }
    assert (Hn : forall key rs, sh_get_nearest_templates keqb reqb s key rs = get_nearest_templates keqb reqb (valued s) key rs).
    { intros key rs. unfold get_nearest_templates. rewrite valued_entries.
      assert (F : forall es st, fold_left (nearest_templates_step reqb rs) (map (fun tr => (fst tr, sh_contents s (snd tr))) es) st = fold_left (sh_nearest_step reqb s rs) es st).
      { induction es as [|e es IH]; intros st; [reflexivity|]. cbn [map fold_left]. rewrite IH. reflexivity. }
      rewrite F. reflexivity. }
    intros key. split; [apply Hk|]. intros rs. split; [apply Ht|]. split; [apply Hn|]. intros rnd.
    unfold sh_random, get_random_template, get_random_nearest_template. rewrite Hk, Ht, Hn. split; reflexivity.
  Qed.

  (** the lexicon's data are those of the calls, whatever the sets *)
  Lemma data_now (h now : list action) calls : calls_now h now calls -> forall k,
    option_map (map (fun tr => (fst tr, sh_contents (sh_after keqb now) (snd tr)))) (dget keqb k (sh_data (sh_after keqb h))) = dget keqb k (lex_after keqb calls).
  Proof.
    induction 1 as [now|h now calls k t r l H IH Hr|h now calls a H IH Ha]; intros key; [reflexivity| |].
    - rewrite after_snoc. transitivity (dget keqb key (add_template keqb (lex_after keqb calls) k t l)); [|exact (f_equal (dget keqb key) (eq_sym (lex_after_snoc keqb calls (k, t, l))))]. rewrite (add_template_get keqb keqb_ok). cbn [sh_act sh_data].
      assert (E : dget keqb key (sh_add_template keqb (sh_data (sh_after keqb h)) k t r) =
        if keqb k key then Some (match dget keqb k (sh_data (sh_after keqb h)) with Some ts => ts | None => [] end ++ [(t, r)]) else dget keqb key (sh_data (sh_after keqb h))).
      { unfold sh_add_template, dmem. destruct (dget keqb k (sh_data (sh_after keqb h))) as [ts|] eqn:E.
        - rewrite E, (dget_dset _ keqb_ok). reflexivity.
        - rewrite (dget_dset_same _ keqb_ok), (dget_dset _ keqb_ok). destruct (keqb k key) eqn:Ek; [reflexivity|]. rewrite (dget_dset _ keqb_ok), Ek. reflexivity. }
      rewrite E. destruct (keqb k key); [|apply IH]. cbn [option_map]. f_equal. rewrite map_app. cbn [map fst snd]. rewrite (given_contents _ _ _ Hr). f_equal.
      rewrite <- IH. destruct (dget keqb k (sh_data (sh_after keqb h))); reflexivity.
    - rewrite after_snoc. destruct a as [e|i e|k t r]; cbn [sh_act sh_data]; [apply IH|apply IH|]. exfalso. apply (Ha k t r). reflexivity.
  Qed.
  Lemma answers_ext s (l l' : lexicon K T R) : (forall k, dget keqb k l = dget keqb k l') -> answers_like keqb reqb s l -> answers_like keqb reqb s l'.
  Proof.
    intros E H key. specialize (H key). unfold has_key, get_templates, get_nearest_templates, get_random_template, get_random_nearest_template, get_templates, get_nearest_templates, entries, dmem in *.
    rewrite (E key) in H. exact H.
  Qed.

  (** ** C84: the answers are those of a lexicon whose calls had been given the elements the sets have NOW *)
  Theorem C84_current_elements : forall (h : list action) calls, calls_now h h calls -> answers_like keqb reqb (sh_after keqb h) (lex_after keqb calls).
  Proof.
    intros h calls H. apply (answers_ext _ (valued (sh_after keqb h))); [|apply valued_like]. intros k. rewrite valued_get. apply data_now, H.
  Qed.

  Lemma proper_given (h : list action) : proper h -> forall r, (forall i, r = Some i -> i < sets_made h) -> exists l, given_restrictions h r l.
  Proof.
    intros _ [i|] Hr; [|exists []; reflexivity]. specialize (Hr i eq_refl). rewrite <- made_length in Hr. apply nth_error_Some in Hr.
    destruct (nth_error (sh_sets (sh_after keqb h)) i) as [l|] eqn:E; [|contradiction]. exists l. apply elements_iff, E.
  Qed.
  Lemma proper_now (h : list action) : proper h -> forall now, sets_made h <= sets_made now -> exists calls, calls_now h now calls.
  Proof.
    induction 1 as [|h l _ IH|h i l _ IH _|h k t r Hp IH Hr]; intros now Hn.
    - exists []. constructor.
    - rewrite made_snoc in Hn. destruct (IH now) as [calls H]; [lia|]. exists calls. apply now_other; [exact H|discriminate].
    - rewrite made_snoc in Hn. destruct (IH now) as [calls H]; [lia|]. exists calls. apply now_other; [exact H|discriminate].
    - rewrite made_snoc in Hn. destruct (IH now) as [calls H]; [lia|].
      assert (G : exists l, given_restrictions now r l).
      { destruct r as [i|]; [|exists []; reflexivity]. specialize (Hr i eq_refl). assert (L : i < length (sh_sets (sh_after keqb now))) by (rewrite made_length; lia).
        apply nth_error_Some in L. destruct (nth_error (sh_sets (sh_after keqb now)) i) as [l|] eqn:E; [|contradiction]. exists l. apply elements_iff, E. }
      destruct G as [l G]. exists (calls ++ [((k, t), l)]). apply now_add; assumption.
  Qed.
  (** every history that uses existing sets only is covered *)
  Theorem C84_covered : forall h : list action, proper h -> exists calls, calls_now h h calls.
  Proof. intros h H. apply (proper_now h H h). lia. Qed.

  Lemma elements_stable (h2 h1 : list action) i l : (forall l' before after, h2 = before ++ ChangeSet i l' :: after -> False) -> elements_of h1 i l -> elements_of (h1 ++ h2) i l.
  Proof.
    induction h2 as [|a h2 IH] using rev_ind; intros Hn H; [rewrite app_nil_r; exact H|]. rewrite app_assoc. apply elements_kept.
    - apply IH; [|exact H]. intros l' b c E. apply (Hn l' b (c ++ [a])). rewrite E, <- app_assoc. reflexivity.
    - intros l' ->. apply (Hn l' h2 []). reflexivity.
  Qed.
  (** with sets that are left alone (frozensets, for instance) they are the answers of C24-C26: the elements at the time of the call count *)
  Theorem C84_left_alone : forall (h : list action) calls, left_alone h -> calls_then h calls -> calls_now h h calls.
  Proof.
    intros h calls Hl H. assert (G : forall (h0 : list action) (calls0 : list (K * T * list R)), calls_then h0 calls0 -> forall rest, left_alone (h0 ++ rest) -> calls_now h0 (h0 ++ rest) calls0).
    { clear. induction 1 as [|h calls k t r l H IH Hr|h calls a H IH Ha]; intros rest Hl; [constructor| |].
      - rewrite <- app_assoc in *. cbn [app] in *. apply now_add; [apply IH, Hl|]. destruct r as [i|]; [|exact Hr]. cbn [given_restrictions] in *.
        apply elements_stable; [|exact Hr]. intros l' b c E. destruct b as [|x b]; [discriminate|]. injection E as <- E. apply (Hl h k t i b l' c). rewrite E. reflexivity.
      - rewrite <- app_assoc in *. cbn [app] in *. apply now_other; [apply IH, Hl|exact Ha]. }
    specialize (G h calls H []). rewrite app_nil_r in G. apply G, Hl.
  Qed.
End Shared.

(** FINDING: a set changed after add_template changes what the lexicon answers: a template is lost, or found where its
    restrictions forbade it, without any call on the lexicon *)
Theorem C84_retroactive_refuted : exists (h : list (sh_action nat nat nat)) i elements, proper (h ++ [ChangeSet i elements]) /\
  sh_get_templates Nat.eqb Nat.eqb (sh_after Nat.eqb h) 1 [5] = [10] /\
  sh_get_templates Nat.eqb Nat.eqb (sh_after Nat.eqb (h ++ [ChangeSet i elements])) 1 [5] = [] /\
  sh_get_templates Nat.eqb Nat.eqb (sh_after Nat.eqb h) 1 [6] = [] /\
  sh_get_templates Nat.eqb Nat.eqb (sh_after Nat.eqb (h ++ [ChangeSet i elements])) 1 [6] = [10].
Proof.
  exists [NewSet [5]; AddTemplate 1 10 (Some 0)], 0, [6]. split; [|vm_compute; auto].
  apply (proper_change [NewSet [5]; AddTemplate 1 10 (Some 0)]); [|cbn; auto].
  apply (proper_add [NewSet [5]]); [apply (proper_new []); constructor|]. intros i [= <-]. cbn. auto.
Qed.
(** two sets, one of them changed before it is used; nothing is changed after *)
Example C84_case : let h := [NewSet [5]; NewSet []; ChangeSet 1 [6; 5]; AddTemplate 1 10 (Some 1); AddTemplate 1 11 None; AddTemplate 2 12 (Some 0)] : list (sh_action nat nat nat) in
  eqb_ok Nat.eqb /\ proper h /\ left_alone h /\ calls_then h [((1, 10), [6; 5]); ((1, 11), []); ((2, 12), [5])] /\
  sh_get_nearest_templates Nat.eqb Nat.eqb (sh_after Nat.eqb h) 1 [5; 6] = [10].
Proof.
  set (h1 := [NewSet [5]; NewSet []; ChangeSet 1 [6; 5]] : list (sh_action nat nat nat)).
  assert (P : proper h1).
  { apply (proper_change [NewSet [5]; NewSet []]); [|cbn; auto]. apply (proper_new [NewSet [5]]). apply (proper_new []). constructor. }
  assert (E1 : elements_of h1 1 [6; 5]).
  { apply (elements_changed [NewSet [5]; NewSet []] 1 []). apply (elements_made [NewSet [5]]). }
  assert (E0 : elements_of h1 0 [5]).
  { apply (elements_kept [NewSet [5]; NewSet []] 0 [5]); [|discriminate]. apply (elements_kept [NewSet [5]] 0 [5]); [|discriminate]. apply (elements_made []). }
  intros h. split; [exact Nat.eqb_eq|]. split; [|split; [|split; [|vm_compute; reflexivity]]].
  - apply (proper_add (h1 ++ [AddTemplate 1 10 (Some 1); AddTemplate 1 11 None])); [|intros i [= <-]; cbn; auto].
    apply (proper_add (h1 ++ [AddTemplate 1 10 (Some 1)])); [|discriminate]. apply (proper_add h1); [exact P|]. intros i [= <-]. cbn. auto.
  - intros before k t i middle l after E.
    assert (N1 : nth_error h (length before) = Some (AddTemplate k t (Some i))). { rewrite E, nth_error_app2, Nat.sub_diag by apply le_n. reflexivity. }
    assert (N2 : nth_error h (length before + S (length middle)) = Some (ChangeSet i l)).
    { rewrite E, nth_error_app2 by lia. replace (length before + S (length middle) - length before) with (S (length middle)) by lia. cbn [nth_error].
      rewrite nth_error_app2, Nat.sub_diag by apply le_n. reflexivity. }
    assert (F : forall n, nth_error h n = Some (ChangeSet i l) -> n = 2).
    { intros [|[|[|[|[|[|[|n]]]]]]] F; try reflexivity; try discriminate F. }
    apply F in N2. destruct (length before) as [|[|[|b]]]; try discriminate N1. lia.
  - assert (C : calls_then h1 []).
    { apply (then_other [NewSet [5]; NewSet []]); [|discriminate]. apply (then_other [NewSet [5]]); [|discriminate]. apply (then_other []); [|discriminate]. constructor. }
    apply (then_add (h1 ++ [AddTemplate 1 10 (Some 1); AddTemplate 1 11 None]) [((1, 10), [6; 5]); ((1, 11), [])]).
    + apply (then_add (h1 ++ [AddTemplate 1 10 (Some 1)]) [((1, 10), [6; 5])]); [|reflexivity]. apply (then_add h1 []); [exact C|exact E1].
    + apply (elements_kept (h1 ++ [AddTemplate 1 10 (Some 1)]) 0 [5]); [|discriminate]. apply (elements_kept h1 0 [5]); [exact E0|discriminate].
Qed.
