(** * PropSessions: C81, templates, lexicon and dictionary used together *)
From Coq Require Import Lia.
From Verif Require Import PyBase Relations Restrictions Logic Data Words Transformators Constructors Dictionary Lexicon Templates PyBaseFacts SpecProps PropsFacts SpecSlots SlotFacts LookupFacts WordFacts SerFacts
  SpecDictionary DictFacts SpecLists SpecAgreement AgreementFacts SpecTemplates SpecSubstitution SubstFacts TemplateFacts PropSlots PropWords PropDictionary PropLexicon PropAgreement PropSyntax PropSubstitution PropSerialization SpecReload PropReload Sessions SpecSessions.

Section Statements.
  Context {K R : Type} (keqb : K -> K -> bool) (reqb : R -> R -> bool) (U : unicode).
  Hypothesis (keqb_ok : eqb_ok keqb) (reqb_ok : eqb_ok reqb).
  Notation after_session := (@session_after K R keqb U).
  Notation act := (@Sessions.act K R keqb U).

  Lemma session_snoc h a : after_session (h ++ [a]) = act (after_session h) a.
  Proof. unfold session_after. rewrite fold_left_app. reflexivity. Qed.
  Lemma session_lexicon h : ss_lexicon (after_session h) = lex_after keqb (added h).
  Proof.
    induction h as [|a h IH] using rev_ind; [reflexivity|]. rewrite session_snoc. unfold added. rewrite flat_map_app. fold (added h). cbn [flat_map].
    destruct a as [|d|r text ext|key r rs|w]; cbn [Sessions.act with_templates ss_lexicon]; rewrite ?app_nil_r; try exact IH.
    - destruct (deserialize_template d); exact IH.
    - destruct (nth_error _ r); exact IH.
    - rewrite IH. symmetry. apply (lex_after_snoc keqb (added h) ((key, r), rs)).
  Qed.
  Lemma session_dictionary h : ss_dictionary (after_session h) = after U (words_added h).
  Proof.
    induction h as [|a h IH] using rev_ind; [reflexivity|]. rewrite session_snoc. unfold words_added. rewrite flat_map_app. fold (words_added h). cbn [flat_map].
    destruct a as [|d|r text ext|key r rs|w]; cbn [Sessions.act with_templates ss_dictionary]; rewrite ?app_nil_r; try exact IH.
    - destruct (deserialize_template d); exact IH.
    - destruct (nth_error _ r); exact IH.
    - unfold after. rewrite fold_left_app. cbn [fold_left]. fold (after U (words_added h)). rewrite IH. reflexivity.
  Qed.
  Lemma makes_fun (a : action K R) t t' : makes a t -> makes a t' -> t = t'.
  Proof. intros H H'. inversion H; subst; inversion H'; subst; congruence. Qed.
  Lemma makes_dec (a : action K R) : (exists t, makes a t) \/ (forall t, ~ makes a t).
  Proof.
    destruct a as [|d|r text ext|key r rs|w]; try (right; intros t H; inversion H; fail).
    - left. exists new_template. constructor.
    - destruct (deserialize_template d) as [t|e] eqn:E; [left; exists t; constructor; exact E|right; intros t H; inversion H; congruence].
  Qed.
  Lemma act_made s a t : makes a t -> ss_templates (act s a) = ss_templates s ++ [t].
  Proof. intros H. inversion H as [|d ? E]; subst; cbn [Sessions.act]; [reflexivity|]. rewrite E. reflexivity. Qed.
  Lemma list_set_length {A} (l : list A) r x : length (list_set r x l) = length l.
  Proof. revert r. induction l as [|a l IH]; intros [|r]; cbn; congruence. Qed.
  Lemma list_set_nth {A} (l : list A) r x i : nth_error (list_set r x l) i = if Nat.eqb i r then (match nth_error l r with Some _ => Some x | None => None end) else nth_error l i.
  Proof.
    revert r i. induction l as [|a l IH]; intros [|r] [|i]; cbn; try reflexivity; [destruct (Nat.eqb i r); reflexivity|]. apply IH.
  Qed.
  Lemma act_other_length s a : (forall t, ~ makes a t) -> length (ss_templates (act s a)) = length (ss_templates s).
  Proof.
    intros H. destruct a as [|d|r text ext|key r rs|w]; cbn [Sessions.act with_templates ss_templates]; try reflexivity.
    - destruct (H new_template). constructor.
    - destruct (deserialize_template d) as [t|e] eqn:E; [destruct (H t); constructor; exact E|reflexivity].
    - destruct (nth_error (ss_templates s) r); [|reflexivity]. cbn [with_templates ss_templates]. apply list_set_length.
  Qed.
  Lemma objects_snoc (h : list (action K R)) a n : objects (h ++ [a]) n -> (exists t m, makes a t /\ objects h m /\ n = S m) \/ ((forall t, ~ makes a t) /\ objects h n).
  Proof.
    revert n. induction h as [|b h IH]; intros n H; cbn [app] in H.
    - inversion H as [|? t ? m Hm Ho|? ? ? Hm Ho]; subst; inversion Ho; subst; [left; exists t, 0; repeat split; [assumption|constructor]|right; split; [assumption|constructor]].
    - inversion H as [|? t ? m Hm Ho|? ? ? Hm Ho]; subst.
      + destruct (IH m Ho) as [(t' & m' & A & B & ->)|[A B]]; [left; exists t', (S m'); repeat split; [assumption|econstructor; eassumption]|right; split; [assumption|econstructor; eassumption]].
      + destruct (IH n Ho) as [(t' & m' & A & B & ->)|[A B]]; [left; exists t', m'; repeat split; [assumption|apply objects_other; assumption]|right; split; [assumption|apply objects_other; assumption]].
  Qed.
  Lemma objects_length h n : objects h n <-> length (ss_templates (after_session h)) = n.
  Proof.
    split.
    - revert n. induction h as [|a h IH] using rev_ind; intros n H; [inversion H; reflexivity|]. rewrite session_snoc.
      destruct (objects_snoc h a n H) as [(t & m & A & B & ->)|[A B]]; [rewrite (act_made _ _ t A), app_length, (IH m B); cbn; lia|rewrite (act_other_length _ _ A); apply IH, B].
    - intros <-. assert (G : exists m, objects h m).
      { clear. induction h as [|a h [m IH]]; [exists 0; constructor|]. destruct (makes_dec a) as [[t H]|H]; [exists (S m); econstructor; eassumption|exists m; apply objects_other; assumption]. }
      destruct G as [m G]. enough (length (ss_templates (after_session h)) = m) as -> by exact G.
      revert m G. induction h as [|a h IH] using rev_ind; intros n H; [inversion H; reflexivity|]. rewrite session_snoc.
      destruct (objects_snoc h a n H) as [(t & m & A & B & ->)|[A B]]; [rewrite (act_made _ _ t A), app_length, (IH m B); cbn; lia|rewrite (act_other_length _ _ A); apply IH, B].
  Qed.
  Definition parses (t : template) (l : list (str * externals)) : template := fold_left (fun t p => fst (parse_template U t (fst p) (snd p))) l t.
  Lemma act_value s a r t : nth_error (ss_templates s) r = Some t -> nth_error (ss_templates (act s a)) r = Some (parses t (own_parses r [a])).
  Proof.
    intros H. assert (Hr : r < length (ss_templates s)) by (apply nth_error_Some; congruence).
    destruct a as [|d|r' text ext|key r' rs|w]; cbn [Sessions.act with_templates ss_templates own_parses flat_map app parses fold_left]; try exact H.
    - rewrite nth_error_app1; assumption.
    - destruct (deserialize_template d); [|exact H]. cbn [with_templates ss_templates]. rewrite nth_error_app1; assumption.
    - destruct (Nat.eqb r' r) eqn:E.
      + apply Nat.eqb_eq in E. subst r'. rewrite H. cbn [with_templates ss_templates]. rewrite list_set_nth, Nat.eqb_refl, H. reflexivity.
      + destruct (nth_error (ss_templates s) r'); [|exact H]. cbn [with_templates ss_templates]. rewrite list_set_nth, Nat.eqb_sym, E. exact H.
  Qed.
  Lemma later_value h2 : forall s r t, nth_error (ss_templates s) r = Some t -> nth_error (ss_templates (fold_left act h2 s)) r = Some (parses t (own_parses r h2)).
  Proof.
    induction h2 as [|a h2 IH]; intros s r t H; [exact H|]. cbn [fold_left]. rewrite (IH _ r _ (act_value s a r t H)).
    change (a :: h2) with ([a] ++ h2). unfold own_parses. rewrite flat_map_app. unfold parses. rewrite fold_left_app. reflexivity.
  Qed.

  (** ** C81 *)
  (** the lexicon answers with the very objects that were added: which ones depends on the add_template calls alone, not on what was parsed or on the
      words; and the dictionary is that of the words added *)
  Theorem C81_parts : forall h, ss_dictionary (after_session h) = after U (words_added h) /\
    forall key restrictions,
    selected (admissible key restrictions) (fun c => snd (fst c)) (added h) (get_templates keqb reqb (ss_lexicon (after_session h)) key restrictions) /\
    selected (nearest_call (added h) key restrictions) (fun c => snd (fst c)) (added h) (get_nearest_templates keqb reqb (ss_lexicon (after_session h)) key restrictions).
  Proof.
    intros h. split; [apply session_dictionary|]. intros key restrictions. rewrite session_lexicon. split; [apply C24_get_templates|apply C25_nearest_templates]; assumption.
  Qed.
  (** the value of a template object is that with which it was made, after the calls of its own parse: nothing else changes it *)
  Theorem C81_object : forall h r t0 later, made h r t0 later ->
    nth_error (ss_templates (after_session h)) r = Some (fold_left (fun t p => fst (parse_template U t (fst p) (snd p))) (own_parses r later) t0).
  Proof.
    intros h r t0 later (before & a & -> & Ho & Hm). unfold session_after. rewrite fold_left_app. cbn [fold_left]. apply later_value.
    fold (after_session before). rewrite (act_made _ _ t0 Hm). apply objects_length in Ho. rewrite nth_error_app2 by lia. rewrite Ho, Nat.sub_diag. reflexivity.
  Qed.
  Theorem C81_objects : forall h r t, nth_error (ss_templates (after_session h)) r = Some t -> exists t0 later, made h r t0 later.
  Proof.
    induction h as [|a h IH] using rev_ind; intros r t H; [destruct r; discriminate|]. rewrite session_snoc in H.
    destruct (Nat.lt_ge_cases r (length (ss_templates (after_session h)))) as [L|L].
    - destruct (nth_error (ss_templates (after_session h)) r) as [t'|] eqn:E; [|apply nth_error_None in E; lia].
      destruct (IH r t' E) as (t0 & later & before & b & -> & Ho & Hm). exists t0, (later ++ [a]), before, b. split; [rewrite <- app_assoc; reflexivity|auto].
    - destruct (makes_dec a) as [[t0 Hm]|Hm].
      + rewrite (act_made _ _ t0 Hm) in H. assert (r = length (ss_templates (after_session h))).
        { assert (r < length (ss_templates (after_session h) ++ [t0])) by (apply nth_error_Some; congruence). rewrite app_length in H0. cbn in H0. lia. }
        exists t0, [], h, a. split; [reflexivity|]. split; [apply objects_length; symmetry; assumption|exact Hm].
      + exfalso. assert (r < length (ss_templates (act (after_session h) a))) by (apply nth_error_Some; congruence). rewrite (act_other_length _ _ Hm) in H0. lia.
  Qed.
  (** a told text is the text of one of the qualified templates, as it was when it was told *)
  Theorem C81_told : forall rnd nearest h key restrictions ext x, tell keqb reqb U rnd nearest (after_session h) key restrictions ext = Ok x ->
    exists r rs t, In ((key, r), rs) (added h) /\ qualifies nearest (added h) key restrictions ((key, r), rs) /\
      nth_error (ss_templates (after_session h)) r = Some t /\ substitute U t ext (after U (words_added h)) = Ok x.
  Proof.
    intros rnd nearest h key restrictions ext x H. unfold tell in H. rewrite session_lexicon in H.
    fold (selection keqb reqb rnd nearest (added h) key restrictions) in H. destruct (selection keqb reqb rnd nearest (added h) key restrictions) as [r|e] eqn:E; [|discriminate]. cbn [bind] in H.
    destruct (proj1 (C26_selection keqb reqb keqb_ok reqb_ok nearest (added h) key restrictions) rnd r E) as ([[k r'] rs] & I & Q & Er). cbn [fst snd] in Er. subst r'.
    assert (Ek : k = key) by (destruct nearest; [apply Q|apply Q]). subst k.
    unfold print_template in H. destruct (nth_error (ss_templates (after_session h)) r) as [t|] eqn:Et; [|discriminate].
    rewrite session_dictionary in H. exists r, rs, t. auto.
  Qed.
  (** a story is always told, whatever the random choice: if some template is admissible and every admissible one was parsed once, without an
      exception, with externals whose names are given now, uses known words only, and all words are complete *)
  Theorem C81_always_told : forall nearest h key restrictions ext,
    (forall c, u_upper U c <> []) -> Forall is_word (words_added h) -> good_externals ext ->
    (forall name f, In (name, f) ext -> complete (wf_word f)) -> (forall w, In w (words_added h) -> complete w) ->
    (exists c, In c (added h) /\ admissible key restrictions c) ->
    (forall c, In c (added h) -> admissible key restrictions c ->
       exists later text ext0 t, made h (snd (fst c)) new_template later /\ own_parses (snd (fst c)) later = [(text, ext0)] /\
         parse_template U new_template text ext0 = (t, Ok tt) /\ incl (dkeys ext0) (dkeys ext) /\ get_undictionaried_words t ext (after U (words_added h)) = []) ->
    forall rnd, exists x, tell keqb reqb U rnd nearest (after_session h) key restrictions ext = Ok x.
  Proof.
    intros nearest h key restrictions ext Hu Hw He Hc Hcw (c0 & I0 & A0) Hall rnd. unfold tell. rewrite session_lexicon.
    fold (selection keqb reqb rnd nearest (added h) key restrictions). destruct (selection keqb reqb rnd nearest (added h) key restrictions) as [r|e] eqn:E; cbn [bind].
    - destruct (proj1 (C26_selection keqb reqb keqb_ok reqb_ok nearest (added h) key restrictions) rnd r E) as (c & I & Q & Er).
      assert (A : admissible key restrictions c) by (destruct nearest; [apply Q|exact Q]).
      destruct (Hall c I A) as (later & text & ext0 & t & Hm & Hp & Ht & Hi & Hg). rewrite Er in Hm, Hp.
      unfold print_template. rewrite (C81_object h r new_template later Hm), Hp. cbn [fold_left fst snd]. rewrite Ht, session_dictionary. cbn [fst].
      apply (C34_substitute_succeeds U text ext0 t); try assumption; [apply after_dictionary, Hw|]. intros id f G.
      destruct (after_rep U (words_added h) Hw) as (l & Hl & _). apply Hcw. apply (C20_get_word U _ l id f Hw Hl G).
    - exfalso. apply (C26_errors keqb reqb keqb_ok reqb_ok) in E as [[_ E]|(_ & _ & E)]; [apply (E c0 I0), A0|exact (E c0 I0 A0)].
  Qed.
  (** when no template is admissible the library's own errors are raised, and nothing else *)
  Theorem C81_nothing_to_tell : forall rnd nearest h key restrictions ext, (forall c, In c (added h) -> ~ admissible key restrictions c) ->
    tell keqb reqb U rnd nearest (after_session h) key restrictions ext =
      Err (if has_key keqb (ss_lexicon (after_session h)) key then NoTemplatesWithSpecifiedRestrictions else UnknownLexiconKeyError).
  Proof.
    intros rnd nearest h key restrictions ext H. unfold tell. rewrite session_lexicon. fold (selection keqb reqb rnd nearest (added h) key restrictions).
    destruct (selection keqb reqb rnd nearest (added h) key restrictions) as [r|e] eqn:E; cbn [bind].
    - exfalso. destruct (proj1 (C26_selection keqb reqb keqb_ok reqb_ok nearest (added h) key restrictions) rnd r E) as (c & I & Q & _).
      apply (H c I). destruct nearest; [apply Q|exact Q].
    - f_equal. assert (K1 := C24_has_key keqb keqb_ok (added h) key). apply (C26_errors keqb reqb keqb_ok reqb_ok) in E as [[-> E]|(-> & (c & I & Ek) & _)].
      + destruct (has_key keqb (lex_after keqb (added h)) key); [|reflexivity]. destruct (proj1 K1 eq_refl) as (c & I & Ek). destruct (E c I Ek).
      + rewrite (proj2 K1); [reflexivity|]. exists c. auto.
  Qed.
End Statements.
(** a session: two templates under one key, one of them with a restriction, parsed after they were added *)
Definition story : list (action nat nat) :=
  [NewTemplate; NewTemplate; AddTemplate 1 0 []; AddTemplate 1 1 [7]; AddWord coin; AddTemplate 2 0 [];
   ParseTemplate 1 (u "[монета|hero]!") ext2; AddWord into; ParseTemplate 0 (u "[Монета|n]") ext2].
Example C81_case : admissible 1 [7; 8] ((1, 1), [7]) /\ made story 1 new_template (skipn 2 story) /\ own_parses 1 (skipn 2 story) = [(u "[монета|hero]!", ext2)] /\
  (exists t, parse_template ru_unicode new_template (u "[монета|hero]!") ext2 = (t, Ok tt) /\ get_undictionaried_words t ext2 (after ru_unicode (words_added story)) = []) /\
  tell Nat.eqb Nat.eqb ru_unicode 0 true (session_after Nat.eqb ru_unicode story) 1 [7; 8] ext2 = Ok (u "монетам!") /\
  tell Nat.eqb Nat.eqb ru_unicode 0 false (session_after Nat.eqb ru_unicode story) 1 [] ext2 = Ok (u "Монет") /\
  tell Nat.eqb Nat.eqb ru_unicode 5 true (session_after Nat.eqb ru_unicode story) 3 [] ext2 = Err UnknownLexiconKeyError.
Proof.
  split; [split; [reflexivity|intros x [<-|[]]; left; reflexivity]|].
  split. { exists [NewTemplate], NewTemplate. split; [reflexivity|]. split; [apply (objects_made _ new_template); constructor|constructor]. }
  split; [reflexivity|]. split; [eexists; split; vm_compute; reflexivity|]. split; [vm_compute; reflexivity|]. split; vm_compute; reflexivity.
Qed.
(** FINDING: a template object that is parsed again is broken under every key it was added to *)
Theorem C81_parsed_again : exists h key key', key <> key' /\ (exists x, tell Nat.eqb Nat.eqb ru_unicode 0 true (session_after Nat.eqb ru_unicode story) key [] ext2 = Ok x) /\
  h = [ParseTemplate 0 (u "[монета]") ext2] /\
  tell Nat.eqb Nat.eqb ru_unicode 0 true (session_after Nat.eqb ru_unicode (story ++ h)) key [] ext2 = Err TypeError /\
  tell Nat.eqb Nat.eqb ru_unicode 0 true (session_after Nat.eqb ru_unicode (story ++ h)) key' [] ext2 = Err TypeError.
Proof.
  eexists. exists 1, 2. split; [discriminate|]. split; [eexists; vm_compute; reflexivity|]. split; [reflexivity|]. split; vm_compute; reflexivity.
Qed.
