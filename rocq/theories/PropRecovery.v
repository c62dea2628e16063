(** * PropRecovery: C88, loading words again after races and killed calls *)
From Coq Require Import Lia.
From Verif Require Import PyBase PyBaseFacts Relations Logic Data Words Dictionary Templates Concurrent Interrupt
  SpecProps PropsFacts SpecSlots LookupFacts SlotFacts SpecDictionary SpecTemplates SpecSubstitution SpecConcurrent SpecReload SpecInterrupt SpecRecovery WordFacts DictFacts ConcurrentFacts InterruptFacts
  PropSlots PropWords PropDictionary PropConcurrent PropReload PropLocality SpecLocality RecoveryFacts.

(** an interrupted load is one of the things that can happen to concurrent calls that are killed: one thread after the other *)
Theorem C88_load_is_threads : forall U ws d n, exists schedule, interrupted_load U ws d n = fst (adding U d ws schedule).
Proof.
  intros U ws d n. pose (Rel (D : dictionary) (pc : ld_pc) := exists schedule, D = fst (adding U d ws schedule) /\
    ((ld_call pc = AW_done (Ok tt) /\ ld_rest pc = ws /\ snd (adding U d ws schedule) = map aw_start ws) \/
     exists i, nth_error (snd (adding U d ws schedule)) i = Some (ld_call pc) /\ (forall k, nth_error ws (S i + k) = nth_error (ld_rest pc) k) /\
       forall k, i < k -> nth_error (snd (adding U d ws schedule)) k = option_map aw_start (nth_error ws k))).
  enough (H : Rel (interrupted_load U ws d n) (snd (moved (ld_step U) n d (ld_start ws)))) by (destruct H as (s & H & _); exists s; exact H).
  unfold interrupted_load. apply (moved_invariant (ld_step U) Rel).
  - intros D pc (s & HD & HP).
    assert (Run : forall i call, nth_error (snd (adding U d ws s)) i = Some call -> (forall k, nth_error ws (S i + k) = nth_error (ld_rest pc) k) ->
      (forall k, i < k -> nth_error (snd (adding U d ws s)) k = option_map aw_start (nth_error ws k)) ->
      Rel (fst (aw_step U D call)) {| ld_call := snd (aw_step U D call); ld_rest := ld_rest pc |}).
    { intros i call H1 H2 H3. exists (s ++ [i]). unfold adding, aw_run in *. rewrite run_app. set (st := run_threads (aw_step U) (d, map aw_start ws) s) in *.
      unfold run_threads. cbn [fold_left]. unfold step_at. rewrite H1. rewrite <- HD. destruct (aw_step U D call) as [D' call']. cbn [fst snd ld_call ld_rest]. split; [reflexivity|]. right. exists i.
      rewrite (set_nth_at _ _ _ _ _ H1), Nat.eqb_refl. split; [reflexivity|]. split; [exact H2|]. intros k Hk. rewrite (set_nth_at _ _ _ _ _ H1). destruct (Nat.eqb_spec k i); [lia|]. apply H3, Hk. }
    unfold ld_step. destruct HP as [(E & R & Hs)|(i & H1 & H2 & H3)].
    + rewrite E, R. destruct ws as [|w rest] eqn:Ews; cbn [aw_step fst snd].
      * exists s. split; [exact HD|]. left. split; [reflexivity|]. split; [reflexivity|exact Hs].
      * exists s. split; [exact HD|]. right. exists 0. cbn [ld_call ld_rest]. split; [rewrite Hs; reflexivity|]. split; [intros k; reflexivity|]. intros k _. rewrite Hs. apply nth_error_map.
    + assert (G := Run i _ H1 H2 H3). destruct (ld_call pc) as [l|f t l|f t l|f t l|[[]|e]] eqn:Ec, (ld_rest pc) as [|w rest] eqn:Er; try (destruct (aw_step U D _); exact G).
      cbn [aw_step fst snd] in G. exists s. split; [exact HD|]. right. exists (S i). cbn [ld_call ld_rest]. assert (Ew : nth_error ws (S i) = Some w) by (rewrite <- (Nat.add_0_r (S i)), H2; reflexivity).
      split; [rewrite H3 by lia; rewrite Ew; reflexivity|]. split; [intros k; replace (S (S i) + k) with (S i + S k) by lia; apply (H2 (S k))|]. intros k Hk. apply H3. lia.
  - exists []. split; [reflexivity|]. left. split; [reflexivity|]. split; reflexivity.
Qed.
(** ** C88 *)
(** whatever races and kills there are, no answer gets worse than it was before *)
Theorem C88_never_worse : forall U ws d d' t f, Forall is_word ws -> trouble U ws d d' -> get_word d t = Ok f ->
  exists f', get_word d' t = Ok f' /\ (f' = f \/ preferred f' f).
Proof.
  intros U ws d d' t f Hw Ht H. unfold get_word in *. destruct (dget str_eqb t d) as [g|] eqn:E; [|discriminate]. injection H as ->.
  destruct (trouble_better U ws d d' Hw Ht t f E) as (f' & E' & N). rewrite E'. exists f'. split; [reflexivity|exact N].
Qed.
(** after any history of loads that went wrong, adding all the words once more, one after the other in any order, makes the dictionary as good as if nothing had
    happened *)
Theorem C88_recover : forall U before d ws, troubled U before d -> Forall is_word ws -> incl before ws -> as_good U ws (added_again U d ws).
Proof.
  intros U before d ws Ht Hw Hi. set (l := known_forms U ws). assert (Hl : registered U ws l) by apply known_forms_registered, Hw.
  apply (as_good_minimal U ws l _ Hw Hl). intros t. rewrite (added_entries U ws Hw l Hl). destruct (fold_left (best_step U t) l (dget str_eqb t d)) as [g|] eqn:E.
  - cbn [minimal]. apply fold_in in E as G. assert (In g l /\ wf_form U g = Ok t) as [G1 G2].
    { destruct G as [G|G]; [|exact G]. destruct (troubled_sound U before d Ht t g G) as [S1 S2]. split; [exact (known_forms_incl U before ws Hi g S1)|exact S2]. }
    split; [exact G1|]. split; [exact G2|]. intros b Hb Hbt. destruct (fold_beats U t l (dget str_eqb t d) b Hb Hbt) as (g' & E' & N). rewrite E in E'. injection E' as <-. exact N.
  - cbn [minimal]. intros f Hf Hft. destruct (fold_beats U t l (dget str_eqb t d) f Hf Hft) as (g & E' & _). congruence.
Qed.
(** so is the dictionary to which nothing happened *)
Theorem C88_undisturbed : forall U ws, Forall is_word ws -> as_good U ws (after U ws).
Proof.
  intros U ws Hw t. destruct (get_word (after U ws) t) as [f|e] eqn:E; [|reflexivity]. exists f. split; [reflexivity|]. split; [|repeat split].
  assert (Hl := known_forms_registered U ws Hw). apply (candidate_in U ws _ t f Hl). destruct (C20_get_word U ws _ t f Hw Hl E) as (? & ? & _). auto.
Qed.
(** the words of the load that went wrong are enough, if the dictionary was good before *)
Theorem C88_round : forall U before ws d d', Forall is_word before -> Forall is_word ws -> as_good U before d -> trouble U ws d d' ->
  as_good U (before ++ ws) (added_again U d' ws).
Proof.
  intros U before ws d d' Hb Hw Hg Ht. set (l0 := known_forms U before). set (l := known_forms U ws).
  assert (Hl0 : registered U before l0) by apply known_forms_registered, Hb. assert (Hl : registered U ws l) by apply known_forms_registered, Hw.
  assert (Hm := proj1 (as_good_minimal U before l0 d Hb Hl0) Hg). clear Hg. rename Hm into Hg. apply (as_good_minimal U (before ++ ws) (l0 ++ l)); [apply Forall_app; auto|apply registered_app; assumption|].
  intros t. rewrite (added_entries U ws Hw l Hl). specialize (Hg t). pose proof (trouble_better U ws d d' Hw Ht t) as B. pose proof (fun g => trouble_sound U ws d d' t g Hw Ht) as S.
  assert (Beats : forall f, In f (l0 ++ l) -> wf_form U f = Ok t -> exists g, fold_left (best_step U t) l (dget str_eqb t d') = Some g /\ ~ preferred f g).
  { intros f Hf Hft. apply in_app_iff in Hf as [Hf|Hf]; [|exact (fold_beats U t l _ f Hf Hft)]. unfold minimal in Hg. destruct (dget str_eqb t d) as [g0|]; [|destruct (Hg f Hf Hft)].
    destruct Hg as (_ & _ & Hg). destruct (B g0 eq_refl) as (g1 & -> & N1). destruct (fold_grows U t l g1) as (g2 & -> & N2). exists g2. split; [reflexivity|].
    eapply not_worse; [|exact N2]. eapply not_worse; [|exact N1]. exact (Hg f Hf Hft). }
  destruct (fold_left (best_step U t) l (dget str_eqb t d')) as [g|] eqn:E; cbn [minimal].
  - assert (In g (l0 ++ l) /\ wf_form U g = Ok t) as [G1 G2].
    { rewrite in_app_iff. apply fold_in in E as [E|[E1 E2]]; [|auto]. destruct (S g E) as [E'|[E1 E2]]; [|auto]. rewrite E' in Hg. destruct Hg as (? & ? & _). auto. }
    split; [exact G1|]. split; [exact G2|]. intros f Hf Hft. destruct (Beats f Hf Hft) as (g' & [= <-] & N). exact N.
  - intros f Hf Hft. destruct (Beats f Hf Hft) as (g & H & _). discriminate.
Qed.
(** adding words again to a good dictionary changes no answer *)
Theorem C88_again : forall U ws ws' d t, Forall is_word ws -> as_good U ws d -> incl ws' ws -> get_word (added_again U d ws') t = get_word d t.
Proof.
  intros U ws ws' d t Hw Hg Hi. set (l := known_forms U ws). set (l' := known_forms U ws'). assert (Hw' : Forall is_word ws') by (rewrite Forall_forall in *; intros w H; apply Hw, Hi, H).
  assert (Hl : registered U ws l) by apply known_forms_registered, Hw. assert (Hl' : registered U ws' l') by apply known_forms_registered, Hw'.
  assert (Hm := proj1 (as_good_minimal U ws l d Hw Hl) Hg). clear Hg. rename Hm into Hg. specialize (Hg t). unfold get_word. rewrite (added_entries U ws' Hw' l' Hl'), fold_same; [reflexivity|].
  intros f Hf Hft. apply (known_forms_incl U ws' ws Hi) in Hf. unfold minimal in Hg. destruct (dget str_eqb t d) as [g|]; [|destruct (Hg f Hf Hft)]. destruct Hg as (_ & _ & Hg). exists g. auto.
Qed.
(** exactly the same answers: when the load was sequential, and for the texts for which the concurrent calls did not compete *)
Theorem C88_sequential_load : forall U ws d n t, Forall is_word ws -> get_word (added_again U (interrupted_load U ws d n) ws) t = get_word (added_again U d ws) t.
Proof.
  intros U ws d n t Hw. assert (Hl := known_forms_registered U ws Hw). unfold get_word. rewrite !(added_entries U ws Hw _ Hl). destruct (load_entries U ws d n Hw) as (P & R & E & H). rewrite H, E, fold_again. reflexivity.
Qed.
Lemma pick_thread U t (ls : list (list wordform)) : (exists j l f, nth_error ls j = Some l /\ In f (ok_prefix U l) /\ wf_form U f = Ok t) \/ (forall j l f, nth_error ls j = Some l -> In f (ok_prefix U l) -> wf_form U f <> Ok t).
Proof.
  induction ls as [|l ls IH]; [right; intros [|j]; discriminate|].
  assert (D : (exists f, In f (ok_prefix U l) /\ wf_form U f = Ok t) \/ forall f, In f (ok_prefix U l) -> wf_form U f <> Ok t).
  { clear. induction (ok_prefix U l) as [|f m IHm]; [right; intros f []|]. destruct (has_text U t f) eqn:E.
    - left. exists f. split; [left; reflexivity|apply has_text_iff, E].
    - destruct IHm as [(g & ? & ?)|IHm]; [left; exists g; split; [right|]; assumption|]. right. intros g [<-|Hg]; [intros Hx; apply has_text_iff in Hx; congruence|apply IHm, Hg]. }
  destruct D as [(f & ? & ?)|D]; [left; exists 0, l, f; auto|]. destruct IH as [(j & l' & f & ? & ? & ?)|IH]; [left; exists (S j), l', f; auto|].
  right. intros [|j] l' f Hj; [injection Hj as <-; apply D|apply (IH j l' f Hj)].
Qed.
Theorem C88_lone_writer : forall U ws d schedule t, Forall is_word ws -> lone_writer U t ws ->
  get_word (added_again U (fst (adding U d ws schedule)) ws) t = get_word (added_again U d ws) t.
Proof.
  intros U ws d schedule t Hw H1. assert (Hl := known_forms_registered U ws Hw). unfold get_word. rewrite !(added_entries U ws Hw _ Hl).
  assert (Hstart : map aw_start ws = map AW_next (map word_forms ws)). { rewrite map_map. apply map_ext_in. intros w Hin. rewrite Forall_forall in Hw. apply aw_start_forms, Hw, Hin. }
  unfold adding. rewrite Hstart. set (ls := map word_forms ws).
  assert (Hn : forall i l, nth_error ls i = Some l -> exists w, nth_error ws i = Some w /\ l = word_forms w /\ is_word w).
  { intros i l E. unfold ls in E. rewrite nth_error_map in E. destruct (nth_error ws i) as [w|] eqn:Ew; [|discriminate]. injection E as <-. exists w. rewrite Forall_forall in Hw. split; [reflexivity|]. split; [reflexivity|apply Hw, (nth_error_In _ _ Ew)]. }
  assert (HWr : forall i l f, nth_error ls i = Some l -> In f (ok_prefix U l) -> wf_form U f = Ok t -> exists w, nth_error ws i = Some w /\ writes U w t).
  { intros i l f El Hf Hft. destruct (Hn i l El) as (w & Ew & -> & Hword). exists w. split; [exact Ew|]. exists (ok_prefix U (word_forms w)), f. split; [apply registers_prefix, Hword|auto]. }
  assert (Eq : known_forms U ws = concat (map (ok_prefix U) ls)) by (unfold known_forms, ls; rewrite map_map; reflexivity).
  destruct (pick_thread U t ls) as [(j & l & f & Ej & Hf & Hft)|HE].
  - destruct (HWr j l f Ej Hf Hft) as (w & Ew & Hwr).
    destruct (lone_run U t j d ls schedule) as [G _].
    { intros i li Hi Hne. split; [|exact I]. cbn [aw_text]. intros g Hg Hgt. destruct (HWr i li g Hi Hg Hgt) as (w' & Ew' & Hwr'). apply Hne. exact (H1 _ _ _ _ Ew' Ew Hwr' Hwr). }
    destruct (G l Ej) as (pc & _ & dn & rest & E & F & _). rewrite F.
    (* only the part of thread j matters *)
    assert (Ej' : nth_error (map (ok_prefix U) ls) j = Some (ok_prefix U l)) by (rewrite nth_error_map, Ej; reflexivity).
    apply nth_error_split in Ej' as (la & lb & Els & Hlen). rewrite Eq, Els, concat_app. cbn [concat].
    assert (Skip : forall m, (forall x, In x m -> exists n, nth_error (map (ok_prefix U) ls) n = Some x /\ n <> j) -> forall acc, fold_left (best_step U t) (concat m) acc = acc).
    { intros m Hm acc. apply fold_best_skip. intros g Hg Hgt. apply in_concat in Hg as (x & Hx & Hg). destruct (Hm x Hx) as (n & En & Nj). rewrite nth_error_map in En. destruct (nth_error ls n) as [ln|] eqn:Eln; [|discriminate].
      injection En as <-. destruct (HWr n ln g Eln Hg Hgt) as (w' & Ew' & Hwr'). apply Nj. exact (H1 _ _ _ _ Ew' Ew Hwr' Hwr). }
    assert (Sa : forall acc, fold_left (best_step U t) (concat la) acc = acc).
    { apply Skip. intros x Hx. apply In_nth_error in Hx as [n En]. assert (n < length la) by (apply nth_error_Some; congruence). exists n. rewrite Els, nth_error_app1 by lia. split; [exact En|lia]. }
    assert (Sb : forall acc, fold_left (best_step U t) (concat lb) acc = acc).
    { apply Skip. intros x Hx. apply In_nth_error in Hx as [n En]. exists (length la + S n). split; [|lia]. rewrite Els, nth_error_app2 by lia. replace (length la + S n - length la) with (S n) by lia. exact En. }
    rewrite !fold_left_app, !Sa, !Sb. rewrite E, fold_again. reflexivity.
  - destruct (lone_run U t (length ls) d ls schedule) as [_ G].
    { intros i li Hi Hne. split; [|exact I]. cbn [aw_text]. intros g. apply (HE i li g Hi). }
    rewrite G; [reflexivity|]. apply nth_error_None. lia.
Qed.

(** ** what is printed *)
(** a text for which no two candidates are equally good is answered as if nothing had happened *)
Theorem C88_answer : forall U ws d t, Forall is_word ws -> as_good U ws d -> unrivalled U ws t -> get_word d t = get_word (after U ws) t.
Proof.
  intros U ws d t Hw Hg Hn. specialize (Hg t). destruct (get_word (after U ws) t) as [f|e] eqn:E; [|exact Hg].
  destruct Hg as (f' & -> & Hc & L). f_equal. symmetry. apply Hn; [|exact Hc|exact L]. assert (Hl := known_forms_registered U ws Hw). apply (candidate_in U ws _ t f Hl).
  destruct (C20_get_word U ws _ t f Hw Hl E) as (? & ? & _). auto.
Qed.
Lemma same_printed U t ext d d' : NoDup (dkeys ext) -> (forall s, In s (t_subs t) -> ~ In (s_id s) (dkeys ext) -> get_word d (s_id s) = get_word d' (s_id s)) ->
  substitute U t ext d = substitute U t ext d' /\ get_undictionaried_words t ext d = get_undictionaried_words t ext d'.
Proof. intros He H. apply C63_substitute; auto. intros name _ f. tauto. Qed.
Theorem C88_substitute : forall U before d ws t ext, troubled U before d -> Forall is_word ws -> incl before ws -> NoDup (dkeys ext) ->
  (forall s, In s (t_subs t) -> ~ In (s_id s) (dkeys ext) -> unrivalled U ws (s_id s)) ->
  substitute U t ext (added_again U d ws) = substitute U t ext (after U ws) /\
  get_undictionaried_words t ext (added_again U d ws) = get_undictionaried_words t ext (after U ws).
Proof. intros U before d ws t ext Ht Hw Hi He Hn. apply same_printed; [exact He|]. intros s Hs Hx. apply C88_answer; [exact Hw|exact (C88_recover U before d ws Ht Hw Hi)|exact (Hn s Hs Hx)]. Qed.
(** a concurrent load that was killed and repeated: templates whose identifiers are not written by two of its words print as if nothing had happened *)
Theorem C88_substitute_lone : forall U before ws schedule t ext, Forall is_word before -> Forall is_word ws -> NoDup (dkeys ext) ->
  (forall s, In s (t_subs t) -> ~ In (s_id s) (dkeys ext) -> lone_writer U (s_id s) ws) ->
  let d := added_again U (fst (adding U (after U before) ws schedule)) ws in
  substitute U t ext d = substitute U t ext (after U (before ++ ws)) /\ get_undictionaried_words t ext d = get_undictionaried_words t ext (after U (before ++ ws)).
Proof. intros U before ws schedule t ext Hb Hw He Hn d. apply same_printed; [exact He|]. intros s Hs Hx. unfold d. rewrite (C88_lone_writer U ws (after U before) schedule (s_id s) Hw (Hn s Hs Hx)), added_after. reflexivity. Qed.
(** an interrupted load that was repeated: all templates *)
Theorem C88_substitute_load : forall U before ws n t ext, Forall is_word before -> Forall is_word ws -> NoDup (dkeys ext) ->
  let d := added_again U (interrupted_load U ws (after U before) n) ws in
  substitute U t ext d = substitute U t ext (after U (before ++ ws)) /\ get_undictionaried_words t ext d = get_undictionaried_words t ext (after U (before ++ ws)).
Proof. intros U before ws n t ext Hb Hw He d. apply same_printed; [exact He|]. intros s Hs Hx. unfold d. rewrite (C88_sequential_load U ws (after U before) n (s_id s) Hw), added_after. reflexivity. Qed.

(** [coin] loaded and interrupted; then two concurrent calls, both of them killed: "об" is not known, then all is added again *)
Example C88_case : let killed := fst (adding ru_unicode (interrupted_load ru_unicode [coin] [] 9) [about; seven] [0; 1; 1; 0; 1]) in
  troubled ru_unicode ([] ++ [coin] ++ [about; seven]) killed /\ incl ([] ++ [coin] ++ [about; seven]) [seven; about; coin] /\ Forall is_word [seven; about; coin] /\
  has_word killed (u "монета") = true /\ has_word killed (u "монетам") = false /\ has_word killed (u "об") = false /\
  as_good ru_unicode [seven; about; coin] (added_again ru_unicode killed [seven; about; coin]) /\ has_word (added_again ru_unicode killed [seven; about; coin]) (u "об") = true /\
  lone_writer ru_unicode (u "об") [about; seven] /\ unrivalled ru_unicode [seven; about; coin] (u "об").
Proof.
  destruct C69_case as (HC & HA & HL & _). assert (Hw : Forall is_word [seven; about; coin]).
  { inversion HA as [|? ? A1 A2]; subst. inversion A2 as [|? ? A3 _]; subst. constructor; [exact A3|]. constructor; [exact A1|exact HC]. }
  assert (Hi : incl ([] ++ [coin] ++ [about; seven]) [seven; about; coin]) by (intros w [<-|[<-|[<-|[]]]]; cbn; auto).
  assert (Ht : troubled ru_unicode ([] ++ [coin] ++ [about; seven]) (fst (adding ru_unicode (interrupted_load ru_unicode [coin] [] 9) [about; seven] [0; 1; 1; 0; 1]))).
  { rewrite app_assoc. apply (troubled_more _ _ (interrupted_load ru_unicode [coin] [] 9)); [|exact HA|exact (trouble_threads ru_unicode [about; seven] _ _)]. apply (troubled_more _ _ []); [constructor|exact HC|exact (trouble_load ru_unicode [coin] [] 9)]. }
  cbv zeta. split; [exact Ht|]. split; [exact Hi|]. split; [exact Hw|]. split; [vm_compute; reflexivity|]. split; [vm_compute; reflexivity|]. split; [vm_compute; reflexivity|].
  split; [exact (C88_recover _ _ _ _ Ht Hw Hi)|]. split; [vm_compute; reflexivity|]. split; [exact HL|].
  intros f g Hf Hg _. assert (Hl := known_forms_registered ru_unicode _ Hw). apply (candidate_in _ _ _ _ _ Hl) in Hf as [F1 F2]. apply (candidate_in _ _ _ _ _ Hl) in Hg as [G1 G2].
  assert (E : exists x, filter (has_text ru_unicode (u "об")) (known_forms ru_unicode [seven; about; coin]) = [x]) by (eexists; vm_compute; reflexivity).
  destruct E as [x E]. assert (Only : forall y, In y (known_forms ru_unicode [seven; about; coin]) -> wf_form ru_unicode y = Ok (u "об") -> x = y).
  { intros y Hy Hyt. apply has_text_iff in Hyt. assert (I : In y [x]) by (rewrite <- E; apply filter_In; auto). destruct I as [I|[]]. exact I. }
  rewrite <- (Only f F1 F2). apply Only; assumption.
Qed.
