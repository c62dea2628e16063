(** * PropReaders: C72, reading while words are added *)
From Coq Require Import Lia.
From Verif Require Import PyBase PyBaseFacts Relations Restrictions Logic Data Words Transformators Dictionary Lexicon Templates Concurrent Readers
  SpecProps SpecSlots SpecDictionary SpecTemplates SpecLocality SpecConcurrent SpecAgreement SpecSubstitution SpecReaders PropsFacts SerFacts WordFacts DictFacts TemplateFacts SubstFacts
  PropSlots PropWords PropDictionary PropSyntax PropSubstitution PropLocality ConcurrentFacts PropConcurrent ReaderFacts.

Lemma add_forms_nodup U w : forall l d, NoDup (dkeys d) -> NoDup (dkeys (fst (add_forms U d w l))).
Proof.
  induction l as [|i l IH]; intros d H; [exact H|]. cbn [add_forms]. destruct (py_nth (INVERTED_WORDS_CACHES (w_type w)) i) as [k|]; [|exact H]. cbn [bind]. unfold add_form.
  destruct (wf_form U _) as [t|]; [|exact H]. cbn [bind]. destruct (dget str_eqb t d); [destruct (replaces _ _)|]; apply IH; try exact H; apply (NoDup_dset _ str_eqb_ok), H.
Qed.
Lemma is_dictionary_nodup U d : is_dictionary U d -> NoDup (dkeys d).
Proof.
  induction 1 as [|d w _ IH Hw|d ws schedule _ IH Hw]; [constructor|apply add_forms_nodup, IH|].
  apply (run_invariant (aw_step U) (fun s => NoDup (dkeys (fst s)))); [|exact IH]. intros s i H. unfold step_at. destruct (nth_error (snd s) i) as [pc|]; [|exact H].
  assert (X := nodup_aw U (fst s) pc H). destruct (aw_step U (fst s) pc). exact X.
Qed.
Section C72.
  Context (U : unicode) (d : dictionary) (ws : list word) (readers : list reader).
  Let start := (d, map (fun w => inl (aw_start w)) ws ++ map (fun r => inr (reader_start r)) readers) : dictionary * list (aw_pc + rd_pc).
  Lemma start_form : start = (d, map inl (map aw_start ws) ++ map inr (map reader_start readers)).
  Proof. unfold start. rewrite !map_map. reflexivity. Qed.
  Lemma reading_writers schedule : exists rs',
    let w := adding U d ws (filter (fun i => i <? length ws) schedule) in reading U d ws readers schedule = (fst w, map inl (snd w) ++ map inr rs').
  Proof.
    destruct (writers_only U (length ws) schedule d (map aw_start ws) (map reader_start readers)) as [rs' H]; [apply map_length|]. exists rs'. cbv zeta in *. unfold adding.
    rewrite <- H. rewrite <- start_form. reflexivity.
  Qed.
  Lemma moment_adding schedule D : moment U d ws readers schedule D -> exists s, D = fst (adding U d ws s).
  Proof. intros (s1 & s2 & _ & ->). destruct (reading_writers s1) as [rs' E]. exists (filter (fun i => i <? length ws) s1). rewrite E. reflexivity. Qed.
  Lemma reader_at j r : nth_error readers j = Some r -> nth_error (snd start) (length ws + j) = Some (inr (reader_start r)).
  Proof.
    intros H. unfold start. cbn [snd]. rewrite nth_error_app2 by (rewrite map_length; lia). rewrite map_length. replace (length ws + j - length ws) with j by lia.
    rewrite nth_error_map, H. reflexivity.
  Qed.
  Lemma answered_fold schedule j r pc : nth_error readers j = Some r -> answered U d ws readers schedule j pc ->
    fold_left (fun p D => rd_step U D p) (visits U start (length ws + j) schedule) (reader_start r) = pc.
  Proof. intros Hr H. assert (E := reader_fold U (length ws + j) schedule start (reader_start r) (reader_at j r Hr)). unfold answered, reading in H. fold start in H. rewrite E in H. injection H as H. exact H. Qed.
  Lemma visit_moment schedule j D : In D (visits U start j schedule) -> moment U d ws readers schedule D.
  Proof. intros H. destruct (visits_moment U j schedule start D H) as (s1 & s2 & E & ->). exists s1, s2. split; [exact E|reflexivity]. Qed.
  Lemma no_writer s t : Forall is_word ws -> (forall w, In w ws -> ~ writes U w t) -> get_word (fst (adding U d ws s)) t = get_word d t.
  Proof.
    intros Hws H. unfold get_word. enough (E : dget str_eqb t (fst (adding U d ws s)) = dget str_eqb t d) by (rewrite E; reflexivity).
    destruct (starts ws Hws) as (ls & HF & Hstart). destruct (aloof_run U t (d, map AW_next ls) s) as [_ G].
    { cbn [snd]. apply Forall_forall. intros pc Hpc. apply in_map_iff in Hpc as (l & <- & Hl). apply In_nth_error in Hl as [i Hi]. split; [|exact I]. intros g Hg Hgt.
      destruct (Forall2_nth' _ _ _ _ _ HF Hi) as (w & Ew & Haf). apply (H w (nth_error_In _ _ Ew)). exists (ok_prefix U l), g. split; [apply (ok_prefix_registers U w l _ Haf); reflexivity|auto]. }
    unfold adding, aw_run. rewrite Hstart. exact G.
  Qed.
  (** every entry is an old one or belongs to an added word *)
  Lemma entry_origin s t f : Forall is_word ws -> get_word (fst (adding U d ws s)) t = Ok f -> get_word d t = Ok f \/ In (wf_word f) ws.
  Proof.
    intros Hws. unfold get_word. destruct (dget str_eqb t (fst (adding U d ws s))) as [g|] eqn:E; [|discriminate]. intros [= ->].
    destruct (starts ws Hws) as (ls & H1 & H2). unfold adding, aw_run in E. rewrite H2 in E. destruct (aw_inv_run U d ls s) as [dns I].
    destruct (ai_sound _ _ _ _ _ I t f E) as [H|(Hf & i & dn & Hi & Hin)]; [left; rewrite H; reflexivity|right].
    destruct (nth_error ls i) as [l|] eqn:El; [|apply nth_error_None in El; rewrite <- (ai_len' _ _ _ _ _ I) in El; apply nth_error_None in El; congruence].
    destruct (Forall2_nth' _ _ _ _ _ H1 El) as (w & Ew & Haf).
    destruct (nth_error (snd (run_threads (aw_step U) (d, map AW_next ls) s)) i) as [pc|] eqn:Ep.
    2: { apply nth_error_None in Ep. rewrite (ai_len _ _ _ _ _ I) in Ep. apply nth_error_None in Ep. congruence. }
    destruct (ai_local _ _ _ _ _ I i l dn pc El Hi Ep) as [_ B].
    assert (X : exists rest, l = dn ++ rest) by (destruct pc; [eexists; exact B|destruct B as [B _]; eexists; exact B|destruct B as [B _]; eexists; exact B|destruct B as [B _]; eexists; exact B|destruct B as (rest & B & _); exists rest; exact B]).
    destruct X as [rest ->]. assert (Hw : is_word w) by (rewrite Forall_forall in Hws; exact (Hws w (nth_error_In _ _ Ew))).
    destruct (all_forms_word w _ f Hw Haf) as [-> _]; [apply in_app_iff; left; exact Hin|]. exact (nth_error_In _ _ Ew).
  Qed.

  Definition formatted (t : template) (texts : list str) : result str := match t_text t with None => Err TypeError | Some fmt => py_format fmt texts end.
  Lemma text_stays Ds r : fold_left (fun p D => rd_step U D p) Ds (RD_text r) = RD_text r.
  Proof. induction Ds as [|D Ds IH]; [reflexivity|exact IH]. Qed.
  Lemma found_stays Ds r : fold_left (fun p D => rd_step U D p) Ds (RD_found r) = RD_found r.
  Proof. induction Ds as [|D Ds IH]; [reflexivity|exact IH]. Qed.
  Lemma set_stays Ds r : fold_left (fun p D => rd_step U D p) Ds (RD_set r) = RD_set r.
  Proof. induction Ds as [|D Ds IH]; [reflexivity|exact IH]. Qed.
  Lemma changed_stays Ds : fold_left (fun p D => rd_step U D p) Ds RD_changed = RD_changed.
  Proof. induction Ds as [|D Ds IH]; [reflexivity|exact IH]. Qed.
  Lemma substitute_fold t ext Ds : forall texts rest r, fold_left (fun p D => rd_step U D p) Ds (RD_substitute t ext texts rest) = RD_text r ->
    (exists new, Forall2 (fun s x => exists D, In D Ds /\ get_text U s ext D = Ok x) rest new /\ r = formatted t (texts ++ new)) \/
    (exists before s after D e, rest = before ++ s :: after /\ In D Ds /\ get_text U s ext D = Err e /\ r = Err e).
  Proof.
    induction Ds as [|D Ds IH]; intros texts rest r H; [discriminate|]. cbn [fold_left] in H. destruct rest as [|s rest]; cbn [rd_step] in H.
    - rewrite text_stays in H. injection H as <-. left. exists []. rewrite app_nil_r. split; [constructor|reflexivity].
    - destruct (get_text U s ext D) as [x|e] eqn:E.
      + destruct (IH _ _ _ H) as [(new & F & ->)|(before & s' & after & D' & e & -> & HD & HE & ->)].
        * left. exists (x :: new). rewrite <- app_assoc. split; [|reflexivity]. constructor; [exists D; split; [left; reflexivity|exact E]|].
          eapply Forall2_impl'; [|exact F]. intros a b (D' & H1 & H2). exists D'. split; [right; exact H1|exact H2].
        * right. exists (s :: before), s', after, D', e. split; [reflexivity|]. split; [right; exact HD|]. auto.
      + rewrite text_stays in H. injection H as <-. right. exists [], s, rest, D, e. split; [reflexivity|]. split; [left; reflexivity|]. auto.
  Qed.
  Lemma substitute_steady t ext D0 Ds : forall texts rest r, (forall D s, In D Ds -> In s rest -> get_text U s ext D = get_text U s ext D0) ->
    fold_left (fun p D => rd_step U D p) Ds (RD_substitute t ext texts rest) = RD_text r -> r = (new <- mapM (fun s => get_text U s ext D0) rest ;; formatted t (texts ++ new)).
  Proof.
    induction Ds as [|D Ds IH]; intros texts rest r HC H; [discriminate|]. cbn [fold_left] in H. destruct rest as [|s rest]; cbn [rd_step] in H.
    - rewrite text_stays in H. injection H as <-. cbn [mapM bind]. rewrite app_nil_r. reflexivity.
    - rewrite (HC D s (or_introl eq_refl) (or_introl eq_refl)) in H. cbn [mapM]. destruct (get_text U s ext D0) as [x|e]; cbn [bind].
      + apply IH in H; [|intros D' s' H1 H2; apply HC; right; assumption]. rewrite H. destruct (mapM (fun s0 => get_text U s0 ext D0) rest) as [new|e]; [|reflexivity]. cbn [bind]. rewrite <- app_assoc. reflexivity.
      + rewrite text_stays in H. injection H as <-. reflexivity.
  Qed.
  Lemma missing_fold ext Ds : forall found rest l, fold_left (fun p D => rd_step U D p) Ds (RD_missing ext found rest) = RD_found l ->
    exists new, l = found ++ new /\ (forall id, In id new -> exists s D, In s rest /\ s_id s = id /\ ~ In id (dkeys ext) /\ In D Ds /\ has_word D id = false) /\
      (forall s, In s rest -> In (s_id s) (dkeys ext) \/ In (s_id s) new \/ exists D, In D Ds /\ has_word D (s_id s) = true).
  Proof.
    induction Ds as [|D Ds IH]; intros found rest l H; [discriminate|]. cbn [fold_left] in H. destruct rest as [|s rest]; cbn [rd_step] in H.
    - rewrite found_stays in H. injection H as <-. exists []. rewrite app_nil_r. split; [reflexivity|]. split; [intros ? []|intros ? []].
    - destruct (IH _ _ _ H) as (new & El & H1 & H2). clear IH H.
      assert (K1 : forall id, In id new -> exists s' D', In s' (s :: rest) /\ s_id s' = id /\ ~ In id (dkeys ext) /\ In D' (D :: Ds) /\ has_word D' id = false).
      { intros id Hid. destruct (H1 id Hid) as (s' & D' & A1 & A2 & A3 & A4 & A5). exists s', D'. cbn [In]. auto 10. }
      assert (K2 : forall s', In s' rest -> In (s_id s') (dkeys ext) \/ In (s_id s') new \/ exists D', In D' (D :: Ds) /\ has_word D' (s_id s') = true).
      { intros s' Hs. destruct (H2 s' Hs) as [A|[A|(D' & A & B)]]; [auto|auto|]. right. right. exists D'. split; [right; exact A|exact B]. }
      destruct (dmem str_eqb (s_id s) ext) eqn:Em; [apply (dmem_iff _ str_eqb_ok) in Em|apply (dmem_false _ str_eqb_ok) in Em; destruct (has_word D (s_id s)) eqn:Eh].
      + exists new. split; [exact El|]. split; [exact K1|]. intros s' [<-|Hs]; [left; exact Em|apply K2, Hs].
      + exists new. split; [exact El|]. split; [exact K1|]. intros s' [<-|Hs]; [right; right; exists D; split; [left; reflexivity|exact Eh]|apply K2, Hs].
      + exists (s_id s :: new). rewrite <- app_assoc in El. split; [exact El|]. split.
        * intros id [<-|Hid]; [|apply K1, Hid]. exists s, D. cbn [In]. auto 10.
        * intros s' [<-|Hs]; [right; left; left; reflexivity|]. destruct (K2 s' Hs) as [A|[A|A]]; [auto|right; left; right; exact A|auto].
  Qed.
  Definition add_entry (acc : list word) (kf : str * wordform) : list word := if mem word_eqb (wf_word (snd kf)) acc then acc else acc ++ [wf_word (snd kf)].
  Lemma words_fold D0 Ds : (forall D, In D Ds -> grows D0 D) -> forall pos acc l, fold_left (fun p D => rd_step U D p) Ds (RD_words (length D0) pos acc) = RD_set l ->
    exists E, dkeys E = skipn pos (dkeys D0) /\ (forall i e, nth_error E i = Some e -> exists D, In D Ds /\ nth_error D (pos + i) = Some e) /\ l = fold_left add_entry E acc.
  Proof.
    induction Ds as [|D Ds IH]; intros HG pos acc l H; [discriminate|]. cbn [fold_left rd_step] in H.
    destruct (Nat.eqb_spec (length D) (length D0)) as [EL|]; [|rewrite changed_stays in H; discriminate]. assert (EK := grows_same _ _ (HG D (or_introl eq_refl)) EL).
    destruct (nth_error D pos) as [[t f]|] eqn:En.
    - apply IH in H; [|intros D' HD'; apply HG; right; exact HD']. destruct H as (E & E1 & E2 & E3). exists ((t, f) :: E). split; [|split].
      + cbn [dkeys map fst]. fold (dkeys E). rewrite E1. assert (X : nth_error (dkeys D0) pos = Some t) by (rewrite <- EK; unfold dkeys; rewrite nth_error_map, En; reflexivity).
        clear -X. revert pos X. induction (dkeys D0) as [|a l IH]; intros [|pos] X; cbn in *; try discriminate; [injection X as ->; reflexivity|apply IH, X].
      + intros [|i] e Hi; cbn [nth_error] in Hi; [injection Hi as <-; exists D; split; [left; reflexivity|rewrite Nat.add_0_r; exact En]|]. destruct (E2 _ _ Hi) as (D' & A & B). exists D'.
        split; [right; exact A|]. rewrite Nat.add_succ_r. exact B.
      + exact E3.
    - rewrite set_stays in H. injection H as <-. exists []. split; [|split; [intros [|?] ? [=]|reflexivity]]. apply nth_error_None in En. symmetry. apply skipn_all2. rewrite <- EK, dkeys_length. exact En.
  Qed.
  Lemma words_changed (D0 : dictionary) (Ds : list dictionary) : forall pos acc, fold_left (fun p D => rd_step U D p) Ds (RD_words (length D0) pos acc) = RD_changed -> exists D, In D Ds /\ length D <> length D0.
  Proof.
    induction Ds as [|D Ds IH]; intros pos acc H; [discriminate|]. cbn [fold_left rd_step] in H. destruct (Nat.eqb_spec (length D) (length D0)) as [EL|N]; [|exists D; split; [left; reflexivity|exact N]].
    destruct (nth_error D pos) as [[t f]|]; [|rewrite set_stays in H; discriminate]. destruct (IH _ _ H) as (D' & A & B). exists D'. split; [right; exact A|exact B].
  Qed.
End C72.

(** ** C72 *)

(** readers do not disturb the writers: the dictionary and the adding threads are as in a run of the adding threads alone *)
Theorem C72_writers_undisturbed : forall U d ws readers schedule,
  let alone := adding U d ws (filter (fun i => i <? length ws) schedule) in
  fst (reading U d ws readers schedule) = fst alone /\
  forall i, i < length ws -> nth_error (snd (reading U d ws readers schedule)) i = option_map inl (nth_error (snd alone) i).
Proof.
  intros U d ws readers schedule. cbv zeta. destruct (reading_writers U d ws readers schedule) as [rs' E]. cbv zeta in E. rewrite E. cbn [fst snd]. split; [reflexivity|].
  intros i Hi. rewrite nth_error_app1; [apply nth_error_map|]. rewrite map_length.
  assert (L : forall s, length (snd (adding U d ws s)) = length ws).
  { intros s. unfold adding, aw_run. apply (run_invariant (aw_step U) (fun st => length (snd st) = length ws)); [|cbn; apply map_length].
    intros st k H. unfold step_at. destruct (nth_error (snd st) k) as [pc|]; [|exact H]. destruct (aw_step U (fst st) pc). cbn [snd]. rewrite list_set_length. exact H. }
  rewrite L. exact Hi.
Qed.
(** so what a reader meets is always a dictionary in the sense of the theorems about substitution (C34-C38, C42, C66, C67) *)
Theorem C72_moments : forall U d ws readers schedule D, is_dictionary U d -> Forall is_word ws -> moment U d ws readers schedule D -> is_dictionary U D.
Proof. intros U d ws readers schedule D Hd Hw HD. destruct (moment_adding _ _ _ _ _ _ HD) as [s ->]. apply dictionary_adding; assumption. Qed.

(** substitute returns the literals and, for each variable, what it prints at some moment of the run; or the error of one
    variable at some moment *)
Theorem C72_substitute : forall U text ext0 t literals variables ext d ws readers schedule j r,
  parse_template U new_template text ext0 = (t, Ok tt) -> cuts text literals variables ->
  nth_error readers j = Some (Substitute t ext) -> answered U d ws readers schedule j (RD_text r) ->
  (exists texts, r = Ok (weave literals texts) /\
     Forall2 (fun s x => exists D, moment U d ws readers schedule D /\ get_text U s ext D = Ok x) (t_subs t) texts) \/
  (exists s D e, In s (t_subs t) /\ moment U d ws readers schedule D /\ get_text U s ext D = Err e /\ r = Err e).
Proof.
  intros U text ext0 t ls vs ext d ws readers schedule j r Hp Hc Hj Ha. apply (answered_fold U d ws readers schedule j _ _ Hj) in Ha. cbn [reader_start] in Ha.
  destruct (substitute_fold U t ext _ _ _ _ Ha) as [(new & F & ->)|(before & s & after & D & e & E & HD & HE & ->)].
  - left. exists new. destruct (parse_ok_inv U new_template text ext0 t ls vs Hc Hp) as (subs & Hn & ->). cbn [t_subs new_template app] in *. split.
    + unfold formatted. cbn [t_text app]. rewrite (py_format_weave _ _ (cuts_lengths _ _ _ Hc)). apply Forall2_length' in F, Hn. rewrite map_length in Hn. rewrite F, Hn, Nat.eqb_refl. reflexivity.
    + eapply Forall2_impl'; [|exact F]. intros s x (D & HD & HE). exists D. split; [eapply visit_moment; exact HD|exact HE].
  - right. exists s, D, e. split; [rewrite E; apply in_app_iff; right; left; reflexivity|]. split; [eapply visit_moment; exact HD|]. auto.
Qed.
(** if no word being added has a text that the template asks the dictionary for, the answer is that of the sequential program *)
Theorem C72_substitute_undisturbed : forall U t ext d ws readers schedule j r, Forall is_word ws -> NoDup (dkeys ext) ->
  nth_error readers j = Some (Substitute t ext) -> answered U d ws readers schedule j (RD_text r) ->
  (forall s, In s (t_subs t) -> In (s_id s) (dkeys ext) \/ forall w, In w ws -> ~ writes U w (s_id s)) ->
  r = substitute U t ext d.
Proof.
  intros U t ext d ws readers schedule j r Hw Hn Hj Ha HN. apply (answered_fold U d ws readers schedule j _ _ Hj) in Ha. cbn [reader_start] in Ha.
  apply (substitute_steady U t ext d) in Ha; [exact Ha|]. intros D s HD Hs. apply visit_moment in HD. destruct (moment_adding _ _ _ _ _ _ HD) as [sch ->].
  apply C63_variable; try assumption; [intros f; reflexivity|intros name _ f; reflexivity|]. intros Hni. destruct (HN s Hs) as [X|X]; [contradiction|]. apply no_writer; assumption.
Qed.
(** once nothing is undictionaried, a substitution that starts from then on succeeds, whatever is added meanwhile *)
Theorem C72_substitute_succeeds : forall U text ext0 t ext d ws readers s1 s2 j r,
  (forall c, u_upper U c <> []) -> parse_template U new_template text ext0 = (t, Ok tt) -> good_externals ext -> incl (dkeys ext0) (dkeys ext) ->
  is_dictionary U d -> Forall is_word ws ->
  (forall name f, In (name, f) ext -> complete (wf_word f)) -> (forall id f, get_word d id = Ok f -> complete (wf_word f)) -> Forall complete ws ->
  get_undictionaried_words t ext (fst (reading U d ws readers s1)) = [] -> moves (length ws + j) s1 = 0 ->
  nth_error readers j = Some (Substitute t ext) -> answered U d ws readers (s1 ++ s2) j (RD_text r) ->
  exists x, r = Ok x.
Proof.
  intros U text ext0 t ext d ws readers s1 s2 j r HU Hp He Hincl Hd Hw Cx Cd Cw Hu Hm Hj Ha. destruct (cuts_exists text) as (ls & vs & Hc).
  apply (answered_fold U d ws readers (s1 ++ s2) j _ _ Hj) in Ha. cbn [reader_start] in Ha. rewrite visits_app in Ha. rewrite (visits_none U _ s1) in Ha by exact Hm. cbn [app] in Ha.
  set (st1 := mx_run U _ s1) in Ha. assert (G : forall D, In D (visits U st1 (length ws + j) s2) -> grows (fst (reading U d ws readers s1)) D) by (intros D HD; apply (visits_from U _ s2 st1 D HD)).
  assert (M : forall D, In D (visits U st1 (length ws + j) s2) -> moment U d ws readers (s1 ++ s2) D).
  { intros D HD. apply (visit_moment U d ws readers (s1 ++ s2) (length ws + j)). rewrite visits_app. apply in_app_iff. right. exact HD. }
  destruct (substitute_fold U t ext _ _ _ _ Ha) as [(new & F & ->)|(before & s & after & D & e & E & HD & HE & ->)].
  - destruct (parse_ok_inv U new_template text ext0 t ls vs Hc Hp) as (subs & Hn & ->). cbn [t_subs new_template app] in *. exists (weave ls new).
    unfold formatted. cbn [t_text app]. rewrite (py_format_weave _ _ (cuts_lengths _ _ _ Hc)). apply Forall2_length' in F, Hn. rewrite map_length in Hn. rewrite F, Hn, Nat.eqb_refl. reflexivity.
  - exfalso. assert (Hs : In s (t_subs t)) by (rewrite E; apply in_app_iff; right; left; reflexivity). destruct (parse_template_subs _ _ _ _ _ _ s Hp Hs) as [[]|[Gs Gn]].
    assert (HD' := C72_moments U d ws readers _ D Hd Hw (M D HD)).
    destruct (C34_failures U s ext D e HU He HD' Gs HE) as [(_ & N1 & N2)|[(name & _ & N1 & N2)|(_ & w & Hu' & Hin)]].
    + assert (X : In (s_id s) (get_undictionaried_words t ext (fst (reading U d ws readers s1)))).
      { unfold get_undictionaried_words. apply in_flat_map. exists s. split; [exact Hs|]. apply (dmem_false _ str_eqb_ok) in N1. rewrite N1.
        destruct (has_word (fst (reading U d ws readers s1)) (s_id s)) eqn:Eh; [|left; reflexivity]. apply (grows_has _ D _ (G D HD)) in Eh. congruence. }
      rewrite Hu in X. exact X.
    + apply N2, Hincl, Gn, N1.
    + destruct (moment_adding _ _ _ _ _ _ (M D HD)) as [sch ->]. assert (CD : forall id f, get_word (fst (adding U d ws sch)) id = Ok f -> complete (wf_word f)).
      { intros id f Hf. destruct (entry_origin U d ws sch id f Hw Hf) as [X|X]; [exact (Cd _ _ X)|]. rewrite Forall_forall in Cw. exact (Cw _ X). }
      destruct Hu' as [(f & [H|_ H] & ->)|(name & f & _ & H & ->)]; [exact (Cx _ _ H Hin)|exact (CD _ _ H Hin)|exact (Cx _ _ H Hin)].
Qed.

(** get_undictionaried_words names every identifier that is unknown at the end and only such that were unknown at the start *)
Theorem C72_undictionaried : forall U t ext d ws readers schedule j l,
  nth_error readers j = Some (Undictionaried t ext) -> answered U d ws readers schedule j (RD_found l) ->
  incl (get_undictionaried_words t ext (fst (reading U d ws readers schedule))) l /\ incl l (get_undictionaried_words t ext d).
Proof.
  intros U t ext d ws readers schedule j l Hj Ha. apply (answered_fold U d ws readers schedule j _ _ Hj) in Ha. cbn [reader_start] in Ha.
  destruct (missing_fold U ext _ _ _ _ Ha) as (new & El & H1 & H2). cbn [app] in El. subst new. unfold get_undictionaried_words. split; intros id Hid.
  - apply in_flat_map in Hid as (s & Hs & Hid). destruct (dmem str_eqb (s_id s) ext) eqn:Em; [destruct Hid|]. apply (dmem_false _ str_eqb_ok) in Em.
    destruct (has_word (fst (reading U d ws readers schedule)) (s_id s)) eqn:Eh; [destruct Hid|]. destruct Hid as [<-|[]]. destruct (H2 s Hs) as [X|[X|(D & HD & X)]]; [contradiction|exact X|exfalso].
    apply visits_from in HD as [_ HD]. apply (grows_has _ _ _ HD) in X. unfold reading in Eh. congruence.
  - destruct (H1 id Hid) as (s & D & Hs & <- & Hn & HD & Hf). apply in_flat_map. exists s. split; [exact Hs|]. apply (dmem_false _ str_eqb_ok) in Hn. rewrite Hn.
    destruct (has_word d (s_id s)) eqn:Eh; [|left; reflexivity]. exfalso. apply visits_from in HD as [HD _]. cbn [fst] in HD. apply (grows_has _ _ _ HD) in Eh. congruence.
Qed.
(** so an empty answer holds from then on *)
Theorem C72_checked : forall U t ext d ws readers s1 s2 j, nth_error readers j = Some (Undictionaried t ext) ->
  answered U d ws readers s1 j (RD_found []) -> get_undictionaried_words t ext (fst (reading U d ws readers (s1 ++ s2))) = [].
Proof.
  intros U t ext d ws readers s1 s2 j Hj Ha. destruct (C72_undictionaried U t ext d ws readers s1 j [] Hj Ha) as [H _].
  destruct (get_undictionaried_words t ext (fst (reading U d ws readers (s1 ++ s2)))) as [|id l] eqn:E; [reflexivity|exfalso].
  apply (H id). assert (X : In id (get_undictionaried_words t ext (fst (reading U d ws readers (s1 ++ s2))))) by (rewrite E; left; reflexivity). clear E.
  unfold get_undictionaried_words in *. apply in_flat_map in X as (s & Hs & X). apply in_flat_map. exists s. split; [exact Hs|]. destruct (dmem str_eqb (s_id s) ext); [destruct X|].
  destruct (has_word (fst (reading U d ws readers (s1 ++ s2))) (s_id s)) eqn:Eh; [destruct X|]. destruct X as [<-|[]].
  destruct (has_word (fst (reading U d ws readers s1)) (s_id s)) eqn:E1; [|left; reflexivity].
  assert (G : grows (fst (reading U d ws readers s1)) (fst (reading U d ws readers (s1 ++ s2)))) by (unfold reading, mx_run; rewrite run_app; apply (grows_run U)).
  apply (grows_has _ _ _ G) in E1. congruence.
Qed.

(** get_words: every element is the word of an entry at some moment; every text known at the start has its word, at some
    moment, in the set; no two elements are equal *)
Theorem C72_get_words : forall U d ws readers schedule j l, is_dictionary U d -> Forall is_word ws ->
  nth_error readers j = Some Words -> answered U d ws readers schedule j (RD_set l) ->
  (forall w, In w l -> exists D t f, moment U d ws readers schedule D /\ get_word D t = Ok f /\ wf_word f = w) /\
  (forall t, has_word d t = true -> exists D f w, moment U d ws readers schedule D /\ get_word D t = Ok f /\ In w l /\ same_word w (wf_word f)) /\
  (forall l1 a l2 b l3, l = l1 ++ a :: l2 ++ b :: l3 -> ~ same_word a b).
Proof.
  intros U d ws readers schedule j l Hd Hw Hj Ha. assert (Hnd := is_dictionary_nodup U d Hd). apply (answered_fold U d ws readers schedule j _ _ Hj) in Ha. cbn [reader_start] in Ha.
  set (st := (d, _)) in Ha. destruct (visits U st (length ws + j) schedule) as [|D0 Ds] eqn:EV; [discriminate|]. cbn [fold_left rd_step] in Ha.
  assert (V : forall D, In D (D0 :: Ds) -> moment U d ws readers schedule D) by (intros D HD; apply (visit_moment U d ws readers schedule (length ws + j)); fold st; rewrite EV; exact HD).
  destruct (words_fold U D0 Ds) with (pos := 0) (acc := @nil word) (l := l) as (E & E1 & E2 & E3); [|exact Ha|].
  { intros D HD. apply in_split in HD as (a & b & ->). apply (visits_sorted U (length ws + j) schedule st [] D0 a D b). exact EV. }
  cbn [skipn] in E1. change (l = get_words E) in E3.
  assert (ME : forall t f, In (t, f) E -> exists D, moment U d ws readers schedule D /\ get_word D t = Ok f).
  { intros t f H. apply In_nth_error in H as [n Hn]. destruct (E2 n _ Hn) as (D & HD & Hin). apply nth_error_In in Hin. assert (MD : moment U d ws readers schedule D) by (apply V; right; exact HD). exists D. split; [exact MD|].
    destruct MD as (s1 & s2 & _ & ED). unfold get_word. rewrite (In_dget _ str_eqb_ok D t f); [reflexivity| |exact Hin]. rewrite ED. apply nodup_run. exact Hnd. }
  assert (WE : forall t f, In (t, f) E -> is_word (wf_word f)).
  { intros t f H. destruct (ME t f H) as (D & MD & Hg). destruct (dictionary_form U D t f (C72_moments _ _ _ _ _ _ Hd Hw MD) Hg) as (Wf & _). destruct (wordform_parts f Wf) as (X & _). exact X. }
  destruct (get_words_fold E [] WE) as (new & F1 & F2 & F3 & F4). unfold get_words in E3. rewrite F1 in E3. cbn [app] in E3. subst l. simpl app in F3, F4.
  assert (WN : forall w, In w new -> is_word w) by (intros w Hin; destruct (F2 w Hin) as (t & f & A & <-); exact (WE t f A)).
  split; [|split].
  - intros w Hin. destruct (F2 w Hin) as (t & f & A & B). destruct (ME t f A) as (D & MD & Hg). exists D, t, f. auto.
  - intros t Ht. assert (Hk : In t (dkeys E)).
    { rewrite E1. assert (G : grows d D0) by (apply (visits_from U (length ws + j) schedule st D0); rewrite EV; left; reflexivity). apply has_word_keys. exact (grows_has _ _ _ G Ht). }
    apply in_map_iff in Hk as ([t' f] & Et & Hin). cbn in Et. subst t'. destruct (ME t f Hin) as (D & MD & Hg). assert (X := F3 t f Hin). unfold mem in X. apply existsb_exists in X as (w & Hw' & Ew).
    exists D, f, w. split; [exact MD|]. split; [exact Hg|]. split; [exact Hw'|]. apply word_eqb_iff in Ew; [|exact (WE t f Hin)|exact (WN w Hw')]. destruct Ew as (A & B & C). repeat split; try congruence; apply C.
  - intros l1 a l2 b l3 El HS. assert (Hb := F4 (l1 ++ a :: l2) b l3). rewrite <- app_assoc in Hb. specialize (Hb El). unfold mem in Hb.
    rewrite existsb_app in Hb. simpl in Hb. apply Bool.orb_false_iff in Hb as [_ Hb]. apply Bool.orb_false_iff in Hb as [Hb _].
    assert (Wa : is_word a) by (apply WN; rewrite El; apply in_app_iff; right; left; reflexivity).
    assert (Wb : is_word b) by (apply WN; rewrite El; apply in_app_iff; right; right; apply in_app_iff; right; left; reflexivity).
    destruct HS as (A & B & C). assert (word_eqb b a = true) by (apply word_eqb_iff; [assumption|assumption|]; repeat split; try congruence; apply C). congruence.
Qed.
(** the error: only if a text has become known meanwhile *)
Theorem C72_get_words_error : forall U d ws readers schedule j, is_dictionary U d -> nth_error readers j = Some Words -> answered U d ws readers schedule j RD_changed ->
  exists t, has_word d t = false /\ has_word (fst (reading U d ws readers schedule)) t = true.
Proof.
  intros U d ws readers schedule j Hd Hj Ha. apply (answered_fold U d ws readers schedule j _ _ Hj) in Ha. cbn [reader_start] in Ha.
  set (st := (d, _)) in Ha. destruct (visits U st (length ws + j) schedule) as [|D0 Ds] eqn:EV; [discriminate|]. cbn [fold_left rd_step] in Ha.
  destruct (words_changed U D0 Ds 0 [] Ha) as (D & HD & HL).
  assert (G0 : grows d D0) by (apply (visits_from U (length ws + j) schedule st D0); rewrite EV; left; reflexivity).
  assert (G1 : grows D0 D) by (apply in_split in HD as (a & b & ->); apply (visits_sorted U (length ws + j) schedule st [] D0 a D b); exact EV).
  assert (G2 : grows D (fst (reading U d ws readers schedule))) by (apply (visits_from U (length ws + j) schedule st D); rewrite EV; right; exact HD).
  destruct G1 as [more E]. destruct more as [|t more]; [exfalso; apply HL; rewrite <- !dkeys_length, E, app_nil_r; reflexivity|].
  assert (HinD : In t (dkeys D)) by (rewrite E; apply in_app_iff; right; left; reflexivity).
  exists t. split; [|apply (grows_has D _ t G2), has_word_keys, HinD].
  destruct (has_word d t) eqn:Eh; [|reflexivity]. exfalso. apply (grows_has _ _ _ G0), has_word_keys in Eh.
  assert (N : NoDup (dkeys D)).
  { destruct (visits_moment U (length ws + j) schedule st D) as (s1 & s2 & _ & ->); [rewrite EV; right; exact HD|]. apply nodup_run. apply (is_dictionary_nodup U d Hd). }
  rewrite E in N. apply NoDup_remove_2 in N. apply N, in_app_iff. left. exact Eh.
Qed.
(** without concurrent writers it is the sequential get_words *)
Theorem C72_get_words_alone : forall U d readers schedule j pc, nth_error readers j = Some Words -> answered U d [] readers schedule j pc ->
  pc <> RD_changed /\ forall l, pc = RD_set l -> l = get_words d.
Proof.
  intros U d readers schedule j pc Hj Ha.
  assert (X : forall D, moment U d [] readers schedule D -> D = d).
  { intros D HD. destruct (moment_adding _ _ _ _ _ _ HD) as [s ->]. clear HD. unfold adding. cbn [map]. unfold aw_run, run_threads. induction s as [|i s IH]; [reflexivity|]. cbn [fold_left].
    unfold step_at at 2. cbn [snd]. destruct i; exact IH. }
  apply (answered_fold U d [] readers schedule j _ _ Hj) in Ha. cbn [reader_start length Nat.add] in Ha. set (st := (d, _)) in Ha.
  assert (V : forall D, In D (visits U st j schedule) -> D = d) by (intros D HD; apply X; apply (visit_moment U d [] readers schedule j); exact HD).
  destruct (visits U st j schedule) as [|D0 Ds]; [subst pc; split; [discriminate|intros l [=]]|]. cbn [fold_left rd_step] in Ha. assert (E0 := V D0 (or_introl eq_refl)). subst D0. split.
  - intros ->. destruct (words_changed U d Ds 0 [] Ha) as (D & HD & HL). apply HL. rewrite (V D (or_intror HD)). reflexivity.
  - intros l ->. destruct (words_fold U d Ds) with (pos := 0) (acc := @nil word) (l := l) as (E & E1 & E2 & E3); [intros D HD; rewrite (V D (or_intror HD)); apply grows_refl|exact Ha|].
    rewrite E3. change (get_words E = get_words d). f_equal. assert (L : length E = length d) by (rewrite <- !dkeys_length, E1; reflexivity).
    assert (N : forall n, nth_error E n = nth_error d n).
    { intros n. destruct (nth_error E n) as [e|] eqn:En; [|symmetry; apply nth_error_None; rewrite <- L; apply nth_error_None; exact En].
      destruct (E2 n e En) as (D & HD & HN). rewrite (V D (or_intror HD)) in HN. symmetry. exact HN. }
    clear -N. revert d N. induction E as [|e E IH]; intros [|x d] N; [reflexivity|discriminate (N 0)|discriminate (N 0)|]. assert (N0 := N 0). injection N0 as ->. f_equal. apply IH. intros n. exact (N (S n)).
Qed.
(** each reader ends: one step for each variable and one more; for get_words one for each text and two more *)
Lemma substitute_ends U t ext Ds : forall texts rest, length rest < length Ds -> exists r, fold_left (fun p D => rd_step U D p) Ds (RD_substitute t ext texts rest) = RD_text r.
Proof.
  induction Ds as [|D Ds IH]; intros texts rest H; [cbn in H; lia|]. cbn [fold_left]. destruct rest as [|s rest]; cbn [rd_step]; [eexists; apply text_stays|].
  destruct (get_text U s ext D); [apply IH; cbn in H; lia|eexists; apply text_stays].
Qed.
Lemma missing_ends U ext Ds : forall found rest, length rest < length Ds -> exists l, fold_left (fun p D => rd_step U D p) Ds (RD_missing ext found rest) = RD_found l.
Proof.
  induction Ds as [|D Ds IH]; intros texts rest H; [cbn in H; lia|]. cbn [fold_left]. destruct rest as [|s rest]; cbn [rd_step]; [eexists; apply found_stays|]. apply IH. cbn in H. lia.
Qed.
Definition ended_reader (pc : rd_pc) : Prop := match pc with RD_text _ | RD_found _ | RD_set _ | RD_changed => True | _ => False end.
Lemma words_end U size Ds : forall pos acc, pos <= size -> size - pos < length Ds ->
  ended_reader (fold_left (fun p D => rd_step U D p) Ds (RD_words size pos acc)).
Proof.
  induction Ds as [|D Ds IH]; intros pos acc L H; cbn [length] in H; [lia|]. cbn [fold_left rd_step]. destruct (Nat.eqb_spec (length D) size) as [E|]; [|rewrite changed_stays; exact I].
  destruct (nth_error D pos) as [[t f]|] eqn:En; [|rewrite set_stays; exact I]. assert (pos < length D) by (apply nth_error_Some; congruence). apply IH; lia.
Qed.
Theorem C72_progress : forall U d ws readers schedule j r, nth_error readers j = Some r ->
  match r with Substitute t _ | Undictionaried t _ => length (t_subs t) | Words => S (length (fst (reading U d ws readers schedule))) end < moves (length ws + j) schedule ->
  exists pc, answered U d ws readers schedule j pc /\
    match r, pc with Substitute _ _, RD_text _ | Undictionaried _ _, RD_found _ | Words, RD_set _ | Words, RD_changed => True | _, _ => False end.
Proof.
  intros U d ws readers schedule j r Hj Hm. set (st := (d, map (fun w => inl (aw_start w)) ws ++ map (fun r => inr (reader_start r)) readers) : dictionary * list (aw_pc + rd_pc)).
  assert (E := reader_fold U (length ws + j) schedule st (reader_start r) (reader_at d ws readers j r Hj)).
  assert (L := visits_count U (length ws + j) schedule st). change (count_runs (length ws + j) schedule) with (moves (length ws + j) schedule) in L.
  eexists. split; [exact E|]. clear E. destruct r as [t ext|t ext|]; cbn [reader_start].
  - destruct (substitute_ends U t ext (visits U st (length ws + j) schedule) [] (t_subs t)) as [x ->]; [lia|exact I].
  - destruct (missing_ends U ext (visits U st (length ws + j) schedule) [] (t_subs t)) as [x ->]; [lia|exact I].
  - assert (G : forall D, In D (visits U st (length ws + j) schedule) -> grows D (fst (reading U d ws readers schedule))) by (intros D HD; exact (proj2 (visits_from U (length ws + j) schedule st D HD))).
    destruct (visits U st (length ws + j) schedule) as [|D0 Ds]; [cbn in L; lia|]. cbn [fold_left rd_step]. assert (G0 := grows_length _ _ (G D0 (or_introl eq_refl))). cbn [length] in L.
    assert (X := words_end U (length D0) Ds 0 [] (Nat.le_0_l _)). 
    assert (Y : forall pos acc Ds', match fold_left (fun p D => rd_step U D p) Ds' (RD_words (length D0) pos acc) with RD_words _ _ _ | RD_set _ | RD_changed => True | _ => False end).
    { intros pos acc Ds'. revert pos acc. induction Ds' as [|D Ds' IH]; intros pos acc; [exact I|]. cbn [fold_left rd_step]. destruct (Nat.eqb (length D) (length D0)); [|rewrite changed_stays; exact I].
      destruct (nth_error D pos) as [[t f]|]; [apply IH|rewrite set_stays; exact I]. }
    specialize (Y 0 [] Ds). destruct (fold_left _ Ds (RD_words (length D0) 0 [])); try exact I; try contradiction. apply X. lia.
Qed.
Definition eight : word := {| w_type := WT_INTEGER; w_forms := [u "8"]; w_props := [] |}.
(** FINDING: a concurrent add_word can make get_words fail with RuntimeError *)
Theorem C72_get_words_error_refuted : exists U ws0 ws schedule, Forall is_word ws0 /\ Forall is_word ws /\
  answered U (after U ws0) ws [Words] schedule 0 RD_changed.
Proof.
  exists ru_unicode, [about], [eight], [1; 0; 0; 1].
  assert (Hw : forall w, In w [about; eight] -> is_word w) by (intros w [<-|[<-|[]]]; repeat constructor; try apply (new_properties []); intros d []).
  split; [constructor; [apply Hw; left; reflexivity|constructor]|]. split; [constructor; [apply Hw; right; left; reflexivity|constructor]|]. vm_compute. reflexivity.
Qed.
(** a template is substituted while the word 8 is being added to a dictionary that knows another one; the check was empty
    after two steps of the adding thread, and the reader starts then.  A second reader checks, a third one lists the words *)
Example C72_case : exists t, let text := u "[об]: [8]" in let d := after ru_unicode [about] in let readers := [Substitute t []; Undictionaried t []; Words] in
  parse_template ru_unicode new_template text [] = (t, Ok tt) /\ is_dictionary ru_unicode d /\ Forall is_word [eight] /\ Forall complete [eight] /\
  (forall id f, get_word d id = Ok f -> complete (wf_word f)) /\
  get_undictionaried_words t [] d = [u "8"] /\ get_undictionaried_words t [] (fst (reading ru_unicode d [eight] readers [0; 2; 0])) = [] /\
  moves (length [eight] + 0) [0; 2; 0] = 0 /\
  answered ru_unicode d [eight] readers ([0; 2; 0] ++ [1; 2; 1; 0; 2; 1; 3; 3; 3; 3; 3; 3; 3]) 0 (RD_text (Ok (u "об: 8"))) /\
  answered ru_unicode d [eight] readers ([0; 2; 0] ++ [1; 2; 1; 0; 2; 1; 3; 3; 3; 3; 3; 3; 3]) 1 (RD_found []) /\
  answered ru_unicode d [eight] readers ([0; 2; 0] ++ [1; 2; 1; 0; 2; 1; 3; 3; 3; 3; 3; 3; 3]) 2 (RD_set [about; eight]).
Proof.
  assert (Hw : forall w, In w [about; eight] -> is_word w) by (intros w [<-|[<-|[]]]; repeat constructor; try apply (new_properties []); intros d []).
  assert (Ha : Forall is_word [about]) by (constructor; [apply Hw; left; reflexivity|constructor]).
  eexists. cbv zeta. split; [vm_compute; reflexivity|]. split; [apply is_dictionary_after, Ha|]. split; [constructor; [apply Hw; right; left; reflexivity|constructor]|].
  split; [constructor; [intros [[=]|[]]|constructor]|]. split.
  { intros id f Hf. destruct (C20_get_words ru_unicode [about] Ha) as (X & Y & _). destruct (Y id f Hf) as (w & Hin & HS). destruct (X w Hin) as [[<-|[]] _].
    unfold complete. destruct HS as (_ & <- & _). intros [[=]|[[=]|[[=]|[]]]]. }
  split; [vm_compute; reflexivity|]. split; [vm_compute; reflexivity|]. split; [reflexivity|]. split; [vm_compute; reflexivity|]. split; vm_compute; reflexivity.
Qed.
