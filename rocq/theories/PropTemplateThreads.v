(** * PropTemplateThreads: C83: one template object used by several threads *)
From Verif Require Import PyBase Relations Words Dictionary Templates Concurrent TemplateThreads PyBaseFacts SpecProps SpecTemplates TemplateFacts SpecConcurrent ConcurrentFacts
  SpecTemplateThreads PropSyntax SpecSubstitution SubstFacts PropSubstitution.
From Coq Require Import Lia.

Lemma nth_error_Some_lt {A} (l : list A) p a : nth_error l p = Some a -> p < length l.
Proof. intros H. apply nth_error_Some. congruence. Qed.
Lemma list_set_length {A} (l : list A) i x : length (list_set i x l) = length l.
Proof. revert i. induction l as [|a l IH]; intros [|i]; cbn; congruence. Qed.
Section Facts.
  Variable U : unicode.
  Lemma nth_firstn {A} (l : list A) p a : nth_error l p = Some a -> firstn (S p) l = firstn p l ++ [a].
  Proof. revert p. induction l as [|x l IH]; intros [|p] H; try discriminate; cbn in *; [congruence|]. f_equal. apply IH, H. Qed.
  Lemma mapM_snoc {A B} (f : A -> result B) l a bs b : mapM f l = Ok bs -> f a = Ok b -> mapM f (l ++ [a]) = Ok (bs ++ [b]).
  Proof. intros H H'. rewrite mapM_app, H. cbn [bind mapM]. rewrite H'. reflexivity. Qed.
  Lemma mapM_prefix_err {A B} (f : A -> result B) l p bs a e : mapM f (firstn p l) = Ok bs -> nth_error l p = Some a -> f a = Err e -> mapM f l = Err e.
  Proof.
    intros H Ha He. apply nth_error_split in Ha as (l1 & l2 & -> & L). rewrite <- L, firstn_app, Nat.sub_diag, firstn_all in H. cbn [firstn] in H. rewrite app_nil_r in H.
    rewrite mapM_app, H. cbn [bind mapM]. rewrite He. reflexivity.
  Qed.
  Definition finish (t0 : option str) (x : list substitution * result str) : template * result unit :=
    match x with
    | (subs, Ok text') => ({| t_subs := subs; t_text := Some text' |}, Ok tt)
    | (subs, Err e) => ({| t_subs := subs; t_text := t0 |}, Err e)
    end.
  Lemma parse_finish t text ext : parse_template U t text ext = finish (t_text t) (parse_loop U ext (find_variables (escape text)) (escape text) (t_subs t)).
  Proof. unfold parse_template, finish. destruct (parse_loop _ _ _ _ _) as [subs [x|e]]; reflexivity. Qed.
  Lemma loop_prefix ext vs : forall text subs, exists more, fst (parse_loop U ext vs text subs) = subs ++ more.
  Proof.
    induction vs as [|v vs IH]; intros text subs; cbn [parse_loop]; [exists []; rewrite app_nil_r; reflexivity|].
    destruct (parse_substitution U v ext) as [s|e]; [|exists []; cbn [fst]; rewrite app_nil_r; reflexivity].
    destruct (IH (replace_first v (u "%s") text) (subs ++ [s])) as (more & H). exists (s :: more). rewrite H, <- app_assoc. reflexivity.
  Qed.
  Lemma finish_prefix t0 ext vs text subs t r : finish t0 (parse_loop U ext vs text subs) = (t, r) -> exists more, t_subs t = subs ++ more.
  Proof.
    destruct (loop_prefix ext vs text subs) as (more & H). destruct (parse_loop U ext vs text subs) as [subs' [x|e]]; cbn [fst finish] in *; intros [= <- <-]; exists more; exact H.
  Qed.

End Facts.
Lemma mapM_all {A B} (f : A -> result B) l p bs : nth_error l p = None -> mapM f (firstn p l) = Ok bs -> mapM f l = Ok bs.
Proof. intros H. apply nth_error_None in H. rewrite firstn_all2 by exact H. auto. Qed.
Lemma und_snoc t p s ext d : nth_error (t_subs t) p = Some s -> get_undictionaried_words (unfinished t (S p)) ext d =
  get_undictionaried_words (unfinished t p) ext d ++ (if dmem str_eqb (s_id s) ext then [] else if has_word d (s_id s) then [] else [s_id s]).
Proof.
  intros H. unfold get_undictionaried_words, unfinished. cbn [t_subs]. rewrite (nth_firstn _ _ _ H), flat_map_app. cbn [flat_map]. rewrite app_nil_r. reflexivity.
Qed.
Lemma format_of_parsed U text ext t r fmt texts : parse_template U new_template text ext = (t, r) -> t_text t = Some fmt ->
  (length texts = length (t_subs t) -> forall x, py_format fmt texts = x -> exists y, x = Ok y) /\ (length texts <> length (t_subs t) -> py_format fmt texts = Err TypeError).
Proof.
  intros Hp Hf. destruct (C27_decomposition text) as (ls & vs & Hc & _). destruct r as [[]|e].
  - destruct (parse_ok_inv U new_template text ext t ls vs Hc Hp) as (new & Hn & ->). cbn [t_subs t_text new_template app] in *. injection Hf as <-.
    apply Forall2_length' in Hn. rewrite map_length in Hn. rewrite (py_format_weave _ _ (cuts_lengths _ _ _ Hc)). rewrite Hn. destruct (Nat.eqb_spec (length texts) (length vs)); split; intros; try contradiction; [subst; eauto|reflexivity].
  - rewrite parse_finish in Hp. destruct (parse_loop _ _ _ _ _) as [subs [x|e']]; cbn [finish] in Hp; [discriminate Hp|]. injection Hp as <- _. discriminate Hf.
Qed.

(** what a call can have got so far, when all states of the template are initial parts of t *)
Definition got (U : unicode) (t st : template) (c : tcall) (pc : tt_pc) : Prop :=
  match c, pc with
  | CSubstitute ext d, TT_texts ext' d' p texts => ext' = ext /\ d' = d /\ p <= length (t_subs st) /\ mapM (fun s => get_text U s ext d) (firstn p (t_subs t)) = Ok texts
  | CSubstitute ext d, TT_format texts => exists p, p <= length (t_subs st) /\ mapM (fun s => get_text U s ext d) (firstn p (t_subs t)) = Ok texts
  | CSubstitute ext d, TT_text x => x = substitute U t ext d \/ x = Err TypeError
  | CUndictionaried ext d, TT_missing ext' d' p found => ext' = ext /\ d' = d /\ p <= length (t_subs st) /\ found = get_undictionaried_words (unfinished t p) ext d
  | CUndictionaried ext d, TT_found l => exists p, l = get_undictionaried_words (unfinished t p) ext d
  | CSerialize, TT_template => True
  | CSerialize, TT_stored text p subs => p <= length (t_subs st) /\ (text = None \/ st = t /\ text = t_text t) /\ mapM serialize_substitution (firstn p (t_subs t)) = Ok subs
  | CSerialize, TT_data x => x = serialize_template t \/ exists p, x = serialize_template (unfinished t p)
  | CParse _ _, _ => True
  | _, _ => False
  end.
Lemma got_mono U t st st' c pc : length (t_subs st) <= length (t_subs st') -> (st = t -> st' = t) -> got U t st c pc -> got U t st' c pc.
Proof.
  intros L E. destruct c, pc; cbn [got]; try tauto.
  - intros (-> & -> & H & H'). repeat split; [lia|exact H'].
  - intros (p & H & H'). exists p. split; [lia|exact H'].
  - intros (-> & -> & H & H'). repeat split; [lia|exact H'].
  - intros (H & [->|[Hs ->]] & H'); (split; [lia|]); (split; [|exact H']); [left; reflexivity|right; split; [exact (E Hs)|reflexivity]].
Qed.
Lemma got_step U text ext0 t r st c pc : parse_template U new_template text ext0 = (t, r) ->
  (exists more, t_subs t = t_subs st ++ more) -> (t_text st = None \/ st = t) -> (forall a b, c <> CParse a b) ->
  got U t st c pc -> fst (tt_step U st pc) = st /\ got U t st c (snd (tt_step U st pc)).
Proof.
  intros Hp (more & Hm) Ht Hc G.
  assert (N : forall p s, nth_error (t_subs st) p = Some s -> nth_error (t_subs t) p = Some s).
  { intros p s H. rewrite Hm, nth_error_app1; [exact H|]. apply nth_error_Some. congruence. }
  destruct c as [a b|ext d|ext d|]; [destruct (Hc a b eq_refl)| | |]; destruct pc; cbn [got] in G; try contradiction; cbn [tt_step fst snd]; (split; [reflexivity|]).
  - destruct G as (-> & -> & L & E). destruct (nth_error (t_subs st) position) as [s|] eqn:En.
    + assert (En' := N _ _ En). destruct (get_text U s ext d) as [x|e] eqn:Eg; cbn [got].
      * repeat split; [apply nth_error_Some_lt in En; lia|]. rewrite (nth_firstn _ _ _ En'). apply mapM_snoc; [exact E|exact Eg].
      * left. unfold substitute. rewrite (mapM_prefix_err _ _ _ _ _ _ E En' Eg). reflexivity.
    + cbn [got]. exists position. auto.
  - destruct G as (p & L & E). cbn [got]. destruct Ht as [Ht| ->]; [rewrite Ht; right; reflexivity|].
    destruct (t_text t) as [fmt|] eqn:Ef; [|right; reflexivity]. destruct (Nat.eq_dec p (length (t_subs t))) as [->|Hne].
    + left. rewrite firstn_all in E. unfold substitute. rewrite E, Ef. reflexivity.
    + right. apply (format_of_parsed U text ext0 t r fmt texts Hp Ef). apply mapM_length in E. rewrite E, firstn_length. lia.
  - exact G.
  - destruct G as (-> & -> & L & E). destruct (nth_error (t_subs st) position) as [s|] eqn:En; cbn [got].
    + repeat split; [apply nth_error_Some_lt in En; lia|]. rewrite (und_snoc t position s ext d (N _ _ En)), E. reflexivity.
    + exists position. exact E.
  - exact G.
  - cbn [got]. split; [lia|]. split; [destruct Ht as [->| ->]; auto|]. reflexivity.
  - destruct G as (L & Hx & E). destruct (nth_error (t_subs st) position) as [s|] eqn:En.
    + assert (En' := N _ _ En). destruct (serialize_substitution s) as [x|e] eqn:Eg; cbn [got].
      * split; [apply nth_error_Some_lt in En; lia|]. split; [exact Hx|]. rewrite (nth_firstn _ _ _ En'). apply mapM_snoc; [exact E|exact Eg].
      * left. unfold serialize_template. rewrite (mapM_prefix_err _ _ _ _ _ _ E En' Eg). reflexivity.
    + cbn [got]. destruct Hx as [->|[-> ->]].
      * right. exists position. unfold serialize_template, unfinished. cbn [t_subs t_text]. rewrite E. reflexivity.
      * left. unfold serialize_template. rewrite (mapM_all _ _ _ _ En E). reflexivity.
  - exact G.
Qed.

(** the state of a program with one parse *)
Definition parsing (U : unicode) (ext : externals) (t : template) (r : result unit) (st : template) (pc : tt_pc) : Prop :=
  (exists vs text, pc = TT_parse ext vs text /\ t_text st = None /\ finish None (parse_loop U ext vs text (t_subs st)) = (t, r)) \/ (pc = TT_parsed r /\ st = t).
Definition one_parser (U : unicode) calls i ext t r (st : template * list tt_pc) : Prop :=
  (exists pc, nth_error (snd st) i = Some pc /\ parsing U ext t r (fst st) pc) /\
  (forall j c pc, j <> i -> nth_error calls j = Some c -> nth_error (snd st) j = Some pc -> got U t (fst st) c pc).
Lemma parsing_state U ext t r st pc : parsing U ext t r st pc -> (exists more, t_subs t = t_subs st ++ more) /\ (t_text st = None \/ st = t).
Proof.
  intros [(vs & text & _ & H & E)|[_ ->]]; [|split; [exists []; rewrite app_nil_r; reflexivity|auto]]. split; [|auto]. exact (finish_prefix U _ _ _ _ _ _ _ E).
Qed.
Lemma parsing_step U ext t r st pc : parsing U ext t r st pc -> let st' := fst (tt_step U st pc) in
  parsing U ext t r st' (snd (tt_step U st pc)) /\ length (t_subs st) <= length (t_subs st') /\ (st = t -> st' = t).
Proof.
  intros [(vs & text & -> & Hn & E)|[-> ->]]; [|cbn; split; [right; auto|]; split; [lia|auto]].
  destruct vs as [|v vs]; cbn [tt_step parse_loop] in *.
  - cbn [finish] in E. injection E as <- <-. cbn [fst snd t_subs]. split; [right; split; reflexivity|]. split; [lia|reflexivity].
  - destruct (parse_substitution U v ext) as [s|e]; cbn [fst snd].
    + split; [left; exists vs, (replace_first v (u "%s") text); split; [reflexivity|]; split; [exact Hn|exact E]|]. cbn [t_subs]. rewrite app_length. split; [lia|].
      intros ->. exfalso. apply finish_prefix in E as (more & E). apply (f_equal (@length _)) in E. rewrite !app_length in E. cbn [length] in E. lia.
    + cbn [finish] in E. injection E as <- <-. split; [right; split; [reflexivity|]|split; [lia|auto]]. destruct st; cbn in *. congruence.
Qed.
Lemma one_parser_step U calls i text ext t r st k : only_parse calls i text ext -> length (snd st) = length calls -> parse_template U new_template text ext = (t, r) ->
  one_parser U calls i ext t r st -> one_parser U calls i ext t r (step_at (tt_step U) st k).
Proof.
  intros [Hi Ho] L Hp [(pc & Epc & P) G]. destruct (parsing_state _ _ _ _ _ _ P) as [Hm Ht]. unfold step_at. destruct (nth_error (snd st) k) as [q|] eqn:Ek.
  2: { split; [exists pc; auto|exact G]. }
  destruct (Nat.eq_dec k i) as [->|Hne].
  - rewrite Epc in Ek. injection Ek as <-. destruct (parsing_step _ _ _ _ _ _ P) as (P' & L' & E'). destruct (tt_step U (fst st) pc) as [st' pc']. cbn [fst snd] in *. split.
    + exists pc'. split; [|exact P']. cbn [snd]. rewrite (set_nth_at _ _ _ _ _ Epc), Nat.eqb_refl. reflexivity.
    + intros j c q Hj Hc. cbn [snd]. rewrite (set_nth_at _ _ _ _ _ Epc). destruct (Nat.eqb_spec j i); [contradiction|]. intros Hq. exact (got_mono _ _ _ _ _ _ L' E' (G j c q Hj Hc Hq)).
  - assert (Hk : exists c, nth_error calls k = Some c).
    { destruct (nth_error calls k) as [c|] eqn:E; [eauto|]. apply nth_error_None in E. apply nth_error_Some_lt in Ek. lia. }
    destruct Hk as (c & Hc). assert (Gk := G k c q Hne Hc Ek).
    destruct (got_step U text ext t r (fst st) c q Hp Hm Ht) as [S1 S2]; [|exact Gk|].
    { intros a b ->. apply Hne. exact (Ho k a b Hc). }
    destruct (tt_step U (fst st) q) as [st' q']. cbn [fst snd] in S1, S2. subst st'. split.
    + exists pc. split; [|exact P]. cbn [snd]. rewrite (set_nth_at _ _ _ _ _ Ek). destruct (Nat.eqb_spec i k); [congruence|exact Epc].
    + intros j c' q'' Hj Hc'. cbn [snd fst]. rewrite (set_nth_at _ _ _ _ _ Ek). destruct (Nat.eqb_spec j k) as [->|]; [|intros Hq; exact (G j c' q'' Hj Hc' Hq)].
      intros [= <-]. rewrite Hc in Hc'. injection Hc' as <-. exact S2.
Qed.
Lemma step_length U st k : length (snd (step_at (tt_step U) st k)) = length (snd st).
Proof. unfold step_at. destruct (nth_error (snd st) k); [|reflexivity]. destruct (tt_step U (fst st) t) as [a b]. cbn [snd]. apply list_set_length. Qed.
Lemma one_parser_run U calls i text ext t r schedule : only_parse calls i text ext -> parse_template U new_template text ext = (t, r) ->
  one_parser U calls i ext t r (sharing U new_template calls schedule).
Proof.
  intros Ho Hp. refine (proj2 (run_invariant (tt_step U) (fun st => length (snd st) = length calls /\ one_parser U calls i ext t r st) _ schedule _ _)).
  - intros st k [L H]. split; [rewrite step_length; exact L|]. exact (one_parser_step U calls i text ext t r st k Ho L Hp H).
  - cbn [snd fst]. split; [apply map_length|]. split.
    + exists (tt_start (CParse text ext)). split; [cbn [snd]; rewrite nth_error_map, (proj1 Ho); reflexivity|]. left. eexists _, _. split; [reflexivity|]. split; [reflexivity|].
      rewrite <- Hp, parse_finish. reflexivity.
    + intros j c pc Hj Hc Hpc. cbn [snd] in Hpc. rewrite nth_error_map, Hc in Hpc. injection Hpc as <-. cbn [fst]. destruct c; cbn [tt_start got]; auto; repeat split; auto; lia.
Qed.

(** *** one thread parses a new template, others use it: nobody ever gets a wrong answer; at worst an error *)
Theorem C83_substitute : forall U calls i text ext0 t r schedule j ext d x,
  only_parse calls i text ext0 -> parse_template U new_template text ext0 = (t, r) ->
  nth_error calls j = Some (CSubstitute ext d) -> reached U new_template calls schedule j (TT_text x) ->
  x = substitute U t ext d \/ x = Err TypeError.
Proof.
  intros U calls i text ext0 t r schedule j ext d x Ho Hp Hj Hx. destruct (one_parser_run U calls i text ext0 t r schedule Ho Hp) as [_ G].
  assert (Hne : j <> i) by (intros ->; destruct Ho as [Ho _]; congruence). exact (G j _ _ Hne Hj Hx).
Qed.
(** the list of unknown words is a first part of the whole list *)
Theorem C83_undictionaried : forall U calls i text ext0 t r schedule j ext d l,
  only_parse calls i text ext0 -> parse_template U new_template text ext0 = (t, r) ->
  nth_error calls j = Some (CUndictionaried ext d) -> reached U new_template calls schedule j (TT_found l) ->
  exists rest, get_undictionaried_words t ext d = l ++ rest.
Proof.
  intros U calls i text ext0 t r schedule j ext d l Ho Hp Hj Hx. destruct (one_parser_run U calls i text ext0 t r schedule Ho Hp) as [_ G].
  assert (Hne : j <> i) by (intros ->; destruct Ho as [Ho _]; congruence). destruct (G j _ _ Hne Hj Hx) as (p & ->).
  unfold get_undictionaried_words, unfinished. cbn [t_subs]. eexists. rewrite <- flat_map_app, firstn_skipn. reflexivity.
Qed.
(** what is stored is the finished template or one without text *)
Theorem C83_serialize : forall U calls i text ext0 t r schedule j x,
  only_parse calls i text ext0 -> parse_template U new_template text ext0 = (t, r) ->
  nth_error calls j = Some CSerialize -> reached U new_template calls schedule j (TT_data x) ->
  x = serialize_template t \/ exists k, x = serialize_template (unfinished t k).
Proof.
  intros U calls i text ext0 t r schedule j x Ho Hp Hj Hx. destruct (one_parser_run U calls i text ext0 t r schedule Ho Hp) as [_ G].
  assert (Hne : j <> i) by (intros ->; destruct Ho as [Ho _]; congruence). exact (G j _ _ Hne Hj Hx).
Qed.
(** the users do not disturb the parse: when it has returned or raised, the object and the outcome are those of a parse that ran alone *)
Theorem C83_parse : forall U calls i text ext0 schedule x,
  only_parse calls i text ext0 -> reached U new_template calls schedule i (TT_parsed x) ->
  parse_template U new_template text ext0 = (fst (sharing U new_template calls schedule), x).
Proof.
  intros U calls i text ext0 schedule x Ho Hx. destruct (parse_template U new_template text ext0) as [t r] eqn:Hp.
  destruct (one_parser_run U calls i text ext0 t r schedule Ho Hp) as [(pc & Epc & P) _]. unfold reached in Hx. rewrite Epc in Hx. injection Hx as ->.
  destruct P as [(vs & tx & [=] & _)|[[= ->] ->]]. reflexivity.
Qed.

(** *** a template that nobody parses meanwhile *)
Definition exactly (U : unicode) (t : template) (c : tcall) (pc : tt_pc) : Prop :=
  match c, pc with
  | CSubstitute ext d, TT_texts ext' d' p texts => ext' = ext /\ d' = d /\ p <= length (t_subs t) /\ mapM (fun s => get_text U s ext d) (firstn p (t_subs t)) = Ok texts
  | CSubstitute ext d, TT_format texts => mapM (fun s => get_text U s ext d) (t_subs t) = Ok texts
  | CUndictionaried ext d, TT_missing ext' d' p found => ext' = ext /\ d' = d /\ p <= length (t_subs t) /\ found = get_undictionaried_words (unfinished t p) ext d
  | CSerialize, TT_template => True
  | CSerialize, TT_stored text p subs => p <= length (t_subs t) /\ text = t_text t /\ mapM serialize_substitution (firstn p (t_subs t)) = Ok subs
  | CParse _ _, _ => False
  | _, _ => pc = sequential U t c
  end.
Lemma exact_step U t c pc : exactly U t c pc -> fst (tt_step U t pc) = t /\ exactly U t c (snd (tt_step U t pc)).
Proof.
  intros G. destruct c as [a b|ext d|ext d|]; [destruct G| | |]; destruct pc; cbn [exactly sequential] in G; try discriminate G; cbn [tt_step fst snd]; (split; [reflexivity|]).
  - destruct G as (-> & -> & L & E). destruct (nth_error (t_subs t) position) as [s|] eqn:En.
    + destruct (get_text U s ext d) as [x|e] eqn:Eg; cbn [exactly sequential].
      * repeat split; [apply nth_error_Some_lt in En; lia|]. rewrite (nth_firstn _ _ _ En). apply mapM_snoc; [exact E|exact Eg].
      * unfold substitute. rewrite (mapM_prefix_err _ _ _ _ _ _ E En Eg). reflexivity.
    + exact (mapM_all _ _ _ _ En E).
  - cbn [exactly sequential]. unfold substitute. rewrite G. reflexivity.
  - exact G.
  - destruct G as (-> & -> & L & E). destruct (nth_error (t_subs t) position) as [s|] eqn:En; cbn [exactly sequential].
    + repeat split; [apply nth_error_Some_lt in En; lia|]. rewrite (und_snoc t position s ext d En), E. reflexivity.
    + rewrite E. unfold get_undictionaried_words, unfinished. cbn [t_subs]. apply nth_error_None in En. rewrite firstn_all2 by exact En. reflexivity.
  - exact G.
  - cbn [exactly]. split; [lia|]. split; reflexivity.
  - destruct G as (L & -> & E). destruct (nth_error (t_subs t) position) as [s|] eqn:En.
    + destruct (serialize_substitution s) as [x|e] eqn:Eg; cbn [exactly sequential].
      * split; [apply nth_error_Some_lt in En; lia|]. split; [reflexivity|]. rewrite (nth_firstn _ _ _ En). apply mapM_snoc; [exact E|exact Eg].
      * unfold serialize_template. rewrite (mapM_prefix_err _ _ _ _ _ _ E En Eg). reflexivity.
    + cbn [exactly sequential]. unfold serialize_template. rewrite (mapM_all _ _ _ _ En E). reflexivity.
  - exact G.
Qed.
(** a thread that leaves the template alone *)
Definition idle (pc : tt_pc) : Prop := match pc with TT_parse _ _ _ => False | _ => True end.
Lemma idle_step U t pc : idle pc -> fst (tt_step U t pc) = t /\ idle (snd (tt_step U t pc)).
Proof.
  destruct pc; cbn [idle]; try contradiction; intros _; cbn [tt_step fst snd]; (split; [reflexivity|]); cbn [idle]; auto;
    destruct (nth_error (t_subs t) position); cbn [idle]; auto; [destruct (get_text _ _ _ _)|destruct (serialize_substitution _)]; exact I.
Qed.
Lemma exact_run U t c j schedule : forall st, fst st = t -> Forall idle (snd st) -> (exists pc, nth_error (snd st) j = Some pc /\ exactly U t c pc) ->
  let st' := tt_run U st schedule in fst st' = t /\ exists pc, nth_error (snd st') j = Some pc /\ exactly U t c pc.
Proof.
  intros st H1 H2 H3. cut (fst (tt_run U st schedule) = t /\ Forall idle (snd (tt_run U st schedule)) /\ exists pc, nth_error (snd (tt_run U st schedule)) j = Some pc /\ exactly U t c pc); [intros (A & _ & B); split; [exact A|exact B]|].
  apply (run_invariant (tt_step U) (fun st => fst st = t /\ Forall idle (snd st) /\ exists pc, nth_error (snd st) j = Some pc /\ exactly U t c pc)); [|auto].
  clear. intros st k (H1 & H2 & pc & H3 & H4). unfold step_at. destruct (nth_error (snd st) k) as [q|] eqn:Ek; [|eauto].
  assert (Iq : idle q) by (rewrite Forall_forall in H2; apply H2; eapply nth_error_In; exact Ek). destruct (idle_step U (fst st) q Iq) as [S1 S2].
  destruct (exact_step U t c pc H4) as [E1 E2]. rewrite <- H1 in E2. rewrite (surjective_pairing (tt_step U (fst st) q)). cbn [fst snd]. split; [congruence|]. split.
  - rewrite Forall_forall in *. intros x Hx. apply In_nth_error in Hx as (n & Hn). rewrite (set_nth_at _ _ _ _ _ Ek) in Hn. destruct (Nat.eqb n k); [injection Hn as <-; exact S2|].
    apply H2. eapply nth_error_In; exact Hn.
  - destruct (Nat.eq_dec j k) as [->|Hne].
    + exists (snd (tt_step U (fst st) q)). rewrite (set_nth_at _ _ _ _ _ Ek), Nat.eqb_refl. split; [reflexivity|]. rewrite Ek in H3. injection H3 as <-. rewrite <- H1 at 1. exact E2.
    + exists pc. rewrite (set_nth_at _ _ _ _ _ Ek). destruct (Nat.eqb_spec j k); [contradiction|]. auto.
Qed.
Lemma exact_start U t c : (forall a b, c <> CParse a b) -> exactly U t c (tt_start c).
Proof. intros H. destruct c; [destruct (H text ext eq_refl)| | |]; cbn [tt_start exactly]; auto; repeat split; auto; lia. Qed.
Lemma exact_answer U t c pc : exactly U t c pc -> answer pc -> pc = sequential U t c.
Proof. destruct c, pc; cbn [exactly answer]; tauto. Qed.
(** readers alone get the answers they get one after the other *)
Theorem C83_readers : forall U t calls schedule j c pc, no_parse calls -> nth_error calls j = Some c ->
  reached U t calls schedule j pc -> answer pc -> pc = sequential U t c /\ fst (sharing U t calls schedule) = t.
Proof.
  intros U t calls schedule j c pc Hn Hj Hpc Ha. destruct (exact_run U t c j schedule (t, map tt_start calls)) as (E1 & pc' & E2 & E3).
  - reflexivity.
  - apply Forall_forall. intros x Hx. apply in_map_iff in Hx as (c' & <- & Hc'). destruct c'; cbn; auto. exact (Hn _ _ Hc').
  - exists (tt_start c). cbn [snd]. rewrite nth_error_map, Hj. split; [reflexivity|]. apply exact_start. intros a b ->. exact (Hn a b (nth_error_In _ _ Hj)).
  - unfold reached, sharing in Hpc. rewrite E2 in Hpc. injection Hpc as <-. split; [exact (exact_answer _ _ _ _ E3 Ha)|exact E1].
Qed.
(** a call that begins when the parse has ended gets the answer for the finished template *)
Lemma unmoved U st j s : ~ In j s -> nth_error (snd (tt_run U st s)) j = nth_error (snd st) j.
Proof.
  revert st. induction s as [|k s IH]; intros st H; [reflexivity|]. change (tt_run U st (k :: s)) with (tt_run U (step_at (tt_step U) st k) s). rewrite IH by (intros X; apply H; right; exact X).
  unfold step_at. destruct (nth_error (snd st) k) as [q|] eqn:E; [|reflexivity]. destruct (tt_step U (fst st) q). cbn [snd]. rewrite (set_nth_at _ _ _ _ _ E).
  destruct (Nat.eqb_spec j k) as [->|]; [|reflexivity]. destruct H. left; reflexivity.
Qed.
Theorem C83_after_parse : forall U calls i text ext0 t r s1 s2 j c pc,
  only_parse calls i text ext0 -> parse_template U new_template text ext0 = (t, r) ->
  reached U new_template calls s1 i (TT_parsed r) -> nth_error calls j = Some c -> j <> i -> ~ In j s1 ->
  reached U new_template calls (s1 ++ s2) j pc -> answer pc -> pc = sequential U t c.
Proof.
  intros U calls i text ext0 t r s1 s2 j c pc Ho Hp Hr Hj Hne Hs Hpc Ha. assert (F := C83_parse U calls i text ext0 s1 r Ho Hr). rewrite Hp in F. injection F as F.
  assert (OP : one_parser U calls i ext0 t r (sharing U new_template calls s1)) by (apply (one_parser_run U calls i text); assumption).
  assert (Nc : forall a b, c <> CParse a b) by (intros a b ->; apply Hne; exact (proj2 Ho j a b Hj)).
  destruct (exact_run U t c j s2 (sharing U new_template calls s1)) as (_ & pc' & E2 & E3).
  - congruence.
  - apply Forall_forall. intros x Hx. apply In_nth_error in Hx as (n & Hx). destruct (Nat.eq_dec n i) as [->|Hni].
    + unfold reached in Hr. rewrite Hr in Hx. injection Hx as <-. exact Logic.I.
    + destruct (nth_error calls n) as [c'|] eqn:Ec.
      * assert (Nc' : forall a b, c' <> CParse a b) by (intros a b ->; apply Hni; exact (proj2 Ho n a b Ec)). assert (G := proj2 OP n c' x Hni Ec Hx).
        destruct c'; [destruct (Nc' text0 ext eq_refl)| | |]; destruct x; cbn in *; tauto.
      * exfalso. apply nth_error_None in Ec. apply nth_error_Some_lt in Hx. unfold sharing, tt_run in Hx.
        assert (L : forall s st, length (snd (run_threads (tt_step U) st s)) = length (snd st)) by (induction s as [|k s IH]; intros st; [reflexivity|]; cbn [run_threads fold_left]; fold (run_threads (tt_step U)); change (fold_left (step_at (tt_step U)) s (step_at (tt_step U) st k)) with (run_threads (tt_step U) (step_at (tt_step U) st k) s); rewrite IH; apply step_length).
        rewrite L in Hx. cbn [snd] in Hx. rewrite map_length in Hx. lia.
  - exists (tt_start c). split; [|apply exact_start, Nc]. unfold sharing. rewrite unmoved by exact Hs. cbn [snd]. rewrite nth_error_map, Hj. reflexivity.
  - unfold reached, sharing in Hpc. unfold tt_run in Hpc at 1. rewrite run_app in Hpc. unfold sharing, tt_run in E2. rewrite E2 in Hpc. injection Hpc as <-. exact (exact_answer _ _ _ _ E3 Ha).
Qed.

(** *** nobody waits for ever *)
Lemma run_measure_inv {S P} (step : S -> P -> S * P) (m : P -> nat) (Inv : S * list P -> Prop) :
  (forall st j, Inv st -> Inv (step_at step st j)) -> (forall st j pc, Inv st -> nth_error (snd st) j = Some pc -> m (snd (step (fst st) pc)) <= pred (m pc)) ->
  forall sched st i pc, Inv st -> nth_error (snd st) i = Some pc ->
    exists pc', nth_error (snd (run_threads step st sched)) i = Some pc' /\ m pc' <= m pc - count_runs i sched.
Proof.
  intros HI H sched. induction sched as [|j sched IH]; intros st i pc I0 Hi.
  - exists pc. split; [exact Hi|]. unfold count_runs. cbn. lia.
  - cbn [run_threads fold_left]. change (fold_left (step_at step) sched (step_at step st j)) with (run_threads step (step_at step st j) sched).
    assert (E : exists pc1, nth_error (snd (step_at step st j)) i = Some pc1 /\ m pc1 <= m pc - (if Nat.eqb i j then 1 else 0)).
    { unfold step_at. destruct (nth_error (snd st) j) as [q|] eqn:Ej.
      - specialize (H st j q I0 Ej). destruct (step (fst st) q) as [s' q']. cbn [snd fst] in *. rewrite (set_nth_at _ _ _ _ _ Ej). destruct (Nat.eqb_spec i j) as [->|].
        + exists q'. split; [reflexivity|]. rewrite Ej in Hi. injection Hi as ->. lia.
        + exists pc. split; [exact Hi|lia].
      - destruct (Nat.eqb_spec i j) as [->|]; [congruence|]. exists pc. split; [exact Hi|lia]. }
    destruct E as (pc1 & E1 & E2). destruct (IH _ _ _ (HI st j I0) E1) as (pc' & E3 & E4). exists pc'. split; [exact E3|].
    unfold count_runs in *. cbn [count_occ]. destruct (Nat.eq_dec j i) as [->|Hji]; [rewrite Nat.eqb_refl in E2; lia|]. destruct (Nat.eqb_spec i j); [congruence|lia].
Qed.
Definition moves_left (L : nat) (pc : tt_pc) : nat :=
  match pc with
  | TT_parse _ vs _ => S (length vs) | TT_texts _ _ p _ => L - p + 2 | TT_format _ => 1 | TT_missing _ _ p _ => L - p + 1
  | TT_template => L + 2 | TT_stored _ p _ => L - p + 1 | _ => 0
  end.
Lemma moves_left_0 L pc : moves_left L pc = 0 -> answer pc.
Proof. destruct pc; cbn [moves_left answer]; try exact (fun _ => Logic.I); lia. Qed.
Lemma moves_left_step U L st pc : length (t_subs st) <= L -> moves_left L (snd (tt_step U st pc)) <= pred (moves_left L pc).
Proof.
  intros HL. destruct pc as [ext [|v vs] text|x|ext d p texts|texts|x|ext d p found|l| |text p subs|x]; cbn [tt_step moves_left snd fst length]; try lia.
  - destruct (parse_substitution U v ext); cbn [moves_left snd]; lia.
  - destruct (nth_error (t_subs st) p) eqn:E; [apply nth_error_Some_lt in E; destruct (get_text U s ext d)|]; cbn [moves_left]; lia.
  - destruct (nth_error (t_subs st) p) eqn:E; [apply nth_error_Some_lt in E|]; cbn [moves_left]; lia.
  - destruct (nth_error (t_subs st) p) eqn:E; [apply nth_error_Some_lt in E; destruct (serialize_substitution s)|]; cbn [moves_left]; lia.
Qed.
Lemma threads_length U st schedule : length (snd (tt_run U st schedule)) = length (snd st).
Proof.
  apply (run_invariant (tt_step U) (fun st' => length (snd st') = length (snd st))); [|reflexivity]. intros st' k H. rewrite step_length. exact H.
Qed.
Theorem C83_returns : forall U calls i text ext0 t r schedule j c,
  only_parse calls i text ext0 -> parse_template U new_template text ext0 = (t, r) -> nth_error calls j = Some c -> j <> i ->
  length (t_subs t) + 2 <= count_runs j schedule -> exists pc, reached U new_template calls schedule j pc /\ answer pc.
Proof.
  intros U calls i text ext0 t r schedule j c Ho Hp Hj Hne Hc.
  set (Inv := fun st : template * list tt_pc => length (snd st) = length calls /\ one_parser U calls i ext0 t r st).
  destruct (run_measure_inv (tt_step U) (moves_left (length (t_subs t))) Inv) with (sched := schedule) (st := (new_template, map tt_start calls)) (i := j) (pc := tt_start c) as (pc & E1 & E2).
  - intros st k [L H]. split; [rewrite step_length; exact L|]. exact (one_parser_step U calls i text ext0 t r st k Ho L Hp H).
  - intros st k pc [L [(pc' & _ & P) _]] _. apply moves_left_step. destruct (parsing_state _ _ _ _ _ _ P) as [(more & ->) _]. rewrite app_length. lia.
  - split; [apply map_length|]. exact (one_parser_run U calls i text ext0 t r [] Ho Hp).
  - cbn [snd]. rewrite nth_error_map, Hj. reflexivity.
  - exists pc. split; [exact E1|]. apply (moves_left_0 (length (t_subs t))).
    assert (moves_left (length (t_subs t)) (tt_start c) <= length (t_subs t) + 2); [|lia]. destruct c; cbn [tt_start moves_left]; try lia. destruct Hne. exact (proj2 Ho j text0 ext Hj).
Qed.
(** without a parse *)
Theorem C83_readers_return : forall U t calls schedule j c, no_parse calls -> nth_error calls j = Some c ->
  length (t_subs t) + 2 <= count_runs j schedule -> reached U t calls schedule j (sequential U t c).
Proof.
  intros U t calls schedule j c Hn Hj Hc.
  assert (E : exists pc, reached U t calls schedule j pc /\ answer pc).
  { destruct (run_measure_inv (tt_step U) (moves_left (length (t_subs t))) (fun st => fst st = t /\ Forall idle (snd st))) with (sched := schedule) (st := (t, map tt_start calls)) (i := j) (pc := tt_start c) as (pc & E1 & E2).
    - intros st k [H1 H2]. unfold step_at. destruct (nth_error (snd st) k) as [q|] eqn:Ek; [|auto].
      assert (Iq : idle q) by (rewrite Forall_forall in H2; apply H2; eapply nth_error_In; exact Ek). destruct (idle_step U (fst st) q Iq) as [S1 S2].
      rewrite (surjective_pairing (tt_step U (fst st) q)). cbn [fst snd]. split; [congruence|]. rewrite Forall_forall in *. intros x Hx. apply In_nth_error in Hx as (n & Hx).
      rewrite (set_nth_at _ _ _ _ _ Ek) in Hx. destruct (Nat.eqb n k); [injection Hx as <-; exact S2|]. apply H2. eapply nth_error_In; exact Hx.
    - intros st k pc [-> _] _. apply moves_left_step. lia.
    - split; [reflexivity|]. apply Forall_forall. intros x Hx. apply in_map_iff in Hx as (c' & <- & Hc'). destruct c'; cbn; auto. exact (Hn _ _ Hc').
    - cbn [snd]. rewrite nth_error_map, Hj. reflexivity.
    - exists pc. split; [exact E1|]. apply (moves_left_0 (length (t_subs t))).
      assert (moves_left (length (t_subs t)) (tt_start c) <= length (t_subs t) + 2); [|lia]. destruct c; cbn [tt_start moves_left]; try lia. destruct (Hn text ext). exact (nth_error_In _ _ Hj). }
  destruct E as (pc & E1 & E2). rewrite <- (proj1 (C83_readers U t calls schedule j c pc Hn Hj E1 E2)). exact E1.
Qed.
Lemma variables_of_cuts text ls vs : cuts text ls vs -> find_variables (escape text) = map escape vs.
Proof. intros H. apply escape_cuts in H. exact (find_variables_cuts _ _ _ H). Qed.
(** a parse returns or raises when it has been given one more move than its text has variables, whatever the other threads do *)
Theorem C83_parse_returns : forall U t calls schedule i text ext literals variables, nth_error calls i = Some (CParse text ext) -> cuts text literals variables ->
  length variables < count_runs i schedule -> exists x, reached U t calls schedule i (TT_parsed x).
Proof.
  intros U t calls schedule i text ext ls vs Hi Hcut Hc.
  set (m := fun pc => match pc with TT_parse _ vs _ => S (length vs) | TT_parsed _ => 0 | _ => 0 end).
  assert (K : forall sched st pc, nth_error (snd st) i = Some pc -> (exists e v x, pc = TT_parse e v x) \/ (exists x, pc = TT_parsed x) ->
            exists pc', nth_error (snd (tt_run U st sched)) i = Some pc' /\ ((exists e v x, pc' = TT_parse e v x) \/ (exists x, pc' = TT_parsed x))).
  { intros sched. induction sched as [|k sched IH]; intros st pc E1 E2; [eauto|]. change (tt_run U st (k :: sched)) with (tt_run U (step_at (tt_step U) st k) sched).
    unfold step_at at 1. destruct (nth_error (snd st) k) as [q|] eqn:Ek; [|exact (IH st pc E1 E2)]. destruct (Nat.eq_dec i k) as [->|Hne].
    - rewrite E1 in Ek. injection Ek as <-. apply (IH _ (snd (tt_step U (fst st) pc))).
      + destruct (tt_step U (fst st) pc) as [a b]. cbn [snd]. rewrite (set_nth_at _ _ _ _ _ E1), Nat.eqb_refl. reflexivity.
      + destruct E2 as [(e & [|v v'] & x & ->)|(x & ->)]; cbn [tt_step snd]; [eauto|destruct (parse_substitution U v e); cbn [snd]; eauto|eauto].
    - apply (IH _ pc); [|exact E2]. destruct (tt_step U (fst st) q) as [a b]. cbn [snd]. rewrite (set_nth_at _ _ _ _ _ Ek). destruct (Nat.eqb_spec i k); [contradiction|exact E1]. }
  destruct (K schedule (t, map tt_start calls) (tt_start (CParse text ext))) as (pc & E1 & E2).
  { cbn [snd]. rewrite nth_error_map, Hi. reflexivity. }
  { left. cbn [tt_start]. eauto. }
  destruct (run_measure (tt_step U) m) with (sched := schedule) (st := (t, map tt_start calls)) (i := i) (pc := tt_start (CParse text ext)) as (pc' & E3 & E4).
  { intros st [e [|v v'] x|x|e d p texts|texts|x|e d p found|l| |tx p subs|x]; cbn [tt_step m snd length]; try lia.
    - destruct (parse_substitution U v e); cbn [m snd]; lia.
    - destruct (nth_error (t_subs st) p) as [s|]; [destruct (get_text U s e d)|]; cbn [m]; lia.
    - destruct (nth_error (t_subs st) p) as [s|]; cbn [m]; lia.
    - destruct (nth_error (t_subs st) p) as [s|]; [destruct (serialize_substitution s)|]; cbn [m]; lia. }
  { cbn [snd]. rewrite nth_error_map, Hi. reflexivity. }
  fold (tt_run U) in E3. rewrite E1 in E3. injection E3 as <-. destruct E2 as [(e & v & x & ->)|(x & ->)]; [|exists x; exact E1].
  exfalso. cbn [m tt_start] in E4. rewrite (variables_of_cuts _ _ _ Hcut), map_length in E4. lia.
Qed.

(** *** FINDINGS *)
(** two parses of the same object at once: a third thread gets one text with the other's word, which no order of the three calls gives *)
Theorem C83_two_parses_torn_refuted : exists U ta tb ext d schedule x, let calls := [CParse ta ext; CParse tb ext; CSubstitute ext d] in
  reached U new_template calls schedule 2 (TT_text (Ok x)) /\
  (forall t, In t [new_template; fst (parse_template U new_template ta ext); fst (parse_template U new_template tb ext);
                   fst (parse_template U (fst (parse_template U new_template ta ext)) tb ext); fst (parse_template U (fst (parse_template U new_template tb ext)) ta ext)] ->
     substitute U t ext d <> Ok x).
Proof.
  exists ru_unicode, (u "[монета]!"), (u "[n]?"), ext2, dict2, [1; 2; 2; 0; 0; 2]. eexists. cbv zeta. split; [vm_compute; reflexivity|].
  intros t H. repeat (destruct H as [<-|H]; [vm_compute; discriminate|]). destruct H.
Qed.
(** parsing a second text into a template that is in use: another thread gets the old word in the new text *)
Theorem C83_parse_again_torn_refuted : exists U ta tb ext d schedule x, let t := fst (parse_template U new_template ta ext) in
  reached U t [CParse tb ext; CSubstitute ext d] schedule 1 (TT_text (Ok x)) /\ substitute U t ext d <> Ok x /\ substitute U (fst (parse_template U t tb ext)) ext d <> Ok x /\ substitute U (fst (parse_template U new_template tb ext)) ext d <> Ok x.
Proof.
  exists ru_unicode, (u "[монета]!"), (u "[n]?"), ext2, dict2, [1; 1; 0; 0; 1]. eexists. cbv zeta. split; [vm_compute; reflexivity|].
  split; [vm_compute; discriminate|]. split; vm_compute; discriminate.
Qed.
(** the check for unknown words can find nothing although a variable has no word, when the parse has not ended *)
Theorem C83_undictionaried_refuted : exists U text ext d schedule, let calls := [CParse text ext; CUndictionaried ext d] in
  only_parse calls 0 text ext /\ snd (parse_template U new_template text ext) = Ok tt /\ reached U new_template calls schedule 1 (TT_found []) /\
  get_undictionaried_words (fst (parse_template U new_template text ext)) ext d <> [].
Proof.
  exists ru_unicode, (u "[монета] [нечто]"), ext2, dict2, [0; 1; 1; 0; 0]. cbv zeta. split.
  { split; [reflexivity|]. intros [|[|[|j]]] a b H; try discriminate H; reflexivity. }
  split; [vm_compute; reflexivity|]. split; [vm_compute; reflexivity|]. vm_compute. discriminate.
Qed.
(** one parse, and a substitution, a check and a serialization that overtake each other; every answer is the one for the finished template *)
Example C83_case : exists t, let calls := [CSubstitute ext2 dict2; CParse (u "[Монета|n] [нечто]") ext2; CUndictionaried ext2 dict2; CSerialize] in
  only_parse calls 1 (u "[Монета|n] [нечто]") ext2 /\ parse_template ru_unicode new_template (u "[Монета|n] [нечто]") ext2 = (t, Ok tt) /\
  length (t_subs t) = 2 /\
  reached ru_unicode new_template calls [1; 0; 2; 1; 0; 2; 1; 2; 0; 3; 3; 3; 3; 0] 0 (TT_text (Err (NoWordsFoundError (u "нечто")))) /\
  reached ru_unicode new_template calls [1; 0; 2; 1; 0; 2; 1; 2; 0; 3; 3; 3; 3; 0] 2 (TT_found [u "нечто"]) /\
  reached ru_unicode new_template calls [1; 0; 2; 1; 0; 2; 1; 2; 0; 3; 3; 3; 3; 0] 3 (TT_data (serialize_template t)) /\
  reached ru_unicode new_template calls [1; 0; 0; 0] 0 (TT_text (Err TypeError)) /\
  (forall literals variables, cuts (u "[Монета|n] [нечто]") literals variables -> length variables = 2).
Proof.
  eexists. cbv zeta. split.
  { split; [reflexivity|]. intros [|[|[|[|[|j]]]]] a b H; try discriminate H; reflexivity. }
  split; [vm_compute; reflexivity|]. repeat (split; [vm_compute; reflexivity|]).
  intros ls vs H. assert (E := variables_of_cuts _ _ _ H). apply (f_equal (@length _)) in E. rewrite map_length in E. rewrite <- E. vm_compute. reflexivity.
Qed.
