(** * PropJson: C90 - what the deserialize methods do with any data *)
From Coq Require Import Lia.
From Verif Require Import PyBase Relations Restrictions Logic Data Words Constructors Templates Json PyBaseFacts SpecProps PropsFacts SpecSlots IntFacts SerFacts SlotFacts WordFacts TemplateFacts SubstFacts SpecTemplates
  SpecSubstitution SpecStored SpecJson PropProperties PropSlots PropWords PropStored PropDictionary PropLocality PropSerialization PropReload.
Open Scope Z_scope.

(** ** pieces *)
Lemma jkey_ok : eqb_ok jkey_eqb.
Proof.
  intros [x|x] [y|y]; cbn [jkey_eqb]; try (split; congruence).
  - rewrite Z.eqb_eq. split; congruence.
  - rewrite (str_eqb_ok x y). split; congruence.
Qed.
Lemma subscript_iff j k v : subscript j k = Ok v <-> field j k v.
Proof.
  split.
  - destruct j as [| | | | | |l]; try discriminate. cbn [subscript]. induction l as [|[a x] l IH]; [discriminate|]. cbn [dget].
    destruct (jkey_eqb (JStr k) a) eqn:E.
    + intros [= ->]. apply jkey_ok in E. subst a. exists [], l. split; [reflexivity|]. intros [].
    + intros H. destruct (IH H) as (b & c & [= ->] & N). exists ((a, x) :: b), c. split; [reflexivity|]. cbn [map fst].
      intros [->|Hin]; [|exact (N Hin)]. assert (R : jkey_eqb (JStr k) (JStr k) = true) by (apply jkey_ok; reflexivity). congruence.
  - intros (b & c & -> & N). cbn [subscript]. induction b as [|[a x] b IH]; cbn [app dget].
    + assert (R : jkey_eqb (JStr k) (JStr k) = true) by (apply jkey_ok; reflexivity). rewrite R. reflexivity.
    + destruct (jkey_eqb (JStr k) a) eqn:E; [apply jkey_ok in E; exfalso; apply N; left; symmetry; exact E|]. apply IH. intros Hin. apply N. right. exact Hin.
Qed.
Lemma subscript_error j k e : subscript j k = Err e -> data_error e.
Proof. destruct j as [| | | | | |l]; cbn [subscript]; try (intros [= <-]; constructor). destruct (dget _ _ l); [discriminate|intros [= <-]; constructor]. Qed.
Lemma hashed_iff j z : hashed j = Ok (Some z) <-> number_like j z.
Proof.
  split; [|intros [y| |]; reflexivity].
  destruct j as [|[]| | | | |]; cbn [hashed]; try discriminate; intros [= <-]; constructor.
Qed.
Lemma hashed_scalar j : (exists h, hashed j = Ok h) <-> scalar j.
Proof.
  split.
  - intros [h H]. split; intros l ->; discriminate.
  - intros [H1 H2]. destruct j as [| | | | |l|l]; try (eexists; reflexivity); exfalso; [apply (H1 l)|apply (H2 l)]; reflexivity.
Qed.
Lemma hashed_error j e : hashed j = Err e -> data_error e.
Proof. destruct j; cbn [hashed]; try discriminate; intros [= <-]; constructor. Qed.
Lemma size_iff j n : size_of j = Ok n <-> sized j n.
Proof. split; [|intros [| |]; reflexivity]. destruct j; cbn [size_of]; try discriminate; intros [= <-]; constructor. Qed.
Lemma size_error j e : size_of j = Err e -> data_error e.
Proof. destruct j; cbn [size_of]; try discriminate; intros [= <-]; constructor. Qed.
Lemma iterate_iff j l : iterate j = Ok l <-> elements j l.
Proof. split; [|intros [| |]; reflexivity]. destruct j; cbn [iterate]; try discriminate; intros [= <-]; constructor. Qed.
Lemma iterate_error j e : iterate j = Err e -> data_error e.
Proof. destruct j; cbn [iterate]; try discriminate; intros [= <-]; constructor. Qed.
Lemma py_int_error k e : py_int k = Err e -> data_error e.
Proof. destruct k as [z|s]; cbn [py_int]; [discriminate|]. destruct (int_of_text s); [discriminate|intros [= <-]; constructor]. Qed.

(** ** properties: the data are read as if a value that is equal to no int were an unknown number *)
Definition as_number (v : json) : Z := match hashed v with Ok (Some z) => z | _ => -1 end.
Lemma unknown_value r : rel_call r (-1) = None.
Proof. destruct r; vm_compute; reflexivity. Qed.
Lemma load_entry_number k v : (exists h, hashed v = Ok h) -> load_entry (k, v) = deserialize_entry (k, as_number v).
Proof.
  intros [h H]. unfold load_entry, deserialize_entry. cbn [fst snd]. destruct (py_int k) as [t|]; [|reflexivity]. cbn [bind].
  destruct (ptype_call t) as [r|]; [|reflexivity]. unfold as_number. rewrite H. cbn [bind]. destruct h as [z|]; [reflexivity|]. rewrite unknown_value. reflexivity.
Qed.
Lemma group_known g r : ptype_call g = Some r <-> g = pv r.
Proof. split; [|intros ->; apply ptype_call_pv]. intros H. apply ptype_call_iff in H. exact (pv_of_type _ _ H). Qed.
Lemma group_stored g : (exists vs, In (g, vs) stored_groups) <-> exists r, ptype_call g = Some r.
Proof.
  split.
  - intros [vs H]. cbn in H. repeat (destruct H as [[= <- _]|H]; [eexists; vm_compute; reflexivity|]). destruct H.
  - intros [r H]. apply group_known in H. subst g.
    assert (T : forall r, existsb (fun e => Z.eqb (fst e) (pv r)) stored_groups = true) by (intros []; vm_compute; reflexivity).
    specialize (T r). apply existsb_exists in T as ([g vs] & Hin & E). apply Z.eqb_eq in E. cbn [fst] in E. subst g. exists vs. exact Hin.
Qed.
Lemma load_entry_ok k v : (exists a, load_entry (k, v) = Ok a) <-> exists g, key_number k g /\ ((exists vs, In (g, vs) stored_groups) -> scalar v).
Proof.
  unfold load_entry. cbn [fst snd]. split.
  - intros [a H]. destruct (py_int k) as [g|] eqn:E; [|discriminate]. exists g. split; [apply py_int_iff; exact E|]. intros Hg. apply group_stored in Hg as [r Hr].
    cbn [bind] in H. rewrite Hr in H. destruct (hashed v) as [h|] eqn:Eh; [|discriminate]. apply hashed_scalar. exists h. exact Eh.
  - intros (g & Hg & Hv). apply py_int_iff in Hg. rewrite Hg. cbn [bind]. destruct (ptype_call g) as [r|] eqn:E; [|eexists; reflexivity].
    destruct (proj2 (hashed_scalar v) (Hv (proj2 (group_stored g) (ex_intro _ r E)))) as [h Hh]. rewrite Hh. cbn [bind]. destruct h as [z|]; [|eexists; reflexivity].
    destruct (rel_call r z); eexists; reflexivity.
Qed.
Lemma mapM_all_ok {A B} (f : A -> result B) l : (exists m, mapM f l = Ok m) <-> forall a, In a l -> exists b, f a = Ok b.
Proof.
  induction l as [|a l IH]; cbn [mapM].
  - split; [intros _ a []|intros _; eexists; reflexivity].
  - split.
    + intros [m H]. destruct (f a) as [b|] eqn:E; [|discriminate]. cbn [bind] in H. destruct (mapM f l) as [m'|] eqn:E'; [|discriminate].
      intros x [<-|Hx]; [exists b; exact E|]. exact (proj1 IH (ex_intro _ m' eq_refl) x Hx).
    + intros H. destruct (H a (or_introl eq_refl)) as [b Eb]. destruct (proj2 IH (fun x Hx => H x (or_intror Hx))) as [m' Em]. rewrite Eb. cbn [bind]. rewrite Em. eexists; reflexivity.
Qed.
Lemma mapM_error {A B} (f : A -> result B) (P : exn -> Prop) l e : (forall a e', f a = Err e' -> P e') -> mapM f l = Err e -> P e.
Proof.
  intros Hf. induction l as [|a l IH]; cbn [mapM]; [discriminate|]. destruct (f a) as [b|e'] eqn:E; cbn [bind].
  - destruct (mapM f l) as [m|e']; cbn [bind]; [discriminate|]. intros [= ->]. apply IH. reflexivity.
  - intros [= ->]. exact (Hf _ _ E).
Qed.
Lemma load_entry_error e0 e : load_entry e0 = Err e -> data_error e.
Proof.
  unfold load_entry. destruct (py_int (fst e0)) as [t|e1] eqn:E; cbn [bind]; [|intros [= <-]; exact (py_int_error _ _ E)].
  destruct (ptype_call t) as [r|]; [|discriminate]. destruct (hashed (snd e0)) as [[z|]|e1] eqn:Eh; cbn [bind]; [destruct (rel_call r z); discriminate|discriminate|].
  intros [= <-]. exact (hashed_error _ _ Eh).
Qed.

Definition numbered (kv : jkey * json) : jkey * Z := (fst kv, as_number (snd kv)).
Lemma load_entries_number l : (forall e, In e l -> exists a, load_entry e = Ok a) -> mapM deserialize_entry (map numbered l) = mapM load_entry l.
Proof.
  induction l as [|[k v] l IH]; intros H; [reflexivity|]. cbn [map mapM]. rewrite IH by (intros e He; apply H; right; exact He).
  assert (G : load_entry (k, v) = deserialize_entry (k, as_number v)).
  { destruct (hashed v) as [h|e] eqn:Eh; [apply load_entry_number; exists h; exact Eh|].
    destruct (H (k, v) (or_introl eq_refl)) as [a Ha]. rewrite Ha. revert Ha. unfold load_entry, deserialize_entry. cbn [fst snd].
    destruct (py_int k) as [t|]; [|discriminate]. cbn [bind]. destruct (ptype_call t) as [r|]; [rewrite Eh; discriminate|]. intros [= <-]. reflexivity. }
  rewrite G. reflexivity.
Qed.
Lemma number_as_number v n : number_like v n -> as_number v = n.
Proof. intros [z| |]; reflexivity. Qed.
Lemma stored_number q g v : stored_as q g (as_number v) -> number_like v (as_number v).
Proof.
  intros H. apply stored_iff in H as [_ H]. unfold as_number in *. destruct (hashed v) as [[z|]|] eqn:E.
  - apply hashed_iff. exact E.
  - exfalso. assert (T : forall p, value_of p <> -1) by (intros []; try (destruct t); vm_compute; discriminate). exact (T q (eq_sym H)).
  - exfalso. assert (T : forall p, value_of p <> -1) by (intros []; try (destruct t); vm_compute; discriminate). exact (T q (eq_sym H)).
Qed.

(** Properties: what is accepted, what it means, what is raised otherwise *)
Theorem C90_properties : forall j, ((exists p, load_props j = Ok p) <-> properties_data j) /\
  (forall p, load_props j = Ok p -> is_properties p /\ properties_meant j p) /\
  (forall e, load_props j = Err e -> data_error e).
Proof.
  intros j. split; [|split].
  - split.
    + intros [p H]. destruct j as [| | | | | |l]; try discriminate. exists l. split; [reflexivity|]. cbn [load_props] in H.
      destruct (mapM load_entry l) as [m|] eqn:E; [|discriminate]. intros k v Hin. apply load_entry_ok. exact (proj1 (mapM_all_ok _ _) (ex_intro _ m E) _ Hin).
    + intros (l & -> & H). cbn [load_props]. destruct (proj2 (mapM_all_ok load_entry l)) as [m Em].
      { intros [k v] Hin. apply load_entry_ok. exact (H k v Hin). }
      rewrite Em. eexists; reflexivity.
  - intros p H. destruct j as [| | | | | |l]; try discriminate. cbn [load_props] in H.
    destruct (mapM load_entry l) as [m|] eqn:Em; [|discriminate]. cbn [bind] in H. injection H as <-.
    assert (Hall := proj1 (mapM_all_ok _ _) (ex_intro _ m Em)).
    assert (E : deserialize_props (map numbered l) = Ok (Properties (concat m))).
    { unfold deserialize_props. rewrite (load_entries_number l Hall), Em. reflexivity. }
    destruct (C82_properties_read (map numbered l)) as (p & E' & Hp & Hr).
    { intros k v Hin. apply in_map_iff in Hin as ([k' v'] & [= <- <-] & Hin). destruct (proj1 (load_entry_ok _ _) (Hall _ Hin)) as (g & Hg & _). exists g. exact Hg. }
    rewrite E in E'. injection E' as <-. split; [exact Hp|]. exists l. split; [reflexivity|]. intros r q. rewrite (Hr r q). split.
    + intros [Hq (b & k & g & v & a & El & Kg & Sg & Ha)]. split; [exact Hq|]. apply map_eq_app in El as (b' & x & -> & Eb & Ex).
      destruct x as [|[k0 v0] a']; [discriminate|]. cbn [map] in Ex. injection Ex as E1 E2 Ea. subst k v a b.
      exists b', k0, v0, g, (as_number v0), a'. split; [reflexivity|]. split; [exact Kg|]. split; [exact (stored_number _ _ _ Sg)|]. split; [exact Sg|].
      intros k' v' g' n' q' Hin Kg' Nl' Sg'. apply (Ha k' g' n' q'); [|exact Kg'|exact Sg']. apply in_map_iff. exists (k', v'). split; [|exact Hin].
      unfold numbered. cbn [fst snd]. rewrite (number_as_number _ _ Nl'). reflexivity.
    + intros [Hq (b & k & v & g & n & a & -> & Kg & Nl & Sg & Ha)]. split; [exact Hq|]. rewrite map_app. cbn [map]. unfold numbered at 2. cbn [fst snd].
      rewrite (number_as_number _ _ Nl). exists (map numbered b), k, g, n, (map numbered a). split; [reflexivity|]. split; [exact Kg|]. split; [exact Sg|].
      intros k' g' v' q' Hin Kg' Sg'. apply in_map_iff in Hin as ([k0 v0] & E1 & Hin). unfold numbered in E1. cbn [fst snd] in E1. injection E1 as -> <-.
      exact (Ha k' v0 g' (as_number v0) q' Hin Kg' (stored_number _ _ _ Sg') Sg').
  - intros e H. destruct j as [| | | | | |l]; cbn [load_props] in H; try (injection H as <-; constructor).
    destruct (mapM load_entry l) as [m|e'] eqn:E; [discriminate|]. cbn [bind] in H. injection H as <-. exact (mapM_error _ data_error _ _ load_entry_error E).
Qed.

(** ** words *)
Lemma number_like_scalar v n : number_like v n -> scalar v.
Proof. intros [z| |]; split; intros; discriminate. Qed.
(** exactly these data are accepted *)
Definition word_accepted (j : json) (lw : loaded_word) : Prop :=
  exists tv tn fv pv, field j (u "type") tv /\ number_like tv tn /\ stored_type (lw_type lw) tn /\
    field j (u "forms") fv /\ sized fv (get_forms_number (lw_type lw)) /\ lw_forms lw = fv /\
    field j (u "properties") pv /\ properties_data pv /\ load_props pv = Ok (lw_props lw).
Theorem C90_word_accepted : forall j lw, load_word j = Ok lw <-> word_accepted j lw.
Proof.
  intros j lw. unfold word_accepted, load_word, get_forms_number. split.
  - intros H. destruct (subscript j (u "type")) as [tv|] eqn:Et; [|discriminate]. cbn [bind] in H.
    destruct (hashed tv) as [[tn|]|] eqn:Eh; [|discriminate|discriminate]. cbn [bind] in H. destruct (wt_call tn) as [t|] eqn:Ew; [|discriminate].
    destruct (subscript j (u "forms")) as [fv|] eqn:Ef; [|discriminate]. cbn [bind] in H. destruct (subscript j (u "properties")) as [pv|] eqn:Ep; [|discriminate]. cbn [bind] in H.
    destruct (load_props pv) as [p|] eqn:El; [|discriminate]. cbn [bind] in H. destruct (size_of fv) as [n|] eqn:En; [|discriminate]. cbn [bind] in H.
    destruct (Nat.eqb n (length (WORDS_CACHES t))) eqn:E; [|discriminate]. apply Nat.eqb_eq in E. subst n. injection H as <-. cbn [lw_type lw_forms lw_props].
    exists tv, tn, fv, pv. split; [apply subscript_iff; exact Et|]. split; [apply hashed_iff; exact Eh|]. split; [apply stored_type_iff; apply wt_call_iff; exact Ew|].
    split; [apply subscript_iff; exact Ef|]. split; [apply size_iff; exact En|]. split; [reflexivity|]. split; [apply subscript_iff; exact Ep|].
    split; [apply (proj1 (C90_properties pv)); exists p; exact El|exact El].
  - intros (tv & tn & fv & pv & Ht & Hn & Hs & Hf & Hz & <- & Hp & _ & El). apply subscript_iff in Ht, Hf, Hp. apply hashed_iff in Hn. apply stored_type_iff in Hs.
    apply size_iff in Hz. rewrite Ht. cbn [bind]. rewrite Hn. cbn [bind]. rewrite (proj2 (wt_call_iff _ _) Hs), Hf. cbn [bind]. rewrite Hp. cbn [bind]. rewrite El. cbn [bind].
    rewrite Hz. cbn [bind]. rewrite Nat.eqb_refl. destruct lw; reflexivity.
Qed.
(** everything else raises one of six exceptions *)
Theorem C90_word_refused : forall j e, load_word j = Err e -> data_error e.
Proof.
  intros j e. unfold load_word. destruct (subscript j (u "type")) as [tv|e1] eqn:Et; cbn [bind]; [|intros [= <-]; exact (subscript_error _ _ _ Et)].
  destruct (hashed tv) as [h|e1] eqn:Eh; cbn [bind]; [|intros [= <-]; exact (hashed_error _ _ Eh)].
  destruct (match h with None => None | Some z => wt_call z end) as [t|]; [|intros [= <-]; constructor].
  destruct (subscript j (u "forms")) as [fv|e1] eqn:Ef; cbn [bind]; [|intros [= <-]; exact (subscript_error _ _ _ Ef)].
  destruct (subscript j (u "properties")) as [pv|e1] eqn:Ep; cbn [bind]; [|intros [= <-]; exact (subscript_error _ _ _ Ep)].
  destruct (load_props pv) as [p|e1] eqn:El; cbn [bind]; [|intros [= <-]; exact (proj2 (proj2 (C90_properties pv)) _ El)].
  destruct (size_of fv) as [n|e1] eqn:En; cbn [bind]; [|intros [= <-]; exact (size_error _ _ En)].
  destruct (Nat.eqb n _); [discriminate|intros [= <-]; constructor].
Qed.
(** if the forms are a list of texts, what was accepted is a word *)
Theorem C90_word_valid : forall j lw forms, load_word j = Ok lw -> lw_forms lw = JArray (map JText forms) ->
  exists w, is_word w /\ word_loaded w lw /\ w_forms w = forms /\
    forall p, loaded__form lw p = (x <- word__form w p ;; Ok (JText x)).
Proof.
  intros j lw forms H Hf. apply C90_word_accepted in H as (tv & tn & fv & pv & _ & _ & _ & _ & Hz & E & _ & _ & El).
  exists {| w_type := lw_type lw; w_forms := forms; w_props := lw_props lw |}. split; [|split; [|split; [reflexivity|]]].
  - split; cbn [w_type w_forms w_props]; [exact (proj1 (proj1 (proj2 (C90_properties pv)) _ El))|].
    subst fv. rewrite Hf in Hz. apply size_iff in Hz. cbn [size_of] in Hz. rewrite map_length in Hz. injection Hz as Hz.
    unfold Word. fold (get_forms_number (lw_type lw)). rewrite Hz, Nat.eqb_refl. reflexivity.
  - split; [reflexivity|]. split; [exact Hf|reflexivity].
  - intros p. unfold loaded__form, word__form. cbn [w_type w_forms]. destruct (get_raw_key p (schema (lw_type lw))) as [k|]; [|reflexivity]. cbn [bind].
    destruct (raw_index (lw_type lw) k) as [i|]; [|reflexivity]. cbn [bind]. rewrite Hf. cbn [item_at]. unfold py_nth. rewrite nth_error_map.
    destruct (nth_error forms i); reflexivity.
Qed.
(** other fields do not matter, wherever they are *)
Lemma subscript_extra before after k v name : JStr name <> k -> subscript (JObject (before ++ (k, v) :: after)) name = subscript (JObject (before ++ after)) name.
Proof.
  intros N. cbn [subscript]. rewrite !dget_app. cbn [dget]. destruct (jkey_eqb (JStr name) k) eqn:E; [apply jkey_ok in E; contradiction|]. reflexivity.
Qed.
Theorem C90_word_extra_fields : forall before after k v, ~ In k [JStr (u "type"); JStr (u "forms"); JStr (u "properties")] ->
  load_word (JObject (before ++ (k, v) :: after)) = load_word (JObject (before ++ after)).
Proof. intros b a k v N. unfold load_word. rewrite !subscript_extra; [reflexivity| | |]; intros E; apply N; rewrite <- E; cbn; tauto. Qed.

(** what serialize returns is read as the typed reader reads it, *)
Lemma load_props_typed d : load_props (props_json d) = deserialize_props d.
Proof.
  unfold props_json, load_props, deserialize_props. f_equal. induction d as [|[k z] d IH]; [reflexivity|]. cbn [map mapM fst snd]. rewrite IH.
  assert (E : load_entry (k, JNumber z) = deserialize_entry (k, z)); [|rewrite E; reflexivity].
  rewrite load_entry_number by (eexists; reflexivity). reflexivity.
Qed.
Theorem C90_word_saved : forall d, match deserialize_word d with
  | Ok w => exists lw, load_word (word_json d) = Ok lw /\ word_loaded w lw
  | Err e => load_word (word_json d) = Err e
  end.
Proof.
  intros d. unfold deserialize_word, load_word, word_json, Word. cbn [subscript].
  assert (D1 : forall a b c, dget jkey_eqb (JStr (u "type")) [(JStr (u "type"), a); (JStr (u "forms"), b); (JStr (u "properties"), c)] = Some (a : json)) by reflexivity.
  assert (D2 : forall a b c, dget jkey_eqb (JStr (u "forms")) [(JStr (u "type"), a); (JStr (u "forms"), b); (JStr (u "properties"), c)] = Some (b : json)) by reflexivity.
  assert (D3 : forall a b c, dget jkey_eqb (JStr (u "properties")) [(JStr (u "type"), a); (JStr (u "forms"), b); (JStr (u "properties"), c)] = Some (c : json)) by reflexivity.
  rewrite D1, D2, D3. cbn [bind hashed]. destruct (wt_call (wd_type d)) as [t|]; [|reflexivity]. rewrite load_props_typed.
  destruct (deserialize_props (wd_props d)) as [p|]; [|reflexivity]. cbn [bind size_of]. rewrite map_length.
  destruct (Nat.eqb (length (wd_forms d)) (length (WORDS_CACHES t))); [|reflexivity]. eexists. split; [reflexivity|]. repeat split.
Qed.
(** and json.dumps and json.loads in between do not matter, for any data *)
Lemma through_subscript k j : (forall z, str_of_Z z <> k) -> subscript (through_json j) k = match subscript j k with Ok v => Ok (through_json v) | Err e => Err e end.
Proof.
  intros N. destruct j as [| | | | | |l]; try reflexivity. cbn [through_json subscript]. induction l as [|[a v] l IH]; [reflexivity|]. cbn [map dget fst snd].
  destruct a as [z|s]; cbn [jkey_eqb].
  - destruct (str_eqb k (str_of_Z z)) eqn:E; [apply str_eqb_ok in E; exfalso; exact (N z (eq_sym E))|exact IH].
  - destruct (str_eqb k s); [reflexivity|exact IH].
Qed.
Lemma through_hashed j : hashed (through_json j) = hashed j.
Proof. destruct j; reflexivity. Qed.
Lemma through_size j : size_of (through_json j) = size_of j.
Proof. destruct j; cbn [through_json size_of]; rewrite ?map_length; reflexivity. Qed.
Lemma py_int_text z : py_int (JStr (str_of_Z z)) = Ok z.
Proof. apply (py_int_json (JInt z)); [right; exists z; split; reflexivity|reflexivity]. Qed.
Lemma through_props j : load_props (through_json j) = load_props j.
Proof.
  destruct j as [| | | | | |l]; try reflexivity. cbn [through_json load_props]. f_equal. induction l as [|[k v] l IH]; [reflexivity|]. cbn [map mapM fst snd]. rewrite IH.
  match goal with |- bind (load_entry ?a) _ = bind (load_entry ?b) _ => assert (E : load_entry a = load_entry b); [|rewrite E; reflexivity] end.
  unfold load_entry. cbn [fst snd]. rewrite through_hashed. destruct k as [z|s]; [rewrite py_int_text|]; reflexivity.
Qed.
Lemma str_of_Z_digits z : exists c r, str_of_Z z = c :: r /\ (c = 45 \/ 48 <= c <= 57)%N.
Proof.
  destruct (str_of_Z_canonical z) as (c & r & -> & H & _). inversion H as [|? ? Hc _]; subst. destruct (Z.ltb z 0); cbn [app]; eexists; eexists; (split; [reflexivity|]); [left; reflexivity|right; exact Hc].
Qed.
Theorem C90_word_json : forall j, load_word (through_json j) =
  match load_word j with Ok lw => Ok {| lw_type := lw_type lw; lw_forms := through_json (lw_forms lw); lw_props := lw_props lw |} | Err e => Err e end.
Proof.
  intros j. assert (N : forall k z, In k [u "type"; u "forms"; u "properties"] -> str_of_Z z <> k).
  { intros k z Hk E. destruct (str_of_Z_digits z) as (c & r & Ec & Hc). rewrite Ec in E. cbn in Hk. repeat (destruct Hk as [<-|Hk]; [injection E as E _; lia|]). destruct Hk. }
  unfold load_word. rewrite !through_subscript by (intros z; apply N; cbn; tauto).
  destruct (subscript j (u "type")) as [tv|]; [|reflexivity]. cbn [bind]. rewrite through_hashed. destruct (hashed tv) as [h|]; [|reflexivity]. cbn [bind].
  destruct (match h with None => None | Some z => wt_call z end) as [t|]; [|reflexivity].
  destruct (subscript j (u "forms")) as [fv|]; [|reflexivity]. cbn [bind]. destruct (subscript j (u "properties")) as [pv|]; [|reflexivity]. cbn [bind].
  rewrite through_props. destruct (load_props pv) as [p|]; [|reflexivity]. cbn [bind]. rewrite through_size. destruct (size_of fv) as [n|]; [|reflexivity]. cbn [bind].
  destruct (Nat.eqb n _); reflexivity.
Qed.
(** in particular what was saved by serialize and json.dumps and loaded again is an equal word *)
Theorem C90_word_returns : forall w, is_word w -> exists d lw w', serialize_word w = Ok d /\ load_word (through_json (word_json d)) = Ok lw /\
  word_loaded w' lw /\ is_word w' /\ word_eqb w' w = true /\ w_forms w' = w_forms w.
Proof.
  intros w Hw. destruct (C16_word_roundtrip w Hw) as (d & Ed & Hf & H). destruct (H (wd_props d)) as (w' & E' & Hw' & Heq & _ & Hff & _); [apply json_trip_refl|].
  assert (G := C90_word_saved d). assert (Dd : {| wd_type := wd_type d; wd_forms := wd_forms d; wd_props := wd_props d |} = d) by (destruct d; reflexivity).
  rewrite Dd in E'. rewrite E' in G. destruct G as (lw & El & L1 & L2 & L3).
  exists d. eexists. exists w'. split; [exact Ed|]. rewrite C90_word_json, El. split; [reflexivity|]. cbn [lw_type lw_forms lw_props].
  split; [split; [exact L1|split; [|exact L3]]|auto]. rewrite L2. cbn [through_json]. f_equal. rewrite map_map. reflexivity.
Qed.
(** a text of the right length is accepted as the list of its characters; so is any object with the right number of entries, for which every
    request for a form fails unless it has int keys *)
Theorem C90_text_as_forms_refuted : exists j lw, load_word j = Ok lw /\ (forall forms, lw_forms lw <> JArray (map JText forms)) /\
  loaded__form lw [] = Ok (JText (u "п")).
Proof.
  exists (JObject [(JStr (u "type"), JNumber 10); (JStr (u "forms"), JText (u "при")); (JStr (u "properties"), JObject [])]). eexists.
  split; [vm_compute; reflexivity|]. split; [intros forms; discriminate|]. vm_compute. reflexivity.
Qed.
Theorem C90_object_as_forms_refuted : exists j lw, load_word j = Ok lw /\ (exists l, lw_forms lw = JObject l) /\
  forall p x, loaded__form lw p <> Ok x.
Proof.
  exists (JObject [(JStr (u "type"), JNumber 10); (JStr (u "forms"), JObject [(JStr (u "a"), JNull); (JStr (u "b"), JNull); (JStr (u "c"), JNull)]); (JStr (u "properties"), JObject [])]).
  eexists. split; [vm_compute; reflexivity|]. split; [eexists; reflexivity|]. intros p x. unfold loaded__form. cbn [lw_type lw_forms].
  destruct (get_raw_key p _) as [k|]; [|discriminate]. cbn [bind]. destruct (raw_index _ k) as [i|]; [|discriminate]. cbn [bind item_at dget jkey_eqb]. discriminate.
Qed.

(** ** templates *)
Definition dep_accepted (j : json) (d : dependency) : Prop :=
  (exists s, j = JText s /\ d = DExt s) \/ (exists p, properties_data j /\ load_props j = Ok p /\ d = DProps p).
Definition substitution_accepted (j : json) (s : loaded_substitution) : Prop :=
  exists dv l, field j (u "id") (ls_id s) /\ field j (u "dependencies") dv /\ elements dv l /\ Forall2 dep_accepted l (ls_deps s).
Definition template_accepted (j : json) (t : loaded_template) : Prop :=
  exists sv l, field j (u "template") (lt_text t) /\ field j (u "substitutions") sv /\ elements sv l /\ Forall2 substitution_accepted l (lt_subs t).
Lemma load_dep_iff j d : load_dep j = Ok d <-> dep_accepted j d.
Proof.
  unfold dep_accepted. split.
  - intros H. assert (G : forall j', (p <- load_props j' ;; Ok (DProps p)) = Ok d -> exists p, properties_data j' /\ load_props j' = Ok p /\ d = DProps p).
    { intros j' E. destruct (load_props j') as [p|] eqn:El; [|discriminate]. cbn [bind] in E. injection E as <-. exists p. split; [apply (proj1 (C90_properties j')); exists p; exact El|]. auto. }
    destruct j; cbn [load_dep] in H; try (right; apply G; exact H). left. injection H as <-. eexists. split; reflexivity.
  - intros [(s & -> & ->)|(p & (l & -> & _) & El & ->)]; [reflexivity|]. cbn [load_dep]. rewrite El. reflexivity.
Qed.
Lemma load_substitution_iff j s : load_substitution j = Ok s <-> substitution_accepted j s.
Proof.
  unfold substitution_accepted, load_substitution. split.
  - intros H. destruct (subscript j (u "id")) as [i|] eqn:Ei; [|discriminate]. cbn [bind] in H. destruct (subscript j (u "dependencies")) as [dv|] eqn:Ed; [|discriminate]. cbn [bind] in H.
    destruct (iterate dv) as [l|] eqn:El; [|discriminate]. cbn [bind] in H. destruct (mapM load_dep l) as [deps|] eqn:Em; [|discriminate]. cbn [bind] in H. injection H as <-.
    exists dv, l. cbn [ls_id ls_deps]. split; [apply subscript_iff; exact Ei|]. split; [apply subscript_iff; exact Ed|]. split; [apply iterate_iff; exact El|].
    apply mapM_ok in Em. eapply Forall2_impl'; [|exact Em]. cbn. intros a b Hab. apply load_dep_iff. exact Hab.
  - intros (dv & l & Hi & Hd & He & Hf). apply subscript_iff in Hi, Hd. apply iterate_iff in He. rewrite Hi. cbn [bind]. rewrite Hd. cbn [bind]. rewrite He. cbn [bind].
    rewrite (proj2 (mapM_ok load_dep l (ls_deps s))); [destruct s; reflexivity|]. eapply Forall2_impl'; [|exact Hf]. cbn. intros a b Hab. apply load_dep_iff. exact Hab.
Qed.
(** exactly these data are accepted *)
Theorem C90_template_accepted : forall j t, load_template j = Ok t <-> template_accepted j t.
Proof.
  intros j t. unfold template_accepted, load_template. split.
  - intros H. destruct (subscript j (u "template")) as [i|] eqn:Ei; [|discriminate]. cbn [bind] in H. destruct (subscript j (u "substitutions")) as [dv|] eqn:Ed; [|discriminate]. cbn [bind] in H.
    destruct (iterate dv) as [l|] eqn:El; [|discriminate]. cbn [bind] in H. destruct (mapM load_substitution l) as [deps|] eqn:Em; [|discriminate]. cbn [bind] in H. injection H as <-.
    exists dv, l. cbn [lt_text lt_subs]. split; [apply subscript_iff; exact Ei|]. split; [apply subscript_iff; exact Ed|]. split; [apply iterate_iff; exact El|].
    apply mapM_ok in Em. eapply Forall2_impl'; [|exact Em]. cbn. intros a b Hab. apply load_substitution_iff. exact Hab.
  - intros (dv & l & Hi & Hd & He & Hf). apply subscript_iff in Hi, Hd. apply iterate_iff in He. rewrite Hi. cbn [bind]. rewrite Hd. cbn [bind]. rewrite He. cbn [bind].
    rewrite (proj2 (mapM_ok load_substitution l (lt_subs t))); [destruct t; reflexivity|]. eapply Forall2_impl'; [|exact Hf]. cbn. intros a b Hab. apply load_substitution_iff. exact Hab.
Qed.
Lemma load_dep_error j e : load_dep j = Err e -> data_error e.
Proof.
  assert (G : forall j', (p <- load_props j' ;; Ok (DProps p)) = Err e -> data_error e).
  { intros j' E. destruct (load_props j') as [p|e1] eqn:El; [discriminate|]. cbn [bind] in E. injection E as <-. exact (proj2 (proj2 (C90_properties j')) _ El). }
  destruct j; cbn [load_dep]; try discriminate; apply G.
Qed.
Lemma load_substitution_error j e : load_substitution j = Err e -> data_error e.
Proof.
  unfold load_substitution. destruct (subscript j (u "id")) as [i|e1] eqn:Ei; cbn [bind]; [|intros [= <-]; exact (subscript_error _ _ _ Ei)].
  destruct (subscript j (u "dependencies")) as [dv|e1] eqn:Ed; cbn [bind]; [|intros [= <-]; exact (subscript_error _ _ _ Ed)].
  destruct (iterate dv) as [l|e1] eqn:El; cbn [bind]; [|intros [= <-]; exact (iterate_error _ _ El)].
  destruct (mapM load_dep l) as [deps|e1] eqn:Em; cbn [bind]; [discriminate|]. intros [= <-]. exact (mapM_error _ data_error _ _ load_dep_error Em).
Qed.
Theorem C90_template_refused : forall j e, load_template j = Err e -> data_error e.
Proof.
  intros j e. unfold load_template. destruct (subscript j (u "template")) as [i|e1] eqn:Ei; cbn [bind]; [|intros [= <-]; exact (subscript_error _ _ _ Ei)].
  destruct (subscript j (u "substitutions")) as [dv|e1] eqn:Ed; cbn [bind]; [|intros [= <-]; exact (subscript_error _ _ _ Ed)].
  destruct (iterate dv) as [l|e1] eqn:El; cbn [bind]; [|intros [= <-]; exact (iterate_error _ _ El)].
  destruct (mapM load_substitution l) as [deps|e1] eqn:Em; cbn [bind]; [discriminate|]. intros [= <-]. exact (mapM_error _ data_error _ _ load_substitution_error Em).
Qed.
(** if the text and the identifiers are texts, what was accepted is a template *)
Theorem C90_template_valid : forall j lt, load_template j = Ok lt -> (lt_text lt = JNull \/ exists s, lt_text lt = JText s) ->
  (forall ls, In ls (lt_subs lt) -> exists s, ls_id ls = JText s) -> exists t, is_template t /\ template_loaded t lt.
Proof.
  intros j lt H Ht Hi. apply C90_template_accepted in H as (sv & l & _ & _ & _ & Hf).
  assert (G : exists subs, Forall2 substitution_loaded subs (lt_subs lt) /\ forall s, In s subs -> good_deps (s_deps s)).
  { induction Hf as [|x ls l lss Hx _ IH]; [exists []; split; [constructor|intros s []]|].
    destruct IH as (subs & H1 & H2); [intros ls' Hin; apply Hi; right; exact Hin|]. destruct (Hi ls (or_introl eq_refl)) as [s Es].
    exists ({| s_id := s; s_deps := ls_deps ls |} :: subs). split; [constructor; [split; [exact Es|reflexivity]|exact H1]|].
    intros s' [<-|Hin]; [|exact (H2 s' Hin)]. cbn [s_deps]. unfold good_deps. intros p Hp.
    destruct Hx as (dv & dl & _ & _ & _ & Hd). destruct (Forall2_in_r _ _ _ _ Hd Hp) as (y & _ & [(n & _ & Ey)|(q & _ & El & Ey)]); [discriminate|].
    injection Ey as ->. exact (proj1 (proj1 (proj2 (C90_properties y)) _ El)). }
  destruct G as (subs & H1 & H2). exists {| t_subs := subs; t_text := match lt_text lt with JText s => Some s | _ => None end |}. split; [exact H2|].
  split; [|exact H1]. cbn [t_text]. destruct Ht as [->|[s ->]]; reflexivity.
Qed.
Theorem C90_template_extra_fields : forall before after k v, ~ In k [JStr (u "template"); JStr (u "substitutions")] ->
  load_template (JObject (before ++ (k, v) :: after)) = load_template (JObject (before ++ after)).
Proof. intros b a k v N. unfold load_template. rewrite !subscript_extra; [reflexivity| |]; intros E; apply N; rewrite <- E; cbn; tauto. Qed.
Lemma load_dep_typed d : match deserialize_dep d with Ok x => load_dep (dep_json d) = Ok x | Err e => load_dep (dep_json d) = Err e end.
Proof.
  destruct d as [s|d]; cbn [deserialize_dep dep_json]; [reflexivity|]. rewrite <- (load_props_typed d). unfold props_json at 2 3. cbn [load_dep].
  fold (props_json d). destruct (load_props (props_json d)); reflexivity.
Qed.
Lemma load_substitution_typed d : match deserialize_substitution d with
  | Ok s => exists ls, load_substitution (substitution_json d) = Ok ls /\ substitution_loaded s ls
  | Err e => load_substitution (substitution_json d) = Err e
  end.
Proof.
  unfold deserialize_substitution, load_substitution, substitution_json.
  assert (D1 : forall a b, subscript (JObject [(JStr (u "id"), a); (JStr (u "dependencies"), b)]) (u "id") = Ok a) by reflexivity.
  assert (D2 : forall a b, subscript (JObject [(JStr (u "id"), a); (JStr (u "dependencies"), b)]) (u "dependencies") = Ok b) by reflexivity.
  rewrite D1, D2. cbn [bind iterate].
  assert (M : mapM load_dep (map dep_json (sd_deps d)) = mapM deserialize_dep (sd_deps d)).
  { induction (sd_deps d) as [|x l IH]; [reflexivity|]. cbn [map mapM]. rewrite IH. assert (T := load_dep_typed x). destruct (deserialize_dep x); rewrite T; reflexivity. }
  rewrite M. destruct (mapM deserialize_dep (sd_deps d)) as [deps|]; [|reflexivity]. cbn [bind]. eexists. split; [reflexivity|]. split; reflexivity.
Qed.
Theorem C90_template_saved : forall d, match deserialize_template d with
  | Ok t => exists lt, load_template (template_json d) = Ok lt /\ template_loaded t lt
  | Err e => load_template (template_json d) = Err e
  end.
Proof.
  intros d. unfold deserialize_template, load_template, template_json.
  assert (D1 : forall a b, subscript (JObject [(JStr (u "template"), a); (JStr (u "substitutions"), b)]) (u "template") = Ok a) by reflexivity.
  assert (D2 : forall a b, subscript (JObject [(JStr (u "template"), a); (JStr (u "substitutions"), b)]) (u "substitutions") = Ok b) by reflexivity.
  rewrite D1, D2. cbn [bind iterate].
  assert (M : match mapM deserialize_substitution (td_subs d) with
              | Ok l => exists ll, mapM load_substitution (map substitution_json (td_subs d)) = Ok ll /\ Forall2 substitution_loaded l ll
              | Err e => mapM load_substitution (map substitution_json (td_subs d)) = Err e end).
  { induction (td_subs d) as [|x l IH]; [exists []; split; [reflexivity|constructor]|]. cbn [map mapM]. assert (T := load_substitution_typed x).
    destruct (deserialize_substitution x) as [s|e]; [|rewrite T; reflexivity]. destruct T as (ls & -> & Hs). cbn [bind].
    destruct (mapM deserialize_substitution l) as [m|e]; [|rewrite IH; reflexivity]. destruct IH as (ll & -> & Hl). cbn [bind]. eexists. split; [reflexivity|]. constructor; assumption. }
  destruct (mapM deserialize_substitution (td_subs d)) as [l|e]; [|rewrite M; reflexivity]. destruct M as (ll & -> & Hl). cbn [bind].
  eexists. split; [reflexivity|]. split; [reflexivity|exact Hl].
Qed.
(** json.dumps and json.loads in between do not matter for what serialize returned *)
Theorem C90_template_json : forall d, load_template (through_json (template_json d)) = load_template (template_json d).
Proof.
  intros d. unfold template_json. cbn [through_json map fst snd]. unfold load_template.
  assert (D1 : forall a b, subscript (JObject [(JStr (u "template"), a); (JStr (u "substitutions"), b)]) (u "template") = Ok a) by reflexivity.
  assert (D2 : forall a b, subscript (JObject [(JStr (u "template"), a); (JStr (u "substitutions"), b)]) (u "substitutions") = Ok b) by reflexivity.
  rewrite !D1, !D2. cbn [bind iterate].
  assert (M : mapM load_substitution (map through_json (map substitution_json (td_subs d))) = mapM load_substitution (map substitution_json (td_subs d))).
  { induction (td_subs d) as [|x l IH]; [reflexivity|]. cbn [map mapM]. rewrite IH.
    assert (E : load_substitution (through_json (substitution_json x)) = load_substitution (substitution_json x)); [|rewrite E; reflexivity].
    unfold substitution_json. cbn [through_json map fst snd]. unfold load_substitution.
    assert (D3 : forall a b, subscript (JObject [(JStr (u "id"), a); (JStr (u "dependencies"), b)]) (u "id") = Ok a) by reflexivity.
    assert (D4 : forall a b, subscript (JObject [(JStr (u "id"), a); (JStr (u "dependencies"), b)]) (u "dependencies") = Ok b) by reflexivity.
    rewrite !D3, !D4. cbn [bind iterate].
    assert (N : mapM load_dep (map through_json (map dep_json (sd_deps x))) = mapM load_dep (map dep_json (sd_deps x))); [|rewrite N; reflexivity].
    induction (sd_deps x) as [|y m IHm]; [reflexivity|]. cbn [map mapM]. rewrite IHm.
    assert (E : load_dep (through_json (dep_json y)) = load_dep (dep_json y)); [|rewrite E; reflexivity].
    destruct y as [s|y]; [reflexivity|]. assert (P := through_props (props_json y)). cbn [dep_json]. unfold props_json in *. cbn [through_json load_dep] in *. rewrite P. reflexivity. }
  rewrite M. destruct (td_text d); reflexivity.
Qed.
(** a text as dependencies is read as one dependency for each character, an empty text as no substitutions at all *)
Theorem C90_text_as_list_refuted : exists j lt, load_template j = Ok lt /\
  lt_subs lt = [{| ls_id := JText (u "монета"); ls_deps := [DExt (u "m"); DExt (u "n")] |}] /\
  exists j' lt', load_template j' = Ok lt' /\ lt_subs lt' = [] /\ lt_text lt' = JText (u "[%s]") /\ In (JStr (u "substitutions"), JText []) (match j' with JObject l => l | _ => [] end).
Proof.
  exists (JObject [(JStr (u "template"), JText (u "%s")); (JStr (u "substitutions"), JArray [JObject [(JStr (u "id"), JText (u "монета")); (JStr (u "dependencies"), JText (u "mn"))]])]).
  eexists. split; [vm_compute; reflexivity|]. split; [vm_compute; reflexivity|].
  exists (JObject [(JStr (u "template"), JText (u "[%s]")); (JStr (u "substitutions"), JText [])]). eexists.
  split; [vm_compute; reflexivity|]. split; [reflexivity|]. split; [vm_compute; reflexivity|]. right. left. reflexivity.
Qed.
(** every hypothesis is met: data with an unknown group, a value true for 1, an extra field, a key with blanks; and one datum for each exception *)
Example C90_case : (exists lw, load_word (JObject [(JStr (u "id"), JNull); (JStr (u "type"), JNumber 10); (JStr (u "forms"), JArray [JText (u "в"); JText (u "во"); JText (u "в")]);
    (JStr (u "properties"), JObject [(JStr (u "99"), JArray []); (JStr (u " 2 "), JBool true); (JStr (u "0"), JText (u "x"))])]) = Ok lw /\
    lw_forms lw = JArray (map JText [u "в"; u "во"; u "в"]) /\ lw_props lw = Properties [AProp NUMBER_PLURAL]) /\
  load_word (JArray []) = Err TypeError /\ load_word (JObject []) = Err KeyError /\
  load_word (JObject [(JStr (u "type"), JText (u "1"))]) = Err NotExternalValueError /\
  load_word (JObject [(JStr (u "type"), JNumber 10); (JStr (u "forms"), JNull); (JStr (u "properties"), JNull)]) = Err AttributeError /\
  load_word (JObject [(JStr (u "type"), JNumber 10); (JStr (u "forms"), JNull); (JStr (u "properties"), JObject [(JStr (u "x"), JNull)])]) = Err ValueError /\
  load_word (JObject [(JStr (u "type"), JNumber 10); (JStr (u "forms"), JArray []); (JStr (u "properties"), JObject [])]) = Err (WrongFormsNumberError 0 3).
Proof. split; [eexists; split; [vm_compute; reflexivity|]; split; vm_compute; reflexivity|]. repeat split; vm_compute; reflexivity. Qed.
