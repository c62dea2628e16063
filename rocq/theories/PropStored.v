(** * PropStored: C82: the format of stored words and templates *)
From Verif Require Import PyBase Relations Restrictions Logic Data Words Templates PyBaseFacts SpecProps PropsFacts SpecSlots IntFacts SerFacts WordFacts SpecTemplates SpecSubstitution SpecStored
  PropProperties.
Open Scope Z_scope.

(** the table and the library agree *)
Lemma stored_records : forall p, stored_as p (pv (rel_of p)) (value_of p).
Proof.
  assert (G : forall p, exists l, find (fun e => Z.eqb (fst e) (pv (rel_of p))) stored_groups = Some (pv (rel_of p), l) /\ In (value_of p, p) l).
  { intros p. destruct p; try (eexists; split; [vm_compute; reflexivity|cbn; tauto]). destruct t; (eexists; split; [vm_compute; reflexivity|cbn; tauto]). }
  intros p. destruct (G p) as (l & H & Hin). apply find_some in H as [H _]. exists l. auto.
Qed.
Definition table_ok : bool := forallb (fun gl => forallb (fun vp => Z.eqb (pv (rel_of (snd vp))) (fst gl) && Z.eqb (value_of (snd vp)) (fst vp)) (snd gl)) stored_groups.
Lemma stored_iff p g v : stored_as p g v <-> g = pv (rel_of p) /\ v = value_of p.
Proof.
  split; [|intros [-> ->]; apply stored_records]. intros (l & Hl & Hv).
  assert (T : table_ok = true) by (vm_compute; reflexivity). unfold table_ok in T. rewrite forallb_forall in T. specialize (T _ Hl). cbn [snd fst] in T.
  rewrite forallb_forall in T. specialize (T _ Hv). cbn [snd fst] in T. apply andb_true_iff in T as [A B]. apply Z.eqb_eq in A, B. auto.
Qed.
Lemma pv_of_type z r : In (z, r) property_types -> z = pv r.
Proof.
  assert (T : forallb (fun e => Z.eqb (fst e) (pv (snd e))) property_types = true) by (vm_compute; reflexivity). rewrite forallb_forall in T.
  intros H. apply T in H. apply Z.eqb_eq in H. exact H.
Qed.
Lemma known_stored k v p : known_entry k v p <-> exists g, key_number k g /\ stored_as p g v.
Proof.
  split.
  - intros (z & r & H1 & H2 & H3 & H4). exists z. split; [exact H1|]. apply stored_iff. split; [|symmetry; exact H4].
    apply in_records in H3. subst r. exact (pv_of_type _ _ H2).
  - intros (g & H1 & H2). apply stored_iff in H2 as [-> ->]. exists (pv (rel_of p)), (rel_of p). split; [exact H1|]. split; [|split; [apply in_records; reflexivity|reflexivity]].
    apply ptype_call_iff, ptype_call_pv.
Qed.

(** a record has exactly one code, and a code means at most one record *)
Theorem C82_codes : forall p, exists g v, stored_as p g v /\ (forall g' v', stored_as p g' v' -> g' = g /\ v' = v) /\ (forall q, stored_as q g v -> q = p).
Proof.
  intros p. exists (pv (rel_of p)), (value_of p). split; [apply stored_records|]. split; [intros g' v' H; apply stored_iff, H|].
  intros q H. apply stored_iff in H as [H1 H2]. apply pv_inj in H1. apply prop_eqb_ok. unfold prop_eqb. rewrite H1, H2, (eqb_ok_refl _ rel_eqb_ok), Z.eqb_refl. reflexivity.
Qed.
Theorem C82_type_codes : forall t, exists n, stored_type t n /\ (forall n', stored_type t n' -> n' = n) /\ (forall t', stored_type t' n -> t' = t).
Proof.
  intros t. destruct t; (eexists; split; [constructor|]); (split; [intros n' H; inversion H; reflexivity|]); intros t' H; inversion H; reflexivity.
Qed.

(** writing *)
Theorem C82_properties_written : forall p, is_properties p -> exists d, serialize_props p = Ok d /\ written_for p d.
Proof.
  intros p Hp. apply is_properties_wf in Hp. exists (map ser1 p). split; [apply serialize_props_eq, Hp|]. split.
  - rewrite map_map. destruct Hp as [Hnd _]. unfold dkeys in Hnd. induction p as [|[g v] p IH]; [constructor|]. cbn [map fst ser1] in *.
    inversion Hnd as [|? ? Hni Hnd']; subst. constructor; [|apply IH, Hnd']. intros H. apply in_map_iff in H as ([g' v'] & [= E] & Hin). apply pv_inj in E. subst.
    apply Hni. apply in_map_iff. exists (g, v'). auto.
  - intros k v. rewrite in_map_iff. split.
    + intros ([r q] & [= <- <-] & H). exists (pv r), r, q. split; [exact H|]. split; [|reflexivity]. apply stored_iff. split; [|reflexivity].
      f_equal. symmetry. exact (holds_rel _ r q Hp H).
    + intros (g & r & q & H & Hs & ->). apply stored_iff in Hs as [-> ->]. exists (r, q). split; [|exact H]. unfold ser1. cbn [fst snd]. do 3 f_equal. symmetry. exact (holds_rel _ r q Hp H).
Qed.
Theorem C82_word_written : forall w, is_word w -> exists d, serialize_word w = Ok d /\
  stored_type (w_type w) (wd_type d) /\ wd_forms d = w_forms w /\ written_for (w_props w) (wd_props d).
Proof.
  intros w Hw. destruct (C82_properties_written (w_props w) (proj1 Hw)) as (d & E & H). unfold serialize_word. rewrite E. cbn [bind]. eexists. split; [reflexivity|]. cbn [wd_type wd_forms wd_props].
  split; [destruct (w_type w); constructor|]. auto.
Qed.

(** reading *)
Theorem C82_properties_read : forall d, integer_keys d -> exists p, deserialize_props d = Ok p /\ is_properties p /\ read_from d p.
Proof.
  intros d Hk. destruct (C03_foreign_data d Hk) as (p & E & Hp & H). exists p. split; [exact E|]. split; [exact Hp|]. intros r q. rewrite (H r q). split.
  - intros [Hr (l1 & k & v & l2 & Ed & Hkn & Hl)]. split; [exact Hr|]. apply known_stored in Hkn as (g & K1 & K2). exists l1, k, g, v, l2. split; [exact Ed|]. split; [exact K1|]. split; [exact K2|].
    intros k' g' v' q' Hin N S. apply (Hl k' v' q' Hin). apply known_stored. exists g'. auto.
  - intros [Hr (l1 & k & g & v & l2 & Ed & K1 & K2 & Hl)]. split; [exact Hr|]. exists l1, k, v, l2. split; [exact Ed|]. split; [apply known_stored; exists g; auto|].
    intros k' v' q' Hin Hkn. apply known_stored in Hkn as (g' & N & S). exact (Hl k' g' v' q' Hin N S).
Qed.
Lemma stored_type_iff t n : stored_type t n <-> wt_value t = n.
Proof. split; [intros H; destruct H; reflexivity|intros <-; destruct t; constructor]. Qed.
Theorem C82_word_read : forall d, integer_keys (wd_props d) ->
  (forall t, stored_type t (wd_type d) -> exists p, is_properties p /\ read_from (wd_props d) p /\ deserialize_word d = Word t (wd_forms d) p) /\
  ((forall t, ~ stored_type t (wd_type d)) -> deserialize_word d = Err NotExternalValueError).
Proof.
  intros d Hk. destruct (C82_properties_read _ Hk) as (p & E & Hp & Hr). split.
  - intros t Ht. apply stored_type_iff in Ht. exists p. split; [exact Hp|]. split; [exact Hr|]. unfold deserialize_word. rewrite (proj2 (wt_call_iff _ _) Ht), E. reflexivity.
  - intros H. unfold deserialize_word. destruct (wt_call (wd_type d)) as [t|] eqn:Et; [|reflexivity]. apply wt_call_iff in Et. apply stored_type_iff in Et. destruct (H t Et).
Qed.

(** templates *)
Lemma mapM_Forall2 {A B} (f : A -> result B) (R : A -> B -> Prop) l : (forall a, In a l -> exists b, f a = Ok b /\ R a b) -> exists m, mapM f l = Ok m /\ Forall2 R l m.
Proof.
  induction l as [|a l IH]; intros H; [exists []; split; [reflexivity|constructor]|].
  destruct (H a (or_introl eq_refl)) as (b & Eb & Rb). destruct (IH (fun x Hx => H x (or_intror Hx))) as (m & Em & Rm).
  exists (b :: m). split; [cbn [mapM]; rewrite Eb; cbn [bind]; rewrite Em; reflexivity|constructor; assumption].
Qed.
Theorem C82_template_written : forall t, is_template t -> exists d, serialize_template t = Ok d /\ td_text d = t_text t /\
  Forall2 (fun s s' => sd_id s' = s_id s /\ Forall2 dep_written (s_deps s) (sd_deps s')) (t_subs t) (td_subs d).
Proof.
  intros t Ht. destruct (mapM_Forall2 serialize_substitution (fun s s' => sd_id s' = s_id s /\ Forall2 dep_written (s_deps s) (sd_deps s')) (t_subs t)) as (m & Em & Rm).
  - intros s Hs. destruct (mapM_Forall2 serialize_dep dep_written (s_deps s)) as (ds & Ed & Rd).
    + intros x Hx. destruct x as [n|p]; [exists (SStr n); split; reflexivity|]. destruct (C82_properties_written p (Ht s Hs p Hx)) as (d & E & W).
      exists (SDict d). split; [cbn [serialize_dep]; rewrite E; reflexivity|exact W].
    + exists {| sd_id := s_id s; sd_deps := ds |}. unfold serialize_substitution. rewrite Ed. cbn [bind]. split; [reflexivity|]. split; [reflexivity|exact Rd].
  - unfold serialize_template. rewrite Em. cbn [bind]. eexists. split; [reflexivity|]. split; [reflexivity|exact Rm].
Qed.
Theorem C82_template_read : forall d, (forall s ps, In s (td_subs d) -> In (SDict ps) (sd_deps s) -> integer_keys ps) ->
  exists t, deserialize_template d = Ok t /\ is_template t /\ t_text t = td_text d /\
    Forall2 (fun s' s => s_id s = sd_id s' /\ Forall2 dep_read (sd_deps s') (s_deps s)) (td_subs d) (t_subs t).
Proof.
  intros d Hd.
  destruct (mapM_Forall2 deserialize_substitution (fun s' s => s_id s = sd_id s' /\ Forall2 (fun y x => dep_read y x /\ (forall p, x = DProps p -> is_properties p)) (sd_deps s') (s_deps s)) (td_subs d)) as (m & Em & Rm).
  - intros s Hs. destruct (mapM_Forall2 deserialize_dep (fun y x => dep_read y x /\ (forall p, x = DProps p -> is_properties p)) (sd_deps s)) as (ds & Ed & Rd).
    + intros y Hy. destruct y as [n|ps]; [exists (DExt n); split; [reflexivity|split; [reflexivity|discriminate]]|]. destruct (C82_properties_read ps (Hd s ps Hs Hy)) as (p & E & Hp & W).
      exists (DProps p). split; [cbn [deserialize_dep]; rewrite E; reflexivity|]. split; [exact W|]. intros q [= <-]. exact Hp.
    + exists {| s_id := sd_id s; s_deps := ds |}. unfold deserialize_substitution. rewrite Ed. cbn [bind]. split; [reflexivity|]. split; [reflexivity|exact Rd].
  - unfold deserialize_template. rewrite Em. cbn [bind]. eexists. split; [reflexivity|]. split; [|split; [reflexivity|]].
    + intros s Hs p Hp. cbn [t_subs] in Hs. clear Em Hd. induction Rm as [|a b la lb [_ Rab] _ IH]; [destruct Hs|]. destruct Hs as [<-|Hs]; [|exact (IH Hs)].
      clear IH. induction Rab as [|y x ly lx [_ Hx] _ IH]; [destruct Hp|]. destruct Hp as [->|Hp]; [apply (Hx p eq_refl)|exact (IH Hp)].
    + cbn [t_subs]. clear Em Hd. induction Rm as [|a b la lb [H1 H2] _ IH]; constructor; [|exact IH]. split; [exact H1|]. clear -H2.
      induction H2 as [|y x ly lx [Hx _] _ IH]; constructor; [exact Hx|exact IH].
Qed.

(** a plural noun of the feminine gender, inanimate, as it is found in a file *)
Example C82_case : exists p, deserialize_props [(JStr (u "1"), 1); (JStr (u "3"), 2); (JStr (u "8"), 7)] = Ok p /\
  read_from [(JStr (u "1"), 1); (JStr (u "3"), 2); (JStr (u "8"), 7)] p /\ props_eqb p (Properties [AProp GENDER_FEMININE; AProp ANIMALITY_INANIMATE]) = true /\
  written_for p [(JInt 1, 1); (JInt 3, 2)] /\ (forall q, ~ stored_as q 8 7).
Proof.
  assert (K : integer_keys [(JStr (u "1"), 1); (JStr (u "3"), 2); (JStr (u "8"), 7)]).
  { intros k v [[= <- <-]|[[= <- <-]|[[= <- <-]|[]]]]; eexists; apply py_int_iff; vm_compute; reflexivity. }
  destruct (C82_properties_read _ K) as (p & E & Hp & R). exists p. split; [exact E|]. split; [exact R|]. vm_compute in E. injection E as <-. split; [vm_compute; reflexivity|].
  split; [|intros q H; apply stored_iff in H as [H _]; destruct (rel_of q); discriminate H].
  destruct (C82_properties_written _ Hp) as (d & Ed & W). vm_compute in Ed. injection Ed as <-. exact W.
Qed.
