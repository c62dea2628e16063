(** * SerFacts: serialization of Properties and Word, equality of Word and WordForm *)
From Coq Require Import Lia Permutation.
From Verif Require Import PyBase Relations Restrictions Logic Data Words Constructors PyBaseFacts SpecProps PropsFacts IntFacts StrFacts.

(** ** PROPERTY_TYPE and relation lookups *)
Definition pv (r : relation) : Z := match ptype_value r with Some v => v | None => 0%Z end.
Lemma ptype_value_pv r : ptype_value r = Some (pv r).
Proof. destruct r; vm_compute; reflexivity. Qed.
Lemma ptype_call_pv r : ptype_call (pv r) = Some r.
Proof. destruct r; vm_compute; reflexivity. Qed.
Lemma pv_inj a b : pv a = pv b -> a = b.
Proof. intros H. assert (E := ptype_call_pv a). rewrite H, ptype_call_pv in E. congruence. Qed.
Lemma ptype_call_iff z r : ptype_call z = Some r <-> In (z, r) property_types.
Proof.
  unfold ptype_call. split.
  - destruct (find _ property_types) as [[z' r']|] eqn:E; [|discriminate]. intros [= <-].
    apply find_some in E as [Hin E]. apply Z.eqb_eq in E. simpl in E. subst. exact Hin.
  - intros H. simpl in H. repeat (destruct H as [H|H]; [injection H as <- <-; vm_compute; reflexivity|]). destruct H.
Qed.
Lemma rel_call_iff r v p : rel_call r v = Some p <-> In p (records r) /\ value_of p = v.
Proof.
  unfold rel_call. split.
  - intros H. apply find_some in H as [Hin E]. apply Z.eqb_eq in E. auto.
  - intros [Hin <-]. destruct (find _ (records r)) as [q|] eqn:E.
    + apply find_some in E as [Hq E]. apply Z.eqb_eq in E. f_equal. apply prop_eqb_ok. unfold prop_eqb.
      apply in_records in Hin, Hq. rewrite Hin, Hq, E, (eqb_ok_refl _ rel_eqb_ok), Z.eqb_refl. reflexivity.
    + exfalso. apply (find_none _ _ E) in Hin. rewrite Z.eqb_refl in Hin. discriminate.
Qed.
Lemma wt_call_iff z t : wt_call z = Some t <-> wt_value t = z.
Proof.
  unfold wt_call. split.
  - intros H. apply find_some in H as [_ E]. apply Z.eqb_eq, E.
  - intros <-. destruct t; vm_compute; reflexivity.
Qed.

(** ** serialize *)
Definition ser1 (kv : relation * prop) : jkey * Z := (JInt (pv (fst kv)), value_of (snd kv)).
Lemma serialize_props_eq p : props_wf p -> serialize_props p = Ok (map ser1 p).
Proof.
  intros [Hnd _]. unfold serialize_props.
  assert (G : forall acc q, NoDup (dkeys acc ++ map (fun kv => JInt (pv (fst kv))) q) ->
    foldM (fun acc kv => match ptype_value (fst kv) with
                         | Some v => Ok (dset jkey_eqb (JInt v) (value_of (snd kv)) acc)
                         | None => Err KeyError end) q acc = Ok (acc ++ map ser1 q)).
  { intros acc q. revert acc. induction q as [|[g v] q IH]; intros acc H; simpl; [rewrite app_nil_r; reflexivity|].
    rewrite ptype_value_pv. simpl in H. rewrite (dset_new _ jkey_eqb_ok).
    2: { apply NoDup_remove_2 in H. intros H'. apply H, in_app_iff. left; exact H'. }
    simpl. rewrite IH; rewrite ?dkeys_app, <- ?app_assoc; [reflexivity|exact H]. }
  rewrite G; [reflexivity|]. simpl.
  unfold dkeys in Hnd. clear G. induction p as [|[g v] p IH]; simpl in *; [constructor|].
  inversion Hnd as [|? ? Hni Hnd']; subst. constructor; [|apply IH, Hnd'].
  intros H. apply in_map_iff in H as ([g' v'] & [= E] & Hin). apply pv_inj in E. subst. apply Hni.
  apply in_map_iff. exists (g, v'). auto.
Qed.

(** ** int() *)
Lemma parse_digits_spec acc s z : parse_digits acc s = Some z <->
  Forall is_digit s /\ z = fold_left (fun acc c => (acc * 10 + (Z.of_N c - 48))%Z) s acc.
Proof.
  revert acc. induction s as [|c s IH]; intros acc; simpl.
  - split; [intros [= <-]; auto|]. intros [_ ->]. reflexivity.
  - unfold digit_val, is_digit. destruct ((48 <=? c)%N && (c <=? 57)%N) eqn:E.
    + rewrite andb_true_iff, !N.leb_le in E. rewrite IH. split.
      * intros [H ->]. split; [constructor; auto|reflexivity].
      * intros [H ->]. inversion H; subst. auto.
    + split; [discriminate|]. intros [H _]. inversion H as [|? ? Hc]; subst. unfold is_digit in Hc.
      rewrite <- !N.leb_le, <- andb_true_iff in Hc. congruence.
Qed.
Lemma parse_nat_spec s z : parse_nat s = Some z <-> s <> [] /\ Forall is_digit s /\ z = digits_value s.
Proof.
  unfold parse_nat. destruct s as [|c s]; [split; [discriminate|intros [H _]; contradiction]|].
  rewrite parse_digits_spec. split; [intros [H1 H2]; repeat split; [discriminate|assumption|assumption]|tauto].
Qed.
Lemma parse_int_literal s z : parse_int s = Some z <-> literal s z.
Proof.
  split.
  - unfold parse_int. destruct s as [|c s]; [discriminate|]. destruct (N.eqb_spec c 45) as [->|H1].
    + destruct (parse_nat s) as [y|] eqn:E; [|discriminate]. intros [= <-]. apply parse_nat_spec in E as (E1 & E2 & ->). constructor; assumption.
    + destruct (N.eqb_spec c 43) as [->|H2]; intros E; apply parse_nat_spec in E as (E1 & E2 & ->); constructor; assumption.
  - intros H. destruct H as [ds Hn Hd|ds Hn Hd|ds Hn Hd]; simpl.
    + destruct ds as [|c ds]; [contradiction|]. inversion Hd as [|? ? Hc Hd']; subst. unfold is_digit in Hc. simpl.
      destruct (N.eqb_spec c 45); [lia|]. destruct (N.eqb_spec c 43); [lia|].
      change (parse_nat (c :: ds) = Some (digits_value (c :: ds))). apply parse_nat_spec. auto.
    + apply parse_nat_spec. auto.
    + rewrite (proj2 (parse_nat_spec ds (digits_value ds))); [reflexivity|auto].
Qed.
(** ** int() *)
Lemma int_blank_iff c : int_blank c = true <-> blank c.
Proof.
  unfold int_blank. rewrite existsb_exists. split.
  - intros (x & Hx & E). apply N.eqb_eq in E. subst x. unfold blank.
    cbn [INT_BLANKS In] in Hx. repeat (destruct Hx as [<-|Hx]; [lia|]). destruct Hx.
  - intros H. exists c. split; [|apply N.eqb_refl]. unfold blank in H. unfold INT_BLANKS.
    assert (Hc : (c = 9 \/ c = 10 \/ c = 11 \/ c = 12 \/ c = 13 \/ c = 32 \/ c = 133 \/ c = 160 \/ c = 5760 \/ c = 8192 \/ c = 8193 \/
      c = 8194 \/ c = 8195 \/ c = 8196 \/ c = 8197 \/ c = 8198 \/ c = 8199 \/ c = 8200 \/ c = 8201 \/ c = 8202 \/ c = 8232 \/
      c = 8233 \/ c = 8239 \/ c = 8287 \/ c = 12288)%N) by lia.
    clear H. repeat (destruct Hc as [->|Hc]; [cbn; tauto|]). subst c. cbn. tauto.
Qed.
Lemma same_zeros : DECIMAL_ZEROS = zeros. Proof. reflexivity. Qed.
Lemma zeros_apart : forall x y, In x zeros -> In y zeros -> x = y \/ (x + 9 < y)%N \/ (y + 9 < x)%N.
Proof.
  assert (H : forallb (fun x => forallb (fun y => N.eqb x y || N.ltb (x + 9) y || N.ltb (y + 9) x)%bool zeros) zeros = true) by (vm_compute; reflexivity).
  intros x y Hx Hy. rewrite forallb_forall in H. specialize (H x Hx). rewrite forallb_forall in H. specialize (H y Hy).
  apply orb_true_iff in H as [H|H]; [apply orb_true_iff in H as [H|H]|].
  - left. apply N.eqb_eq, H.
  - right; left. apply N.ltb_lt, H.
  - right; right. apply N.ltb_lt, H.
Qed.
Lemma decimal_value_iff c d : decimal_value c = Some d <-> decimal c d.
Proof.
  unfold decimal_value, decimal. rewrite same_zeros. destruct (find (fun z => (N.leb z c && N.leb c (z + 9))%bool) zeros) as [z|] eqn:E.
  - apply find_some in E as [Hz E]. apply andb_true_iff in E as [E1 E2]. apply N.leb_le in E1, E2. split.
    + intros [= <-]. exists z. split; [exact Hz|]. lia.
    + intros (y & Hy & Hd & Ec). destruct (zeros_apart z y Hz Hy) as [->|[H|H]]; [f_equal; lia|exfalso; lia|exfalso; lia].
  - split; [discriminate|]. intros (y & Hy & Hd & Ec). exfalso. assert (F := find_none _ _ E y Hy). cbv beta in F.
    apply andb_false_iff in F as [F|F]; apply N.leb_gt in F; lia.
Qed.
Lemma decimal_least c d : decimal c d -> (48 <= c)%N /\ c <> 95%N.
Proof.
  intros (z & Hz & Hd & E). assert (H : forallb (fun z => N.leb 48 z && (N.ltb z 86 || N.ltb 95 z) && (N.ltb z 86 || N.ltb 95 z))%bool zeros = true)
    by (vm_compute; reflexivity).
  rewrite forallb_forall in H. specialize (H z Hz). rewrite !andb_true_iff, orb_true_iff, N.leb_le, !N.ltb_lt in H. lia.
Qed.
Lemma decimal_not_blank c d : decimal c d -> int_blank c = false.
Proof.
  intros (z & Hz & Hd & E).
  assert (H : forallb (fun z => forallb (fun b => N.ltb (z + 9) b || N.ltb b z)%bool INT_BLANKS) zeros = true) by (vm_compute; reflexivity).
  rewrite forallb_forall in H. specialize (H z Hz). rewrite forallb_forall in H.
  unfold int_blank. destruct (existsb _ _) eqn:Eb; [|reflexivity]. exfalso. apply existsb_exists in Eb as (b & Hb & Eb).
  apply N.eqb_eq in Eb. subst b. specialize (H c Hb). rewrite orb_true_iff, !N.ltb_lt in H. lia.
Qed.
Lemma int_digits_iff s : forall acc z, int_digits acc s = Some z <-> exists ds, spells s ds /\ z = fold_left (fun acc d => (acc * 10 + d)%Z) ds acc.
Proof.
  induction s as [s IH] using (well_founded_induction (Wf_nat.well_founded_ltof _ (@length char))). unfold Wf_nat.ltof in IH.
  intros acc z. destruct s as [|c s1]; cbn [int_digits]; [split; [discriminate|intros (ds & H & _); inversion H]|].
  destruct (decimal_value c) as [d|] eqn:Ed.
  - apply decimal_value_iff in Ed. destruct s1 as [|c1 s2].
    + split.
      * intros [= <-]. exists [d]. split; [constructor; exact Ed|reflexivity].
      * intros (ds & H & ->). inversion H as [c0 d0 H0|c0 d0 ? ? H0 H1|]; subst.
        -- apply decimal_value_iff in Ed, H0. rewrite Ed in H0. injection H0 as <-. reflexivity.
        -- inversion H1.
    + destruct (N.eqb_spec c1 95) as [->|Hc1].
      * rewrite IH by (simpl; lia). split.
        -- intros (ds & H & ->). exists (d :: ds). split; [apply spells_underscore; assumption|reflexivity].
        -- intros (ds & H & ->). inversion H as [|c0 d0 ? ? H0 H1|c0 d0 ? ds0 H0 H1]; subst.
           ++ exfalso. inversion H1 as [? ? K|? ? ? ? K|? ? ? ? K]; subst; destruct (decimal_least _ _ K); congruence.
           ++ apply decimal_value_iff in Ed, H0. rewrite Ed in H0. injection H0 as <-. exists ds0. split; [exact H1|reflexivity].
      * rewrite IH by (simpl; lia). split.
        -- intros (ds & H & ->). exists (d :: ds). split; [apply spells_next; assumption|reflexivity].
        -- intros (ds & H & ->). inversion H as [|c0 d0 ? ds0 H0 H1|]; subst; [|congruence].
           apply decimal_value_iff in Ed, H0. rewrite Ed in H0. injection H0 as <-. exists ds0. split; [exact H1|reflexivity].
  - split; [discriminate|]. intros (ds & H & _). exfalso.
    inversion H as [? ? K|? ? ? ? K|? ? ? ? K]; subst; apply decimal_value_iff in K; congruence.
Qed.
Lemma spells_ends s ds : spells s ds -> no_blank_ends int_blank s /\ s <> [].
Proof.
  intros H. split; [|inversion H; discriminate]. split.
  - intros c r ->. inversion H as [? ? K|? ? ? ? K|? ? ? ? K]; subst; apply (decimal_not_blank _ _ K).
  - induction H as [c d K|c d s ds K H IH|c d s ds K H IH]; intros r x E.
    + destruct r as [|? [|? ?]]; try discriminate E. injection E as <-. apply (decimal_not_blank _ _ K).
    + destruct r as [|y r]; injection E as -> E; [inversion H; subst; discriminate|]. apply (IH r x E).
    + destruct r as [|y [|y' r]]; [discriminate E| |].
      * injection E as _ _ E. inversion H; subst; discriminate.
      * injection E as _ _ E. apply (IH r x E).
Qed.
Lemma spells_head c t ds : spells (c :: t) ds -> (48 <= c)%N.
Proof. intros H. inversion H as [? ? K|? ? ? ? K|? ? ? ? K]; subst; apply (decimal_least _ _ K). Qed.
Lemma no_blank_cons c m : int_blank c = false -> m <> [] -> no_blank_ends int_blank m -> no_blank_ends int_blank (c :: m).
Proof.
  intros Hc Hm [_ H]. split; [intros x r [= <- _]; exact Hc|]. intros [|y r] x E; [injection E as _ ->; contradiction|].
  injection E as _ E. apply (H r x E).
Qed.
Lemma blanks_Forall l : Forall (fun c => int_blank c = true) l <-> Forall blank l.
Proof. rewrite !Forall_forall. split; intros H c Hc; apply int_blank_iff, H, Hc. Qed.
Lemma int_of_text_iff s z : int_of_text s = Some z <-> int_text s z.
Proof.
  split.
  - unfold int_of_text. destruct (strip_spec int_blank s) as (a & b & Hs & Ha & Hb & _). rewrite blanks_Forall in Ha, Hb.
    destruct (strip int_blank s) as [|c t]; [discriminate|]. destruct (N.eqb_spec c 45) as [->|H1].
    + destruct (int_digits 0 t) as [y|] eqn:E; [|discriminate]. intros [= <-]. apply int_digits_iff in E as (ds & E & ->).
      rewrite Hs. apply (int_text_intro a [45%N] t ds b); auto.
    + destruct (N.eqb_spec c 43) as [->|H2]; intros E; apply int_digits_iff in E as (ds & E & ->); rewrite Hs.
      * apply (int_text_intro a [43%N] t ds b); auto.
      * apply (int_text_intro a [] (c :: t) ds b); auto.
  - intros H. destruct H as [a sign s ds b z Ha Hb Hd Hz]. rewrite <- blanks_Forall in Ha, Hb. destruct (spells_ends s ds Hd) as [He Hne].
    unfold int_of_text. rewrite app_assoc with (l := sign).
    assert (D : forall acc, int_digits acc s = Some (fold_left (fun acc d => (acc * 10 + d)%Z) ds acc)) by (intros acc; apply int_digits_iff; eauto).
    destruct Hz as [[-> ->]|[[-> ->]|[-> ->]]].
    + cbn [app]. match goal with |- context [strip int_blank ?x] => replace (strip int_blank x) with s by (symmetry; exact (strip_unique int_blank a s b Ha Hb He)) end. destruct s as [|c t]; [contradiction|].
      pose proof (spells_head _ _ _ Hd) as Hc. destruct (N.eqb_spec c 45); [lia|]. destruct (N.eqb_spec c 43); [lia|]. apply D.
    + cbn [app]. match goal with |- context [strip int_blank ?x] => replace (strip int_blank x) with (43%N :: s)
        by (symmetry; exact (strip_unique int_blank a (43%N :: s) b Ha Hb (no_blank_cons 43%N s eq_refl Hne He))) end. apply D.
    + cbn [app]. match goal with |- context [strip int_blank ?x] => replace (strip int_blank x) with (45%N :: s)
        by (symmetry; exact (strip_unique int_blank a (45%N :: s) b Ha Hb (no_blank_cons 45%N s eq_refl Hne He))) end.
      change (N.eqb 45 45) with true. cbv iota. rewrite D. reflexivity.
Qed.
(** the plain texts are among them *)
Lemma ascii_spells ds : ds <> [] -> Forall is_digit ds -> spells ds (map (fun c => (Z.of_N c - 48)%Z) ds).
Proof.
  intros Hn H. induction H as [|c ds Hc Hd IH]; [contradiction|]. assert (K : decimal c (Z.of_N c - 48)).
  { exists 48%N. split; [left; reflexivity|]. unfold is_digit in Hc. lia. }
  destruct ds as [|c1 ds]; [apply spells_last, K|]. apply spells_next; [exact K|]. apply IH. discriminate.
Qed.
Lemma digits_value_number ds : digits_value ds = number_of (map (fun c => (Z.of_N c - 48)%Z) ds).
Proof.
  unfold digits_value, number_of. generalize 0%Z. induction ds as [|c ds IH]; intros acc; [reflexivity|]. cbn [map fold_left]. apply IH.
Qed.
Lemma literal_int_text s z : literal s z -> int_text s z.
Proof.
  intros H. assert (F : forall (sign ds : str) y, (sign = [] /\ y = digits_value ds \/ sign = [43%N] /\ y = digits_value ds \/ sign = [45%N] /\ y = (- digits_value ds)%Z) ->
    ds <> [] -> Forall is_digit ds -> int_text (sign ++ ds) y).
  { intros sign ds y Hy Hn Hd. rewrite digits_value_number in Hy.
    assert (E := int_text_intro [] sign ds _ [] y (Forall_nil _) (Forall_nil _) (ascii_spells ds Hn Hd) Hy).
    cbn [app] in E. rewrite app_nil_r in E. exact E. }
  destruct H as [ds Hn Hd|ds Hn Hd|ds Hn Hd]; [apply (F [])|apply (F [43%N])|apply (F [45%N])]; auto.
Qed.
Lemma py_int_iff k z : py_int k = Ok z <-> key_number k z.
Proof.
  destruct k as [y|s]; simpl; [split; congruence|]. rewrite <- int_of_text_iff.
  destruct (int_of_text s); split; congruence.
Qed.

Lemma py_int_json a b z : json_key a b -> py_int a = Ok z -> py_int b = Ok z.
Proof.
  intros [->|(y & -> & ->)]; [auto|]. simpl. intros [= ->].
  rewrite (proj2 (int_of_text_iff _ _) (literal_int_text _ _ (proj1 (parse_int_literal _ _) (parse_int_str_of_Z z)))). reflexivity.
Qed.
Lemma deserialize_entry_ser kv e : rel_of (snd kv) = fst kv ->
  json_key (fst (ser1 kv)) (fst e) -> snd (ser1 kv) = snd e -> deserialize_entry e = Ok [AProp (snd kv)].
Proof.
  intros Hr Hk Hv. unfold deserialize_entry. rewrite (py_int_json _ _ (pv (fst kv)) Hk eq_refl). simpl.
  rewrite ptype_call_pv. rewrite <- Hv. simpl.
  rewrite (proj2 (rel_call_iff (fst kv) (value_of (snd kv)) (snd kv))); [reflexivity|].
  split; [apply in_records, Hr|reflexivity].
Qed.

Lemma holds_records vs g v : NoDup (map rel_of vs) ->
  (holds (Properties (map AProp vs)) g v <-> In v vs /\ rel_of v = g).
Proof.
  intros Hnd.
  assert (Ha : wf_args (map AProp vs)) by (intros d H; apply in_map_iff in H as (? & [=] & _)).
  rewrite <- holds_dget by (apply wf_Properties, Ha). rewrite dget_Properties by exact Ha.
  rewrite args_get_some by exact Ha. split.
  - intros (l1 & a & l2 & E & Hm & _). assert (Hin : In a (map AProp vs)) by (rewrite E; apply in_app_iff; right; left; reflexivity).
    apply in_map_iff in Hin as (w & <- & Hw). destruct Hm as [<- ->]. auto.
  - intros [Hin <-]. apply in_split in Hin as (v1 & v2 & ->). exists (map AProp v1), (AProp v), (map AProp v2).
    rewrite map_app. split; [reflexivity|]. split; [split; reflexivity|].
    intros b w Hb Hm. apply in_map_iff in Hb as (x & <- & Hx). destruct Hm as [E ->].
    rewrite map_app in Hnd. simpl in Hnd. apply NoDup_remove_2 in Hnd. apply Hnd, in_app_iff. right.
    apply in_map_iff. exists w. auto.
Qed.
Lemma wf_values p : props_wf p -> map rel_of (map snd p) = dkeys p.
Proof.
  intros [_ H]. unfold dkeys. rewrite map_map. apply map_ext_in. intros [g v] Hin. simpl. apply H, Hin.
Qed.
Lemma holds_permuted_values p vs : props_wf p -> Permutation (map snd p) vs -> same_props (Properties (map AProp vs)) p.
Proof.
  intros Hwf HP g v. rewrite holds_records.
  - split.
    + intros [Hin Hr]. apply (Permutation_in _ (Permutation_sym HP)) in Hin. apply in_map_iff in Hin as ([g' w] & E & Hin).
      simpl in E. subst. rewrite (proj2 Hwf g' v Hin). exact Hin.
    + intros H. split; [|apply (proj2 Hwf), H]. apply (Permutation_in _ HP). apply in_map_iff. exists (g, v). auto.
  - apply (Permutation_NoDup (Permutation_map rel_of HP)). rewrite wf_values by exact Hwf. apply Hwf.
Qed.

Lemma Permutation_map_exists {A B} (f : A -> B) l l' : Permutation (map f l) l' -> exists l1, Permutation l l1 /\ l' = map f l1.
Proof.
  intros H. remember (map f l) as m eqn:E. revert l E. induction H as [|x m m' H IH|x y m|m1 m2 m3 H1 IH1 H2 IH2]; intros l E.
  - destruct l; [|discriminate]. exists []. auto.
  - destruct l as [|a l]; [discriminate|]. injection E as -> E. destruct (IH l E) as (l1 & HP & ->). exists (a :: l1). split; [constructor; exact HP|reflexivity].
  - destruct l as [|a [|b l]]; try discriminate. injection E as -> -> ->. exists (b :: a :: l). split; [constructor|reflexivity].
  - destruct (IH1 l E) as (l1 & HP1 & E1). destruct (IH2 l1 E1) as (l2 & HP2 & ->). exists l2. split; [exact (Permutation_trans HP1 HP2)|reflexivity].
Qed.

Lemma props_roundtrip p d' : is_properties p -> forall d, serialize_props p = Ok d -> json_trip d d' ->
  exists q, deserialize_props d' = Ok q /\ is_properties q /\ same_props q p.
Proof.
  intros Hp d Hd (d1 & HP & HF). apply is_properties_wf in Hp. rewrite serialize_props_eq in Hd by exact Hp. injection Hd as <-.
  apply Permutation_map_exists in HP as (p1 & HP & ->).
  assert (Hm : mapM deserialize_entry d' = Ok (map (fun kv => [AProp (snd kv)]) p1)).
  { apply mapM_ok. assert (Hr : forall kv, In kv p1 -> rel_of (snd kv) = fst kv).
    { intros [g v] Hin. apply (proj2 Hp). apply (Permutation_in _ (Permutation_sym HP)), Hin. }
    clear HP Hp. revert d' HF. induction p1 as [|kv p1 IH]; intros d' HF; inversion HF as [|? e ? d2 [Hk Hv] HF']; subst; constructor.
    - apply deserialize_entry_ser; [apply Hr; left; reflexivity|exact Hk|exact Hv].
    - apply IH; [|exact HF']. intros kv' Hin. apply Hr. right; exact Hin. }
  unfold deserialize_props. rewrite Hm. simpl. eexists. split; [reflexivity|].
  assert (E : concat (map (fun kv : relation * prop => [AProp (snd kv)]) p1) = map AProp (map snd p1)).
  { clear. induction p1 as [|kv p1 IH]; simpl; [reflexivity|]. rewrite IH. reflexivity. }
  rewrite E. split.
  - apply Properties_ok. intros d Hd. apply in_map_iff in Hd as (? & [=] & _).
  - apply holds_permuted_values; [exact Hp|]. apply Permutation_map, HP.
Qed.
Lemma serialize_props_total p : is_properties p -> exists d, serialize_props p = Ok d /\ (forall k v, In (k, v) d -> exists z, k = JInt z).
Proof.
  intros Hp. apply is_properties_wf in Hp. exists (map ser1 p). split; [apply serialize_props_eq, Hp|].
  intros k v H. apply in_map_iff in H as (kv & [= <- <-] & _). eexists; reflexivity.
Qed.
Lemma json_trip_refl d : json_trip d d.
Proof.
  exists d. split; [apply Permutation_refl|]. induction d; constructor; [|assumption]. split; [left|]; reflexivity.
Qed.

(** ** foreign data *)
Lemma known_entry_fun k v p q : known_entry k v p -> known_entry k v q -> p = q.
Proof.
  intros (z & r & H1 & H2 & H3 & H4) (z' & r' & H1' & H2' & H3' & H4').
  apply py_int_iff in H1, H1'. rewrite H1 in H1'. injection H1' as <-. apply ptype_call_iff in H2, H2'. rewrite H2 in H2'. injection H2' as <-.
  assert (E1 : rel_call r v = Some p) by (apply rel_call_iff; auto).
  assert (E2 : rel_call r v = Some q) by (apply rel_call_iff; auto). congruence.
Qed.
Lemma deserialize_entry_spec k v : integer_key k ->
  (exists p, known_entry k v p /\ deserialize_entry (k, v) = Ok [AProp p]) \/
  ((forall p, ~ known_entry k v p) /\ deserialize_entry (k, v) = Ok []).
Proof.
  intros [z Hz']. assert (Hz := proj2 (py_int_iff _ _) Hz'). unfold deserialize_entry. simpl. rewrite Hz. simpl.
  destruct (ptype_call z) as [r|] eqn:E.
  - destruct (rel_call r v) as [p|] eqn:E'.
    + left. exists p. split; [|reflexivity]. apply rel_call_iff in E' as [H1 H2]. exists z, r. rewrite <- ptype_call_iff. auto.
    + right. split; [|reflexivity]. intros p (z' & r' & H1 & H2 & H3). apply py_int_iff in H1. rewrite Hz in H1. injection H1 as <-.
      apply ptype_call_iff in H2. rewrite E in H2. injection H2 as <-.
      assert (C : rel_call r v = Some p) by (apply rel_call_iff; exact H3). congruence.
  - right. split; [|reflexivity]. intros p (z' & r' & H1 & H2 & _). apply py_int_iff in H1. rewrite Hz in H1. injection H1 as <-.
    apply ptype_call_iff in H2. congruence.
Qed.
Lemma deserialize_entry_err k v e : deserialize_entry (k, v) = Err e <-> e = ValueError /\ ~ integer_key k.
Proof.
  unfold deserialize_entry, integer_key. simpl. destruct (py_int k) as [z|e'] eqn:E; simpl.
  - split.
    + destruct (ptype_call z); [|discriminate]. destruct (rel_call r v); discriminate.
    + intros [_ H]. exfalso. apply H. exists z. apply py_int_iff, E.
  - assert (e' = ValueError) as ->.
    { destruct k; simpl in E; [discriminate|]. destruct (int_of_text s); [discriminate|]. congruence. }
    split; [intros [= <-]; split; [reflexivity|intros [z Hz]; apply py_int_iff in Hz; congruence]|]. intros [-> _]. reflexivity.
Qed.
Lemma foreign_get data bs g : (forall k v, In (k, v) data -> integer_key k) ->
  Forall2 (fun e b => deserialize_entry e = Ok b) data bs ->
  match args_get g (concat bs) with
  | Some p => rel_of p = g /\ exists l1 k v l2, data = l1 ++ (k, v) :: l2 /\ known_entry k v p /\
                (forall k' v' p', In (k', v') l2 -> known_entry k' v' p' -> rel_of p' <> g)
  | None => forall k v p, In (k, v) data -> known_entry k v p -> rel_of p <> g
  end.
Proof.
  intros Hk HF. induction HF as [|[k v] b data bs Hb HF IH]; simpl; [intros ? ? ? []|].
  specialize (IH (fun k v H => Hk k v (or_intror H))). rewrite args_get_app.
  destruct (args_get g (concat bs)) as [p|].
  - destruct IH as (Hr & l1 & k1 & v1 & l2 & -> & H1 & H2). split; [exact Hr|]. exists ((k, v) :: l1), k1, v1, l2. auto.
  - destruct (deserialize_entry_spec k v (Hk k v (or_introl eq_refl))) as [(p & Hp & E)|[Hp E]]; rewrite E in Hb; injection Hb as <-; simpl.
    + destruct (rel_eqb (rel_of p) g) eqn:Er.
      * apply rel_eqb_ok in Er. split; [exact Er|]. exists [], k, v, data. auto.
      * intros k' v' p' [[= <- <-]|Hin] Hp'; [|apply (IH k' v' p' Hin Hp')].
        rewrite <- (known_entry_fun _ _ _ _ Hp Hp'). apply (eqb_ok_neq _ rel_eqb_ok), Er.
    + intros k' v' p' [[= <- <-]|Hin] Hp'; [exfalso; exact (Hp p' Hp')|apply (IH k' v' p' Hin Hp')].
Qed.
Lemma deserialize_foreign data : (forall k v, In (k, v) data -> integer_key k) ->
  exists q, deserialize_props data = Ok q /\ is_properties q /\
    (forall g p, holds q g p <->
       rel_of p = g /\ exists l1 k v l2, data = l1 ++ (k, v) :: l2 /\ known_entry k v p /\
         (forall k' v' p', In (k', v') l2 -> known_entry k' v' p' -> rel_of p' <> g)).
Proof.
  intros Hk. unfold deserialize_props.
  assert (Ht : exists args, mapM deserialize_entry data = Ok args).
  { apply mapM_total. intros [k v] Hin. destruct (deserialize_entry_spec k v (Hk k v Hin)) as [(p & _ & E)|[_ E]]; eexists; exact E. }
  destruct Ht as [args Hargs]. rewrite Hargs. simpl. eexists. split; [reflexivity|]. apply mapM_ok in Hargs.
  assert (Hw : wf_args (concat args)).
  { intros d Hd. apply in_concat in Hd as (l & Hl & Hd). exfalso.
    revert l Hl Hd. induction Hargs as [|[k v] b data' bs Hb Hbs IH]; intros l Hl Hd; [destruct Hl|destruct Hl as [<-|Hl]].
    - destruct (deserialize_entry_spec k v) as [(p & _ & E)|[_ E]]; [apply (Hk k v); left; reflexivity| |];
        rewrite E in Hb; injection Hb as <-; [destruct Hd as [[=]|[]]|destruct Hd].
    - apply (IH (fun k v H => Hk k v (or_intror H)) l Hl Hd). }
  split; [apply wf_is_properties, wf_Properties, Hw|].
  intros g p. rewrite <- holds_dget by (apply wf_Properties, Hw). rewrite dget_Properties by exact Hw. clear Hw.
  split.
  - intros E. pose proof (foreign_get data args g Hk Hargs) as H. rewrite E in H. exact H.
  - intros (Hr & l1 & k & v & l2 & -> & H1 & H2). apply Forall2_app_inv_l in Hargs as (b1 & b2 & _ & Hb & ->).
    inversion Hb as [|? b ? b3 Hb1 Hb3]; subst. rewrite concat_app, args_get_app. simpl. rewrite args_get_app.
    assert (Hk2 : forall k v, In (k, v) l2 -> integer_key k) by (intros; eapply Hk; apply in_app_iff; right; right; eassumption).
    pose proof (foreign_get l2 b3 (rel_of p) Hk2 Hb3) as Hl. destruct (args_get (rel_of p) (concat b3)) as [w|].
    + exfalso. destruct Hl as (Hw & m1 & k1 & v1 & m2 & -> & Hn & _). apply (H2 k1 v1 w); [|exact Hn|exact Hw].
      apply in_app_iff. right; left; reflexivity.
    + destruct (deserialize_entry_spec k v) as [(p' & Hp' & E)|[Hp' _]].
      * apply (Hk k v). apply in_app_iff. right; left; reflexivity.
      * rewrite (known_entry_fun _ _ _ _ H1 Hp') in *. rewrite E in Hb1. injection Hb1 as <-. simpl.
        rewrite (eqb_ok_refl _ rel_eqb_ok). reflexivity.
      * exfalso. apply (Hp' p H1).
Qed.
Lemma deserialize_props_error data e :
  deserialize_props data = Err e <-> e = ValueError /\ exists k v, In (k, v) data /\ ~ integer_key k.
Proof.
  unfold deserialize_props. destruct (mapM deserialize_entry data) as [args|e'] eqn:E; simpl.
  - split; [discriminate|]. intros (_ & k & v & Hin & Hk). exfalso. apply Hk. apply mapM_ok in E.
    clear Hk. revert Hin. induction E as [|[k' v'] b d bs Hb _ IH]; [intros []|].
    intros [[= -> ->]|Hin]; [|apply IH, Hin]. unfold deserialize_entry in Hb. simpl in Hb.
    destruct (py_int k) as [z|] eqn:Ez; [exists z; apply py_int_iff; exact Ez|discriminate].
  - apply mapM_err in E as (l1 & [k v] & l2 & -> & He & _). apply deserialize_entry_err in He as [-> Hk]. split.
    + intros [= <-]. split; [reflexivity|]. exists k, v. split; [apply in_app_iff; right; left; reflexivity|exact Hk].
    + intros [-> _]. reflexivity.
Qed.

(** ** Word *)
Lemma word_eqb_iff a b : is_word a -> is_word b -> (word_eqb a b = true <->
  w_type a = w_type b /\ w_forms a = w_forms b /\ same_props (w_props a) (w_props b)).
Proof.
  intros [Ha _] [Hb _]. unfold word_eqb. rewrite !andb_true_iff, (props_eqb_same _ _ Ha Hb).
  rewrite (wt_eqb_ok (w_type a) (w_type b)), (list_eqb_ok _ str_eqb_ok (w_forms a) (w_forms b)). tauto.
Qed.
Lemma word_roundtrip w : is_word w -> exists d, serialize_word w = Ok d /\
  forall ps, json_trip (wd_props d) ps ->
  exists w', deserialize_word {| wd_type := wd_type d; wd_forms := wd_forms d; wd_props := ps |} = Ok w' /\ is_word w' /\ word_eqb w' w = true.
Proof.
  intros Hw. destruct (serialize_props_total (w_props w) (proj1 Hw)) as (d & Hd & _).
  unfold serialize_word. rewrite Hd. simpl. eexists. split; [reflexivity|]. simpl. intros ps Hps.
  destruct (props_roundtrip (w_props w) ps (proj1 Hw) d Hd Hps) as (q & Hq & Hqp & Hs).
  unfold deserialize_word. simpl. rewrite (proj2 (wt_call_iff _ (w_type w)) eq_refl), Hq. simpl.
  destruct Hw as [Hp Hok]. unfold Word in *. destruct (Nat.eqb _ _) eqn:El; [|discriminate].
  eexists. split; [reflexivity|].
  assert (Hw' : is_word {| w_type := w_type w; w_forms := w_forms w; w_props := q |}).
  { split; [exact Hqp|]. unfold Word. simpl. rewrite El. reflexivity. }
  split; [exact Hw'|]. apply word_eqb_iff; [exact Hw'| |].
  - split; [exact Hp|]. unfold Word. rewrite El. exact Hok.
  - simpl. auto.
Qed.
