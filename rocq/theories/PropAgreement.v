(** * PropAgreement: C40, C41, C43, C44 *)
From Coq Require Import Lia.
From Verif Require Import PyBase Relations Restrictions Logic Data Words Transformators PyBaseFacts SpecProps PropsFacts SpecSlots SlotFacts LookupFacts WordFacts
  Constructors Templates SpecAgreement SpecSubstitution AgreementFacts PropSlots PropWords.


Lemma transform_noun U w p m : noun_like (w_type w) -> is_integer m -> transform U w p m = noun_integer p.
Proof. intros [E|E] Hm; unfold transform; rewrite E, Hm; reflexivity. Qed.
Lemma transform_adjective U w p m : adjective_like (w_type w) -> is_integer m -> transform U w p m = adjective_integer p.
Proof. intros [E|[E|E]] Hm; unfold transform; rewrite E, Hm; reflexivity. Qed.
Lemma transform_preposition U w p m : w_type w = WT_PREPOSITION -> transform U w p m = preposition_any U w p m.
Proof. intros E. unfold transform. rewrite E. destruct (w_type (wf_word m)); reflexivity. Qed.
Lemma transform_other U w p m : w_type w <> WT_PREPOSITION -> (noun_like (w_type w) \/ adjective_like (w_type w) -> ~ is_integer m) -> transform U w p m = Ok p.
Proof.
  unfold noun_like, adjective_like, is_integer, transform. intros H1 H2. destruct (w_type w); try congruence; destruct (w_type (wf_word m)); try reflexivity; exfalso; apply H2; auto 6.
Qed.
Lemma values4 p g1 g2 g3 g4 : props_wf p -> g1 <> R_WORD_TYPE -> g2 <> R_WORD_TYPE -> g3 <> R_WORD_TYPE -> g4 <> R_WORD_TYPE ->
  exists v1 v2 v3 v4, pget p g1 = Ok (Some v1) /\ pget p g2 = Ok (Some v2) /\ pget p g3 = Ok (Some v3) /\ pget p g4 = Ok (Some v4).
Proof.
  intros Hp H1 H2 H3 H4. destruct (pget_some p g1 Hp H1) as (v1 & E1 & _), (pget_some p g2 Hp H2) as (v2 & E2 & _), (pget_some p g3 Hp H3) as (v3 & E3 & _), (pget_some p g4 Hp H4) as (v4 & E4 & _).
  exists v1, v2, v3, v4. auto.
Qed.

(** ** C40 *)
Theorem C40_noun_total : forall U w p m, is_properties p -> noun_like (w_type w) -> is_integer m ->
  exists q, transform U w p m = Ok q /\ is_properties q /\
    forall g v, g <> R_NUMBER -> g <> R_CASE -> g <> R_NOUN_FORM -> (holds q g v <-> holds p g v).
Proof.
  intros U w p m Hp Hn Hm. rewrite (transform_noun U w p m Hn Hm). apply is_properties_wf in Hp.
  destruct (values4 p R_DEPENDENCY_MODE R_INTEGER_FORM R_CASE R_ANIMALITY Hp) as (m' & i & c & a & E1 & E2 & E3 & E4); try discriminate.
  destruct (noun_integer_row p m' i c a Hp E1 E2 E3 E4) as (nf & n & c' & l & _ & E & Hl & R1 & R2). exists (cloneP p l). split; [exact E|]. split; [apply wf_is_properties, wf_cloneP, Hp|].
  intros g v G1 G2 G3. apply holds_cloneP; [exact Hp|].
  destruct Hl as [[-> ->]|[-> R3]]; cbn [map args_get arg_get]; rewrite ?R1, ?R2, ?R3; rewrite !(proj1 (eqb_ok_neq _ rel_eqb_ok _ _)) by congruence; reflexivity.
Qed.
Theorem C40_adjective_total : forall U w p m, is_properties p -> adjective_like (w_type w) -> is_integer m ->
  exists q, transform U w p m = Ok q /\ is_properties q /\ forall g v, g <> R_NUMBER -> g <> R_CASE -> (holds q g v <-> holds p g v).
Proof.
  intros U w p m Hp Hn Hm. rewrite (transform_adjective U w p m Hn Hm). apply is_properties_wf in Hp.
  destruct (values4 p R_DEPENDENCY_MODE R_INTEGER_FORM R_CASE R_GENDER Hp) as (m' & i & c & a & E1 & E2 & E3 & E4); try discriminate.
  destruct (adjective_integer_row p m' i c a Hp E1 E2 E3 E4) as (n & c' & l & _ & E & Hl & R2). exists (cloneP p l). split; [exact E|]. split; [apply wf_is_properties, wf_cloneP, Hp|].
  intros g v G1 G2. apply holds_cloneP; [exact Hp|].
  destruct Hl as [[-> ->]|[-> R3]]; cbn [map args_get arg_get]; rewrite ?R2, ?R3; rewrite !(proj1 (eqb_ok_neq _ rel_eqb_ok _ _)) by congruence; reflexivity.
Qed.

(** ** C41 *)
(** the tables have exactly one row for each combination of records *)
Theorem C41_tables_are_functions : forall m i c a, In m (records R_DEPENDENCY_MODE) -> In i (records R_INTEGER_FORM) -> In c (records R_CASE) ->
  (In a (records R_ANIMALITY) -> exists nf n c', noun_row m i c a nf n c' /\ forall nf2 n2 c2, noun_row m i c a nf2 n2 c2 -> nf2 = nf /\ n2 = n /\ c2 = c') /\
  (In a (records R_GENDER) -> exists n c', adjective_row m i c a n c' /\ forall n2 c2, adjective_row m i c a n2 c2 -> n2 = n /\ c2 = c').
Proof.
  intros m i c a Hm Hi Hc. split; intros Ha; cbn [records In] in Hm, Hi, Hc, Ha.
  - destruct Hm as [Hm|[Hm|[]]]; destruct Hi as [Hi|[Hi|[Hi|[Hi|[Hi|[]]]]]]; destruct Hc as [Hc|[Hc|[Hc|[Hc|[Hc|[Hc|[]]]]]]]; destruct Ha as [Ha|[Ha|[]]]; subst;
    (do 3 eexists; split; [solve [constructor; unfold direct_case; intuition discriminate]|]);
    intros nf2 n2 c2 H; inversion H; subst; unfold direct_case in *; first [solve [auto]|exfalso; intuition discriminate].
  - destruct Hm as [Hm|[Hm|[]]]; destruct Hi as [Hi|[Hi|[Hi|[Hi|[Hi|[]]]]]]; destruct Hc as [Hc|[Hc|[Hc|[Hc|[Hc|[Hc|[]]]]]]]; destruct Ha as [Ha|[Ha|[Ha|[]]]]; subst;
    (do 2 eexists; split; [solve [constructor; unfold direct_case; intuition discriminate]|]);
    intros n2 c2 H; inversion H; subst; unfold direct_case in *; first [solve [auto]|exfalso; intuition discriminate].
Qed.
Lemma noun_row_fun m i c a nf n c' nf2 n2 c2 : In m (records R_DEPENDENCY_MODE) -> In i (records R_INTEGER_FORM) -> In c (records R_CASE) -> In a (records R_ANIMALITY) ->
  noun_row m i c a nf n c' -> noun_row m i c a nf2 n2 c2 -> nf2 = nf /\ n2 = n /\ c2 = c'.
Proof.
  intros Hm Hi Hc Ha H1 H2. destruct (proj1 (C41_tables_are_functions m i c a Hm Hi Hc) Ha) as (x & y & z & _ & F).
  destruct (F _ _ _ H1) as (-> & -> & ->), (F _ _ _ H2) as (-> & -> & ->). auto.
Qed.
Lemma adjective_row_fun m i c a n c' n2 c2 : In m (records R_DEPENDENCY_MODE) -> In i (records R_INTEGER_FORM) -> In c (records R_CASE) -> In a (records R_GENDER) ->
  adjective_row m i c a n c' -> adjective_row m i c a n2 c2 -> n2 = n /\ c2 = c'.
Proof.
  intros Hm Hi Hc Ha H1 H2. destruct (proj2 (C41_tables_are_functions m i c a Hm Hi Hc) Ha) as (x & y & _ & F).
  destruct (F _ _ H1) as (-> & ->), (F _ _ H2) as (-> & ->). auto.
Qed.
Theorem C41_noun_table : forall U w p m mode form case animality noun_form number case',
  is_properties p -> noun_like (w_type w) -> is_integer m ->
  value p R_DEPENDENCY_MODE mode -> value p R_INTEGER_FORM form -> value p R_CASE case -> value p R_ANIMALITY animality ->
  noun_row mode form case animality noun_form number case' ->
  exists q, transform U w p m = Ok q /\ value q R_NOUN_FORM noun_form /\ value q R_NUMBER number /\ value q R_CASE case'.
Proof.
  intros U w p m mode form c a nf n c' Hp Hn Hm V1 V2 V3 V4 Hrow. rewrite (transform_noun U w p m Hn Hm). apply is_properties_wf in Hp.
  apply value_pget in V1, V2, V3, V4; try exact Hp. destruct (noun_integer_row p _ _ _ _ Hp V1 V2 V3 V4) as (nf2 & n2 & c2 & l & Hrow2 & E & Hl & R1 & R2).
  destruct (noun_row_fun _ _ _ _ _ _ _ _ _ _ (pget_rel _ _ _ Hp V1) (pget_rel _ _ _ Hp V2) (pget_rel _ _ _ Hp V3) (pget_rel _ _ _ Hp V4) Hrow Hrow2) as (-> & -> & ->).
  exists (cloneP p l). split; [exact E|]. rewrite !value_pget, !pget_cloneP by (try apply wf_cloneP; exact Hp).
  destruct Hl as [[-> ->]|[-> R3]]; cbn [map args_get arg_get]; rewrite ?R1, ?R2, ?R3; cbn; auto.
Qed.
Theorem C41_adjective_table : forall U w p m mode form case gender number case',
  is_properties p -> adjective_like (w_type w) -> is_integer m ->
  value p R_DEPENDENCY_MODE mode -> value p R_INTEGER_FORM form -> value p R_CASE case -> value p R_GENDER gender ->
  adjective_row mode form case gender number case' ->
  exists q, transform U w p m = Ok q /\ value q R_NUMBER number /\ value q R_CASE case'.
Proof.
  intros U w p m mode form c a n c' Hp Hn Hm V1 V2 V3 V4 Hrow. rewrite (transform_adjective U w p m Hn Hm). apply is_properties_wf in Hp.
  apply value_pget in V1, V2, V3, V4; try exact Hp. destruct (adjective_integer_row p _ _ _ _ Hp V1 V2 V3 V4) as (n2 & c2 & l & Hrow2 & E & Hl & R2).
  destruct (adjective_row_fun _ _ _ _ _ _ _ _ (pget_rel _ _ _ Hp V1) (pget_rel _ _ _ Hp V2) (pget_rel _ _ _ Hp V3) (pget_rel _ _ _ Hp V4) Hrow Hrow2) as (-> & ->).
  exists (cloneP p l). split; [exact E|]. rewrite !value_pget, !pget_cloneP by (try apply wf_cloneP; exact Hp).
  destruct Hl as [[-> ->]|[-> R3]]; cbn [map args_get arg_get]; rewrite ?R2, ?R3; cbn; auto.
Qed.
Definition two : wordform := WordForm {| w_type := WT_INTEGER; w_forms := [u "2"]; w_props := Properties [AProp NUMBER_PLURAL; AProp INTEGER_FORM_DUAL] |} None None.
Example C41_case : let p := Properties [AProp CASE_ACCUSATIVE; AProp INTEGER_FORM_DUAL; AProp ANIMALITY_INANIMATE] in
  is_properties p /\ is_integer two /\ value p R_DEPENDENCY_MODE DEPENDENCY_MODE_FULL /\ value p R_CASE CASE_ACCUSATIVE /\
  transform ru_unicode coin p two = Ok (Properties [AProp CASE_GENITIVE; AProp INTEGER_FORM_DUAL; AProp ANIMALITY_INANIMATE; AProp NOUN_FORM_NORMAL; AProp NUMBER_SINGULAR]).
Proof.
  assert (H : is_properties (Properties [AProp CASE_ACCUSATIVE; AProp INTEGER_FORM_DUAL; AProp ANIMALITY_INANIMATE])) by (constructor; intros d [[=]|[[=]|[[=]|[]]]]).
  split; [exact H|]. split; [reflexivity|]. rewrite !value_pget by (apply is_properties_wf, H). vm_compute. auto.
Qed.
Example C40_case : noun_like (w_type coin) /\ is_integer two /\ exists q, transform ru_unicode coin [] two = Ok q /\ holds q R_NUMBER NUMBER_SINGULAR.
Proof. split; [left; reflexivity|]. split; [reflexivity|]. eexists. split; [vm_compute; reflexivity|]. right. left. reflexivity. Qed.

(** ** C44 *)
Theorem C44_identity : forall U w p m, w_type w <> WT_PREPOSITION -> (noun_like (w_type w) \/ adjective_like (w_type w) -> ~ is_integer m) ->
  transform U w p m = Ok p.
Proof. exact transform_other. Qed.
Example C44_case : w_type coin <> WT_PREPOSITION /\ ~ is_integer (WordForm coin None None).
Proof. split; discriminate. Qed.

(** ** C43 *)
Lemma word_normal_form w : is_word w -> exists f, normal_form w = Ok f.
Proof. intros Hw. destruct (C10_normal_form_total w Hw) as (f & H & _). exists f. exact H. Qed.
Lemma last_split (s : str) c : py_last s = Ok c <-> exists r, s = r ++ [c].
Proof.
  unfold py_last. split.
  - destruct (rev s) as [|x r] eqn:E; [discriminate|]. intros [= ->]. exists (rev r). rewrite <- (rev_involutive s), E. reflexivity.
  - intros [r ->]. rewrite rev_app_distr. reflexivity.
Qed.
Lemma py_last_cases s : (s = [] /\ py_last s = Err IndexError) \/ (exists r c, s = r ++ [c] /\ py_last s = Ok c).
Proof.
  unfold py_last. destruct (rev s) as [|c r] eqn:E.
  - left. split; [|reflexivity]. rewrite <- (rev_involutive s), E. reflexivity.
  - right. exists (rev r), c. split; [|reflexivity]. rewrite <- (rev_involutive s), E. reflexivity.
Qed.
Lemma consonant_iff c : mem N.eqb c CONSONANTS = true <-> consonant c.
Proof.
  rewrite (mem_iff _ N_eqb_ok). unfold consonant.
  replace CONSONANTS with (u "бвгджзйклмнпрстфхцчшщъьБВГДЖЗЙКЛМНПРСТФХЦЧШЩЪЬ") by (vm_compute; reflexivity). reflexivity.
Qed.
Lemma not_consonant_iff c : mem N.eqb c CONSONANTS = false <-> ~ consonant c.
Proof. rewrite <- consonant_iff. destruct (mem N.eqb c CONSONANTS); split; congruence. Qed.
Lemma cluster_iff U m c r : wf_form U m = Ok (c :: r) -> exists b, starts_with_consonant_cluster U m = Ok b /\ (b = true <-> cluster (c :: r)).
Proof.
  intros H. unfold starts_with_consonant_cluster. rewrite H. cbn [bind]. destruct r as [|d r]; eexists; (split; [reflexivity|]); unfold cluster, is_consonant.
  - apply consonant_iff.
  - rewrite andb_true_iff, !consonant_iff. reflexivity.
Qed.
Lemma changed_cloneP p v : props_wf p -> changed p (cloneP p [v]) v.
Proof.
  intros Hp g w. rewrite <- (holds_dget (cloneP p [v])) by (apply wf_cloneP, Hp). rewrite dget_cloneP by exact Hp. cbn [map args_get arg_get].
  destruct (rel_eqb (rel_of v) g) eqn:E.
  - apply rel_eqb_ok in E. split; [intros [= <-]; left; auto|]. intros [[_ ->]|[H _]]; [reflexivity|congruence].
  - apply (eqb_ok_neq _ rel_eqb_ok) in E. rewrite holds_dget by exact Hp. split; [intros H; right; auto|]. intros [[H _]|[_ H]]; [congruence|exact H].
Qed.
Lemma not_j_vowels c : mem N.eqb c NOT_J_VOWELS = true <-> In c (u "аиоуыэАИОУЫЭ").
Proof. rewrite (mem_iff _ N_eqb_ok). replace NOT_J_VOWELS with (u "аиоуыэАИОУЫЭ") by reflexivity. reflexivity. Qed.
Lemma special_iff slave master : (str_eqb slave (u "о") && mem str_eqb master special_masters = true) <-> special slave master.
Proof. unfold special. rewrite andb_true_iff, (mem_iff _ str_eqb_ok). pose proof (str_eqb_ok slave (u "о")) as H. rewrite H. reflexivity. Qed.
Lemma word_syllables w : is_word w -> exists n b, number_of_syllables w = Ok n /\ has_fluent_vowel w = Ok b.
Proof.
  intros Hw. assert (L := word_forms_length w Hw). assert (N := INVERTED_nonempty (w_type w)). unfold number_of_syllables, number_of_syllables_of, has_fluent_vowel, has_fluent_vowel_of.
  destruct (w_forms w) as [|f fs]; [destruct (INVERTED_WORDS_CACHES (w_type w)); [congruence|discriminate]|]. cbn [py_nth nth_error bind]. eauto.
Qed.
Lemma o_not_consonant : mem N.eqb 1086%N CONSONANTS = false.
Proof. vm_compute. reflexivity. Qed.
Lemma consonant_not_special s c master : consonant c -> ~ special (s ++ [c]) master.
Proof.
  intros Hc [E _]. change (u "о") with [1086%N] in E. destruct s as [|a [|b s]]; try discriminate. injection E as ->.
  revert Hc. apply not_consonant_iff, o_not_consonant.
Qed.
(** only PREPOSITION_FORM can change, by these rules *)
Theorem C43_preposition_form : forall U w p m slave master,
  is_word w -> w_type w = WT_PREPOSITION -> is_properties p -> is_wordform m ->
  normal_form w = Ok slave -> slave <> [] -> wf_form U m = Ok master -> master <> [] ->
  exists q, transform U w p m = Ok q /\
    (special slave master -> changed p q PREPOSITION_FORM_SPECIAL) /\
    (alternative slave master (wf_word m) -> changed p q PREPOSITION_FORM_ALTERNATIVE) /\
    (~ special slave master -> ~ alternative slave master (wf_word m) -> q = p).
Proof.
  intros U w p m slave master Hw Ht Hp Hm Hs Hsn Hma Hmn. rewrite (transform_preposition U w p m Ht). apply is_properties_wf in Hp.
  unfold preposition_any. rewrite Hs. cbn [bind]. destruct (py_last_cases slave) as [[-> _]|(s & c & Es & El)]; [congruence|]. rewrite El. cbn [bind].
  destruct master as [|c1 r1]; [congruence|]. destruct (wordform_parts m Hm) as (Hmw & _). destruct (word_syllables _ Hmw) as (n & b & Hn & Hb).
  assert (Hspec := consonant_not_special s c (c1 :: r1)). rewrite <- Es in Hspec.
  destruct (mem N.eqb c CONSONANTS) eqn:Ec.
  - apply consonant_iff in Ec. specialize (Hspec Ec). unfold consonant_preposition_any. rewrite Hma. cbn [bind].
    destruct (cluster_iff U m c1 r1 Hma) as (cl & -> & Hcl). cbn [bind]. rewrite Hn, Hb. cbn [bind].
    assert (E1 : (if cl then py_and (Nat.eqb n 1) (Ok b) else Ok false) = Ok (cl && (Nat.eqb n 1 && b))) by (destruct cl; [destruct (Nat.eqb n 1)|]; reflexivity).
    unfold py_and at 1. change (match cl with true => py_and (Nat.eqb n 1) (Ok b) | false => Ok false end) with (if cl then py_and (Nat.eqb n 1) (Ok b) else Ok false). rewrite E1. cbn [bind].
    destruct (cl && (Nat.eqb n 1 && b)) eqn:E1'.
    + apply andb_true_iff in E1' as [-> E1']. apply andb_true_iff in E1' as [En ->]. apply Nat.eqb_eq in En. subst n.
      assert (Ha : alternative slave (c1 :: r1) (wf_word m)).
      { exists s, c, c1, r1. split; [exact Es|]. split; [reflexivity|]. left. split; [exact Ec|]. split; [apply Hcl; reflexivity|auto]. }
      eexists. split; [reflexivity|]. split; [intros H; contradiction|]. split; [intros _; apply changed_cloneP, Hp|intros _ H; contradiction].
    + cbn [py_first bind].
      assert (E2 : py_and (str_eqb slave (u "в") || str_eqb slave (u "с")) (Ok (str_eqb slave [c1] && cl)) = Ok ((str_eqb slave (u "в") || str_eqb slave (u "с")) && (str_eqb slave [c1] && cl))).
      { destruct (str_eqb slave (u "в") || str_eqb slave (u "с")); reflexivity. }
      rewrite E2. cbn [bind]. destruct ((str_eqb slave (u "в") || str_eqb slave (u "с")) && (str_eqb slave [c1] && cl)) eqn:E2'.
      * apply andb_true_iff in E2' as [F1 F2]. apply andb_true_iff in F2 as [F2 ->]. apply str_eqb_ok in F2. apply orb_true_iff in F1.
        assert (Ha : alternative slave (c1 :: r1) (wf_word m)).
        { exists s, c, c1, r1. split; [exact Es|]. split; [reflexivity|]. right. left. split; [exact Ec|]. split; [apply Hcl; reflexivity|].
          split; [destruct F1 as [F1|F1]; apply str_eqb_ok in F1; auto|exact F2]. }
        eexists. split; [reflexivity|]. split; [intros H; contradiction|]. split; [intros _; apply changed_cloneP, Hp|intros _ H; contradiction].
      * eexists. split; [reflexivity|]. split; [intros H; contradiction|]. split; [|reflexivity].
        intros (s' & c' & c1' & r1' & Es' & [= <- <-] & H). exfalso. assert (c' = c) by (rewrite Es in Es'; apply app_inj_tail in Es' as [_ ->]; reflexivity). subst c'.
        destruct H as [(_ & H1 & H2 & H3)|[(_ & H1 & H2 & H3)|(H1 & _)]]; [| |contradiction].
        -- rewrite H2 in Hn. injection Hn as <-. rewrite H3 in Hb. injection Hb as <-. apply Hcl in H1. rewrite H1 in E1'. discriminate.
        -- apply Hcl in H1. subst cl. rewrite (proj2 (str_eqb_ok slave [c1]) H3) in E2'. destruct H2 as [H2|H2]; rewrite (proj2 (str_eqb_ok _ _) H2) in E2'; [|rewrite orb_true_r in E2']; discriminate.
  - assert (Ec' : ~ consonant c) by (apply not_consonant_iff; exact Ec). clear Ec. rename Ec' into Ec. unfold vowels_preposition_any. rewrite Hma. cbn [bind].
    destruct (str_eqb slave (u "о") && mem str_eqb (c1 :: r1) special_masters) eqn:E1.
    + apply special_iff in E1. eexists. split; [reflexivity|]. split; [intros _; apply changed_cloneP, Hp|]. split; [|intros H; exact (False_ind _ (H E1))].
      intros (s' & c' & c1' & r1' & Es' & [= <- <-] & H). exfalso. assert (c' = c) by (rewrite Es in Es'; apply app_inj_tail in Es' as [_ ->]; reflexivity). subst c'.
      destruct H as [(H & _)|[(H & _)|(_ & H & _)]]; [exact (Ec H)|exact (Ec H)|exact (H E1)].
    + assert (Hns : ~ special slave (c1 :: r1)) by (intros H; apply special_iff in H; congruence). cbn [py_first bind].
      destruct (mem N.eqb c1 NOT_J_VOWELS) eqn:E2.
      * apply not_j_vowels in E2. eexists. split; [reflexivity|]. split; [intros H; contradiction|]. split; [intros _; apply changed_cloneP, Hp|].
        intros _ H. exfalso. apply H. exists s, c, c1, r1. split; [exact Es|]. split; [reflexivity|]. right. right. auto.
      * eexists. split; [reflexivity|]. split; [intros H; contradiction|]. split; [|reflexivity].
        intros (s' & c' & c1' & r1' & Es' & [= <- <-] & H). exfalso. assert (c' = c) by (rewrite Es in Es'; apply app_inj_tail in Es' as [_ ->]; reflexivity). subst c'.
        destruct H as [(H & _)|[(H & _)|(_ & _ & H)]]; [exact (Ec H)|exact (Ec H)|]. apply not_j_vowels in H. congruence.
Qed.
(** it raises only IndexError, exactly when the preposition or the text before which it stands is empty (or can not be computed) *)
Theorem C43_errors : forall U w p m e, is_word w -> w_type w = WT_PREPOSITION -> is_properties p -> is_wordform m ->
  (transform U w p m = Err e <->
   e = IndexError /\ (normal_form w = Ok [] \/ wf_form U m = Ok [] \/ exists e', wf_form U m = Err e')).
Proof.
  intros U w p m e Hw Ht Hp Hm. destruct (word_normal_form w Hw) as [slave Hs].
  assert (Hwf : (exists t, wf_form U m = Ok t) \/ wf_form U m = Err IndexError).
  { destruct (wordform_parts m Hm) as (Hmw & _ & Hfp & _). destruct (C10_form_total _ _ Hmw Hfp) as (f & Hf & _).
    destruct (wordform_parts m Hm) as (_ & _ & _ & Eq & _). rewrite <- Eq in Hf. destruct (get_form_spec U (wf_word m) (wf_form_props m) f Hfp Hf) as [G1 G2].
    unfold wf_form. destruct (upper_dec (wf_form_props m) Hfp) as [H|H]; [rewrite (G1 H); destruct f; eauto|rewrite (G2 H); eauto]. }
  destruct slave as [|c0 s0].
  - rewrite (transform_preposition U w p m Ht). unfold preposition_any. rewrite Hs. cbn [bind py_last rev]. split; [intros [= <-]; auto|intros [-> _]; reflexivity].
  - destruct Hwf as [[[|c1 r1] Hma]|Hma].
    + rewrite (transform_preposition U w p m Ht). unfold preposition_any. rewrite Hs. cbn [bind].
      destruct (py_last_cases (c0 :: s0)) as [[? _]|(s & c & Es & ->)]; [discriminate|]. cbn [bind].
      assert (G : (if mem N.eqb c CONSONANTS then consonant_preposition_any U (c0 :: s0) p m else vowels_preposition_any U (c0 :: s0) p m) = Err IndexError).
      { unfold consonant_preposition_any, vowels_preposition_any, starts_with_consonant_cluster. rewrite Hma. cbn [bind].
        destruct (mem N.eqb c CONSONANTS); [reflexivity|]. change (mem str_eqb [] special_masters) with false. rewrite andb_false_r. reflexivity. }
      rewrite G. split; [intros [= <-]; auto|intros [-> _]; reflexivity].
    + destruct (C43_preposition_form U w p m _ _ Hw Ht Hp Hm Hs ltac:(discriminate) Hma ltac:(discriminate)) as (q & E & _). rewrite E. split; [discriminate|].
      intros [_ [H|[H|[e' H]]]]; congruence.
    + rewrite (transform_preposition U w p m Ht). unfold preposition_any. rewrite Hs. cbn [bind].
      destruct (py_last_cases (c0 :: s0)) as [[? _]|(s & c & Es & ->)]; [discriminate|]. cbn [bind].
      assert (G : (if mem N.eqb c CONSONANTS then consonant_preposition_any U (c0 :: s0) p m else vowels_preposition_any U (c0 :: s0) p m) = Err IndexError).
      { unfold consonant_preposition_any, vowels_preposition_any. rewrite Hma. cbn [bind]. destruct (mem N.eqb c CONSONANTS); reflexivity. }
      rewrite G. split; [intros [= <-]; split; [reflexivity|]; right; right; eauto|intros [-> _]; reflexivity].
Qed.
Definition preposition (a b c : str) : word := {| w_type := WT_PREPOSITION; w_props := []; w_forms := [a; b; c] |}.
Lemma preposition_is_word a b c : is_word (preposition a b c).
Proof. apply is_word_iff. split; [apply wf_is_properties, wf_nil|vm_compute; reflexivity]. Qed.
Example C43_case :
  let m := WordForm lion (Some (Properties [AProp CASE_PREPOSITIONAL])) None in
  let into := preposition (u "в") (u "во") (u "во") in
  normal_form into = Ok (u "в") /\ wf_form ru_unicode m = Ok (u "льве") /\ alternative (u "в") (u "льве") lion /\
  transform ru_unicode into [] m = Ok (Properties [AProp PREPOSITION_FORM_ALTERNATIVE]).
Proof.
  cbn zeta. split; [vm_compute; reflexivity|]. split; [vm_compute; reflexivity|]. split; [|vm_compute; reflexivity].
  exists [], 1074%N, 1083%N, [1100; 1074; 1077]%N. split; [reflexivity|]. split; [reflexivity|]. left.
  split; [apply (mem_iff _ N_eqb_ok); vm_compute; reflexivity|]. split; [|split; vm_compute; reflexivity].
  split; apply (mem_iff _ N_eqb_ok); vm_compute; reflexivity.
Qed.
