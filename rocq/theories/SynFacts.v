(** * SynFacts: the text identifiers of properties and the syntax of one variable (Substitution.parse) *)
From Coq Require Import Lia Permutation.
From Verif Require Import PyBase Relations Restrictions Logic Data Words Transformators Dictionary Templates
  PyBaseFacts SpecProps PropsFacts IntFacts StrFacts SerFacts.

(** ** identifiers *)
Lemma all_prop_forall (P : prop -> bool) : forallb P (flat_map records all_relations) = true -> forall p, P p = true.
Proof. apply in_all_prop. Qed.
Lemma verbose_id_chars p : Forall (fun c => id_char c = true) (verbose_id p).
Proof. apply Forall_forall. apply forallb_forall. revert p. apply in_all_prop. vm_compute. reflexivity. Qed.
Lemma verbose_id_nonempty p : verbose_id p <> [].
Proof. intros H. destruct p as [| | | | | | | | | | | | | | | | | | | | | | | | | | | | | | | | | | | | | | | | | | | | | | | | | | | | | | | | | | | |t]; try destruct t; vm_compute in H; discriminate. Qed.
Lemma verbose_lookup p : dget str_eqb (verbose_id p) VERBOSE_TO_PROPERTIES = Some p.
Proof.
  apply (opt_eqb_ok _ prop_eqb_ok). revert p.
  apply (in_all_prop (fun p => opt_eqb prop_eqb (dget str_eqb (verbose_id p) VERBOSE_TO_PROPERTIES) (Some p))).
  vm_compute. reflexivity.
Qed.
Lemma verbose_id_inj p q : verbose_id p = verbose_id q -> p = q.
Proof. intros H. assert (E := verbose_lookup p). rewrite H, verbose_lookup in E. congruence. Qed.
Lemma verbose_table_sound s p : dget str_eqb s VERBOSE_TO_PROPERTIES = Some p -> s = verbose_id p.
Proof.
  intros H. apply (dget_In _ str_eqb_ok) in H.
  assert (G : forallb (fun kv => str_eqb (fst kv) (verbose_id (snd kv))) VERBOSE_TO_PROPERTIES = true) by (vm_compute; reflexivity).
  rewrite forallb_forall in G. apply str_eqb_ok, (G _ H).
Qed.
Lemma verbose_table_iff s p : dget str_eqb s VERBOSE_TO_PROPERTIES = Some p <-> s = verbose_id p.
Proof. split; [apply verbose_table_sound|]. intros ->. apply verbose_lookup. Qed.

Lemma id_char_not c d : id_char c = true -> id_char d = false -> c <> d.
Proof. congruence. Qed.
Lemma verbose_id_no_comma p : ~ In COMMA (verbose_id p).
Proof. intros H. assert (G := verbose_id_chars p). rewrite Forall_forall in G. apply G in H. discriminate. Qed.

Lemma slugs_of_records vs : mapM parse_properties_slug (map verbose_id vs) = Ok (map (fun p => [AProp p]) vs).
Proof.
  induction vs as [|p vs IH]; simpl; [reflexivity|]. rewrite IH. unfold parse_properties_slug at 1.
  assert (H := verbose_id_nonempty p). destruct (verbose_id p) eqn:E; [contradiction|]. rewrite <- E, verbose_lookup. reflexivity.
Qed.
Lemma concat_singletons {A B} (f : A -> B) l : concat (map (fun a => [f a]) l) = map f l.
Proof. induction l as [|a l IH]; simpl; [reflexivity|]. rewrite IH. reflexivity. Qed.
Lemma parse_records vs : parse_properties (join (u ",") (map verbose_id vs)) = Ok (Properties (map AProp vs)).
Proof.
  unfold parse_properties. destruct vs as [|v vs]; [reflexivity|].
  change (u ",") with [COMMA]. rewrite split_join.
  - rewrite slugs_of_records. simpl bind. rewrite concat_singletons. reflexivity.
  - discriminate.
  - apply Forall_forall. intros a Ha. apply in_map_iff in Ha as (p & <- & _). apply verbose_id_no_comma.
Qed.
Lemma parse_permuted p vs : is_properties p -> Permutation (map snd p) vs ->
  exists q, parse_properties (join (u ",") (map verbose_id vs)) = Ok q /\ is_properties q /\ same_props q p.
Proof.
  intros Hp HP. exists (Properties (map AProp vs)). split; [apply parse_records|]. split.
  - apply Properties_ok. intros d Hd. apply in_map_iff in Hd as (? & [=] & _).
  - apply holds_permuted_values; [apply is_properties_wf, Hp|exact HP].
Qed.

(** ** the runtime's Unicode tables, where the statements need something about them *)
Lemma ru_lower_id c : id_char c = true \/ c = COMMA -> ru_lower_char c = c.
Proof.
  intros [H| ->]; [|reflexivity]. unfold id_char in H. unfold ru_lower_char.
  rewrite !orb_true_iff, !andb_true_iff, !N.leb_le, N.eqb_eq in H.
  destruct (N.leb_spec 65 c), (N.leb_spec c 90), (N.leb_spec 1040 c), (N.leb_spec c 1071), (N.eqb_spec c 1025); simpl; lia.
Qed.
Lemma ru_unicode_ok : unicode_ok ru_unicode.
Proof.
  split.
  - intros s H. simpl. induction H as [|c s Hc _ IH]; simpl; [reflexivity|]. rewrite IH, ru_lower_id by exact Hc. reflexivity.
  - intros c [H| ->]; [|reflexivity]. unfold id_char in H. simpl.
    rewrite !orb_true_iff, !andb_true_iff, !N.leb_le, N.eqb_eq in H.
    destruct (N.eqb_spec c 32), (N.leb_spec 9 c), (N.leb_spec c 13), (N.leb_spec 28 c), (N.leb_spec c 31), (N.eqb_spec c 133), (N.eqb_spec c 160); simpl; lia.
Qed.

Lemma join_ids_chars vs : Forall (fun c => id_char c = true \/ c = COMMA) (join (u ",") (map verbose_id vs)).
Proof.
  induction vs as [|v [|w vs] IH].
  - constructor.
  - simpl. eapply Forall_impl; [|apply verbose_id_chars]. simpl. auto.
  - change (join (u ",") (map verbose_id (v :: w :: vs))) with (verbose_id v ++ [COMMA] ++ join (u ",") (map verbose_id (w :: vs))).
    apply Forall_app. split; [eapply Forall_impl; [|apply verbose_id_chars]; simpl; auto|].
    simpl. constructor; [right; reflexivity|exact IH].
Qed.
Lemma join_ids_free vs c : id_char c = false -> c <> COMMA -> ~ In c (join (u ",") (map verbose_id vs)).
Proof.
  intros H1 H2 Hin. assert (G := join_ids_chars vs). rewrite Forall_forall in G. destruct (G c Hin); congruence.
Qed.

(** ** one variable *)
Lemma unbracket_spec x : unbracket (LBR :: x ++ [RBR]) = x.
Proof. unfold unbracket. simpl. apply removelast_last. Qed.
Lemma split_variable parts : parts <> [] -> Forall (fun a => ~ In BAR a) parts ->
  split_on BAR (unbracket (LBR :: join [BAR] parts ++ [RBR])) = parts.
Proof. intros H1 H2. rewrite unbracket_spec. apply split_join; assumption. Qed.

Lemma parse_substitution_parts U ext x a bs : split_on BAR x = a :: bs -> a <> [] ->
  parse_substitution U (LBR :: x ++ [RBR]) ext =
  (deps <- mapM (parse_dependency U ext) bs ;;
   match strip (u_isspace U) a with
   | [] => Err IndexError
   | c :: _ => Ok {| s_id := u_lower U (strip (u_isspace U) a);
                     s_deps := deps ++ (if u_isupper U c then [DProps (Properties [AProp WORD_CASE_UPPER])] else []) |}
   end).
Proof.
  intros H Ha. unfold parse_substitution. rewrite unbracket_spec, H. destruct a; [contradiction|reflexivity].
Qed.
Lemma parse_dependency_ids U ext vs : unicode_ok U ->
  dmem str_eqb (join (u ",") (map verbose_id vs)) ext = false ->
  parse_dependency U ext (join (u ",") (map verbose_id vs)) = Ok (DProps (Properties (map AProp vs))).
Proof.
  intros [Hl Hs] He. unfold parse_dependency. rewrite Hl by apply join_ids_chars. rewrite strip_no_space.
  - rewrite He, parse_records. reflexivity.
  - eapply Forall_impl; [|apply join_ids_chars]. apply Hs.
Qed.
Lemma parse_variable_ids U ext a p vs : unicode_ok U -> is_properties p -> Permutation (map snd p) vs ->
  ~ In BAR a -> (exists c, In c a /\ u_isspace U c = false) ->
  ~ In (join (u ",") (map verbose_id vs)) (dkeys ext) ->
  exists s q rest, parse_substitution U (LBR :: (a ++ BAR :: join (u ",") (map verbose_id vs)) ++ [RBR]) ext = Ok s /\
    s_id s = u_lower U (strip (u_isspace U) a) /\
    s_deps s = DProps q :: rest /\ is_properties q /\ same_props q p.
Proof.
  intros HU Hp HP Hb (c & Hc & Hns) He.
  assert (Ha : a <> []) by (intros ->; destruct Hc).
  rewrite (parse_substitution_parts U ext _ a [join (u ",") (map verbose_id vs)]).
  - simpl mapM. rewrite parse_dependency_ids; [|exact HU|apply (dmem_false _ str_eqb_ok), He]. simpl bind.
    destruct (strip (u_isspace U) a) as [|d r] eqn:E.
    + exfalso. apply strip_nil in E. rewrite Forall_forall in E. rewrite (E c Hc) in Hns. discriminate.
    + eexists _, _, _. split; [reflexivity|]. split; [reflexivity|]. split; [reflexivity|]. split.
      * apply Properties_ok. intros d' Hd. apply in_map_iff in Hd as (? & [=] & _).
      * apply holds_permuted_values; [apply is_properties_wf, Hp|exact HP].
  - rewrite split_on_app_sep by exact Hb. f_equal. apply split_on_none. apply join_ids_free; [reflexivity|discriminate].
  - exact Ha.
Qed.
