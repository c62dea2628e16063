(** * PropExceptions: C68 - the library's own errors *)
From Verif Require Import PyBase PyBaseFacts Relations Constructors Exceptions.
From Coq Require Import Lia.

(** [except c] catches an exception of class c': c is c' or an ancestor of it *)
Inductive caught_by (c : exn_class) : exn_class -> Prop :=
  | caught_same : caught_by c c
  | caught_base c' b : base_class c' = Some b -> caught_by c b -> caught_by c c'.

(** a piece of a message: a fixed text, or str / repr of a named argument *)
Inductive piece := Text (s : str) | Str_of (name : str) | Repr_of (name : str).
Definition clean (s : str) : Prop := ~ In 37%N s.
Definition clean_name (s : str) : Prop := ~ In 41%N s.
Definition piece_format (p : piece) : str :=
  match p with
  | Text s => s
  | Str_of n => u "%(" ++ n ++ u ")s"
  | Repr_of n => u "%(" ++ n ++ u ")r"
  end.
Definition piece_ok (p : piece) : Prop := match p with Text s => clean s | Str_of n | Repr_of n => clean_name n end.
(** the text of a piece; None: the argument is missing *)
Definition piece_text (kw : kwargs) (p : piece) : option str :=
  match p with
  | Text s => Some s
  | Str_of n => option_map v_str (dget str_eqb n kw)
  | Repr_of n => option_map v_repr (dget str_eqb n kw)
  end.
Definition message (kw : kwargs) (ps : list piece) : result str :=
  fold_right (fun p r => match piece_text kw p with None => Err KeyError | Some t => x <- r ;; Ok (t ++ x) end) (Ok []) ps.

Lemma format_text s : clean s -> forall rest kw, format_map In_text (s ++ rest) kw = (x <- format_map In_text rest kw ;; Ok (s ++ x)).
Proof.
  unfold clean. induction s as [|c s IH]; intros H rest kw; cbn [app].
  - destruct (format_map In_text rest kw); reflexivity.
  - cbn [format_map]. destruct (N.eqb_spec c 37) as [->|N]; [exfalso; apply H; left; reflexivity|].
    rewrite IH by (intros Hi; apply H; right; exact Hi). destruct (format_map In_text rest kw); reflexivity.
Qed.

Lemma format_name n : clean_name n -> forall acc rest kw, format_map (In_name acc) (n ++ 41%N :: rest) kw = format_map (After_name (rev acc ++ n)) rest kw.
Proof.
  unfold clean_name. induction n as [|c n IH]; intros H acc rest kw; cbn [app format_map].
  - rewrite N.eqb_refl, app_nil_r. reflexivity.
  - destruct (N.eqb_spec c 41) as [->|N]; [exfalso; apply H; left; reflexivity|].
    rewrite IH by (intros Hi; apply H; right; exact Hi). cbn [rev]. rewrite <- app_assoc. reflexivity.
Qed.

Lemma format_pieces ps : Forall piece_ok ps -> forall kw, format_map In_text (concat (map piece_format ps)) kw = message kw ps.
Proof.
  induction 1 as [|p ps Hp _ IH]; intros kw; [reflexivity|].
  cbn [map concat]. unfold message. cbn [fold_right]. fold (message kw ps).
  destruct p as [s|n|n]; cbn [piece_format piece_text piece_ok] in *.
  - rewrite format_text by exact Hp. rewrite IH. reflexivity.
  - change (u "%(") with [37%N; 40%N]. change (u ")s") with [41%N; 115%N]. rewrite <- !app_assoc. cbn [app format_map N.eqb Pos.eqb].
    rewrite format_name by exact Hp. cbn [rev app format_map]. destruct (dget str_eqb n kw); cbn [option_map]; [|reflexivity].
    cbn [N.eqb Pos.eqb]. rewrite IH. reflexivity.
  - change (u "%(") with [37%N; 40%N]. change (u ")r") with [41%N; 114%N]. rewrite <- !app_assoc. cbn [app format_map N.eqb Pos.eqb].
    rewrite format_name by exact Hp. cbn [rev app format_map]. destruct (dget str_eqb n kw); cbn [option_map]; [|reflexivity].
    cbn [N.eqb Pos.eqb]. rewrite IH. reflexivity.
Qed.

(** the arguments named in the message of each class *)
Definition argument_names (c : exn_class) : list str :=
  match c with
  | C_UtgError | C_WordsError | C_LexiconError | C_TransformatorsError => []
  | C_WrongFormsNumberError => [u "wrong_number"; u "expected_number"; u "forms"]
  | C_DuplicateWordError => [u "type"; u "normal_form"]
  | C_UnknownVerboseIdError => [u "verbose_id"]
  | C_ExternalDependecyNotFoundError => [u "dependency"]
  | C_WrongDependencyFormatError => [u "dependency"]
  | C_NoWordsFoundError => [u "text"]
  | C_MoreThenOneWordFoundError => [u "text"; u "type"]
  | C_UnknownLexiconKeyError => [u "key"]
  | C_NoTemplatesWithSpecifiedRestrictions => [u "key"; u "restrictions"]
  | C_UnknownIntegerFormError => [u "form"]
  end.
Definition abstract (c : exn_class) : Prop := In c [C_UtgError; C_WordsError; C_LexiconError; C_TransformatorsError].

Definition pieces (c : exn_class) : list piece :=
  match c with
  | C_UtgError | C_WordsError | C_LexiconError | C_TransformatorsError => []
  | C_WrongFormsNumberError => [Text (u "constuctor of word receive wrong number of forms ("); Str_of (u "wrong_number"); Text (u " intead of "); Str_of (u "expected_number"); Text (u "), forms are: "); Str_of (u "forms")]
  | C_DuplicateWordError => [Text (u "duplicate word in dictionary, type: "); Str_of (u "type"); Text (u ", normal form: "); Str_of (u "normal_form")]
  | C_UnknownVerboseIdError => [Text (u "Unknown verbose id: "); Str_of (u "verbose_id")]
  | C_ExternalDependecyNotFoundError => [Text (u "External dependency not found: "); Str_of (u "dependency")]
  | C_WrongDependencyFormatError => [Text (u "wrong dependency format: "); Str_of (u "dependency")]
  | C_NoWordsFoundError => [Text (u "no words found for text="""); Str_of (u "text"); Text (u """")]
  | C_MoreThenOneWordFoundError => [Text (u "more then one word found for text="""); Str_of (u "text"); Text (u """ and type="); Str_of (u "type")]
  | C_UnknownLexiconKeyError => [Text (u "unknown lexicon key: "); Str_of (u "key")]
  | C_NoTemplatesWithSpecifiedRestrictions => [Text (u "no templates with specified key: "); Str_of (u "key"); Text (u " and restrictions: "); Repr_of (u "restrictions")]
  | C_UnknownIntegerFormError => [Text (u "unknown integer form: "); Str_of (u "form")]
  end.

Lemma not_in_dec (c : N) s : existsb (N.eqb c) s = false -> ~ In c s.
Proof. intros H Hi. assert (existsb (N.eqb c) s = true) by (apply existsb_exists; exists c; split; [exact Hi|apply N.eqb_refl]). congruence. Qed.

Lemma construct_pieces c kw : abstract c \/ construct c [] kw = (m <- message kw (pieces c) ;; Ok {| e_class := c; e_args := [m]; e_arguments := kw |}).
Proof.
  destruct c; try (left; unfold abstract; cbn; intuition congruence); right; unfold construct;
    match goal with |- context [class_msg ?c] =>
      let E := fresh in assert (E : class_msg c = Some (concat (map piece_format (pieces c)))) by (vm_compute; reflexivity); rewrite E; clear E end;
    rewrite format_pieces; try reflexivity;
    repeat constructor; cbn [piece_ok]; apply not_in_dec; vm_compute; reflexivity.
Qed.

Lemma message_names ps : forall kw, (exists m, message kw ps = Ok m) \/ message kw ps = Err KeyError.
Proof.
  intros kw. induction ps as [|p ps IH]; [left; exists []; reflexivity|]. unfold message. cbn [fold_right]. fold (message kw ps).
  destruct (piece_text kw p); [|right; reflexivity]. destruct IH as [(m & ->)| ->]; [left; eexists; reflexivity|right; reflexivity].
Qed.

Lemma message_ok ps kw : (exists m, message kw ps = Ok m) <-> (forall n, In (Str_of n) ps \/ In (Repr_of n) ps -> In n (dkeys kw)).
Proof.
  assert (HD : forall n, dget str_eqb n kw <> None <-> In n (dkeys kw)).
  { intros n. clear. induction kw as [|[k v] kw IH]; cbn; [split; [congruence|intros []]|].
    destruct (str_eqb n k) eqn:E.
    - apply str_eqb_ok in E. subst. split; [intros _; left; reflexivity|congruence].
    - rewrite IH. split; [right; assumption|]. intros [->|H]; [|exact H]. assert (str_eqb n n = true) by (apply str_eqb_ok; reflexivity). congruence. }
  induction ps as [|p ps IH].
  - split; [intros _ n [[]|[]]|intros _; exists []; reflexivity].
  - unfold message. cbn [fold_right]. fold (message kw ps). destruct (piece_text kw p) eqn:E.
    + transitivity (exists m, message kw ps = Ok m).
      { destruct (message kw ps); cbn; split; intros [m H]; try discriminate; eexists; reflexivity. }
      rewrite IH. split; intros H n Hn.
      * cbn [In] in Hn. assert (Hp : p = Str_of n \/ p = Repr_of n -> In n (dkeys kw)).
        { intros Hp. apply HD. intros E0. destruct Hp; subst p; cbn [piece_text] in E; rewrite E0 in E; discriminate. }
        destruct Hn as [[Hn|Hn]|[Hn|Hn]]; [apply Hp; left; exact Hn|apply H; left; exact Hn|apply Hp; right; exact Hn|apply H; right; exact Hn].
      * apply H. destruct Hn; [left|right]; right; assumption.
    + split; [intros [m H]; discriminate|]. intros H. exfalso. destruct p as [s|n|n]; cbn [piece_text] in E; try discriminate;
        destruct (dget str_eqb n kw) eqn:E0; try discriminate; apply (proj2 (HD n)); try exact E0; apply H; cbn; auto.
Qed.

(** ** C68 *)

(** every raise statement of the library succeeds in building its exception - whatever the texts of the values are - and
    the message is exactly this *)
Theorem C68_raised : forall s, exists e, raise_at s = Ok e /\
  match s with
  | At_Word n m forms => e_class e = C_WrongFormsNumberError /\
      exn_str e = u "constuctor of word receive wrong number of forms (" ++ str_of_Z (Z.of_nat n) ++ u " intead of " ++ str_of_Z (Z.of_nat m) ++ u "), forms are: " ++ v_str forms
  | At_parse v => e_class e = C_WrongDependencyFormatError /\ exn_str e = u "wrong dependency format: " ++ v_str v
  | At_parse_properties slug => e_class e = C_UnknownVerboseIdError /\ exn_str e = u "Unknown verbose id: " ++ v_str slug
  | At_list_properties v => e_class e = C_ExternalDependecyNotFoundError /\ exn_str e = u "External dependency not found: " ++ v_str v
  | At_get_random_template_key k | At_get_random_nearest_template_key k => e_class e = C_UnknownLexiconKeyError /\ exn_str e = u "unknown lexicon key: " ++ v_str k
  | At_get_random_template k r | At_get_random_nearest_template k r => e_class e = C_NoTemplatesWithSpecifiedRestrictions /\
      exn_str e = u "no templates with specified key: " ++ v_str k ++ u " and restrictions: " ++ v_repr r
  | At_get_word t => e_class e = C_NoWordsFoundError /\ exn_str e = u "no words found for text=""" ++ v_str t ++ u """"
  | At_noun_integer v | At_adjective_integer v => e_class e = C_UnknownIntegerFormError /\ exn_str e = u "unknown integer form: " ++ v_str v
  end.
Proof.
  intros s. destruct s; cbn [raise_at];
    match goal with |- context [construct ?c [] ?kw] => destruct (construct_pieces c kw) as [H| ->]; [exfalso; revert H; unfold abstract; cbn; intuition congruence|] end;
    eexists; (split; [reflexivity|]); split; try reflexivity; unfold exn_str; cbn -[u]; rewrite ?app_nil_r; reflexivity.
Qed.

(** building an exception by hand: the four classes without a message can not be built at all (finding), the others exactly
    with at least the arguments of their message, and keep all arguments they are given *)
Theorem C68_construct : forall c kw,
  (abstract c -> construct c [] kw = Err TypeError) /\
  (~ abstract c -> (forall n, In n (argument_names c) -> In n (dkeys kw)) -> exists m, construct c [] kw = Ok {| e_class := c; e_args := [m]; e_arguments := kw |}) /\
  (~ abstract c -> forall n, In n (argument_names c) -> ~ In n (dkeys kw) -> construct c [] kw = Err KeyError).
Proof.
  intros c kw. split; [|split].
  - unfold abstract. cbn. intros [<-|[<-|[<-|[<-|[]]]]]; reflexivity.
  - intros Ha Hn. destruct (construct_pieces c kw) as [H| ->]; [contradiction|].
    assert (HP : exists m, message kw (pieces c) = Ok m).
    { apply message_ok. intros n Hp. apply Hn. destruct c; cbn -[u] in Hp |- *; intuition congruence. }
    destruct HP as [m ->]. exists m. reflexivity.
  - intros Ha n Hn Hk. destruct (construct_pieces c kw) as [H| ->]; [contradiction|].
    destruct (message_names (pieces c) kw) as [H|H]; [|rewrite H; reflexivity]. exfalso. apply Hk.
    rewrite message_ok in H. apply H. destruct c; cbn -[u] in Hn |- *; intuition congruence.
Qed.

(** an "except UtgError" catches every class of the library; WordsError, LexiconError and TransformatorsError catch the
    errors of their part, and nothing is caught by two of them *)
Theorem C68_handlers :
  (forall c, caught_by C_UtgError c) /\
  (forall c, caught_by C_WordsError c <-> In c [C_WordsError; C_WrongFormsNumberError; C_DuplicateWordError; C_UnknownVerboseIdError; C_ExternalDependecyNotFoundError; C_WrongDependencyFormatError; C_NoWordsFoundError; C_MoreThenOneWordFoundError]) /\
  (forall c, caught_by C_LexiconError c <-> In c [C_LexiconError; C_UnknownLexiconKeyError; C_NoTemplatesWithSpecifiedRestrictions]) /\
  (forall c, caught_by C_TransformatorsError c <-> In c [C_TransformatorsError; C_UnknownIntegerFormError]) /\
  (forall c c', ~ abstract c -> caught_by c c' -> c' = c).
Proof.
  repeat split.
  - intros c. destruct c; repeat (first [apply caught_same | eapply caught_base; [reflexivity|]]).
  - intros H. destruct c; cbn; repeat (match goal with H : caught_by _ _ |- _ => inversion H; clear H; subst end; try discriminate;
      repeat match goal with H : base_class _ = Some _ |- _ => cbn in H; first [discriminate | injection H as <-] end); tauto.
  - cbn. intuition (subst; repeat (first [apply caught_same | eapply caught_base; [reflexivity|]])).
  - intros H. destruct c; cbn; repeat (match goal with H : caught_by _ _ |- _ => inversion H; clear H; subst end; try discriminate;
      repeat match goal with H : base_class _ = Some _ |- _ => cbn in H; first [discriminate | injection H as <-] end); tauto.
  - cbn. intuition (subst; repeat (first [apply caught_same | eapply caught_base; [reflexivity|]])).
  - intros H. destruct c; cbn; repeat (match goal with H : caught_by _ _ |- _ => inversion H; clear H; subst end; try discriminate;
      repeat match goal with H : base_class _ = Some _ |- _ => cbn in H; first [discriminate | injection H as <-] end); tauto.
  - cbn. intuition (subst; repeat (first [apply caught_same | eapply caught_base; [reflexivity|]])).
  - intros c c' Ha H. assert (HB : forall b, base_class b <> Some c).
    { intros b Hb. apply Ha. destruct b; cbn in Hb; try discriminate; injection Hb as <-; unfold abstract; cbn; tauto. }
    assert (HT : forall x y, caught_by x y -> x = y \/ exists z, base_class z = Some x).
    { clear. intros x y H. induction H as [|c' b Hb Hc IH]; [left; reflexivity|]. destruct IH as [<-|IH]; right; [exists c'; exact Hb|exact IH]. }
    destruct (HT _ _ H) as [<-|[z Hz]]; [reflexivity|]. exfalso. apply (HB _ Hz).
Qed.

(** FINDING: no error of the library can be copied or sent to another process (pickle): this always raises TypeError *)
Theorem C68_no_copies : forall c kw e, construct c [] kw = Ok e -> reconstruct e = Err TypeError.
Proof.
  intros c kw e H. unfold construct in H. destruct (class_msg c); [|discriminate]. destruct (format_map In_text s kw); cbn in H; [|discriminate].
  injection H as <-. reflexivity.
Qed.

(** messages with per cent signs and parentheses in the values: they are not formatted again *)
Example C68_case :
  exists e, raise_at (At_get_word {| v_str := u "100%(x)s%"; v_repr := u "'100%(x)s%'" |}) = Ok e /\ exn_str e = u "no words found for text=""100%(x)s%""" /\
    ~ abstract C_NoWordsFoundError /\ caught_by C_WordsError (e_class e) /\ reconstruct e = Err TypeError.
Proof.
  eexists. split; [reflexivity|]. split; [reflexivity|]. split; [unfold abstract; cbn; intuition congruence|].
  split; [|reflexivity]. eapply caught_base; [reflexivity|apply caught_same].
Qed.
