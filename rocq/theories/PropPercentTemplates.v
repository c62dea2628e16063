(** * PropPercentTemplates: C92 for templates with any text *)
From Verif Require Import PyBase Relations Restrictions Logic Data Words Transformators Constructors Dictionary Templates SpecPercent PropPercent SpecProps PropSubstitution.

(** ** templates with any text (Template.deserialize takes the text as it is stored) *)
Lemma mapM_Forall2 {A B} (f : A -> result B) : forall l ys, mapM f l = Ok ys <-> Forall2 (fun x y => f x = Ok y) l ys.
Proof.
  induction l as [|x l IH]; intros ys; cbn [mapM].
  - split; [intros H; injection H as <-; constructor|intros H; inversion H; reflexivity].
  - split.
    + intros H. destruct (f x) as [y|] eqn:E; [|discriminate]. cbn [bind] in H. destruct (mapM f l) as [ys'|] eqn:M; [|discriminate].
      cbn [bind] in H. injection H as <-. constructor; [exact E|]. apply IH. reflexivity.
    + intros H. inversion H as [|? y ? ys' E F]; subst. rewrite E. cbn [bind]. apply IH in F. rewrite F. reflexivity.
Qed.
Lemma mapM_error {A B} (f : A -> result B) : forall l e, mapM f l = Err e -> exists x, In x l /\ f x = Err e.
Proof.
  induction l as [|x l IH]; intros e H; cbn [mapM] in H; [discriminate|]. destruct (f x) as [y|e'] eqn:E; cbn [bind] in H.
  - destruct (mapM f l) as [ys|] eqn:M; [discriminate|]. cbn [bind] in H. injection H as <-. destruct (IH _ eq_refl) as (z & I & F). exists z. split; [right; exact I|exact F].
  - injection H as <-. exists x. split; [left; reflexivity|exact E].
Qed.

Theorem C92_deserialize_keeps_text : forall data t, deserialize_template data = Ok t -> t_text t = td_text data.
Proof.
  intros data t H. unfold deserialize_template in H. destruct (mapM deserialize_substitution (td_subs data)); [|discriminate]. injection H as <-. reflexivity.
Qed.
Theorem C92_substitute : forall U t ext d text, substitute U t ext d = Ok text <->
  exists format texts, t_text t = Some format /\ Forall2 (fun s x => get_text U s ext d = Ok x) (t_subs t) texts /\
    printed py_repr py_ascii format texts text.
Proof.
  intros U t ext d text. unfold substitute. split.
  - intros H. destruct (mapM _ (t_subs t)) as [texts|] eqn:M; [|discriminate]. cbn [bind] in H. destruct (t_text t) as [fmt|] eqn:T; [|discriminate].
    exists fmt, texts. split; [reflexivity|]. split; [apply mapM_Forall2 in M; exact M|apply C92_percent; exact H].
  - intros (fmt & texts & T & F & P). apply mapM_Forall2 in F. rewrite F, T. cbn [bind]. apply C92_percent. exact P.
Qed.
Theorem C92_substitute_errors : forall U t ext d e, substitute U t ext d = Err e ->
  (exists s, In s (t_subs t) /\ get_text U s ext d = Err e) \/ e = TypeError \/ e = ValueError.
Proof.
  intros U t ext d e H. unfold substitute in H. destruct (mapM _ (t_subs t)) as [texts|e'] eqn:M; cbn [bind] in H.
  - right. destruct (t_text t) as [fmt|]; [exact (C92_percent_errors _ _ _ H)|]. injection H as <-. auto.
  - injection H as <-. left. destruct (mapM_error _ _ _ M) as (s & I & E). exists s. auto.
Qed.

(** a text with no directive takes no substitution; blanks and cuts; what is no directive for a text; literals *)
Definition two (text : str) : template := {| t_subs := [{| s_id := u "монетами"; s_deps := [] |}; {| s_id := u "монета"; s_deps := [] |}]; t_text := Some text |}.
Example C92_case :
  substitute ru_unicode (two (u "<%-10s|%9.3s> %%")) ext2 dict2 = Ok (u "<монетами  |      мон> %") /\
  printed py_repr py_ascii (u "<%-10s|%9.3s> %%") [u "монетами"; u "монета"] (u "<монетами  |      мон> %") /\
  substitute ru_unicode (two (u "%s %d")) ext2 dict2 = Err TypeError /\
  substitute ru_unicode (two (u "%s %s 50% скидка")) ext2 dict2 = Err TypeError /\
  substitute ru_unicode (two (u "%s 50% скидка")) ext2 dict2 = Err ValueError /\
  substitute ru_unicode (two (u "%s")) ext2 dict2 = Err TypeError /\
  substitute ru_unicode (two (u "%s %s %")) ext2 dict2 = Err ValueError.
Proof.
  split; [vm_compute; reflexivity|]. split; [apply C92_percent; vm_compute; reflexivity|].
  split; [vm_compute; reflexivity|]. split; [vm_compute; reflexivity|]. split; [vm_compute; reflexivity|]. split; [vm_compute; reflexivity|].
  vm_compute. reflexivity.
Qed.
