(** * CaseTools: computing examples with one dictionary entry at a time.  Proof engineering only. *)
From Verif Require Import PyBase Relations Words Dictionary Templates PyBaseFacts.

Definition entry (id : str) (f : wordform) : dictionary := [(id, f)].
Lemma get_text_entry U s ext d d' : (dget str_eqb (s_id s) ext = None -> get_word d (s_id s) = get_word d' (s_id s)) -> get_text U s ext d = get_text U s ext d'.
Proof. intro H. unfold get_text, base_form_of. destruct (dget str_eqb (s_id s) ext); [reflexivity|]. rewrite H; reflexivity. Qed.
Lemma substitute_entry U t ext d d' : (forall id, In id (map s_id (t_subs t)) -> dget str_eqb id ext = None -> get_word d id = get_word d' id) -> substitute U t ext d = substitute U t ext d'.
Proof.
  intro H. unfold substitute. rewrite (mapM_ext_in _ (fun s => get_text U s ext d')); [reflexivity|]. intros s Hs. apply get_text_entry, H. apply in_map. exact Hs.
Qed.
Lemma get_word_entry id f : get_word (entry id f) id = Ok f.
Proof. unfold get_word, entry. cbn [dget]. rewrite (proj2 (str_eqb_ok id id) eq_refl). reflexivity. Qed.
(** a template with the single variable id *)
Lemma substitute_known U t ext d id f : get_word d id = Ok f -> map s_id (t_subs t) = [id] -> substitute U t ext d = substitute U t ext (entry id f).
Proof. intros H E. apply substitute_entry. intros x Hx _. rewrite E in Hx. destruct Hx as [<-|[]]. rewrite get_word_entry. exact H. Qed.
Lemma get_text_known U id deps ext d f : get_word d id = Ok f -> get_text U {| s_id := id; s_deps := deps |} ext d = get_text U {| s_id := id; s_deps := deps |} ext (entry id f).
Proof. intros H. apply get_text_entry. intros _. cbn [s_id]. rewrite get_word_entry. exact H. Qed.
