(** * PropCases: further concrete cases that meet the hypotheses of theorems of other files *)
From Verif Require Import PyBase Relations Words Dictionary Templates PyBaseFacts SpecProps PropsFacts WordFacts SlotFacts SpecTemplates TemplateFacts SpecDictionary DictFacts SpecSubstitution SubstFacts
  PropSyntax LookupFacts PropWords PropDictionary PropSubstitution.

(** a text with percent signs; the second template fails at its second variable *)
Example C28_case : exists t, let text := u "100% [монета|n], [hero]!" in
  parse_template ru_unicode new_template text ext2 = (t, Ok tt) /\ cuts text [u "100% "; u ", "; u "!"] [u "[монета|n]"; u "[hero]"] /\
  Forall2 (fun s x => get_text ru_unicode s ext2 dict2 = Ok x) (t_subs t) [u "монет"; u "монетам"] /\
  substitute ru_unicode t ext2 dict2 = Ok (u "100% монет, монетам!") /\
  exists t', parse_template ru_unicode new_template (u "[hero] [нечто]") ext2 = (t', Ok tt) /\ substitute ru_unicode t' ext2 dict2 = Err (NoWordsFoundError (u "нечто")).
Proof.
  eexists. cbv zeta. split; [vm_compute; reflexivity|]. split.
  { eapply cuts_step; [|reflexivity|reflexivity|]; [vm_compute; reflexivity|]. eapply cuts_step; [|reflexivity|reflexivity|]; [vm_compute; reflexivity|]. apply no_variables_ok. vm_compute. reflexivity. }
  split; [constructor; [vm_compute; reflexivity|]; constructor; [vm_compute; reflexivity|constructor]|]. split; [vm_compute; reflexivity|].
  eexists. split; [vm_compute; reflexivity|vm_compute; reflexivity].
Qed.
(** a word that is forced upper case and has only two texts: the first form is registered, the second one fails *)
Example C23_case : is_word broken /\ holds (w_props broken) R_WORD_CASE WORD_CASE_UPPER /\ snd (add_word ru_unicode (after ru_unicode []) broken) = Err IndexError /\
  In [] (w_forms broken) /\ registered ru_unicode [] [] /\ get_word (fst (add_word ru_unicode (after ru_unicode []) broken)) (u "Кот") <> Err (NoWordsFoundError (u "Кот")) /\
  has_word (fst (add_word ru_unicode (after ru_unicode []) broken)) (u "Коты") = false.
Proof.
  split; [apply is_word_iff; split; [apply Properties_ok; intros d H; simpl in H; repeat (destruct H as [[=]|H]); destruct H|vm_compute; reflexivity]|].
  split; [left; reflexivity|]. split; [vm_compute; reflexivity|]. split; [right; left; reflexivity|]. split; [exists []; split; [constructor|reflexivity]|].
  split; [vm_compute; discriminate|vm_compute; reflexivity].
Qed.
