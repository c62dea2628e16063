(** * SpecLexShared: vocabulary for C84 *)
From Verif Require Import PyBase Lexicon LexShared.

Section Spec.
  Context {K T R : Type} (keqb : K -> K -> bool) (reqb : R -> R -> bool).
  Notation action := (sh_action K T R).

  (** how many sets the caller has made *)
  Fixpoint sets_made (h : list action) : nat := match h with [] => 0 | NewSet _ :: h' => S (sets_made h') | _ :: h' => sets_made h' end.
  (** [elements_of h i l]: after h the set number i has the elements l *)
  Inductive elements_of : list action -> nat -> list R -> Prop :=
    | elements_made h l : elements_of (h ++ [NewSet l]) (sets_made h) l
    | elements_changed h i l l' : elements_of h i l -> elements_of (h ++ [ChangeSet i l']) i l'
    | elements_kept h i l a : elements_of h i l -> (forall l', a <> ChangeSet i l') -> elements_of (h ++ [a]) i l.
  (** the elements of an argument of add_template: of the set, or none if it was left out *)
  Definition given_restrictions (h : list action) (r : option nat) (l : list R) : Prop :=
    match r with None => l = [] | Some i => elements_of h i l end.
  (** only sets that exist are used *)
  Inductive proper : list action -> Prop :=
    | proper_nil : proper []
    | proper_new h l : proper h -> proper (h ++ [NewSet l])
    | proper_change h i l : proper h -> i < sets_made h -> proper (h ++ [ChangeSet i l])
    | proper_add h k t r : proper h -> (forall i, r = Some i -> i < sets_made h) -> proper (h ++ [AddTemplate k t r]).

  (** [calls_now h now calls]: calls are the add_template calls of h, in order, each with the elements that its set has after [now] *)
  Inductive calls_now : list action -> list action -> list ((K * T) * list R) -> Prop :=
    | now_nil now : calls_now [] now []
    | now_add h now calls k t r l : calls_now h now calls -> given_restrictions now r l -> calls_now (h ++ [AddTemplate k t r]) now (calls ++ [((k, t), l)])
    | now_other h now calls a : calls_now h now calls -> (forall k t r, a <> AddTemplate k t r) -> calls_now (h ++ [a]) now calls.
  (** ... each with the elements that its set had at the time of the call *)
  Inductive calls_then : list action -> list ((K * T) * list R) -> Prop :=
    | then_nil : calls_then [] []
    | then_add h calls k t r l : calls_then h calls -> given_restrictions h r l -> calls_then (h ++ [AddTemplate k t r]) (calls ++ [((k, t), l)])
    | then_other h calls a : calls_then h calls -> (forall k t r, a <> AddTemplate k t r) -> calls_then (h ++ [a]) calls.
  (** no set is changed after it was given to add_template *)
  Definition left_alone (h : list action) : Prop :=
    forall before k t i middle l after, h = before ++ AddTemplate k t (Some i) :: middle ++ ChangeSet i l :: after -> False.

  (** the lexicon with shared sets answers like the lexicon l of values *)
  Definition answers_like (s : shared K T R) (l : lexicon K T R) : Prop :=
    forall key, sh_has_key keqb s key = has_key keqb l key /\
      forall restrictions,
        sh_get_templates keqb reqb s key restrictions = get_templates keqb reqb l key restrictions /\
        sh_get_nearest_templates keqb reqb s key restrictions = get_nearest_templates keqb reqb l key restrictions /\
        forall rnd, sh_random keqb reqb rnd false s key restrictions = get_random_template keqb reqb rnd l key restrictions /\
                    sh_random keqb reqb rnd true s key restrictions = get_random_nearest_template keqb reqb rnd l key restrictions.
End Spec.
