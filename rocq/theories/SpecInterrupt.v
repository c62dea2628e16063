(** * SpecInterrupt: vocabulary for the statements about interrupted calls *)
From Verif Require Import PyBase Words Constructors Dictionary Lexicon Templates Lazy Interrupt.

(** the dictionary after several attempts to load the same words, each interrupted after so many steps *)
Definition attempts (U : unicode) (ws : list word) (d : dictionary) (crashes : list nat) : dictionary := fold_left (interrupted_load U ws) crashes d.

(** the global of construct_integer after any history of calls, interrupted or not *)
Inductive integers_left : integer_cache -> Prop :=
  | IL_import : integers_left None
  | IL_call : forall c number n, integers_left c -> integers_left (interrupted_integer c number n).

(** the attribute of a lazy property after any history of reads and deletions, interrupted or not; the object itself does not change *)
Inductive attribute_left {O V} (func : O -> result V) (o : O) : option V -> Prop :=
  | AL_new : attribute_left func o None
  | AL_get : forall attr n, attribute_left func o attr -> attribute_left func o (interrupted_get func o attr n)
  | AL_del : forall attr n, attribute_left func o attr -> attribute_left func o (interrupted_del func o attr n).

(** two lexicons give the same templates for every question *)
Definition same_templates {K T R} (keqb : K -> K -> bool) (reqb : R -> R -> bool) (l l' : lexicon K T R) : Prop :=
  forall key restrictions, get_templates keqb reqb l key restrictions = get_templates keqb reqb l' key restrictions /\
    get_nearest_templates keqb reqb l key restrictions = get_nearest_templates keqb reqb l' key restrictions.

(** the template never gives a text *)
Definition useless (t : template) : Prop := forall U ext d x, substitute U t ext d <> Ok x.
