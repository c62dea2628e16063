(** * SpecTemplates: vocabulary for the statements about templates *)
From Verif Require Import PyBase Relations Words Templates SpecProps.

(** a variable: '[', a non-empty text without ']', ']' *)
Definition is_variable (v : str) : Prop := exists x, v = LBR :: x ++ [RBR] /\ x <> [] /\ ~ In RBR x.

(** [cuts text literals variables]: text = l0 v1 l1 v2 l2 ... vn ln, each v the leftmost variable of what remains, and no
    variable in the last literal *)
Inductive cuts : str -> list str -> list str -> Prop :=
  | cut_end l : (forall a v b, is_variable v -> l <> a ++ v ++ b) -> cuts l [l] []
  | cut_variable l v text ls vs :
      is_variable v ->
      (forall a v' b, is_variable v' -> l ++ v ++ text = a ++ v' ++ b -> length l <= length a) ->
      cuts text ls vs -> cuts (l ++ v ++ text) (l :: ls) (v :: vs).

(** the text l0 x1 l1 x2 ... xn ln *)
Fixpoint weave (literals texts : list str) : str :=
  match literals, texts with
  | l :: ls, x :: xs => l ++ x ++ weave ls xs
  | l :: _, [] => l
  | [], _ => []
  end.

(** every percent sign doubled *)
Inductive doubled : str -> str -> Prop :=
  | dbl_nil : doubled [] []
  | dbl_percent s s' : doubled s s' -> doubled (PERCENT :: s) (PERCENT :: PERCENT :: s')
  | dbl_other c s s' : c <> PERCENT -> doubled s s' -> doubled (c :: s) (c :: s').

(** the text written for a variable with the identifier part a and the dependency parts bs *)
Definition variable (a : str) (bs : list str) : str := [LBR] ++ join [BAR] (a :: bs) ++ [RBR].
Definition no_bar (a : str) (bs : list str) : Prop := Forall (fun x => ~ In BAR x) (a :: bs).

(** [trimmed U s t]: t is s without the surrounding blanks *)
Definition trimmed (U : unicode) (s t : str) : Prop :=
  exists x y, s = x ++ t ++ y /\ Forall (fun c => u_isspace U c = true) x /\ Forall (fun c => u_isspace U c = true) y /\
    (forall c r, t = c :: r -> u_isspace U c = false) /\ (forall c r, t = r ++ [c] -> u_isspace U c = false).

(** [property_list s vs]: the text s is a comma-separated list of identifiers of the records vs; empty elements are skipped *)
Inductive identifiers : list str -> list prop -> Prop :=
  | ids_nil : identifiers [] []
  | ids_skip l vs : identifiers l vs -> identifiers ([] :: l) vs
  | ids_id v l vs : identifiers l vs -> identifiers (verbose_id v :: l) (v :: vs).
Definition comma_list (s : str) (elements : list str) : Prop :=
  elements <> [] /\ s = join [COMMA] elements /\ Forall (fun e => ~ In COMMA e) elements.
Definition property_list (s : str) (vs : list prop) : Prop := exists l, comma_list s l /\ identifiers l vs.
(** x is the first element of the list that is neither empty nor an identifier *)
Definition unknown_element (s x : str) : Prop :=
  exists l1 l2 vs, comma_list s (l1 ++ x :: l2) /\ identifiers l1 vs /\ x <> [] /\ forall v, x <> verbose_id v.

(** [reads U ext b dep]: the dependency part b of a variable is read as dep: its trimmed lower case is the name of an external
    or else a list of properties *)
Inductive reads (U : unicode) (ext : externals) (b : str) : dependency -> Prop :=
  | reads_external name : trimmed U (u_lower U b) name -> In name (dkeys ext) -> reads U ext b (DExt name)
  | reads_properties s vs : trimmed U (u_lower U b) s -> ~ In s (dkeys ext) -> property_list s vs ->
      reads U ext b (DProps (Properties (map AProp vs))).
(** the dependency part b is not readable because of the unknown identifier x *)
Definition unreadable (U : unicode) (ext : externals) (b x : str) : Prop :=
  exists s, trimmed U (u_lower U b) s /\ ~ In s (dkeys ext) /\ unknown_element s x.

(** what is assumed of lower-casing where needed; true of Python's str.lower: it is idempotent, a text is its own lower case iff its parts are ... *)
Definition lower_ok (U : unicode) : Prop :=
  (forall s, u_lower U (u_lower U s) = u_lower U s) /\
  (forall a b, u_lower U (a ++ b) = a ++ b <-> u_lower U a = a /\ u_lower U b = b).
(** ... and percent signs stay in number *)
Definition lower_keeps_percents (U : unicode) : Prop := forall s, count_char PERCENT (u_lower U s) = count_char PERCENT s.
