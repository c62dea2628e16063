(** * SpecProps: vocabulary for the statements about Properties, words and word forms.
    Independent of how the code computes things: only membership, existence and the constructors. *)
From Coq Require Import Permutation.
From Verif Require Import PyBase Relations Logic Words Constructors.

(** [is_properties p]: p is the state of a Properties object - something returned by the constructor applied to
    records, None, and other Properties objects.  (Properties objects are never changed afterwards.) *)
Inductive is_properties : props -> Prop :=
  | new_properties args :
      (forall d, In (AProps d) args -> is_properties d) -> is_properties (Properties args).

(** constructor arguments a caller can write *)
Definition good_args (args : list parg) : Prop := forall d, In (AProps d) args -> is_properties d.

(** [holds p g v]: the object p specifies the value v for the group g *)
Definition holds (p : props) (g : relation) (v : prop) : Prop := In (g, v) p.

(** [mentions a g v]: the constructor argument a gives the value v to the group g *)
Definition mentions (a : parg) (g : relation) (v : prop) : Prop :=
  match a with
  | ANone => False
  | AProp p => rel_of p = g /\ p = v
  | AProps d => holds d g v
  end.

(** the default of a group: its first record; nothing for WORD_TYPE *)
Definition default_of (g : relation) : option prop :=
  match g with R_WORD_TYPE => None | _ => hd_error (records g) end.

(** two objects specify the same values for the same groups *)
Definition same_props (p q : props) : Prop := forall g v, holds p g v <-> holds q g v.

(** Word and WordForm objects *)
Definition is_word (w : word) : Prop :=
  is_properties (w_props w) /\ Word (w_type w) (w_forms w) (w_props w) = Ok w.
Definition is_wordform (f : wordform) : Prop :=
  exists w p fp, is_word w /\
    (forall q, p = Some q -> is_properties q) /\ (forall q, fp = Some q -> is_properties q) /\
    f = WordForm w p fp.

(** the value at a group g taken from a list of property sets: that of the first set in the list that specifies g, else the default *)
Inductive value_from : list props -> relation -> option prop -> Prop :=
  | vf_default g : value_from [] g (default_of g)
  | vf_here p ps g v : holds p g v -> value_from (p :: ps) g (Some v)
  | vf_next p ps g o : (forall v, ~ holds p g v) -> value_from ps g o -> value_from (p :: ps) g o.

(** ** integers as texts *)
Definition is_digit (c : char) : Prop := (48 <= c <= 57)%N.
Definition digits_value (ds : str) : Z := fold_left (fun acc c => (acc * 10 + (Z.of_N c - 48))%Z) ds 0%Z.
(** [literal s z]: the text s (an optional sign and at least one decimal digit) denotes the integer z *)
Inductive literal : str -> Z -> Prop :=
  | lit_plain ds : ds <> [] -> Forall is_digit ds -> literal ds (digits_value ds)
  | lit_plus ds : ds <> [] -> Forall is_digit ds -> literal (43%N :: ds) (digits_value ds)
  | lit_minus ds : ds <> [] -> Forall is_digit ds -> literal (45%N :: ds) (- digits_value ds).

(** what Python's int() reads: blanks around, an optional sign, decimal digits of any script with single underscores
    between two of them.  The tables are Unicode's (version 14): White_Space without the separators 28..31, and the zeros
    of the scripts with decimal digits *)
Definition blank (c : char) : Prop :=
  (9 <= c <= 13 \/ c = 32 \/ c = 133 \/ c = 160 \/ c = 5760 \/ 8192 <= c <= 8202 \/ c = 8232 \/ c = 8233 \/ c = 8239 \/
   c = 8287 \/ c = 12288)%N.
Definition zeros : list char :=
  [
   48; 1632; 1776; 1984; 2406; 2534; 2662; 2790; 2918; 3046; 3174; 3302; 3430; 3558; 3664; 3792; 3872; 4160;
   4240; 6112; 6160; 6470; 6608; 6784; 6800; 6992; 7088; 7232; 7248; 42528; 43216; 43264; 43472; 43504; 43600;
   44016; 65296; 66720; 68912; 69734; 69872; 69942; 70096; 70384; 70736; 70864; 71248; 71360; 71472; 71904;
   72016; 72784; 73040; 73120; 92768; 92864; 93008; 120782; 120792; 120802; 120812; 120822; 123200; 123632;
   125264; 130032
  ]%N.
Definition decimal (c : char) (d : Z) : Prop := exists z, In z zeros /\ (0 <= d <= 9)%Z /\ Z.of_N c = (Z.of_N z + d)%Z.
(** [spells s ds]: s spells the digits ds *)
Inductive spells : str -> list Z -> Prop :=
  | spells_last c d : decimal c d -> spells [c] [d]
  | spells_next c d s ds : decimal c d -> spells s ds -> spells (c :: s) (d :: ds)
  | spells_underscore c d s ds : decimal c d -> spells s ds -> spells (c :: 95%N :: s) (d :: ds).
Definition number_of (ds : list Z) : Z := fold_left (fun acc d => (acc * 10 + d)%Z) ds 0%Z.
Inductive int_text : str -> Z -> Prop :=
  | int_text_intro before sign s ds after z : Forall blank before -> Forall blank after -> spells s ds ->
      (sign = [] /\ z = number_of ds \/ sign = [43%N] /\ z = number_of ds \/ sign = [45%N] /\ z = (- number_of ds)%Z) ->
      int_text (before ++ sign ++ s ++ after) z.

(** ** serialized dicts *)
(** the integer a key stands for *)
Definition key_number (k : jkey) (z : Z) : Prop :=
  match k with JInt y => y = z | JStr s => int_text s z end.
Definition integer_key (k : jkey) : Prop := exists z, key_number k z.
(** what a key can become on its way through JSON: itself, or the decimal text of the integer *)
Definition json_key (a b : jkey) : Prop := b = a \/ exists z, a = JInt z /\ b = JStr (str_of_Z z).
(** [json_trip d d']: d' has the entries of d in some order, keys possibly turned into strings *)
Definition json_trip (d d' : dict jkey Z) : Prop :=
  exists d1, Permutation d d1 /\ Forall2 (fun e e' => json_key (fst e) (fst e') /\ snd e = snd e') d1 d'.
(** the entry (k, v) stands for the record p of the library: k is the number of a group, v of its record p *)
Definition known_entry (k : jkey) (v : Z) (p : prop) : Prop :=
  exists z r, key_number k z /\ In (z, r) property_types /\ In p (records r) /\ value_of p = v.

(** ** text identifiers *)
(** Russian lower-case letters and digits *)
Definition id_char (c : char) : bool :=
  ((N.leb 1072 c && N.leb c 1103) || N.eqb c 1105 || (N.leb 48 c && N.leb c 57))%bool.
(** the characters that delimit identifiers in a template: , | [ ] % and blanks *)
Definition delimiter (U : unicode) (c : char) : Prop := In c (u ",|[]%") \/ u_isspace U c = true.
(** what is assumed of the Unicode tables of the Python runtime: lower-casing leaves texts made of Russian
    lower-case letters, digits and commas alone, and none of these is a blank *)
Definition unicode_ok (U : unicode) : Prop :=
  (forall s, Forall (fun c => id_char c = true \/ c = 44%N) s -> u_lower U s = s) /\
  (forall c, id_char c = true \/ c = 44%N -> u_isspace U c = false).
