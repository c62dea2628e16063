(** * Text: Properties.__str__, utg/words.py:59-60, in Python 3.  Model file: definitions only. *)
From Verif Require Import PyBase Relations Words.

(** the two kinds of text values: str and bytes *)
Inductive pytext := PyStr (s : str) | PyBytes (b : list N).

(** [.encode('utf-8')].  (Surrogates, which it refuses, do not occur: the argument is a list of identifiers.) *)
Definition utf8_encode_char (c : char) : list N :=
  (if N.ltb c 128 then [c]
   else if N.ltb c 2048 then [192 + c / 64; 128 + c mod 64]
   else if N.ltb c 65536 then [224 + c / 4096; 128 + (c / 64) mod 64; 128 + c mod 64]
   else [240 + c / 262144; 128 + (c / 4096) mod 64; 128 + (c / 64) mod 64; 128 + c mod 64])%N.
Definition utf8_encode (s : str) : list N := flat_map utf8_encode_char s.

(** Properties.__str__, utg/words.py:59-60 *)
Definition props_dunder_str (p : props) : pytext := PyBytes (utf8_encode (props_unicode p)).

(** the builtin str(x), '%s' % x, print(x): what __str__ returns has to be a str *)
Definition builtin_str (returned : pytext) : result str :=
  match returned with PyStr s => Ok s | PyBytes _ => Err TypeError end.
