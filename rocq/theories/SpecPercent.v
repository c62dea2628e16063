(** * SpecPercent: the text that a format string and a tuple of texts stand for (printf-style formatting of Python) *)
From Verif Require Import PyBase.

(** ** the form of a directive: %, flags, width, precision, size, conversion *)
Definition a_flag (c : char) : Prop := In c (u "-+ #0").
Definition a_digit (c : char) : Prop := (48 <= c <= 57)%N.
(** the number that decimal digits denote *)
Inductive denotes : str -> N -> Prop :=
  | den_nil : denotes [] 0
  | den_more ds n c : denotes ds n -> a_digit c -> denotes (ds ++ [c]) (10 * n + (c - 48)).
(** a width: nothing (it is 0 then), or digits of which the first is no zero; below 2^63 *)
Inductive a_width : str -> N -> Prop :=
  | aw_none : a_width [] 0
  | aw_digits c ds n : c <> 48%N -> denotes (c :: ds) n -> (n < 2 ^ 63)%N -> a_width (c :: ds) n.
(** a precision: nothing, or a point and digits; below 2^31 *)
Inductive a_precision : str -> option N -> Prop :=
  | ap_none : a_precision [] None
  | ap_point ds n : denotes ds n -> (n < 2 ^ 31)%N -> a_precision (46%N :: ds) (Some n).
Inductive a_size : str -> Prop :=
  | as_none : a_size []
  | as_one c : In c (u "hlL") -> a_size [c].

(** [asks left width precision mid]: what stands between % and the conversion asks for this side, width, precision *)
Inductive asks (left : bool) (width : N) (precision : option N) : str -> Prop :=
  | asks_for flags w p s : Forall a_flag flags -> (left = true <-> In 45%N flags) ->
      a_width w width -> a_precision p precision -> a_size s -> asks left width precision (flags ++ w ++ p ++ s).

(** ** what is printed for an argument *)
Inductive field (left : bool) (width : N) : str -> str -> Prop :=
  | in_field blanks t : Forall (fun c => c = 32%N) blanks -> N.of_nat (length blanks) = (width - N.of_nat (length t))%N ->
      field left width t (if left then t ++ blanks else blanks ++ t).
Inductive cut_to : option N -> str -> str -> Prop :=
  | no_cut t : cut_to None t t
  | cut_short n a b : N.of_nat (length a) = n -> cut_to (Some n) (a ++ b) a
  | cut_long n t : (N.of_nat (length t) < n)%N -> cut_to (Some n) t t.

(** ** texts of Python literals: [reads q body s]: between the quotes [q], [body] stands for the text [s] *)
Definition a_hex_digit (c : char) (n : N) : Prop := (a_digit c /\ n = (c - 48)%N) \/ ((97 <= c <= 102)%N /\ n = (c - 87)%N).
Inductive hex_denotes : str -> N -> Prop :=
  | hex_nil : hex_denotes [] 0
  | hex_more ds n c k : hex_denotes ds n -> a_hex_digit c k -> hex_denotes (ds ++ [c]) (16 * n + k).
(** how a Python literal is written that shows the [readable] characters as they are: [reads readable q body s]: between
    the quotes [q], [body] is written for the text [s]; characters that are not readable are given by their numbers, with as few
    hexadecimal digits as possible *)
Definition by_number (readable : char -> Prop) (q c : char) : Prop := ~ readable c /\ ~ In c [q; 92; 9; 10; 13]%N.
Inductive reads (readable : char -> Prop) (q : char) : str -> str -> Prop :=
  | reads_end : reads readable q [] []
  | reads_itself c body s : readable c -> ~ In c [q; 92; 9; 10; 13]%N -> reads readable q body s -> reads readable q (c :: body) (c :: s)
  | reads_quote body s : reads readable q body s -> reads readable q (92%N :: q :: body) (q :: s)
  | reads_backslash body s : reads readable q body s -> reads readable q (92%N :: 92%N :: body) (92%N :: s)
  | reads_tab body s : reads readable q body s -> reads readable q (u "\t" ++ body) (9%N :: s)
  | reads_newline body s : reads readable q body s -> reads readable q (u "\n" ++ body) (10%N :: s)
  | reads_return body s : reads readable q body s -> reads readable q (u "\r" ++ body) (13%N :: s)
  | reads_x ds c body s : by_number readable q c -> (c < 2 ^ 8)%N -> length ds = 2 -> hex_denotes ds c ->
      reads readable q body s -> reads readable q (u "\x" ++ ds ++ body) (c :: s)
  | reads_u ds c body s : by_number readable q c -> (2 ^ 8 <= c < 2 ^ 16)%N -> length ds = 4 -> hex_denotes ds c ->
      reads readable q body s -> reads readable q (u "\u" ++ ds ++ body) (c :: s)
  | reads_U ds c body s : by_number readable q c -> (2 ^ 16 <= c)%N -> length ds = 8 -> hex_denotes ds c ->
      reads readable q body s -> reads readable q (u "\U" ++ ds ++ body) (c :: s).
(** single quotes, unless the text holds single quotes and no double ones *)
Definition quoted (s : str) (q : char) : Prop := (q = 34%N /\ In 39%N s /\ ~ In 34%N s) \/ (q = 39%N /\ (In 39%N s -> In 34%N s)).

Section Printed.
  (** the texts of repr(x) and ascii(x) *)
  Variables repr ascii : str -> str.

  (** [shown conversion precision argument text] *)
  Inductive shown : char -> option N -> str -> str -> Prop :=
    | shown_s p a t : cut_to p a t -> shown 115%N p a t
    | shown_r p a t : cut_to p (repr a) t -> shown 114%N p a t
    | shown_a p a t : cut_to p (ascii a) t -> shown 97%N p a t
    | shown_c p c : shown 99%N p [c] [c].

  (** [printed format arguments text] *)
  Inductive printed : str -> list str -> str -> Prop :=
    | printed_end : printed [] [] []
    | printed_char c format args text : c <> 37%N -> printed format args text -> printed (c :: format) args (c :: text)
    | printed_percent format args text : printed format args text -> printed (37%N :: 37%N :: format) args (37%N :: text)
    | printed_argument left width precision mid conversion a shown_text in_field format args text :
        asks left width precision mid -> shown conversion precision a shown_text -> field left width shown_text in_field ->
        printed format args text ->
        printed (37%N :: mid ++ conversion :: format) (a :: args) (in_field ++ text).
End Printed.
