(** * Percent: the [%] operator on a format string and a tuple of strings (CPython 3.11, Objects/unicodeobject.c,
    unicode_format_arg_parse, unicode_format_arg_format, unicode_format_arg_output).  Used by Template.substitute,
    utg/templates.py:172.

    Model file: definitions only.  Simplified: memory is unlimited (a directive with an astronomic width gives a text
    here, a MemoryError in a real interpreter). *)
From Verif Require Import PyBase Printable.

(** ** repr and ascii of a str (unicode_repr) *)
Definition hex_digit (n : N) : char := if N.ltb n 10 then (48 + n)%N else (87 + n)%N.
(** the last [k] hexadecimal digits of [n] *)
Fixpoint hex (k : nat) (n : N) : str :=
  match k with
  | 0 => []
  | S k' => hex k' (N.shiftr n 4) ++ [hex_digit (N.land n 15)]
  end.
Definition escaped (c : char) : str :=
  if N.leb c 255 then [92; 120]%N ++ hex 2 c
  else if N.leb c 65535 then [92; 117]%N ++ hex 4 c
  else [92; 85]%N ++ hex 8 c.
Definition repr_char (quote c : char) : str :=
  if N.eqb c quote || N.eqb c 92 then [92; c]%N
  else if N.eqb c 9 then [92; 116]%N
  else if N.eqb c 10 then [92; 110]%N
  else if N.eqb c 13 then [92; 114]%N
  else if printable c then [c] else escaped c.
Definition py_repr (s : str) : str :=
  let quote := if mem N.eqb 39%N s && negb (mem N.eqb 34%N s) then 34%N else 39%N in
  quote :: flat_map (repr_char quote) s ++ [quote].
Definition py_ascii (s : str) : str := flat_map (fun c => if N.ltb c 128 then [c] else escaped c) (py_repr s).

(** ** one directive *)
Record directive := { d_left : bool; d_width : N; d_prec : option N }.
Definition plain_directive : directive := {| d_left := false; d_width := 0; d_prec := None |}.

(** what was read last: the percent sign, a flag, a digit of the width, the point, a digit of the precision, a size *)
Inductive dstate := D_start | D_flags | D_width | D_dot | D_prec | D_size.
Inductive daction :=
  | D_more (st : dstate) (d : directive)  (** the directive goes on *)
  | D_stop (e : exn)
  | D_convert.                            (** the character is the conversion *)

Definition is_dec (c : char) : bool := N.leb 48 c && N.leb c 57.
Definition is_flag (c : char) : bool := mem N.eqb c [45; 43; 32; 35; 48]%N.
Definition is_size (c : char) : bool := mem N.eqb c [104; 108; 76]%N.
(** PY_SSIZE_T_MAX on a 64-bit machine, INT_MAX *)
Definition MAX_WIDTH : N := 9223372036854775807.
Definition MAX_PREC : N := 2147483647.

Definition directive_step (st : dstate) (d : directive) (c : char) : daction :=
  let before_width := match st with D_start | D_flags => true | _ => false end in
  let in_width := match st with D_start | D_flags | D_width => true | _ => false end in
  let in_prec := match st with D_dot | D_prec => true | _ => false end in
  if match st with D_start => N.eqb c 40 | _ => false end then D_stop TypeError  (* "format requires a mapping" *)
  else if before_width && is_flag c then
    D_more D_flags {| d_left := d_left d || N.eqb c 45; d_width := d_width d; d_prec := d_prec d |}
  else if match st with D_start | D_flags | D_dot => N.eqb c 42 | _ => false end then D_stop TypeError (* "* wants int" *)
  else if in_width && is_dec c then
    let n := (10 * d_width d + (c - 48))%N in
    if N.leb n MAX_WIDTH then D_more D_width {| d_left := d_left d; d_width := n; d_prec := d_prec d |}
    else D_stop ValueError
  else if in_width && N.eqb c 46 then
    D_more D_dot {| d_left := d_left d; d_width := d_width d; d_prec := Some 0%N |}
  else if in_prec && is_dec c then
    let n := (10 * (match d_prec d with Some p => p | None => 0 end) + (c - 48))%N in
    if N.leb n MAX_PREC then D_more D_prec {| d_left := d_left d; d_width := d_width d; d_prec := Some n |}
    else D_stop ValueError
  else if match st with D_size => false | _ => is_size c end then D_more D_size d
  else D_convert.

(** the text of an argument, cut to the precision (not with %c) and filled with blanks up to the width *)
Definition fit (d : directive) (c : char) (t : str) : str :=
  let t' := match d_prec d with Some p => if N.eqb c 99 then t else firstn (N.to_nat p) t | None => t end in
  let blanks := repeat 32%N (N.to_nat (d_width d) - length t') in
  if d_left d then t' ++ blanks else blanks ++ t'.

(** the conversion of an argument that is a str: numbers can not be made of it *)
Definition convert_arg (c : char) (a : str) : result str :=
  if N.eqb c 115 then Ok a
  else if N.eqb c 114 then Ok (py_repr a)
  else if N.eqb c 97 then Ok (py_ascii a)
  else if N.eqb c 99 then (if Nat.eqb (length a) 1 then Ok a else Err TypeError)
  else if mem N.eqb c (u "diouxXeEfFgG") then Err TypeError
  else Err ValueError.

Definition convert (d : directive) (c : char) (args : list str) : result (str * list str) :=
  match args with
  | [] => Err TypeError
  | a :: args' => t <- convert_arg c a ;; Ok (fit d c t, args')
  end.

(** ** the operator.  "%%" is special (no flags are allowed in between); "%s" is answered at once, as [py_directive]
    would answer it (PropPercent.v, [fast_path]). *)
Fixpoint py_format (fmt : str) (args : list str) {struct fmt} : result str :=
  match fmt with
  | [] => match args with [] => Ok [] | _ :: _ => Err TypeError end
  | c :: fmt' =>
      if N.eqb c 37 then
        match fmt' with
        | d :: fmt'' =>
            if N.eqb d 37 then (r <- py_format fmt'' args ;; Ok (37%N :: r))
            else if N.eqb d 115 then
              match args with
              | [] => Err TypeError
              | a :: args' => r <- py_format fmt'' args' ;; Ok (a ++ r)
              end
            else py_directive D_start plain_directive fmt' args
        | [] => Err ValueError
        end
      else (r <- py_format fmt' args ;; Ok (c :: r))
  end
with py_directive (st : dstate) (d : directive) (fmt : str) (args : list str) {struct fmt} : result str :=
  match fmt with
  | [] => Err ValueError
  | c :: fmt' =>
      match directive_step st d c with
      | D_more st' d' => py_directive st' d' fmt' args
      | D_stop e => Err e
      | D_convert => x <- convert d c args ;; r <- py_format fmt' (snd x) ;; Ok (fst x ++ r)
      end
  end.
