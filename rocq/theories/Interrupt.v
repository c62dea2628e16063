(** * Interrupt: calls that are interrupted between two steps.

    Model file: definitions only.  An asynchronous exception (KeyboardInterrupt, a timeout raised from a signal handler) ends a call between any two of its
    accesses to its object; the object is left as it is at that point.  The steps of the calls are those of the threads (Concurrent.v,
    TemplateThreads.v, Constructors.v, Lazy.v); no other thread runs. *)
From Verif Require Import PyBase Relations Logic Data Words Constructors Dictionary Lexicon Templates Lazy Concurrent TemplateThreads.

(** the first n steps of a call that runs alone *)
Definition moved {S P} (step : S -> P -> S * P) (n : nat) (s : S) (pc : P) : S * P :=
  Nat.iter n (fun st => step (fst st) (snd st)) (s, pc).

(** ** the loop of Dictionary.__init__, utg/dictionary.py:12-13 (or the same loop in the caller): add_word for each word *)
Record ld_pc := { ld_call : aw_pc; ld_rest : list word }.
Definition ld_start (ws : list word) : ld_pc := {| ld_call := AW_done (Ok tt); ld_rest := ws |}.
Definition ld_step (U : unicode) (d : dictionary) (pc : ld_pc) : dictionary * ld_pc :=
  match ld_call pc, ld_rest pc with
  | AW_done (Ok tt), w :: rest => (d, {| ld_call := aw_start w; ld_rest := rest |})
  | call, rest => let (d', call') := aw_step U d call in (d', {| ld_call := call'; ld_rest := rest |})
  end.
Definition interrupted_load (U : unicode) (ws : list word) (d : dictionary) (n : nat) : dictionary := fst (moved (ld_step U) n d (ld_start ws)).

(** ** Lexicon.add_template, utg/lexicon.py:13-17 *)
Definition interrupted_add {K T R} (keqb : K -> K -> bool) (l : lexicon K T R) (c : lx_call K T R) (n : nat) : lexicon K T R :=
  lx_view (fst (moved (at_step keqb) n (lx_of l) (AT_test c))).

(** ** Template.parse, utg/templates.py:157-167 *)
Definition interrupted_parse (U : unicode) (t : template) (text : str) (ext : externals) (n : nat) : template :=
  fst (moved (tt_step U) n t (tt_start (CParse text ext))).

(** ** Word.autofill_missed_forms, utg/words.py:190-206: n iterations of the loop have been made; each writes at most one form *)
Definition interrupted_autofill (w : word) (n : nat) : result word :=
  avail <- available_keys (w_type w) (w_forms w) ;;
  forms <- foldM (autofill_step (w_type w) avail) (firstn n (seq 0 (length (w_forms w)))) (w_forms w) ;;
  Ok {| w_type := w_type w; w_forms := forms; w_props := w_props w |}.

(** ** construct_integer, utg/constructors.py:47-56: the global it leaves *)
Definition interrupted_integer (c : integer_cache) (number : Z) (n : nat) : integer_cache := fst (moved ci_step n c (CI_start number)).

(** ** the getter and the deleter of a lazy property, utg/utils.py:10-17: the attribute they leave *)
Definition interrupted_get {O V} (func : O -> result V) (o : O) (attr : option V) (n : nat) : option V := fst (moved (lz_step func o) n attr G_hasattr).
Definition interrupted_del {O V} (func : O -> result V) (o : O) (attr : option V) (n : nat) : option V := fst (moved (lz_step func o) n attr D_hasattr).
