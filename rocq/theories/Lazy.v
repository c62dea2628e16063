(** * Lazy: utg/utils.py (lazy_property), one lazy attribute of one object.
    [O] is the object's ordinary state, [V] the type of the property, [func] the decorated function. *)
From Verif Require Import PyBase Words.

Section Lazy.
  Context {O V : Type} (func : O -> result V).

  (** the object: its state, the attribute _lazy__X if present, and a ghost counter of calls of [func] *)
  Record lazy_obj := { lo_state : O; lo_attr : option V; lo_calls : nat }.
  Definition new_obj (o : O) : lazy_obj := {| lo_state := o; lo_attr := None; lo_calls := 0 |}.

  (** getter, utg/utils.py:10-13 *)
  Definition lazy_get (x : lazy_obj) : lazy_obj * result V :=
    match lo_attr x with
    | Some v => (x, Ok v)
    | None =>
        match func (lo_state x) with
        | Err e => ({| lo_state := lo_state x; lo_attr := None; lo_calls := S (lo_calls x) |}, Err e)
        | Ok v => ({| lo_state := lo_state x; lo_attr := Some v; lo_calls := S (lo_calls x) |}, Ok v)
        end
    end.

  (** deleter, utg/utils.py:15-17 *)
  Definition lazy_del (x : lazy_obj) : lazy_obj :=
    {| lo_state := lo_state x; lo_attr := None; lo_calls := lo_calls x |}.

  (** any other code that changes the object (e.g. [word.forms[i] = ...], autofill_missed_forms): it does not
      touch the attribute *)
  Definition lazy_mutate (f : O -> O) (x : lazy_obj) : lazy_obj :=
    {| lo_state := f (lo_state x); lo_attr := lo_attr x; lo_calls := lo_calls x |}.

  Inductive lazy_op := LGet | LDel | LMutate (f : O -> O).
  Definition lazy_step (x : lazy_obj) (op : lazy_op) : lazy_obj * option (result V) :=
    match op with
    | LGet => let (x', r) := lazy_get x in (x', Some r)
    | LDel => (lazy_del x, None)
    | LMutate f => (lazy_mutate f x, None)
    end.
  (** run a history; the list of the results of its reads *)
  Fixpoint lazy_run (x : lazy_obj) (ops : list lazy_op) : lazy_obj * list (result V) :=
    match ops with
    | [] => (x, [])
    | op :: ops' =>
        let (x', r) := lazy_step x op in
        let (x'', rs) := lazy_run x' ops' in
        (x'', match r with Some v => v :: rs | None => rs end)
    end.

  (** ** The same code as threads: one atomic step per hasattr / setattr / getattr / delattr.
      The object's state does not change in this part; the shared state is the attribute. *)
  Inductive lz_pc :=
    | G_hasattr                    (* line 11 *)
    | G_compute                    (* line 12: func(self) *)
    | G_setattr (v : V)            (* line 12 *)
    | G_getattr                    (* line 13 *)
    | G_done (r : result V)
    | D_hasattr                    (* line 16 *)
    | D_delattr                    (* line 17 *)
    | D_done (r : result unit).

  Definition lz_step (o : O) (attr : option V) (pc : lz_pc) : option V * lz_pc :=
    match pc with
    | G_hasattr => (attr, match attr with None => G_compute | Some _ => G_getattr end)
    | G_compute => (attr, match func o with Ok v => G_setattr v | Err e => G_done (Err e) end)
    | G_setattr v => (Some v, G_getattr)
    | G_getattr => (attr, G_done (match attr with Some v => Ok v | None => Err AttributeError end))
    | G_done r => (attr, G_done r)
    | D_hasattr => (attr, match attr with None => D_done (Ok tt) | Some _ => D_delattr end)
    | D_delattr => match attr with
                   | Some _ => (None, D_done (Ok tt))
                   | None => (attr, D_done (Err AttributeError))
                   end
    | D_done r => (attr, D_done r)
    end.
  Definition lz_step_at (o : O) (st : option V * list lz_pc) (i : nat) : option V * list lz_pc :=
    match nth_error (snd st) i with
    | None => st
    | Some pc => let (attr', pc') := lz_step o (fst st) pc in (attr', list_set i pc' (snd st))
    end.
  Definition lz_run (o : O) (st : option V * list lz_pc) (schedule : list nat) : option V * list lz_pc :=
    fold_left (lz_step_at o) schedule st.
End Lazy.
Arguments lazy_obj : clear implicits.
Arguments lazy_op : clear implicits.
Arguments lz_pc : clear implicits.
