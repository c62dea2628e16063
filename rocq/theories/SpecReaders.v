(** * SpecReaders: vocabulary for the statements about readers that run while words are added *)
From Verif Require Import PyBase Words Dictionary Templates Concurrent Readers SpecDictionary SpecConcurrent.

(** the calls a reading thread can make: t.substitute(ext, d), t.get_undictionaried_words(ext, d), d.get_words() *)
Inductive reader := Substitute (t : template) (ext : externals) | Undictionaried (t : template) (ext : externals) | Words.
Definition reader_start (r : reader) : rd_pc :=
  match r with Substitute t ext => RD_substitute t ext [] (t_subs t) | Undictionaried t ext => RD_missing ext [] (t_subs t) | Words => RD_values end.
(** the dictionary and the threads after a schedule of concurrent calls: threads 0, 1, ... add the words of ws, the following
    ones are readers *)
Definition reading (U : unicode) (d : dictionary) (ws : list word) (readers : list reader) (schedule : list nat) : dictionary * list (aw_pc + rd_pc) :=
  mx_run U (d, map (fun w => inl (aw_start w)) ws ++ map (fun r => inr (reader_start r)) readers) schedule.
(** reader j has got as far as pc (its answer, if it has returned) *)
Definition answered (U : unicode) d ws readers schedule (j : nat) (pc : rd_pc) : Prop :=
  nth_error (snd (reading U d ws readers schedule)) (length ws + j) = Some (inr pc).
(** a moment of the run, and the dictionary at it *)
Definition moment (U : unicode) d ws readers (schedule : list nat) (D : dictionary) : Prop :=
  exists s1 s2, schedule = s1 ++ s2 /\ D = fst (reading U d ws readers s1).
