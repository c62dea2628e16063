(** * Migrations: utg/migrations/m_0001 ... m_0009 (functions; the tables are in MigrationTables.v) *)
From Verif Require Import PyBase Relations Restrictions Logic Data Words MigrationTables.

(** Serialized word data: the dict keys the migrations use.  [md_patches] is word_data['patches'] (None: the
    key is absent), each patch reduced to its 'forms'. *)
Record mdata := {
  md_type : Z;
  md_forms : list str;
  md_props : dict str Z;
  md_patches : option (dict Z (list str))
}.
Definition set_forms (d : mdata) (forms : list str) : mdata :=
  {| md_type := md_type d; md_forms := forms; md_props := md_props d; md_patches := md_patches d |}.

(** migrate_forms, the same in m_0001:18-25 and m_0007/8/9:12-21;
    [nearest] is the module's get_nearest_old_index applied to the old cache. *)
Definition migrate_step (nearest : key -> result nat) (old_forms : list str) (new_forms : list str)
    (kv : key * nat) : result (list str) :=
  j <- nearest (fst kv) ;;
  f <- py_nth old_forms j ;;
  if Nat.ltb (snd kv) (length new_forms) then Ok (list_set (snd kv) f new_forms) else Err IndexError.
Definition migrate_forms (nearest : key -> result nat) (new_cache : dict key nat) (d : mdata) : result mdata :=
  forms <- foldM (migrate_step nearest (md_forms d)) new_cache (repeat [] (length new_cache)) ;;
  Ok (set_forms d forms).

(** get_nearest_old_index of m_0007/8/9:24-26 *)
Definition nearest_old_index (old_cache : dict key nat) (new_key : key) : result nat :=
  match get_nearest_key new_key (dkeys old_cache) with
  | None => Err KeyError
  | Some k => match dget key_eqb k old_cache with
              | Some i => Ok i
              | None => Err KeyError
              end
  end.

(** get_nearest_old_index of m_0001:28-42 ([old_forms[None]] is a TypeError) *)
Fixpoint count_equal (a b : key) : nat :=
  match a, b with
  | x :: a', y :: b' => (if opt_eqb prop_eqb x y then 1 else 0) + count_equal a' b'
  | _, _ => 0
  end.
Definition m1_nearest_step (new_key : key) (best : option nat * Z) (kv : key * nat) : option nat * Z :=
  let c := Z.of_nat (count_equal (fst kv) new_key) in
  if Z.gtb c (snd best) then (Some (snd kv), c) else best.
Definition m1_nearest_old_index (old_cache : dict key nat) (new_key : key) : result nat :=
  match fst (fold_left (m1_nearest_step (tl new_key)) old_cache (None, (-1)%Z)) with
  | None => Err TypeError
  | Some i => Ok i
  end.

(** m_0001.migrate, utg/migrations/m_0001_include_short_forms_in_full.py:7-15 *)
Definition m1_migrate (d : mdata) : result mdata :=
  d1 <- (if Z.eqb (md_type d) 1
         then migrate_forms (m1_nearest_old_index m1_OLD_ADJECTIVE_CACHE) (WORDS_CACHES WT_ADJECTIVE) d
         else Ok d) ;;
  if Z.eqb (md_type d1) 4
  then migrate_forms (m1_nearest_old_index m1_OLD_PARTICIPLE_CACHE) (WORDS_CACHES WT_PARTICIPLE) d1
  else Ok d1.

(** m_0002.migrate, utg/migrations/m_0002_countable_noun_form.py:4-15 *)
Definition m2_migrate (d : mdata) : result mdata :=
  if negb (Z.eqb (md_type d) 0) then Ok d
  else match md_patches d with
       | None => Err KeyError
       | Some [] => Ok (set_forms d (md_forms d ++ skipn 6 (md_forms d)))
       | Some patches => match dget Z.eqb 7%Z patches with
                         | None => Err KeyError
                         | Some fs => Ok (set_forms d (md_forms d ++ fs))
                         end
       end.

(** Importing a migration module evaluates the attributes in its table literals; an unknown record name is
    an AttributeError.  (m_0003 and m_0006 can not be imported because of that - a theorem -, so their
    [migrate] functions are not modelled.) *)
Definition attribute (rn : relation * str) : result unit :=
  if mem str_eqb (snd rn) (record_names (fst rn)) then Ok tt else Err AttributeError.
Definition import_module (attributes : list (relation * str)) : result unit :=
  _ <- mapM attribute attributes ;; Ok tt.

(** m_0004.migrate, utg/migrations/m_0004_new_preposition_form.py:3-10 *)
Definition m4_migrate (d : mdata) : result mdata :=
  if negb (Z.eqb (md_type d) 10) then Ok d
  else match rev (md_forms d) with
       | [] => Err IndexError
       | f :: _ => Ok (set_forms d (md_forms d ++ [f]))
       end.

(** m_0005.migrate, utg/migrations/m_0005_remove_time_participle_property.py:4-12 *)
Definition m5_migrate (d : mdata) : result mdata :=
  if negb (Z.eqb (md_type d) 4) then Ok d
  else if dmem str_eqb (u "5") (md_props d)
       then Ok {| md_type := md_type d; md_forms := md_forms d;
                  md_props := ddel str_eqb (u "5") (md_props d); md_patches := md_patches d |}
       else Ok d.

(** m_0007.migrate, m_0008.migrate, m_0009.migrate: lines 7-9 of each file *)
Definition m7_migrate (d : mdata) : result mdata :=
  match wt_call (md_type d) with
  | None => Err NotExternalValueError
  | Some t => migrate_forms (nearest_old_index (m7_OLD_CACHES t)) (m7_NEW_CACHES t) d
  end.
Definition m8_migrate (d : mdata) : result mdata :=
  match wt_call (md_type d) with
  | None => Err NotExternalValueError
  | Some t => migrate_forms (nearest_old_index (m8_OLD_CACHES t)) (m8_NEW_CACHES t) d
  end.
Definition m9_migrate (d : mdata) : result mdata :=
  match wt_call (md_type d) with
  | None => Err NotExternalValueError
  | Some t => migrate_forms (nearest_old_index (m9_OLD_CACHES t)) (m9_NEW_CACHES t) d
  end.
